(** float64 arithmetic on finite values, kept as exact rationals: every
    operation is the exact one followed by rounding to nearest even (IEEE 754;
    F64Model.f64_round).  The sign of zero is not represented.  Overflow is not
    modelled (the exact value is kept); the code below stays far from it. *)
From Coq Require Import String Ascii List ZArith QArith Qround Qabs Bool.
From Verif Require Import Base PopModel NumModel F64Model.
Import ListNotations.
Open Scope Z_scope.

(** The float64 nearest to a rational. *)
Definition frnd (q : Q) : Q :=
  match f64_round (Z.abs (Qnum q)) (Zpos (Qden q)) with
  | Some r => if Qnum q <? 0 then Qopp r else r
  | None => q
  end.

Definition fdiv (a b : Q) : Q := frnd (a / b)%Q.
Definition fmul (a b : Q) : Q := frnd (a * b)%Q.
Definition fadd (a b : Q) : Q := frnd (a + b)%Q.
Definition fsub (a b : Q) : Q := frnd (a - b)%Q.
(** float64(z) *)
Definition fint (z : Z) : Q := frnd (inject_Z z).
(** math.Floor and math.Ceil: exact. *)
Definition ffloor (a : Q) : Q := inject_Z (Qfloor a).
Definition fceil (a : Q) : Q := inject_Z (Qceiling a).
(** math.Round: half away from zero, exact. *)
Definition fround (a : Q) : Q :=
  if Qnum a <? 0 then inject_Z (- Qfloor (- a + (1 # 2))%Q)
  else inject_Z (Qfloor (a + (1 # 2))%Q).
(** int64(f): truncation; out of range as on amd64 (F64Model). *)
Definition qtrunc (a : Q) : Z :=
  if Qnum a <? 0 then - Qfloor (- a)%Q else Qfloor a.
Definition fto_int64 (a : Q) : Z := f64_to_int64 (qtrunc a).
