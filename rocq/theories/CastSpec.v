(** What the conversions of internal/cast are supposed to mean. *)
From Coq Require Import String Ascii List ZArith QArith Bool.
From Verif Require Import Base F64Model CalModel HumModel CastModel.
Import ListNotations.
Open Scope Z_scope.

(** The value at the end of a chain of pointers; a variable of interface type
    ends it. *)
Inductive reaches (heap : Z -> cell) : gval -> gval -> Prop :=
| re_value : forall v, (forall a, v <> GPtr (Some a)) -> reaches heap v v
| re_iface : forall a v, heap a = CIface v -> reaches heap (GPtr (Some a)) v
| re_step : forall a v w, heap a = CVal v -> reaches heap v w -> reaches heap (GPtr (Some a)) w.

(** Equal as numbers. *)
Inductive same_num : fnum -> fnum -> Prop :=
| sm_fin : forall p q, (p == q)%Q -> same_num (FFin p) (FFin q)
| sm_pos : same_num FPosInf FPosInf
| sm_neg : same_num FNegInf FNegInf
| sm_nan : same_num FNan FNan.

(** A decimal numeral: digits, and possibly a point and digits. *)
Definition numeral_text (neg : bool) (ip : bytes) (fp : option bytes) : bytes :=
  (if neg then bs "-" else []) ++ ip ++ match fp with Some f => "."%char :: f | None => [] end.
Definition frac_digits (fp : option bytes) : bytes := match fp with Some f => f | None => [] end.
Definition numeral_ok (ip : bytes) (fp : option bytes) : Prop :=
  ip <> [] /\ Forall (fun c => is_digit c = true) ip /\ Forall (fun c => is_digit c = true) (frac_digits fp).
(** Its value, exactly. *)
Definition numeral_value (neg : bool) (ip : bytes) (fp : option bytes) : Q :=
  let m := dec_val (ip ++ frac_digits fp) in
  ((if neg then - m else m) # Z.to_pos (10 ^ Z.of_nat (length (frac_digits fp)))).

(** Nanoseconds from one instant to another. *)
Definition nanos (from to : gotime) : Z :=
  (t_unix to - t_unix from) * 1000000000 + (t_nsec to - t_nsec from).
