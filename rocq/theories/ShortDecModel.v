(** What fmt prints for a float64 with %v (standard library, strconv/ftoa.go;
    no file of /repo): the shortest decimal that converts back to it, of several
    the nearest, of two equally near ones the even one.  strconv finds it with
    another algorithm (Ryu); here the decimals next to the float are tried with
    1, 2, ... digits. *)
From Coq Require Import String Ascii List ZArith QArith Qabs Bool.
From Verif Require Import Base NumModel F64Model CldrModel HumModel.
Import ListNotations.
Open Scope Z_scope.

(** The float64 that the text of c * 10^x converts to. *)
Definition reads (c x : Z) : option Q :=
  if 0 <=? x then f64_round (c * 10 ^ x) 1 else f64_round c (10 ^ (- x)).
Definition reads_as (q : Q) (c x : Z) : bool :=
  match reads c x with Some p => Qeq_bool p q | None => false end.

(** q < 10^p *)
Definition below_power (q : Q) (p : Z) : bool :=
  if 0 <=? p then Qnum q <? 10 ^ p * Zpos (Qden q) else Qnum q * 10 ^ (- p) <? Zpos (Qden q).
(** The first p from the given one on with q < 10^p. *)
Fixpoint place_loop (q : Q) (p : Z) (n : nat) : Z :=
  match n with
  | O => p
  | S n' => if below_power q p then p else place_loop q (p + 1) n'
  end.
Definition place (q : Q) : Z := place_loop q (-323) 640.

(** The whole part of q / 10^x; twice the rest of q / 10^x, compared with one. *)
Definition quot10 (q : Q) (x : Z) : Z :=
  if 0 <=? x then Qnum q / (10 ^ x * Zpos (Qden q)) else Qnum q * 10 ^ (- x) / Zpos (Qden q).
Definition rest10 (q : Q) (x : Z) : comparison :=
  if 0 <=? x then 2 * (Qnum q mod (10 ^ x * Zpos (Qden q))) ?= 10 ^ x * Zpos (Qden q)
  else 2 * ((Qnum q * 10 ^ (- x)) mod Zpos (Qden q)) ?= Zpos (Qden q).

(** With k digits, then k+1, ...: c and x of the decimal c * 10^x. *)
Fixpoint shortest_from (q : Q) (p k : Z) (n : nat) : Z * Z :=
  let x := p - k in
  let lo := quot10 q x in
  let up := match rest10 q x with Gt => true | Eq => negb (Z.even lo) | Lt => false end in
  match n with
  | O => (if up then lo + 1 else lo, x)
  | S n' =>
      if reads_as q lo x then
        if reads_as q (lo + 1) x && up then (lo + 1, x) else (lo, x)
      else if reads_as q (lo + 1) x then (lo + 1, x)
      else shortest_from q p (k + 1) n'
  end.
Definition shortest_decimal (q : Q) : Z * Z := shortest_from q (place q) 1 16.

(** Digits and place of the point, as [fmt_v] takes them. *)
Definition float_digits (q : Q) : bytes := trim_zeros (utoa (fst (shortest_decimal (Qred q)))).
Definition float_point (q : Q) : Z := Z.of_nat (length (utoa (fst (shortest_decimal (Qred q))))) + snd (shortest_decimal (Qred q)).

(** A finite float64 as argument of Evaluate, by sign and magnitude. *)
Definition float_arg (neg : bool) (q : Q) : carg :=
  if Qnum q =? 0 then CFloat neg [] 0 else CFloat neg (float_digits q) (float_point q).

(** fmt.Sprintf("%v", x) for a float64; zero has no sign here. *)
Definition float_text (x : fnum) : bytes :=
  match x with
  | FFin q => if Qnum q =? 0 then bs "0" else fmt_v (Qnum q <? 0) (float_digits (Qabs q)) (float_point (Qabs q))
  | FPosInf => bs "+Inf"
  | FNegInf => bs "-Inf"
  | FNan => bs "NaN"
  end.
