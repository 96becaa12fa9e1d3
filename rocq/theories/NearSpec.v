(** IEEE 754 binary64: the numbers that are not negative, and the one nearest
    to a rational, ties to an even significand. *)
From Coq Require Import ZArith QArith Qabs.
Open Scope Z_scope.

Definition float64 (q : Q) : Prop := exists m e,
  0 <= m < 2 ^ 53 /\ -1074 <= e <= 971 /\ (q == inject_Z m * Qpower 2 e)%Q.

(** The last bit of the significand is zero. *)
Definition even_float (q : Q) : Prop := exists m e,
  0 <= 2 * m < 2 ^ 53 /\ -1074 <= e <= 971 /\ (e = -1074 \/ 2 ^ 52 <= 2 * m) /\ (q == inject_Z (2 * m) * Qpower 2 e)%Q.

Definition nearest_float (v q : Q) : Prop :=
  float64 q /\
  (forall p, float64 p -> (Qabs (q - v) <= Qabs (p - v))%Q) /\
  (forall p, float64 p -> (Qabs (p - v) <= Qabs (q - v))%Q -> (p == q)%Q \/ even_float q).
