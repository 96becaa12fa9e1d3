(** Integers that fmt writes in full or as one digit with an exponent. *)
From Coq Require Import ZArith QArith.
From Verif Require Import NearSpec.
Open Scope Z_scope.

Definition short_number (z : Z) : Prop := Z.abs z < 1000000 \/ exists d m, 1 <= d <= 9 /\ 0 <= m /\ Z.abs z = d * 10 ^ m.

(** The float64 is the one nearest to a digit followed by zeros. *)
Definition one_digit (q : Q) : Prop := exists d m, 1 <= d <= 9 /\ 0 <= m /\ nearest_float (inject_Z (d * 10 ^ m)) q.
