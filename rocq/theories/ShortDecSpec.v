(** The shortest decimal that converts to a float64. *)
From Coq Require Import List ZArith QArith Qabs Ascii.
From Verif Require Import Base CldrSpec NearSpec CldrFloatSpec.
Import ListNotations.
Open Scope Z_scope.

(** The decimals that convert to the float64 q; the shortest of them, nearest
    to q among those of its length. *)
Definition decimal (ds : bytes) : Prop := all_digits ds /\ exists d r, ds = d :: r /\ d <> "0"%char.
Definition converts (v q : Q) : Prop := (v < inject_Z (2 ^ 1024 - 2 ^ 970))%Q /\ nearest_float v q.
Definition shortest (ds : bytes) (point : Z) (q : Q) : Prop :=
  significant ds /\ converts (float_value ds point) q /\
  forall ds' point', decimal ds' -> converts (float_value ds' point') q -> (length ds <= length ds')%nat /\
    (length ds' = length ds -> (Qabs (float_value ds point - q) <= Qabs (float_value ds' point' - q))%Q).
