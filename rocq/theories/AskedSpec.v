(** Which integer a plural rule of a header is asked about. *)
From Coq Require Import List ZArith QArith Qabs.
From Verif Require Import Base NumModel GettextModel CldrSpec CldrFloatSpec NearSpec.
Import ListNotations.
Open Scope Z_scope.

(** The argument is one its Go type can hold. *)
Definition holdable (n : number) : Prop :=
  match n with
  | NInt k z => kmin k <= z <= kmax k
  | NFloat _ ds point => all_digits ds /\ (float_value ds point < inject_Z (2 ^ 1024 - 2 ^ 970))%Q
  | NNil => False
  end.
Definition magnitude (n : number) : Q :=
  match n with
  | NInt _ z => inject_Z (Z.abs z)
  | NFloat _ ds point => float_value ds point
  | NNil => 0%Q
  end.

(** m is the integer nearest to v, an even one if there are two. *)
Definition nearest_even (v : Q) (m : Z) : Prop :=
  (2 * Qabs (v - inject_Z m) <= 1)%Q /\ ((2 * Qabs (v - inject_Z m) == 1)%Q -> Z.even m = true).

(** The absolute value as a float64, rounded to an integer; from 2^63 on it is
    the smallest int64. *)
Definition asked (n : number) (a : Z) : Prop :=
  exists f m, nearest_float (magnitude n) f /\ nearest_even f m /\ a = if m <? 2 ^ 63 then m else - 2 ^ 63.
