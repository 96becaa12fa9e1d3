(** Floats as plural arguments: sign, significant decimal digits and the place
    of the decimal point (value 0.digits * 10^point). *)
From Coq Require Import List ZArith QArith Qabs Qround Ascii.
From Verif Require Import Base CldrSpec NearSpec.
Import ListNotations.
Open Scope Z_scope.

(** Digits that start and end with one other than zero; 17 are enough for
    every float64. *)
Definition significant (ds : bytes) : Prop :=
  all_digits ds /\ (length ds <= 17)%nat /\ (exists d r, ds = d :: r /\ d <> "0"%char) /\ exists r d, ds = r ++ [d] /\ d <> "0"%char.

Definition float_value (ds : bytes) (point : Z) : Q :=
  let x := point - Z.of_nat (length ds) in
  if 0 <=? x then inject_Z (dec_val ds * 10 ^ x) else Qmake (dec_val ds) (Z.to_pos (10 ^ (- x))).

(** The digits behind the decimal point: how many, and as a number. *)
Definition behind (ds : bytes) (point : Z) : Z := Z.max 0 (Z.of_nat (length ds) - point).
Definition fraction (ds : bytes) (point : Z) : Z := if behind ds point =? 0 then 0 else dec_val ds mod 10 ^ behind ds point.

(** From 0.0001 up to 999999.99... *)
Definition medium (point : Z) : Prop := -4 < point <= 6.

(** n is the float64 nearest to the value, i its integer part. *)
Definition float_near (neg : bool) (v n : Q) (i : Z) : Prop :=
  nearest_float v n /\
  i = if Qfloor n <=? maxInt64 then (if neg then - Qfloor n else Qfloor n) else minInt64.
