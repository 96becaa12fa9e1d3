(** Numbers in words: which unit fits a value. *)
From Coq Require Import String Ascii List ZArith QArith Qabs Bool.
From Verif Require Import Base.
Import ListNotations.
Open Scope Z_scope.

(** The units: the power of ten and the name. *)
Definition units : list (Z * bytes) :=
  [(6, bs "million"); (9, bs "billion"); (12, bs "trillion"); (15, bs "quadrillion"); (18, bs "quintillion");
   (21, bs "sextillion"); (24, bs "septillion"); (27, bs "octillion"); (30, bs "nonillion"); (33, bs "decillion");
   (100, bs "googol")].

Definition ten (e : Z) : Q := inject_Z (10 ^ e).

(** The multiple of 10^e is at least 1 and below 1000. *)
Definition fits (e : Z) (v : Q) : Prop := (ten e <= Qabs v)%Q /\ (Qabs v < ten (e + 3))%Q.

(** x is the multiple of 10^e which makes v, up to a relative error of 2^-50. *)
Definition multiple (e : Z) (v x : Q) : Prop :=
  (0 < x * v)%Q /\ (Qabs (x * ten e - v) <= Qabs v * (1 # 1125899906842624))%Q.
