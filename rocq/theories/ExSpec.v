(** What the examples of a plural case stand for, and the names of languages in
    the data of the gettext generator. *)
From Coq Require Import String Ascii List ZArith Bool.
From Verif Require Import Base GroupSpec.
Import ListNotations.
Open Scope Z_scope.

Definition figure (c : ascii) : Prop := 48 <= bval c <= 57.
Definition numeral (s : bytes) : Prop := s <> [] /\ Forall figure s.
(** A number, perhaps with a fraction. *)
Definition plain (s : bytes) : Prop := s <> [] /\ Forall (fun c => figure c \/ c = "."%char) s.

(** All integers from a to b in ascending order. *)
Definition ascending (l : list Z) : Prop := forall u x v y w, l = u ++ x :: v ++ y :: w -> x < y.
Definition stretch (a b : Z) (l : list Z) : Prop := ascending l /\ forall n, In n l <-> a <= n <= b.

(** One item of the list of a case and the numerals it stands for: a number, a
    number with a power of ten, which is written with a c, or a range. *)
Inductive sample : bytes -> list bytes -> Prop :=
| sample_number : forall s, plain s -> sample s [s]
| sample_power : forall s e, plain s -> numeral e -> sample (s ++ "c"%char :: e) [s ++ "e"%char :: e]
| sample_range : forall s t l, numeral s -> numeral t -> dec_val s < 2 ^ 63 -> dec_val t < 2 ^ 63 - 1 ->
    stretch (dec_val s) (dec_val t) l -> sample (s ++ "~"%char :: t) (map itoa l).

(** U+2026 in UTF-8 *)
Definition dots : bytes := [byte_of 226; byte_of 128; byte_of 166].

(** Items separated by commas, perhaps an omission at the end. *)
Inductive listing : bytes -> list bytes -> Prop :=
| listing_last : forall s o, sample s o -> listing s o
| listing_open : forall s o, sample s o -> listing (s ++ bs ", " ++ dots) o
| listing_more : forall s o t p, sample s o -> listing t p -> listing (s ++ bs ", " ++ t) (o ++ p).

(** A language, perhaps with a region of two letters or three digits or a
    script. *)
Definition locale_tag (s : bytes) : Prop := exists c w r, s = c :: w ++ r /\ small c /\ Forall small w /\
  (r = [] \/ (exists a b, r = ["_"%char; a; b] /\ capital a /\ capital b)
   \/ (exists a b d, r = ["_"%char; a; b; d] /\ figure a /\ figure b /\ figure d)
   \/ (exists a b d e, r = ["_"%char; a; b; d; e] /\ capital a /\ small b /\ small d /\ small e)).
