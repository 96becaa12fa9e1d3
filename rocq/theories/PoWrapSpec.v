(** Wrapping the texts of a PO file (catalog/po/po_string.go). *)
From Coq Require Import List ZArith.
From Verif Require Import Base Utf8Model PoStrSpec.
Import ListNotations.
Open Scope Z_scope.

Definition len (x : list rune) : Z := Z.of_nat (length x).
Definition solid (r : rune) : Prop := breakable r = false.
(** White space other than the line feed, which ends a line by itself. *)
Definition gap (r : rune) : Prop := breakable r = true /\ r <> 10.

(** One word (or none) and the white space behind it. *)
Definition one_word (x : list rune) : Prop := exists w s, x = w ++ s /\ Forall solid w /\ Forall gap s.

(** A line, with its line feed if it has one, keeps the width or cannot be
    broken; the last line of a paragraph may have one word more. *)
Definition fits (width : Z) (last : bool) (x : list rune) : Prop :=
  exists body feed, x = body ++ feed /\ ~ In 10 body /\ (feed = [] \/ feed = [10]) /\
    (len body <= width \/ one_word body \/
     ((feed = [10] \/ last = true) /\ exists l w, body = l ++ w /\ len l <= width /\ Forall solid w)).

(** Between [x] and [y] had to be a break: the text has one, or the next word
    with its white space did not fit, or [x] is a word as long as a line. *)
Definition needed (width : Z) (x y : list rune) : Prop :=
  (exists a, x = a ++ [10]) \/ (one_word x /\ width - 1 <= len x) \/
  exists p q, y = p ++ q /\ one_word p /\ width < len x + len p.

Definition wrapped (width : Z) (lines : list (list rune)) : Prop :=
  (forall a x b, lines = a ++ x :: b -> fits width (match b with [] => true | _ => false end) x) /\
  (forall a x y b, lines = a ++ x :: y :: b -> needed width x y).
