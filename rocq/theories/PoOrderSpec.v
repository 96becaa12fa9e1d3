(** The order of messages in a written PO file, for property C27. *)
From Coq Require Import List ZArith Permutation.
From Verif Require Import Base PoStrModel PoFileModel PoFileSpec.
Import ListNotations.
Open Scope Z_scope.

(** Of two lists of references the first pair decides, unless it is twice the
    same reference without a path; then the next pair does. *)
Inductive refs_before : list reference -> list reference -> Prop :=
| rb_now : forall x a y b, ref_lt x y -> refs_before (x :: a) (y :: b)
| rb_later : forall x a b, r_path x = [] -> refs_before a b -> refs_before (x :: a) (x :: b).
(** The references do not decide, one list is at its end. *)
Inductive refs_open : list reference -> list reference -> Prop :=
| ro_left : forall b, refs_open [] b
| ro_right : forall a, refs_open a []
| ro_later : forall x a b, r_path x = [] -> refs_open a b -> refs_open (x :: a) (x :: b).

Definition sorted_refs (m : message) (l : list reference) : Prop := Permutation (refs_of m) l /\ ordered ref_le l.
Definition precedes (a b : message) : Prop := exists l k, sorted_refs a l /\ sorted_refs b k /\
  (refs_before l k \/ refs_open l k /\ key_lt a b).

(** Different messages are in some order, without a cycle. *)
Definition arranged (ms : list message) : Prop := NoDup (map key ms) /\
  (forall a b, In a ms -> In b ms -> key a <> key b -> precedes a b \/ precedes b a) /\
  (forall a b c, In a ms -> In b ms -> In c ms -> precedes a b -> precedes b c -> precedes a c).
