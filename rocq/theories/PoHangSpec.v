(** Where the strings of a PO file are taken from. *)
From Coq Require Import String Ascii List ZArith Bool.
From Verif Require Import Base StrModel PoStrModel PoStrSpec PoFileModel PoLineSpec.
Import ListNotations.
Open Scope Z_scope.

(** What is decoded of a line, blanks aside: what follows the keyword and one
    more byte (msgstr), the first ten bytes (a form), the line itself. *)
Inductive string_of : bytes -> bytes -> Prop :=
| so_id : forall x, string_part x -> string_of (bs "msgid " ++ x) x
| so_plural : forall x, string_part x -> string_of (bs "msgid_plural " ++ x) x
| so_context : forall x, string_part x -> string_of (bs "msgctxt " ++ x) x
| so_text : forall c x, string_part (c :: x) -> string_of (bs "msgstr" ++ c :: x) x
| so_form : forall w d y p x, whites w -> number_text d -> string_part y -> length p = 10%nat ->
    p ++ x = bs "msgstr" ++ w ++ "["%char :: d ++ "]"%char :: y -> string_of (p ++ x) x
| so_more : forall t, string_line t -> string_of t t.
(** a line of a previous text *)
Definition previous (t : bytes) : Prop := previous_line t \/ previous_more t.
(** The last line that counts is one of a message. *)
Definition behind_field (ign : bool) (a : list bytes) : Prop :=
  exists a' l b, a = a' ++ l :: b /\ field_start l /\ Forall (fun x => passed_over ign (trim_space x)) b.
(** Some file that starts with these lines is accepted. *)
Definition begins (ign : bool) (a : list bytes) : Prop :=
  exists b s f fuel, reads_lines s (a ++ b) /\ parse_po_fuel fuel ign s = Ok f.
(** A line whose string is not closed, and that is decoded: the lines before it
    are fine, and a previous text does not stand directly behind a message. *)
Definition stops (ign : bool) (a : list bytes) (l : bytes) : Prop :=
  understood ign Elsewhere (a ++ [l]) /\ begins ign a /\
  ((exists x, string_of (trim_space l) x /\ unclosed x) \/
   (ign = false /\ previous (trim_space l) /\ unclosed l /\ ~ behind_field ign a)).
