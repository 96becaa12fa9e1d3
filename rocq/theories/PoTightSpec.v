(** PO files whose entries are set apart by blank lines or by a comment line. *)
From Coq Require Import String Ascii List ZArith Bool.
From Verif Require Import Base PoFileModel PoFileSpec.
Import ListNotations.
Open Scope Z_scope.

(** The comment lines that end an entry: all of one line, and only flags
    when comments are ignored. *)
Definition ends_entry (ign : bool) (i : citem) : Prop :=
  match i with
  | IFlags _ => True
  | ITrans _ | IExtr _ | IRefs _ => ign = false
  | IPrevCtx _ | IPrevId _ => False
  end.
(** The entries with a text: messages and headers. *)
Definition has_text (b : block) : Prop := match b with BComment _ => False | _ => True end.

Inductive tight (ign : bool) : list block -> list bytes -> Prop :=
| ti_nil : forall pre, Forall pad pre -> tight ign [] pre
| ti_last : forall b pre ls, Forall pad pre -> block_lines b ls -> tight ign [b] (pre ++ ls)
| ti_blank : forall b bl pre ls w rest, Forall pad pre -> block_lines b ls -> pad w ->
    tight ign bl rest -> tight ign (b :: bl) (pre ++ ls ++ w :: rest)
| ti_comment : forall b bl pre ls i l rest, Forall pad pre -> has_text b -> block_lines b ls ->
    ends_entry ign i -> item_lines i [l] ->
    tight ign bl rest -> tight ign (b :: bl) (pre ++ ls ++ l :: rest).
