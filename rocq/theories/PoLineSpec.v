(** The lines of a PO file that are understood. *)
From Coq Require Import String Ascii List ZArith Bool.
From Verif Require Import Base StrModel PoStrModel PoStrSpec PoFileModel.
Import ListNotations.
Open Scope Z_scope.

(** blank, tab, line feed, form feed, carriage return *)
Definition white (c : ascii) : Prop :=
  c = SP \/ c = TAB \/ c = LF \/ c = ascii_of_nat 12 \/ c = CR.
Definition whites (w : bytes) : Prop := Forall white w.
(** "...", white space around it; there may be quotes inside *)
Definition string_part (x : bytes) : Prop :=
  exists w b w', x = w ++ QUOTE :: b ++ QUOTE :: w' /\ whites w /\ whites w' /\ ~ In LF b.
Definition number_text (d : bytes) : Prop := d <> [] /\ Forall (fun c => is_digit c = true) d.

(** A keyword and its string; msgid, msgid_plural and msgctxt are followed by
    a blank.  The index of a form is at most the largest int. *)
Inductive keyword_line : bytes -> Prop :=
| kw_id : forall x, string_part x -> keyword_line (bs "msgid " ++ x)
| kw_plural : forall x, string_part x -> keyword_line (bs "msgid_plural " ++ x)
| kw_context : forall x, string_part x -> keyword_line (bs "msgctxt " ++ x)
| kw_text : forall x, string_part x -> keyword_line (bs "msgstr" ++ x)
| kw_form : forall w d x, whites w -> number_text d -> dec_val d <= 9223372036854775807 -> string_part x ->
    keyword_line (bs "msgstr" ++ w ++ "["%char :: d ++ "]"%char :: x).
(** a further line of a string *)
Definition string_line (t : bytes) : Prop := exists b, t = QUOTE :: b ++ [QUOTE] /\ ~ In LF b.
(** #| msgctxt ... or #| msgid ..., and #| "..." *)
Definition previous_line (t : bytes) : Prop :=
  exists w y, w <> [] /\ whites w /\ (t = bs "#|" ++ w ++ bs "msgctxt" ++ y \/ t = bs "#|" ++ w ++ bs "msgid" ++ y).
Definition previous_more (t : bytes) : Prop :=
  exists w x, w <> [] /\ whites w /\ string_part x /\ t = bs "#|" ++ w ++ x.
(** comments without text; with comments ignored, every comment but flags *)
Definition passed_over (ign : bool) (t : bytes) : Prop :=
  In t [bs "#."; bs "#:"; bs "#,"; bs "#|"] \/
  (ign = true /\ (t = bs "#" \/ exists c y, t = "#"%char :: c :: y /\ c <> ","%char)).
(** other comments but those with #| *)
Definition plain_comment (ign : bool) (t : bytes) : Prop :=
  ~ passed_over ign t /\ (t = bs "#" \/ exists c y, t = "#"%char :: c :: y /\ c <> "|"%char).

(** Where a line stands: behind a line of a string, behind a line of a
    previous text, elsewhere. *)
Inductive place : Type := InString | InPrevious | Elsewhere.
Inductive understood (ign : bool) : place -> list bytes -> Prop :=
| un_end : forall p, understood ign p []
| un_blank : forall p l ls, trim_space l = [] -> understood ign Elsewhere ls -> understood ign p (l :: ls)
| un_passed : forall p l ls, passed_over ign (trim_space l) -> understood ign p ls -> understood ign p (l :: ls)
| un_comment : forall p l ls, plain_comment ign (trim_space l) -> understood ign Elsewhere ls -> understood ign p (l :: ls)
| un_previous : forall p l ls, ign = false -> previous_line (trim_space l) -> understood ign InPrevious ls -> understood ign p (l :: ls)
| un_more : forall l ls, ign = false -> previous_more (trim_space l) -> understood ign InPrevious ls -> understood ign InPrevious (l :: ls)
| un_keyword : forall p l ls, keyword_line (trim_space l) -> understood ign InString ls -> understood ign p (l :: ls)
| un_string : forall l ls, string_line (trim_space l) -> understood ign InString ls -> understood ign InString (l :: ls).

(** The lines that are read, without a carriage return at the end: up to the
    first one of 65536 bytes or more. *)
Definition without_cr (l l' : bytes) : Prop := l = l' ++ [CR] \/ (l' = l /\ ~ exists x, l = x ++ [CR]).
Inductive lines_read : list bytes -> list bytes -> Prop :=
| lr_end : lines_read [] []
| lr_long : forall l ls, 65536 <= Z.of_nat (length l) -> lines_read (l :: ls) []
| lr_line : forall l l' ls rs, Z.of_nat (length l) < 65536 -> without_cr l l' -> lines_read ls rs -> lines_read (l :: ls) (l' :: rs).
(** the lines of a text; a line feed at the end starts no further line *)
Fixpoint with_ends (ls : list bytes) : bytes :=
  match ls with [] => [] | l :: ls' => l ++ LF :: with_ends ls' end.
Definition lines_of (s : bytes) (ls : list bytes) : Prop :=
  Forall (fun l => ~ In LF l) ls /\
  (s = with_ends ls \/ exists ls' l, ls = ls' ++ [l] /\ l <> [] /\ s = with_ends ls' ++ l).
Definition reads_lines (s : bytes) (rs : list bytes) : Prop := exists ls, lines_of s ls /\ lines_read ls rs.

(** a line that starts with # / with something else, blanks aside *)
Definition comment_start (l : bytes) : Prop := exists y, trim_space l = "#"%char :: y.
Definition field_start (l : bytes) : Prop := trim_space l <> [] /\ ~ comment_start l.
