(** The comments of PO files of any layout. *)
From Coq Require Import String Ascii List ZArith Bool.
From Verif Require Import Base StrModel PoStrModel PoStrSpec PoFileModel PoFileSpec PoLineSpec PoFieldSpec PoAnySpec.
Import ListNotations.
Open Scope Z_scope.

(** Words between blanks, tabs and commas. *)
Definition flag_end (c : ascii) : Prop := c = SP \/ c = TAB \/ c = ","%char.
Inductive flag_words : bytes -> list bytes -> Prop :=
| fw_nil : flag_words [] []
| fw_sep : forall c y fs, flag_end c -> flag_words y fs -> flag_words (c :: y) fs
| fw_last : forall f, flag f -> flag_words f [f]
| fw_word : forall f c y fs, flag f -> flag_end c -> flag_words y fs -> flag_words (f ++ c :: y) (f :: fs).
(** The text of a previous context or id, which may be missing. *)
Definition previous_text (x v : bytes) : Prop :=
  (trim_space x = [] /\ v = []) \/ (trim_space x <> [] /\ text_is (trim_space x) v).
(** What a comment line adds to the comment before it; [t] is the line without
    white space around it.  Of a previous context (id) the text is what follows
    the tenth (eighth) byte. *)
Inductive line_says (before : list citem) : bytes -> citem -> Prop :=
| ls_trans : forall y, (forall c r, y = c :: r -> ~ In c ["."%char; ":"%char; ","%char; "|"%char]) ->
    line_says before ("#"%char :: y) (ITrans (trim_space y))
| ls_extr : forall y, line_says before (bs "#." ++ y) (IExtr (trim_space y))
| ls_refs : forall y rs, refs_text rs (trim_space y) -> line_says before (bs "#:" ++ y) (IRefs rs)
| ls_flags : forall y fs, flag_words (trim_space y) fs -> line_says before (bs "#," ++ y) (IFlags fs)
| ls_pctx : forall w y p x v, w <> [] -> whites w -> p ++ x = bs "#|" ++ w ++ bs "msgctxt" ++ y -> length p = 10%nat ->
    previous_text x v -> line_says before (p ++ x) (IPrevCtx v)
| ls_pid : forall w y p x v, w <> [] -> whites w -> p ++ x = bs "#|" ++ w ++ bs "msgid" ++ y -> length p = 8%nat ->
    previous_text x v -> line_says before (p ++ x) (IPrevId v)
| ls_more_ctx : forall b u x v, before = b ++ [IPrevCtx u] -> previous_more (bs "#|" ++ x) -> text_is (trim_space x) v ->
    line_says before (bs "#|" ++ x) (IPrevCtx v)
| ls_more_id : forall b u x v, before = b ++ [IPrevId u] -> previous_more (bs "#|" ++ x) -> text_is (trim_space x) v ->
    line_says before (bs "#|" ++ x) (IPrevId v).
(** The comments of the entries.  A blank line drops the comment before it, and
    the comment line that ends an entry belongs to no entry. *)
Inductive any_comments (ign : bool) : list citem -> list bytes -> list (list citem) -> Prop :=
| ac_nil : forall is, any_comments ign is [] []
| ac_blank : forall is l ls cs, trim_space l = [] -> any_comments ign [] ls cs -> any_comments ign is (l :: ls) cs
| ac_passed : forall is l ls cs, passed_over ign (trim_space l) -> any_comments ign is ls cs -> any_comments ign is (l :: ls) cs
| ac_comment : forall is i l ls cs, ~ passed_over ign (trim_space l) -> line_says is (trim_space l) i ->
    any_comments ign (is ++ [i]) ls cs -> any_comments ign is (l :: ls) cs
| ac_entry : forall is l ls fl rest cs, field_start l -> lines_on ign ls fl -> ended ign rest -> any_comments ign [] (tl rest) cs ->
    any_comments ign is (l :: ls ++ rest) (is :: cs).
(** The messages of the entries with an id, with their comments. *)
Inductive file_comments : list entry -> list (list citem) -> list message -> Prop :=
| fc_nil : file_comments [] [] []
| fc_skip : forall e es c cs ms, last_or_none id_of (fst e) [] -> file_comments es cs ms -> file_comments (e :: es) (c :: cs) ms
| fc_keep : forall e es c cs m ms, entry_says e m -> m_id m <> [] -> m_com m = Some (com_of c) -> file_comments es cs ms ->
    file_comments (e :: es) (c :: cs) (m :: ms).
(** Comment lines as they are written: text, references and flags. *)
Definition ordinary (t : bytes) : Prop :=
  forall y, t = "#"%char :: y ->
    match y with
    | "|"%char :: _ => False
    | ":"%char :: z => exists rs, refs_text rs (trim_space z)
    | ","%char :: z => exists fs, flag_words (trim_space z) fs
    | _ => True
    end.
