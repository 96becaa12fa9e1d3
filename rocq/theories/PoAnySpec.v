(** What a PO file of any layout says. *)
From Coq Require Import String Ascii List ZArith Bool.
From Verif Require Import Base StrModel PoStrModel PoStrSpec PoFileModel PoLineSpec PoFieldSpec.
Import ListNotations.
Open Scope Z_scope.

(** A line with a keyword: the field and the part of the line that is decoded.
    What is decoded of a form are the bytes from the eleventh on. *)
Inductive keyed : bytes -> (bytes -> pfield) -> bytes -> Prop :=
| ky_id : forall x, string_part x -> keyed (bs "msgid " ++ x) FId x
| ky_plural : forall x, string_part x -> keyed (bs "msgid_plural " ++ x) FPlural x
| ky_context : forall x, string_part x -> keyed (bs "msgctxt " ++ x) FCtx x
| ky_text : forall c x, string_part (c :: x) -> keyed (bs "msgstr" ++ c :: x) FText x
| ky_form : forall w d y p x, whites w -> number_text d -> dec_val d <= 9223372036854775807 -> string_part y -> length p = 10%nat ->
    p ++ x = bs "msgstr" ++ w ++ "["%char :: d ++ "]"%char :: y -> keyed (p ++ x) (FForm (dec_val d)) x.
(** the text of a string *)
Definition text_is (x v : bytes) : Prop := decode_po x = Ok v.
(** Fields: a line with a keyword, then lines with strings.  The numbers count
    the latter. *)
Inductive any_fields : list bytes -> list pfield -> list nat -> Prop :=
| an_nil : any_fields [] [] []
| an_cons : forall l mk x v more vs rest fs ks, keyed (trim_space l) mk x -> text_is x v ->
    Forall2 (fun t u => string_line (trim_space t) /\ text_is (trim_space t) u) more vs -> any_fields rest fs ks ->
    any_fields (l :: more ++ rest) (mk (v ++ concat vs) :: fs) (length more :: ks).

(** Lines of one message: blank lines and comments end it, but not comments
    that are passed over. *)
Inductive lines_on (ign : bool) : list bytes -> list bytes -> Prop :=
| lo_nil : lines_on ign [] []
| lo_field : forall l ls fl, field_start l -> lines_on ign ls fl -> lines_on ign (l :: ls) (l :: fl)
| lo_passed : forall l ls fl, passed_over ign (trim_space l) -> lines_on ign ls fl -> lines_on ign (l :: ls) fl.
Definition quiet (l : bytes) : Prop := trim_space l = [] \/ comment_start l.
Definition ended (ign : bool) (ls : list bytes) : Prop :=
  match ls with [] => True | l :: _ => quiet l /\ ~ passed_over ign (trim_space l) end.
Definition entry := (list pfield * list nat)%type.
Inductive any_file (ign : bool) : list bytes -> list entry -> Prop :=
| af_nil : any_file ign [] []
| af_quiet : forall l ls es, quiet l -> any_file ign ls es -> any_file ign (l :: ls) es
| af_entry : forall l ls fl rest fs ks es, field_start l -> lines_on ign ls fl -> ended ign rest -> any_fields (l :: fl) fs ks ->
    any_file ign rest es -> any_file ign (l :: ls ++ rest) ((fs, ks) :: es).

(** A form has no further lines, unless it is form n and n forms were given
    before. *)
Fixpoint in_turn (before : list pfield) (fs : list pfield) (ks : list nat) : Prop :=
  match fs, ks with
  | f :: fs', k :: ks' =>
      match f with
      | FForm i _ => k = 0%nat \/ Z.of_nat (length (nodup Z.eq_dec (indices before ++ [i]))) = i + 1
      | _ => True
      end /\ in_turn (before ++ [f]) fs' ks'
  | _, _ => True
  end.
(** The message of an entry: the values given last. *)
Definition entry_says (e : entry) (m : message) : Prop :=
  last_or_none ctx_of (fst e) (m_ctx m) /\ last_or_none id_of (fst e) (m_id m) /\ last_or_none plural_of (fst e) (m_pl m) /\
  (m_str m = [] <-> indices (fst e) = []) /\
  (in_turn [] (fst e) (snd e) ->
   NoDup (map fst (m_str m)) /\ forall i v, In (i, v) (m_str m) <-> last_value_of (form_of i) (fst e) v).
(** The messages of the entries with an id. *)
Inductive file_says : list entry -> list message -> Prop :=
| fs_nil : file_says [] []
| fs_skip : forall e es ms, last_or_none id_of (fst e) [] -> file_says es ms -> file_says (e :: es) ms
| fs_keep : forall e es m ms, entry_says e m -> m_id m <> [] -> file_says es ms -> file_says (e :: es) (m :: ms).
(** The entries without id but with a translation: headers. *)
Inductive heads : list entry -> nat -> Prop :=
| hd_nil : heads [] 0
| hd_id : forall e es n v, last_value_of id_of (fst e) v -> v <> [] -> heads es n -> heads (e :: es) n
| hd_empty : forall e es n, indices (fst e) = [] -> heads es n -> heads (e :: es) n
| hd_head : forall e es n, last_or_none id_of (fst e) [] -> indices (fst e) <> [] -> heads es n -> heads (e :: es) (S n).
