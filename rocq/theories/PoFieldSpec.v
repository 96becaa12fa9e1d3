(** PO files as paragraphs: comments followed by fields in any order, given
    any number of times, set apart by blank lines or by a comment line. *)
From Coq Require Import String Ascii List ZArith Bool.
From Verif Require Import Base PoFileModel PoFileSpec PoTightSpec.
Import ListNotations.
Open Scope Z_scope.

(** msgctxt, msgid, msgid_plural, msgstr, msgstr[i] *)
Inductive pfield : Type :=
| FCtx (v : bytes) | FId (v : bytes) | FPlural (v : bytes) | FText (v : bytes) | FForm (i : Z) (v : bytes).

Definition ctx_of (f : pfield) : option bytes := match f with FCtx v => Some v | _ => None end.
Definition id_of (f : pfield) : option bytes := match f with FId v => Some v | _ => None end.
Definition plural_of (f : pfield) : option bytes := match f with FPlural v => Some v | _ => None end.
(** msgstr is form 0 *)
Definition form_of (i : Z) (f : pfield) : option bytes :=
  match f with
  | FText v => if Z.eq_dec i 0 then Some v else None
  | FForm j v => if Z.eq_dec i j then Some v else None
  | _ => None
  end.
Definition indices (fs : list pfield) : list Z :=
  flat_map (fun f => match f with FText _ => [0] | FForm i _ => [i] | _ => [] end) fs.

(** The lines of a field that follows the fields [before].  A form has one
    line only, unless it is form n and n forms were given before. *)
Inductive field_lines (before : list pfield) : pfield -> list bytes -> Prop :=
| fl_ctx : forall v ls, field (bs "msgctxt") [] ls v -> field_lines before (FCtx v) ls
| fl_id : forall v ls, field (bs "msgid") [] ls v -> field_lines before (FId v) ls
| fl_plural : forall v ls, field (bs "msgid_plural") [] ls v -> field_lines before (FPlural v) ls
| fl_text : forall v ls, field (bs "msgstr") [] ls v -> field_lines before (FText v) ls
| fl_form : forall i v ls, 0 <= i <= maxInt64 -> field (bs "msgstr[" ++ utoa i ++ bs "]") [] ls v ->
    (length ls = 1%nat \/ Z.of_nat (length (nodup Z.eq_dec (indices before ++ [i]))) = i + 1) ->
    field_lines before (FForm i v) ls.
Inductive fields_lines (before : list pfield) : list pfield -> list bytes -> Prop :=
| fls_nil : fields_lines before [] []
| fls_cons : forall f fs ls ls', field_lines before f ls -> fields_lines (before ++ [f]) fs ls' ->
    fields_lines before (f :: fs) (ls ++ ls').

Record paragraph : Type := Par { p_items : list citem; p_fields : list pfield }.
Definition paragraph_lines (p : paragraph) (ls : list bytes) : Prop :=
  (p_items p <> [] \/ p_fields p <> []) /\
  exists il fl, ls = il ++ fl /\ items_lines (p_items p) il /\ fields_lines [] (p_fields p) fl.

(** A blank line ends every paragraph, a comment line one with fields. *)
Definition separates (ign : bool) (p : paragraph) (l : bytes) : Prop :=
  pad l \/ (p_fields p <> [] /\ exists i, ends_entry ign i /\ item_lines i [l]).
Inductive paragraphs (ign : bool) : list paragraph -> list bytes -> Prop :=
| ps_nil : forall pre, Forall pad pre -> paragraphs ign [] pre
| ps_last : forall p pre ls, Forall pad pre -> paragraph_lines p ls -> paragraphs ign [p] (pre ++ ls)
| ps_cons : forall p ps pre ls w rest, Forall pad pre -> paragraph_lines p ls -> separates ign p w ->
    paragraphs ign ps rest -> paragraphs ign (p :: ps) (pre ++ ls ++ w :: rest).

(** ** What a paragraph says *)
(** the value given last *)
Definition last_value_of (pick : pfield -> option bytes) (fs : list pfield) (v : bytes) : Prop :=
  exists a f b, fs = a ++ f :: b /\ pick f = Some v /\ Forall (fun g => pick g = None) b.
(** ... or nothing *)
Definition last_or_none (pick : pfield -> option bytes) (fs : list pfield) (v : bytes) : Prop :=
  last_value_of pick fs v \/ (v = [] /\ Forall (fun g => pick g = None) fs).

Definition says (p : paragraph) (m : message) : Prop :=
  m_com m = Some (com_of (p_items p)) /\
  last_or_none ctx_of (p_fields p) (m_ctx m) /\
  last_or_none id_of (p_fields p) (m_id m) /\
  last_or_none plural_of (p_fields p) (m_pl m) /\
  NoDup (map fst (m_str m)) /\
  forall i v, In (i, v) (m_str m) <-> last_value_of (form_of i) (p_fields p) v.

(** The messages of the paragraphs with an id. *)
Inductive entries_of : list paragraph -> list message -> Prop :=
| eo_nil : entries_of [] []
| eo_skip : forall p ps ms, last_or_none id_of (p_fields p) [] -> entries_of ps ms -> entries_of (p :: ps) ms
| eo_keep : forall p ps m ms, says p m -> m_id m <> [] -> entries_of ps ms -> entries_of (p :: ps) (m :: ms).
(** The paragraphs without id but with a translation. *)
Inductive header_count : list paragraph -> nat -> Prop :=
| hc_nil : header_count [] 0
| hc_id : forall p ps n v, last_value_of id_of (p_fields p) v -> v <> [] -> header_count ps n -> header_count (p :: ps) n
| hc_empty : forall p ps n, indices (p_fields p) = [] -> header_count ps n -> header_count (p :: ps) n
| hc_head : forall p ps n, last_or_none id_of (p_fields p) [] -> indices (p_fields p) <> [] ->
    header_count ps n -> header_count (p :: ps) (S n).
