(** The translations of an entry of any layout, line by line. *)
From Coq Require Import String Ascii List ZArith Bool.
From Verif Require Import Base StrModel PoStrModel PoStrSpec PoFileModel PoLineSpec PoFileSpec PoFieldSpec PoHangSpec PoAnySpec PoComSpec PoHeadSpec.
Import ListNotations.
Open Scope Z_scope.

(** The forms that have a value, and how many there are. *)
Definition forms := Z -> option bytes.
Definition no_forms : forms := fun _ => None.
Definition given (g : forms) (i : Z) (v : bytes) : forms := fun j => if Z.eq_dec j i then Some v else g j.
Definition so_far (g : forms) (i : Z) : bytes := match g i with Some v => v | None => [] end.
Definition number_of (g : forms) (n : Z) : Prop :=
  exists l, NoDup l /\ Z.of_nat (length l) = n /\ forall i, In i l <-> g i <> None.

(** msgstr gives form 0 and msgstr[i] gives form i a new value.  Further lines
    of msgstr are added to form 0, but further lines of a form are added to
    form n - 1 where n is the number of the forms that have a value by then. *)
Inductive part : Type := InText | InForms | InOther.
Inductive forms_after : part -> forms -> list bytes -> forms -> Prop :=
| fa_nil : forall p g, forms_after p g [] g
| fa_text : forall p g l x v ls g', keyed (trim_space l) FText x -> text_is x v -> forms_after InText (given g 0 v) ls g' ->
    forms_after p g (l :: ls) g'
| fa_form : forall p g l i x v ls g', keyed (trim_space l) (FForm i) x -> text_is x v -> forms_after InForms (given g i v) ls g' ->
    forms_after p g (l :: ls) g'
| fa_other : forall p g l mk x ls g', mk = FCtx \/ mk = FId \/ mk = FPlural -> keyed (trim_space l) mk x -> forms_after InOther g ls g' ->
    forms_after p g (l :: ls) g'
| fa_more_text : forall g l u ls g', string_line (trim_space l) -> text_is (trim_space l) u ->
    forms_after InText (given g 0 (so_far g 0 ++ u)) ls g' -> forms_after InText g (l :: ls) g'
| fa_more_form : forall g l u n ls g', string_line (trim_space l) -> text_is (trim_space l) u -> number_of g n ->
    forms_after InForms (given g (n - 1) (so_far g (n - 1) ++ u)) ls g' -> forms_after InForms g (l :: ls) g'
| fa_more_other : forall g l ls g', string_line (trim_space l) -> forms_after InOther g ls g' -> forms_after InOther g (l :: ls) g'.
(** The translations of a message are those the lines say. *)
Definition forms_are (fl : list bytes) (m : message) : Prop :=
  NoDup (map fst (m_str m)) /\ (exists g, forms_after InOther no_forms fl g) /\
  forall g, forms_after InOther no_forms fl g -> forall i v, In (i, v) (m_str m) <-> g i = Some v.

(** The lines of the entries. *)
Inductive entry_lines (ign : bool) : list bytes -> list (list bytes) -> Prop :=
| el_nil : entry_lines ign [] []
| el_quiet : forall l ls es, quiet l -> entry_lines ign ls es -> entry_lines ign (l :: ls) es
| el_entry : forall l ls fl rest es, field_start l -> lines_on ign ls fl -> ended ign rest -> entry_lines ign rest es ->
    entry_lines ign (l :: ls ++ rest) ((l :: fl) :: es).
(** What an entry says: the values given last (PoAnySpec) and the forms. *)
Definition line_says (fl : list bytes) (m : message) : Prop :=
  (exists fs ks, any_fields fl fs ks) /\ (forall fs ks, any_fields fl fs ks -> entry_says (fs, ks) m) /\ forms_are fl m.
(** The messages are those of the entries with an id. *)
Inductive lines_say : list (list bytes) -> list message -> Prop :=
| ls_nil : lines_say [] []
| ls_skip : forall fl m es ms, line_says fl m -> m_id m = [] -> lines_say es ms -> lines_say (fl :: es) ms
| ls_keep : forall fl m es ms, line_says fl m -> m_id m <> [] -> lines_say es ms -> lines_say (fl :: es) (m :: ms).
(** An entry without id that has a translation is a header, if its text (that
    of form 0) has fields; otherwise it is passed over.  There is at most one
    header, and no entry like that behind it. *)
Definition text_of (m : message) (v : bytes) : Prop := In (0, v) (m_str m) \/ (v = [] /\ ~ In 0 (map fst (m_str m))).
Definition plain (fl : list bytes) : Prop := exists m, line_says fl m /\ (m_id m <> [] \/ m_str m = []).
Inductive lines_head : list (list bytes) -> option (list (bytes * bytes)) -> Prop :=
| lh_nil : lines_head [] None
| lh_plain : forall fl es o, plain fl -> lines_head es o -> lines_head (fl :: es) o
| lh_bad : forall fl m v es o, line_says fl m -> m_id m = [] -> m_str m <> [] -> text_of m v -> (forall kvs, ~ header_value v kvs) ->
    lines_head es o -> lines_head (fl :: es) o
| lh_head : forall fl m v kvs es, line_says fl m -> m_id m = [] -> m_str m <> [] -> text_of m v -> header_value v kvs -> Forall plain es ->
    lines_head (fl :: es) (Some kvs).
(** A file of any layout with any forms, as the decoders read it: all comments
    but flags are passed over. *)
Definition every_po (s : bytes) (ms : list message) (kvs : list (bytes * bytes)) : Prop :=
  exists rs es cs fls o, reads_lines s rs /\ understood true Elsewhere rs /\ Forall (fun l => ~ unclosed l) rs /\
    any_file true rs es /\ any_comments true [] rs cs /\ file_comments es cs ms /\ entry_lines true rs fls /\ lines_say fls ms /\
    NoDup (map key ms) /\ lines_head fls o /\ (ms <> [] \/ o <> None) /\ kvs = match o with Some l => l | None => [] end.
