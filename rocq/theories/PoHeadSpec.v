(** PO files of any layout: messages and header fields. *)
From Coq Require Import String Ascii List ZArith Bool.
From Verif Require Import Base StrModel PoStrModel PoStrSpec PoFileModel PoFileSpec PoLineSpec PoFieldSpec PoAnySpec PoComSpec.
Import ListNotations.
Open Scope Z_scope.

(** The lines of a text, and the fields in them: what stands before and behind
    the first colon, without blanks around it.  Other lines are blank. *)
Inductive cut : bytes -> list bytes -> Prop :=
| cut_last : forall l, ~ In LF l -> cut l [l]
| cut_more : forall l t ls, ~ In LF l -> cut t ls -> cut (l ++ LF :: t) (l :: ls).
Inductive line_fields : list bytes -> list (bytes * bytes) -> Prop :=
| lf_nil : line_fields [] []
| lf_blank : forall l ls kvs, ~ In ":"%char l -> trim_space l = [] -> line_fields ls kvs -> line_fields (l :: ls) kvs
| lf_field : forall k v ls kvs, ~ In ":"%char k -> line_fields ls kvs -> line_fields ((k ++ ":"%char :: v) :: ls) ((trim_space k, trim_space v) :: kvs).
Definition header_value (v : bytes) (kvs : list (bytes * bytes)) : Prop := exists ls, cut v ls /\ line_fields ls kvs.
(** An entry without id that has a translation is a header, if its text (that
    of form 0) has fields; otherwise it is passed over.  There is at most one
    header, and no entry like that behind it. *)
Definition headlike (e : entry) (v : bytes) : Prop :=
  last_or_none id_of (fst e) [] /\ indices (fst e) <> [] /\ last_or_none (form_of 0) (fst e) v.
Inductive header_says : list entry -> option (list (bytes * bytes)) -> Prop :=
| hs_nil : header_says [] None
| hs_id : forall e es o v, last_value_of id_of (fst e) v -> v <> [] -> header_says es o -> header_says (e :: es) o
| hs_empty : forall e es o, indices (fst e) = [] -> header_says es o -> header_says (e :: es) o
| hs_bad : forall e es o v, headlike e v -> (forall kvs, ~ header_value v kvs) -> header_says es o -> header_says (e :: es) o
| hs_head : forall e es v kvs, headlike e v -> header_value v kvs -> heads es 0 -> header_says (e :: es) (Some kvs).
(** The forms of an entry that may be a header are given in turn. *)
Definition heads_in_turn (es : list entry) : Prop :=
  Forall (fun e => last_or_none id_of (fst e) [] -> in_turn [] (fst e) (snd e)) es.
(** A file of any layout, as the decoders read it: all comments but flags are
    passed over. *)
Definition any_po (s : bytes) (ms : list message) (kvs : list (bytes * bytes)) : Prop :=
  exists rs es cs o, reads_lines s rs /\ understood true Elsewhere rs /\ Forall (fun l => ~ unclosed l) rs /\
    any_file true rs es /\ any_comments true [] rs cs /\ file_comments es cs ms /\ NoDup (map key ms) /\
    Forall (fun e => in_turn [] (fst e) (snd e)) es /\ header_says es o /\ (ms <> [] \/ o <> None) /\
    kvs = match o with Some l => l | None => [] end.
