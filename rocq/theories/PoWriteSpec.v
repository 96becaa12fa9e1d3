(** What of a PO file comes back after writing it, for all options. *)
From Coq Require Import String Ascii List ZArith Bool Permutation.
From Verif Require Import Base PoStrSpec PoFileModel PoFileSpec.
Import ListNotations.
Open Scope Z_scope.

(** A reference keeps its path and a positive line, not its column. *)
Definition kept_ref (r : reference) : reference :=
  Ref (r_path r) (if 0 <? r_line r then r_line r else -1) 0.
Definition can_write_ref (r : reference) : Prop :=
  word (r_path r) /\ ~ In ":"%char (r_path r) /\ r_line r <= maxInt64.

(** A comment keeps its texts, its flags and, if they are written, its
    references; not the previous context and id. *)
Definition can_write_comment (w : Z) (c : comment) : Prop :=
  comment_text true w (cm_tr c) /\ comment_text false w (cm_ex c) /\
  Forall can_write_ref (cm_refs c) /\ Forall flag (cm_flags c).
Definition kept_comment (w : Z) (refs : bool) (c c' : comment) : Prop :=
  same_text w (cm_tr c) (cm_tr c') /\ same_text w (cm_ex c) (cm_ex c') /\
  cm_refs c' = (if refs then map kept_ref (cm_refs c) else []) /\
  cm_flags c' = cm_flags c /\ cm_pctx c' = [] /\ cm_pid c' = [].

(** The forms 0, ..., n-1.  Without any, an empty form 0 is added; a plural
    has at least the forms 0 and 1. *)
Definition can_write_forms (m : strmap) : Prop :=
  exists n, Permutation (map fst m) (map Z.of_nat (seq 0 n)) /\ Z.of_nat n <= maxInt64.
Inductive kept_forms : bytes -> strmap -> strmap -> Prop :=
| kf_none : kept_forms [] [] [(0, [])]
| kf_one : forall v, kept_forms [] [(0, v)] [(0, v)]
| kf_plural_none : forall p, p <> [] -> kept_forms p [] [(0, []); (1, [])]
| kf_plural_one : forall p v, p <> [] -> kept_forms p [(0, v)] [(0, v); (1, [])]
| kf_more : forall p m m', (2 <= length m)%nat -> Permutation m m' -> kept_forms p m m'.

Definition can_write_message (w : Z) (m : message) : Prop :=
  can_write_comment w (the_comment (m_com m)) /\ m_id m <> [] /\
  writable_text (m_ctx m) /\ writable_text (m_id m) /\ writable_text (m_pl m) /\
  Forall (fun e => writable_text (snd e)) (m_str m) /\ can_write_forms (m_str m).
Definition kept_message (w : Z) (refs : bool) (m m' : message) : Prop :=
  kept_comment w refs (the_comment (m_com m)) (the_comment (m_com m')) /\
  m_ctx m' = m_ctx m /\ m_id m' = m_id m /\ m_pl m' = m_pl m /\ kept_forms (m_pl m) (m_str m) (m_str m').

(** The header: not written if headers are not, or if it has no value and
    such headers are not. *)
Definition can_write_header (w : Z) (h : header) : Prop :=
  can_write_comment w (the_comment (h_com h)) /\ length (h_known h) = length header_names /\
  Forall plain_text (h_known h) /\
  Forall (fun e => plain_text (fst e) /\ ascii_text (fst e) /\ ~ In ":"%char (fst e) /\
                   ~ known_name (fst e) /\ plain_text (snd e)) (h_unknown h) /\
  NoDup (map fst (h_unknown h)).
Definition has_value (h : header) : Prop :=
  Exists (fun v => v <> []) (h_known h) \/ Exists (fun e => snd e <> []) (h_unknown h).
Definition header_written (o : enc_opts) (h : option header) : Prop :=
  e_header o = true /\ exists h', h = Some h' /\ (e_empty_header o = true \/ has_value h').
Definition kept_header (o : enc_opts) (h : option header) (h' : header) : Prop :=
  (header_written o h -> exists x, h = Some x /\
     kept_comment (e_width o) (e_refs o) (the_comment (h_com x)) (the_comment (h_com h')) /\
     h_known h' = h_known x /\ h_unknown h' = h_unknown x) /\
  (~ header_written o h -> h' = new_header).
