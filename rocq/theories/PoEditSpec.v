(** What a PO file built by adding messages should contain. *)
From Coq Require Import String Ascii List ZArith Bool Permutation.
From Verif Require Import Base PoFileModel PoFileSpec.
Import ListNotations.
Open Scope Z_scope.

Definition the_flags (m : message) : list bytes := cm_flags (the_comment (m_com m)).
Definition the_refs (m : message) : list reference := cm_refs (the_comment (m_com m)).

(** [r] gathers the messages of [ms] with this key: the translations and the
    previous id of the first one, the first plural, all flags and all
    references. *)
Definition gathered (ms : list message) (k : bytes * bytes) (r : message) : Prop :=
  key r = k /\
  (forall f, In f (the_flags r) <-> exists m, In m ms /\ key m = k /\ In f (the_flags m)) /\
  (forall x, In x (the_refs r) <-> exists m, In m ms /\ key m = k /\ In x (the_refs m)) /\
  (exists a m b, ms = a ++ m :: b /\ key m = k /\ Forall (fun x => key x <> k) a /\
     m_str r = m_str m /\ cm_pctx (the_comment (m_com r)) = cm_pctx (the_comment (m_com m)) /\
     cm_pid (the_comment (m_com r)) = cm_pid (the_comment (m_com m))) /\
  ((exists a m b, ms = a ++ m :: b /\ key m = k /\ Forall (fun x => key x = k -> m_pl x = []) a /\
      m_pl m <> [] /\ m_pl r = m_pl m) \/
   (Forall (fun x => key x = k -> m_pl x = []) ms /\ m_pl r = [])).

(** Flags and references in order and each once. *)
Definition tidy (m : message) : Prop :=
  ordered bytes_le (the_flags m) /\ NoDup (the_flags m) /\
  ordered ref_le (the_refs m) /\ NoDup (the_refs m).

(** Comment texts made of trimmed lines, each once. *)
Definition exists_lines (s : bytes) : Prop := exists t, tlines t /\ s = lines_text t.
Definition line_in (t l : bytes) : Prop := exists ls, tlines ls /\ t = lines_text ls /\ In l ls.

(** A whole number written in decimal: an optional minus sign and digits. *)
Definition whole_number (s : bytes) (z : Z) : Prop :=
  exists d, d <> [] /\ Forall (fun c => is_digit c = true) d /\
    ((s = d /\ z = dec_val d) \/ (s = "-"%char :: d /\ z = - dec_val d)).

(** The value of a named field of the header. *)
Definition named_field (h : header) (n v : bytes) : Prop := In (n, v) (combine header_names (h_known h)).
