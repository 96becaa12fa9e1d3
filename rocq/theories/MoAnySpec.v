(** What an MO file is read as, whatever its bytes are. *)
From Coq Require Import String Ascii List ZArith Bool.
From Verif Require Import Base StrModel PoStrModel PoFileModel PoFileSpec MoModel MoSpec.
Import ListNotations.
Open Scope Z_scope.

(** The pairs of texts the two tables give: every row points into the file,
    and what the file lacks is NUL. *)
Definition row_text (s : bytes) (be : bool) (table : Z) (i : nat) (t : bytes) : Prop :=
  exists len off, row_at s be table i len off /\ text_read s len off t.
Definition mo_pairs (s : bytes) (ts : list (bytes * bytes)) : Prop :=
  exists be ids strs, mo_head s be (Z.of_nat (length ts)) ids strs /\
    forall i e, nth_error ts i = Some e -> row_text s be ids i (fst e) /\ row_text s be strs i (snd e).
(** Header and tables are there, every row points into the file. *)
Definition mo_complete (s : bytes) : Prop :=
  exists be count ids strs, mo_head s be count ids strs /\
    forall table i, In table [ids; strs] -> (i < Z.to_nat count)%nat ->
      exists len off, row_at s be table i len off /\ off < Z.of_nat (length s).

(** Up to the first EOT the context, up to the next NUL the id, then the
    plural. *)
Definition context_of (k ctx rest : bytes) : Prop :=
  (~ In context_end k /\ ctx = [] /\ rest = k) \/ (k = ctx ++ context_end :: rest /\ ~ In context_end ctx).
Definition id_of (rest id : bytes) (pl : option bytes) : Prop :=
  match pl with
  | None => ~ In NUL rest /\ id = rest
  | Some p => rest = id ++ NUL :: p /\ ~ In NUL id
  end.
(** With a plural the translation is cut at every NUL, without it is not. *)
Definition forms_of (pl : option bytes) (v : bytes) (fs : list bytes) : Prop :=
  match pl with
  | None => fs = [v]
  | Some _ => fs <> [] /\ Forall (fun t => ~ In NUL t) fs /\ v = nul_joined fs
  end.
Definition reads_as (t : bytes * bytes) (e : mo_msg) : Prop :=
  exists ctx rest, context_of (fst t) ctx rest /\ opt_text (mm_ctx e) = ctx /\
    id_of rest (mm_id e) (mm_pl e) /\ forms_of (mm_pl e) (snd t) (mm_strs e).

(** The first pair of a key gives the translation, the first plural that is
    not empty is taken. *)
Definition has_key (c i : bytes) (e : mo_msg) : Prop := mo_key e = (c, i).
Definition first_entry (c i : bytes) (es : list mo_msg) (e : mo_msg) : Prop :=
  exists a b, es = a ++ e :: b /\ has_key c i e /\ Forall (fun x => ~ has_key c i x) a.
Definition no_plural (x : mo_msg) : Prop := opt_text (mm_pl x) = [].
Definition first_plural (c i : bytes) (es : list mo_msg) (p : bytes) : Prop :=
  (p = [] /\ Forall (fun x => has_key c i x -> no_plural x) es) \/
  (p <> [] /\ exists a e b, es = a ++ e :: b /\ has_key c i e /\ opt_text (mm_pl e) = p /\
     Forall (fun x => has_key c i x -> no_plural x) a).

(** The lines of a header: those without a colon are passed over, names and
    values stand without the blanks around them. *)
Definition junk_line (l : bytes) : Prop := ~ In ":"%char l.
Definition field_line (l : bytes) (e : bytes * bytes) : Prop :=
  exists a b, l = a ++ ":"%char :: b /\ ~ In ":"%char a /\
    padded (fst e) a /\ clean (fst e) /\ padded (snd e) b /\ clean (snd e).
Inductive header_fields : list bytes -> list (bytes * bytes) -> Prop :=
| hf_nil : header_fields [] []
| hf_junk : forall l ls kvs, junk_line l -> header_fields ls kvs -> header_fields (l :: ls) kvs
| hf_field : forall l e ls kvs, field_line l e -> header_fields ls kvs -> header_fields (l :: ls) (e :: kvs).
Fixpoint lf_joined (l : list bytes) : bytes :=
  match l with [] => [] | [x] => x | x :: l' => x ++ LF :: lf_joined l' end.
Definition header_reads (v : bytes) (kvs : list (bytes * bytes)) : Prop :=
  exists ls, ls <> [] /\ Forall (fun l => ~ In LF l) ls /\ v = lf_joined ls /\ header_fields ls kvs.
(** the pair without a key that comes last *)
Definition last_header (ts : list (bytes * bytes)) (v : bytes) : Prop :=
  exists a b, ts = a ++ ([], v) :: b /\ Forall (fun t => fst t <> []) b.
(** the pairs with a key *)
Definition kept (t : bytes * bytes) : bool := negb (is_nil (fst t)).
(** What is found under a context and an id. *)
Definition found (c i : bytes) (es : list mo_msg) (r : option message) : Prop :=
  match r with
  | None => Forall (fun e => ~ has_key c i e) es
  | Some m => exists e, first_entry c i es e /\ m_ctx m = c /\ m_id m = i /\ m_com m = Some (Com [] [] [] [] [] []) /\
      map fst (m_str m) = map Z.of_nat (seq 0 (length (mm_strs e))) /\ map snd (m_str m) = mm_strs e /\
      first_plural c i es (m_pl m)
  end.
