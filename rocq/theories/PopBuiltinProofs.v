(** The built-in gettext rules: agreement with their headers, index range, and
    the recognition of built-ins through the printed form. *)
From Coq Require Import String Ascii List ZArith Bool Lia.
From Verif Require Import Base BaseProofs PopModel PopBuiltin PopSpec PopScanProofs
  PopProofs PopComplete.
Import ListNotations.
Open Scope Z_scope.

(** ** Defined, logical expressions *)

Fixpoint defd (e : cexp) : bool :=
  match e with
  | CN | CV _ => true
  | CBin CRem a (CV v) => defd a && negb (v =? 0)
  | CBin CRem _ _ => false
  | CBin _ a b => defd a && defd b
  | CCond c t f => defd c && defd t && defd f
  end.

Lemma defd_some : forall e n, defd e = true -> exists v, csem e n = Some v.
Proof.
  induction e as [|v|o a Ha b Hb|c Hc t Ht f Hf]; intros n H.
  - now exists n.
  - now exists v.
  - destruct o; simpl in H |- *.
    1: { destruct b as [|w| |]; try discriminate.
         apply andb_true_iff in H as [H1 H2].
         destruct (Ha n H1) as [x ->]. apply negb_true_iff in H2. simpl. rewrite H2. eauto. }
    all: apply andb_true_iff in H as [H1 H2];
      destruct (Ha n H1) as [x ->], (Hb n H2) as [y ->]; eauto;
      destruct (tobool x); eauto.
  - simpl in H |- *. apply andb_true_iff in H as [H H3]. apply andb_true_iff in H as [H1 H2].
    destruct (Hc n H1) as [x ->]. destruct (tobool x); auto.
Qed.

Lemma logical_01 : forall e n, logical e = true -> zero_one e n.
Proof.
  induction e as [|v|o a Ha b Hb|c Hc t Ht f Hf]; intros n H w Hw; simpl in H.
  - discriminate.
  - simpl in Hw. injection Hw as <-. lia.
  - destruct o; try discriminate;
      try (simpl in Hw; destruct (csem a n); [|discriminate]; destruct (csem b n); [|discriminate];
           injection Hw as <-; apply b2z_01).
    + now apply (zero_one_and a b n).
    + now apply (zero_one_or a b n).
  - apply andb_true_iff in H as [H1 H2]. simpl in Hw.
    destruct (csem c n) as [x|]; [|discriminate].
    destruct (tobool x); [now apply (Ht n) | now apply (Hf n)].
Qed.

Lemma logical_conds_01 : forall e n, logical_conds e = true -> conds01 e n.
Proof.
  induction e as [|v|o a Ha b Hb|c Hc t Ht f Hf]; intros n H; simpl in *; auto.
  - destruct o; repeat (apply andb_true_iff in H as [H ?]);
      repeat split; auto using logical_01.
  - repeat (apply andb_true_iff in H as [H ?]). repeat split; auto using logical_01.
Qed.

Lemma eval_value : forall a n, logical_conds (cx a) = true -> defd (cx a) = true ->
  csem (cx a) n = Some (eval_node a n).
Proof.
  intros a n L D. destruct (defd_some _ n D) as [v E].
  rewrite E. f_equal. symmetry. apply eval_cx; auto using logical_conds_01.
Qed.

(** ** Computed header text *)

Definition cleanb (s : bytes) : bool :=
  forallb (fun c => negb (Ascii.eqb c NUL) && negb (Ascii.eqb c "_")) s.

Lemma cleanb_clean : forall s, cleanb s = true -> clean s.
Proof.
  intros s H. unfold cleanb in H. rewrite forallb_forall in H.
  split; intro C; specialize (H _ C); discriminate.
Qed.

Definition fitsb (ls : list lexeme) : bool :=
  forallb (fun l => match l with LNum ds => dec_val ds <=? maxInt64 | _ => true end) ls.

Lemma fitsb_fits : forall ls, fitsb ls = true -> nums_fit ls.
Proof.
  intros ls H ds Hd. unfold fitsb in H. rewrite forallb_forall in H.
  specialize (H _ Hd). simpl in H. lia.
Qed.

(** Everything about a concrete header that is decided by computation. *)
Definition checked (t : bytes) (f : forms) : bool :=
  cleanb t &&
  match lex_all (S (length t)) t with Some ls => fitsb ls | None => false end &&
  logical_conds (cx (f_root f)) && defd (cx (f_root f)).

Lemma checked_header : forall t f, parse_forms t = Ok f -> checked t f = true ->
  exists e, header_text t (f_nplurals f) e /\ ceq (cx (f_root f)) e /\
    forall n, csem e n = Some (eval_node (f_root f) n).
Proof.
  intros t f P C. unfold checked in C.
  apply andb_true_iff in C as [C D]. apply andb_true_iff in C as [C L].
  apply andb_true_iff in C as [C F]. apply cleanb_clean in C.
  destruct (lex_all (S (length t)) t) as [ls|] eqn:E; [|discriminate].
  apply lex_all_sound in E; [|assumption]. apply fitsb_fits in F.
  destruct (parse_sound t f C P) as [ls' [np [e [L' [H' R]]]]].
  rewrite <- (lays_unique _ _ E _ L') in *.
  destruct (R F) as [<- Re].
  exists e. split; [exists ls; auto|]. split; [assumption|]. intro n.
  destruct (ceq_sem _ _ Re n) as [S _]. rewrite <- S. now apply eval_value.
Qed.

Lemma ceq_logical : forall e e', ceq e e' ->
  logical e = logical e' /\ logical_conds e = logical_conds e'.
Proof.
  induction 1; try tauto.
  - destruct IHceq. split; congruence.
  - destruct IHceq1, IHceq2. split; congruence.
  - split; [reflexivity|]. simpl.
    destruct (logical a), (logical b), (logical c), (logical_conds a), (logical_conds b), (logical_conds c); reflexivity.
  - split; [reflexivity|]. simpl.
    destruct (logical a), (logical b), (logical c), (logical_conds a), (logical_conds b), (logical_conds c); reflexivity.
  - destruct IHceq1 as [A1 A2], IHceq2 as [B1 B2].
    destruct o; simpl; rewrite ?A1, ?A2, ?B1, ?B2; auto.
  - destruct IHceq1 as [A1 A2], IHceq2 as [B1 B2], IHceq3 as [C1 C2].
    simpl. rewrite A1, A2, B1, B2, C1, C2. auto.
Qed.

(** Meaning of a concrete text, for witnesses. *)
Lemma witness_header : forall t f, parse_forms t = Ok f ->
  cleanb t && match lex_all (S (length t)) t with Some ls => fitsb ls | None => false end = true ->
  exists e, header_text t (f_nplurals f) e /\ ceq (cx (f_root f)) e.
Proof.
  intros t f P C. apply andb_true_iff in C as [C F]. apply cleanb_clean in C.
  destruct (lex_all (S (length t)) t) as [ls|] eqn:E; [|discriminate].
  apply lex_all_sound in E; [|assumption]. apply fitsb_fits in F.
  destruct (parse_sound t f C P) as [ls' [np [e [L' [H' R]]]]].
  rewrite <- (lays_unique _ _ E _ L') in *.
  destruct (R F) as [<- Re]. exists e. split; [exists ls; auto|assumption].
Qed.

(** ** C01 *)

Definition row_ok (t : string) (r : rule) : Prop :=
  exists f, parse_forms (bs t) = Ok f /\ checked (bs t) f = true /\
    f_nplurals f = r_nplurals r /\ forall n, eval_node (f_root f) n = r_form r n.

Ltac row :=
  eexists; split; [vm_compute; reflexivity|]; split; [vm_compute; reflexivity|];
  split; [reflexivity|];
  let n := fresh in intro n; cbn -[Z.rem Z.eqb Z.leb Z.ltb Z.geb Z.gtb b2z];
  rewrite ?b2z_is1; try reflexivity.

Lemma raw_rows : Forall (fun p => row_ok (fst p) (snd p)) raw_table.
Proof.
  unfold raw_table.
  repeat (apply Forall_cons; [unfold fst, snd|]); [..|apply Forall_nil].
  all: row.
  all: change (10 =? 0) with false; change (100 =? 0) with false;
    change (1000 =? 0) with false; change (100000 =? 0) with false;
    change (1000000 =? 0) with false; cbv iota;
    rewrite ?andb_assoc, ?orb_assoc; reflexivity.
Qed.

Lemma doc_rows : Forall (fun p => row_ok (fst p) (snd p)) doc_table.
Proof.
  unfold doc_table.
  repeat (apply Forall_cons; [unfold fst, snd|]); [..|apply Forall_nil].
  all: row.
  all: change (10 =? 0) with false; change (100 =? 0) with false;
    change (1000 =? 0) with false; change (100000 =? 0) with false;
    change (1000000 =? 0) with false; cbv iota;
    rewrite ?andb_assoc, ?orb_assoc; try reflexivity.
  all: match goal with |- ?G => idtac G end.
Qed.

Definition means (t : bytes) (r : rule) : Prop :=
  exists e, header_text t (r_nplurals r) e /\ forall n, csem e n = Some (r_form r n).

Lemma row_means : forall t r, row_ok t r -> means (bs t) r.
Proof.
  intros t r [f [P [C [N E]]]].
  destruct (checked_header _ _ P C) as [e [H [_ S]]].
  exists e. rewrite <- N. split; [assumption|]. intro n. now rewrite S, E.
Qed.

Theorem raw_means : forall t r, In (t, r) raw_table -> means (bs t) r.
Proof.
  intros t r H. apply row_means.
  exact (proj1 (Forall_forall _ _) raw_rows (t, r) H).
Qed.

Theorem doc_means : forall t r, In (t, r) doc_table -> means (bs t) r.
Proof.
  intros t r H. apply row_means.
  exact (proj1 (Forall_forall _ _) doc_rows (t, r) H).
Qed.

Lemma lookup_raw_in : forall tb k r, lookup_raw tb k = Some r ->
  exists t, bs t = k /\ In (t, r) tb.
Proof.
  induction tb as [|[t r'] tb IH]; intros k r H; simpl in H; [discriminate|].
  destruct (beq (bs t) k) eqn:E.
  - apply beq_eq in E. injection H as <-. exists t. split; [assumption|now left].
  - destruct (IH _ _ H) as [t' [H1 H2]]. exists t'. split; [assumption|now right].
Qed.

Lemma built_in_means : forall k r, built_in_raw k = Some r -> means k r.
Proof.
  intros k r H. destruct (lookup_raw_in _ _ _ H) as [t [<- I]]. now apply raw_means.
Qed.

(** the meaning of a text is unique *)
Lemma header_text_unique : forall t np e np' e', header_text t np e ->
  header_text t np' e' -> np = np' /\ ceq e e'.
Proof.
  intros t np e np' e' H H'.
  destruct (parse_complete _ _ _ H) as [f [P [N R]]].
  destruct (parse_complete _ _ _ H') as [f' [P' [N' R']]].
  rewrite P in P'. injection P' as <-.
  split; [congruence|]. eapply ceq_trans; [apply ceq_sym; exact R | exact R'].
Qed.

(** every language rule is documented by a header with that meaning *)
Lemma lang_documented : forall ks r, In (ks, r) lang_table -> exists t, In (t, r) doc_table.
Proof.
  assert (I : Forall (fun r => In r (map snd doc_table)) (map snd lang_table)).
  { unfold lang_table, doc_table. cbn [map snd].
    repeat (apply Forall_cons; [cbn [In]|]); [..|apply Forall_nil].
    all: repeat first [left; match goal with |- ?a = ?a => exact eq_refl end | right]. }
  intros ks r H. rewrite Forall_forall in I.
  specialize (I r (in_map snd _ _ H)). apply in_map_iff in I as [[t r'] [E I]].
  simpl in E. subst r'. now exists t.
Qed.

(** ** C02 *)

Lemma range_rules : forall r, In r (map snd raw_table ++ map snd lang_table) ->
  forall n, 0 <= r_form r n < r_nplurals r.
Proof.
  intros r H n. simpl in H.
  repeat (destruct H as [H|H];
    [subst r; cbn -[Z.rem Z.eqb Z.leb Z.ltb Z.geb Z.gtb andb orb negb Z.le Z.lt]; clear;
     repeat match goal with |- context [if ?b then _ else _] => destruct b end; lia|]).
  contradiction.
Qed.
