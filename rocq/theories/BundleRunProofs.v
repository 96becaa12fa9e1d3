(** Proofs about bundle creation: loading the requested languages. *)
From Coq Require Import String Ascii List ZArith Bool Lia Permutation.
From Verif Require Import Base BaseProofs LocaleModel BundleModel LocaleSpec BundleSpec BundleProofs.
Import ListNotations.
Open Scope nat_scope.

Section Proofs.
  Variable tag : Type.
  Variable tag_eq_dec : forall a b : tag, {a = b} + {a <> b}.
  Variable und : tag.
  Variable any E C : Type.
  Variable parse : bytes -> tag + E.
  Variable trim_space : bytes -> bytes.
  Variable plural_for : tag -> plural_func any E.
  Variable iter : forall A, list (event tag E) -> list A -> list A.
  Variable no_string : E.
  Hypothesis iter_perm : forall A past (l : list A), Permutation (iter A past l) l.

  Notation error := (error tag E).
  Notation event := (event tag E).
  Notation catalog := (catalog any E).
  Notation locale := (locale tag any E).
  Notation langarg := (langarg tag).
  Notation builder := (builder tag any E C).
  Notation loader := (loader tag any E).
  Notation u_callback := (u_callback tag any E C).
  Notation u_languages := (u_languages tag any E C).
  Notation u_locales := (u_locales tag any E C).
  Notation u_domains := (u_domains tag any E C).
  Notation u_source := (u_source tag any E C).
  Notation u_loaders := (u_loaders tag any E C).
  Notation name := (lang_tag tag E parse trim_space no_string).
  Notation set_locales := (set_locales tag any E C).
  Notation load_domains := (load_domains tag any E C).
  Notation create_locale := (create_locale tag tag_eq_dec und any E C plural_for iter).
  Notation preload := (preload tag tag_eq_dec und any E C parse trim_space plural_for iter no_string).
  Notation run_actions := (run_actions tag tag_eq_dec und any E C parse trim_space plural_for iter no_string).
  Notation build_source_locale := (build_source_locale tag any E C plural_for).
  Notation build_locale := (build_locale tag any E C plural_for).
  Notation loc_get := (loc_get tag tag_eq_dec any E).
  Notation loc_set := (loc_set tag tag_eq_dec any E).
  Notation loads := (loads tag any E).
  Notation not_found := (not_found tag any E).
  Notation available := (available tag any E).
  Notation load_count := (load_count tag tag_eq_dec E).
  Notation flat := (flat tag).

  (** requests one by one *)
  Fixpoint run_reqs (past : list event) (rs : list (bool * langarg)) (u : builder)
      : list event * (builder * option error) :=
    match rs with
    | [] => ([], (u, None))
    | (o, a) :: rs' =>
        let (l1, p) := preload past o [a] u in
        let (u1, r) := p in
        match r with
        | Some e => (l1, (u1, Some e))
        | None => let (l2, q) := run_reqs (past ++ l1) rs' u1 in (l1 ++ l2, q)
        end
    end.

  Lemma preload_cons past o a langs u :
    preload past o (a :: langs) u =
    let (l1, p) := preload past o [a] u in
    let (u1, r) := p in
    match r with
    | Some e => (l1, (u1, Some e))
    | None => let (l2, q) := preload (past ++ l1) o langs u1 in (l1 ++ l2, q)
    end.
  Proof.
    cbn [BundleModel.preload]. destruct (name a) as [t|e]; [|reflexivity].
    destruct (create_locale past o t u) as [l1 [u1 [e|]]].
    - destruct o; [|reflexivity].
      destruct e; unfold wret; cbv beta iota zeta; rewrite ?app_nil_r; reflexivity.
    - unfold wret. cbv beta iota zeta. rewrite app_nil_r. reflexivity.
  Qed.

  Lemma preload_reqs past o langs u :
    preload past o langs u = run_reqs past (map (pair o) langs) u.
  Proof.
    revert past u. induction langs as [|a langs IH]; intros past u; [reflexivity|].
    rewrite preload_cons. cbn [map run_reqs].
    destruct (preload past o [a] u) as [l1 [u1 [e|]]]; [reflexivity|].
    rewrite IH. reflexivity.
  Qed.

  Lemma run_reqs_app past a b u :
    run_reqs past (a ++ b) u =
    let (l1, p) := run_reqs past a u in
    let (u1, r) := p in
    match r with
    | Some e => (l1, (u1, Some e))
    | None => let (l2, q) := run_reqs (past ++ l1) b u1 in (l1 ++ l2, q)
    end.
  Proof.
    revert past u. induction a as [|[o x] a IH]; intros past u.
    - cbn [app run_reqs]. rewrite app_nil_r. destruct (run_reqs past b u). reflexivity.
    - cbn [app run_reqs]. destruct (preload past o [x] u) as [l1 [u1 [e|]]]; [reflexivity|].
      rewrite IH. destruct (run_reqs (past ++ l1) a u1) as [l2 [u2 [e|]]]; [reflexivity|].
      rewrite (app_assoc past l1 l2). destruct (run_reqs ((past ++ l1) ++ l2) b u2) as [l3 q].
      rewrite app_assoc. reflexivity.
  Qed.

  Lemma run_actions_reqs past acts u :
    run_actions past acts u = run_reqs past (flat acts) u.
  Proof.
    revert past u. induction acts as [|[o langs] acts IH]; intros past u; [reflexivity|].
    cbn [BundleModel.run_actions]. unfold BundleProofs.flat. cbn [flat_map fst snd].
    change (flat_map _ acts) with (flat acts). rewrite run_reqs_app, <- preload_reqs.
    destruct (preload past o langs u) as [l1 [u1 [e|]]]; [reflexivity|].
    rewrite IH. reflexivity.
  Qed.

  (** ** One language *)
  Definition found (t : tag) (ls : list (bytes * loader)) : list (bytes * catalog) :=
    flat_map (fun p => match snd p t (fst p) with inl c => [(fst p, c)] | inr _ => [] end) ls.

  Lemma found_in t ls d c :
    In (d, c) (found t ls) <-> exists ld, In (d, ld) ls /\ ld t d = inl c.
  Proof.
    unfold found. rewrite in_flat_map. split.
    - intros ([d' ld] & I & J). cbn [fst snd] in J.
      destruct (ld t d') as [c'|] eqn:Q; [|destruct J].
      destruct J as [J|[]]. injection J as -> ->. eauto.
    - intros (ld & I & Q). exists (d, ld). split; [exact I|]. cbn [fst snd]. rewrite Q.
      left. reflexivity.
  Qed.

  Lemma found_nodup t ls : NoDup (map fst ls) -> NoDup (map fst (found t ls)).
  Proof.
    induction ls as [|[d ld] ls IH]; intros N; [constructor|].
    cbn [map fst] in N. inversion N; subst. cbn [found flat_map]. fold (found t ls).
    cbn [fst snd]. destruct (ld t d) as [c|]; [|apply IH; assumption].
    cbn. constructor; [|apply IH; assumption].
    intros I. apply H1. rewrite in_map_iff in I. destruct I as ([d' c'] & Q & I). cbn in Q. subst d'.
    apply found_in in I. destruct I as (ld' & I & _). apply (in_map fst) in I. exact I.
  Qed.

  Lemma found_nil t ls : found t ls = [] <-> ~ available ls t.
  Proof.
    split.
    - intros F ([d ld] & I & (c & Q)). cbn [fst snd] in Q.
      assert (J : In (d, c) (found t ls)) by (apply found_in; eauto).
      rewrite F in J. exact J.
    - intros A. destruct (found t ls) as [|[d c] r] eqn:F; [reflexivity|]. exfalso. apply A.
      assert (J : In (d, c) (found t ls)) by (rewrite F; left; reflexivity).
      apply found_in in J. destruct J as (ld & I & Q). exists (d, ld). split; [exact I|].
      exists c. exact Q.
  Qed.

  Definition adds (doms ds : list bytes) : list bytes := fold_left add_domain ds doms.

  Lemma add_domain_in doms d x : In x (add_domain doms d) <-> In x doms \/ x = d.
  Proof.
    unfold add_domain. destruct (existsb (beq d) doms) eqn:X.
    - apply existsb_exists in X. destruct X as (y & I & B). apply beq_eq in B. subst y.
      split; [tauto|]. intros [H| ->]; assumption.
    - rewrite in_app_iff. cbn. intuition.
  Qed.

  Lemma add_domain_nodup doms d : NoDup doms -> NoDup (add_domain doms d).
  Proof.
    intros N. unfold add_domain. destruct (existsb (beq d) doms) eqn:X; [exact N|].
    assert (~ In d doms).
    { intros I. assert (existsb (beq d) doms = true).
      { apply existsb_exists. exists d. split; [exact I|apply beq_refl]. }
      congruence. }
    clear X. induction doms as [|a doms IH]; cbn; [constructor; [intros []|constructor]|].
    inversion N; subst. constructor.
    - intros I. apply in_app_or in I. destruct I as [I|[->|[]]]; [auto|].
      apply H. left. reflexivity.
    - apply IH; [assumption|]. intros I. apply H. right. exact I.
  Qed.

  Lemma adds_in doms ds x : In x (adds doms ds) <-> In x doms \/ In x ds.
  Proof.
    revert doms. induction ds as [|d ds IH]; intros doms; cbn; [tauto|].
    fold (adds (add_domain doms d) ds). rewrite IH, add_domain_in. intuition.
  Qed.

  Lemma adds_nodup doms ds : NoDup doms -> NoDup (adds doms ds).
  Proof.
    revert doms. induction ds as [|d ds IH]; intros doms N; cbn; [exact N|].
    apply IH. apply add_domain_nodup. exact N.
  Qed.

  Lemma load_count_app t d a b : load_count t d (a ++ b) = load_count t d a + load_count t d b.
  Proof.
    induction a as [|[e|t' d'] a IH]; cbn [app BundleSpec.load_count]; [reflexivity|exact IH|].
    rewrite IH. lia.
  Qed.

  Lemma load_count_missing (cb : option C) e t d : load_count t d (missing _ _ _ cb e) = 0.
  Proof. destruct cb; reflexivity. Qed.

  Lemma load_count_single t d t' d' :
    load_count t d [EvLoad _ _ t' d'] = if tag_eq_dec t t' then if beq d d' then 1 else 0 else 0.
  Proof. cbn [BundleSpec.load_count]. lia. Qed.

  Fixpoint dcount (d : bytes) (ls : list (bytes * loader)) : nat :=
    match ls with [] => 0 | (k, _) :: ls' => (if beq d k then 1 else 0) + dcount d ls' end.

  Definition no_language_error (t : tag) (ls : list (bytes * loader)) : Prop :=
    forall d ld t', In (d, ld) ls -> ld t d <> inr (ELanguage _ _ t').

  (** a language that can be met *)
  Lemma load_domains_ok cb optional t ls cats doms :
    (forall p, In p ls -> loads t p \/ (optional = true /\ not_found t p)) ->
    exists log, load_domains cb optional t ls cats doms =
                (log, (adds doms (map fst (found t ls)), inl (cats ++ found t ls))) /\
      forall t' d, load_count t' d log = if tag_eq_dec t' t then dcount d ls else 0.
  Proof.
    revert cats doms. induction ls as [|[d ld] ls IH]; intros cats doms H.
    - exists []. split; [cbn; rewrite app_nil_r; reflexivity|].
      intros t' d. cbn. destruct (tag_eq_dec t' t); reflexivity.
    - assert (H' : forall p, In p ls -> loads t p \/ (optional = true /\ not_found t p)).
      { intros p I. apply H. right. exact I. }
      cbn [BundleModel.load_domains found flat_map fst snd].
      change (flat_map _ ls) with (found t ls).
      destruct (H (d, ld) (or_introl eq_refl)) as [(c & Q)|(-> & e & Q)]; cbn [fst snd] in Q;
        rewrite Q.
      + destruct (IH (cats ++ [(d, c)]) (add_domain doms d) H') as (log & R & K).
        rewrite R. exists (EvLoad _ _ t d :: log). split.
        * unfold wbind. cbn [app map fst adds fold_left]. rewrite <- app_assoc. reflexivity.
        * intros t' d'. cbn [BundleSpec.load_count dcount]. rewrite K.
          destruct (tag_eq_dec t' t); [reflexivity|reflexivity].
      + destruct (IH cats doms H') as (log & R & K).
        rewrite R. exists (EvLoad _ _ t d :: missing _ _ _ cb (ENotFound _ _ e) ++ log). split.
        * reflexivity.
        * intros t' d'. cbn [BundleSpec.load_count dcount].
          rewrite load_count_app, load_count_missing, K.
          destruct (tag_eq_dec t' t); reflexivity.
  Qed.

  (** a language that cannot be met *)
  Lemma load_domains_bad cb optional t ls cats doms p :
    no_language_error t ls ->
    In p ls -> ~ loads t p -> ~ (optional = true /\ not_found t p) ->
    exists log doms' e, load_domains cb optional t ls cats doms = (log, (doms', inr e)) /\
      (optional = true -> forall t', e <> ELanguage _ _ t').
  Proof.
    intros NL. revert cats doms. induction ls as [|[d ld] ls IH]; intros cats doms I NLd NN; [destruct I|].
    assert (NL' : no_language_error t ls) by (intros d' ld' t' J; apply NL; right; exact J).
    cbn [BundleModel.load_domains].
    destruct I as [<-|I].
    - unfold BundleSpec.loads in NLd. cbn [fst snd] in NLd.
      destruct (ld t d) as [c|e] eqn:Q; [exfalso; eauto|].
      destruct e as [t0 d0|t0|e| | |e];
        try (do 3 eexists; split; [reflexivity|]; intros _ t' X; discriminate).
      + do 3 eexists. split; [reflexivity|]. intros _ t' X.
        apply (NL d ld t0 (or_introl eq_refl)). exact Q.
      + destruct optional.
        * exfalso. apply NN. split; [reflexivity|]. exists e. exact Q.
        * do 3 eexists. split; [reflexivity|]. discriminate.
    - destruct (ld t d) as [c|e] eqn:Q.
      + destruct (IH NL' (cats ++ [(d, c)]) (add_domain doms d) I NLd NN) as (log & doms' & e & R & K).
        rewrite R. do 3 eexists. split; [reflexivity|exact K].
      + destruct e as [t0 d0|t0|e| | |e];
          try (do 3 eexists; split; [reflexivity|]; intros _ t' X; discriminate).
        * do 3 eexists. split; [reflexivity|]. intros _ t' X.
          apply (NL d ld t0 (or_introl eq_refl)). exact Q.
        * destruct optional.
          -- destruct (IH NL' cats doms I NLd NN) as (log & doms' & e' & R & K).
             rewrite R. do 3 eexists. split; [reflexivity|exact K].
          -- do 3 eexists. split; [reflexivity|]. discriminate.
  Qed.

  Lemma loads_dec t p : loads t p \/ ~ loads t p.
  Proof.
    unfold BundleSpec.loads. destruct (snd p t (fst p)) as [c|e] eqn:Q; [left; eauto|].
    right. intros (c & X). congruence.
  Qed.
  Lemma not_found_dec t p : not_found t p \/ ~ not_found t p.
  Proof.
    unfold BundleSpec.not_found. destruct (snd p t (fst p)) as [c|e] eqn:Q.
    - right. intros (e & X). congruence.
    - destruct e; try (right; intros (e' & X); congruence). left. eauto.
  Qed.

  Lemma all_dec (P : bytes * loader -> Prop) ls :
    (forall p, P p \/ ~ P p) -> (forall p, In p ls -> P p) \/ (exists p, In p ls /\ ~ P p).
  Proof.
    intros D. induction ls as [|p ls [IH|(q & I & N)]].
    - left. intros p [].
    - destruct (D p) as [Y|N].
      + left. intros q [<-|I]; auto.
      + right. exists p. split; [left; reflexivity|exact N].
    - right. exists q. split; [right; exact I|exact N].
  Qed.

  Lemma available_dec ls t : available ls t \/ ~ available ls t.
  Proof.
    destruct (found t ls) as [|fc fr] eqn:F.
    - right. apply found_nil. exact F.
    - left. assert (D : forall p, ~ loads t p \/ ~ ~ loads t p).
      { intros p. destruct (loads_dec t p); [right; tauto|left; assumption]. }
      destruct (all_dec (fun p => ~ loads t p) ls D) as [A|(q & I & N)].
      + exfalso. assert (X : ~ available ls t) by (intros (q & I & L); exact (A q I L)).
        apply found_nil in X. congruence.
      + exists q. split; [exact I|]. destruct (loads_dec t q); [assumption|tauto].
  Qed.

  Lemma dcount_perm d ls ls' : Permutation ls ls' -> dcount d ls = dcount d ls'.
  Proof. induction 1 as [|[k l] a b P IH|[k l] [k' l'] a|a b c P IH P' IH']; cbn [dcount]; lia. Qed.

  Lemma dcount_nodup d ls :
    NoDup (map fst ls) -> (In d (map fst ls) -> dcount d ls = 1) /\ (~ In d (map fst ls) -> dcount d ls = 0).
  Proof.
    induction ls as [|[k l] ls IH]; intros N; [split; [intros []|reflexivity]|].
    cbn [map fst] in N. inversion N; subst. destruct (IH H2) as [A B].
    cbn [map fst dcount In]. destruct (beq d k) eqn:Q.
    - apply beq_eq in Q. subst. split; [|tauto]. intros _. rewrite B; [reflexivity|assumption].
    - apply beq_neq in Q. split; intros I; [|apply B; tauto].
      destruct I as [I|I]; [congruence|]. apply A. exact I.
  Qed.

  Lemma loc_get_in m t l : loc_get m t = Some l -> In (t, l) m.
  Proof.
    induction m as [|[k v] m IH]; [discriminate|]. cbn [LocaleModel.loc_get].
    destruct (tag_eq_dec k t) as [->|Q].
    - injection 1 as <-. left. reflexivity.
    - intros H. right. auto.
  Qed.
  Lemma loc_get_none m t : loc_get m t = None <-> ~ In t (map fst m).
  Proof.
    induction m as [|[k v] m IH]; cbn [LocaleModel.loc_get map fst In]; [tauto|].
    destruct (tag_eq_dec k t) as [->|Q]; [split; [discriminate|tauto]|]. rewrite IH. tauto.
  Qed.
  Lemma loc_get_nodup m t l : NoDup (map fst m) -> In (t, l) m -> loc_get m t = Some l.
  Proof.
    induction m as [|[k v] m IH]; intros N I; [destruct I|]. cbn [map fst] in N. inversion N; subst.
    cbn [LocaleModel.loc_get]. destruct (tag_eq_dec k t) as [->|Q].
    - destruct I as [I|I]; [congruence|]. exfalso. apply H1. apply (in_map fst) in I. exact I.
    - destruct I as [I|I]; [congruence|]. auto.
  Qed.
  Lemma loc_set_keys m t l x : In x (map fst (loc_set m t l)) <-> In x (map fst m) \/ x = t.
  Proof.
    induction m as [|[k v] m IH]; cbn [BundleModel.loc_set map fst In]; [intuition|].
    destruct (tag_eq_dec k t) as [->|Q]; cbn [map fst In]; [intuition congruence|].
    rewrite IH. tauto.
  Qed.
  Lemma loc_set_nodup m t l : NoDup (map fst m) -> NoDup (map fst (loc_set m t l)).
  Proof.
    induction m as [|[k v] m IH]; intros N; cbn [BundleModel.loc_set map fst].
    - constructor; [intros []|constructor].
    - cbn [map fst] in N. inversion N; subst. destruct (tag_eq_dec k t) as [->|Q]; cbn [map fst].
      + constructor; assumption.
      + constructor; [|auto]. rewrite loc_set_keys. intros [I|I]; [auto|congruence].
  Qed.
  Lemma loc_set_in m t l x y :
    NoDup (map fst m) -> In (x, y) (loc_set m t l) <-> (x = t /\ y = l) \/ (x <> t /\ In (x, y) m).
  Proof.
    induction m as [|[k v] m IH]; intros N; cbn [BundleModel.loc_set In].
    - split; [intros [X|[]]; left; split; congruence|intros [[-> ->]|[_ []]]; left; reflexivity].
    - cbn [map fst] in N. inversion N; subst.
      destruct (tag_eq_dec k t) as [->|Q]; cbn [In].
      + split.
        * intros [X|X]; [left; split; congruence|]. right. split; [|tauto].
          intros ->. apply H1. apply (in_map fst) in X. exact X.
        * intros [[-> ->]|[X [Y|Y]]]; [left; reflexivity|congruence|right; exact Y].
      + rewrite IH by assumption. split.
        * intros [X|[X|X]]; [|tauto|tauto]. right. split; [congruence|left; exact X].
        * intros [X|[X [Y|Y]]]; tauto.
  Qed.

  (** ** The state after some requests *)
  Section Run.
    Variable u0 : builder.
    Notation s := (u_source u0).
    Notation L := (u_loaders u0).
    Hypothesis L_nodup : NoDup (map fst L).
    Hypothesis L_contract : contract tag any E L.
    Hypothesis u0_start : u_languages u0 = [] /\ u_locales u0 = [] /\ u_domains u0 = [].
    Notation can_meet := (can_meet tag und any E s L).
    Notation languages := (languages tag und any E s L).

    Definition good_locale (t : tag) (l : locale) : Prop :=
      (t = s /\ l = build_source_locale u0 s) \/
      (t <> s /\ exists cats, l = build_locale u0 t cats /\ NoDup (map fst cats) /\
         forall d c, In (d, c) cats <-> exists ld, In (d, ld) L /\ ld t d = inl c).

    Record Inv (rs : list (bool * tag)) (log : list event) (u : builder) : Prop := {
      i_frame : u = set_locales u0 (u_languages u) (u_locales u) (u_domains u);
      i_nodup : NoDup (map fst (u_locales u));
      i_locs : forall t l, In (t, l) (u_locales u) -> good_locale t l;
      i_keys : forall t, In t (map fst (u_locales u)) <->
                 In t (map snd rs) /\ t <> und /\ (t = s \/ available L t);
      i_langs : languages rs (u_languages u);
      i_once : forall t d, In t (map fst (u_locales u)) -> t <> s ->
                 load_count t d log = dcount d L;
      i_never : forall t d, t = s \/ ~ In t (map snd rs) -> load_count t d log = 0;
      i_clean : forall t, In t (map fst (u_locales u)) -> t <> s ->
                  forall p, In p L -> loads t p \/ not_found t p;
      i_dnodup : NoDup (u_domains u);
      i_doms : forall d, In d (u_domains u) <->
                 exists t l c, In (t, l) (u_locales u) /\ In (d, c) (l_cats _ _ _ l)
    }.

    Lemma inv_start : Inv [] [] u0.
    Proof.
      destruct u0_start as (A & B & D). constructor; rewrite ?A, ?B, ?D.
      - rewrite <- A, <- B, <- D. destruct u0. reflexivity.
      - constructor.
      - intros t l [].
      - intros t. cbn. tauto.
      - constructor.
      - intros t d [].
      - reflexivity.
      - intros t [].
      - constructor.
      - intros d. split; [intros []|intros (t & l & c & [] & _)].
    Qed.

    Lemma frame_fields u lg lo dm :
      u = set_locales u0 lg lo dm ->
      u_source u = s /\ u_loaders u = L /\ u_callback u = u_callback u0 /\
      (forall x, build_source_locale u x = build_source_locale u0 x) /\
      (forall x y, build_locale u x y = build_locale u0 x y) /\
      forall a b c, set_locales u a b c = set_locales u0 a b c.
    Proof. intros ->. repeat split. Qed.

    Notation step past o a u := (preload past o [a] u).

    Lemma in_snoc (rs : list (bool * tag)) o t x :
      In x (map snd (rs ++ [(o, t)])) <-> In x (map snd rs) \/ x = t.
    Proof. rewrite map_app, in_app_iff. cbn. intuition. Qed.

    (** a request that changes nothing but was seen *)
    Lemma inv_same rs log u o t lg :
      Inv rs log u ->
      (In t (map snd rs) \/ t = und \/ ~ available L t) -> (t <> s \/ t = und) ->
      (forall t' d, load_count t' d lg = 0 \/ (t' = t /\ t' <> s /\ ~ In t (map fst (u_locales u)))) ->
      Inv (rs ++ [(o, t)]) (log ++ lg) u.
    Proof.
      intros I H S K. destruct I. constructor; try assumption.
      - intros x. rewrite i_keys0, in_snoc. split; [tauto|]. intros ([A| ->] & B & D); [tauto|].
        split; [|tauto]. destruct H as [H|[H|H]]; [exact H|contradiction|].
        destruct D as [D|D]; [|contradiction]. destruct S; congruence.
      - destruct H as [H|[H|H]].
        + destruct S as [S| ->].
          * apply g_old; assumption.
          * apply g_none; [left; reflexivity|assumption].
        + apply g_none; [left; exact H|assumption].
        + destruct S as [S| ->].
          * apply g_none; [right; split; assumption|assumption].
          * apply g_none; [left; reflexivity|assumption].
      - intros x d X N. rewrite load_count_app, (i_once0 x d X N).
        destruct (K x d) as [Z|(-> & _ & Z)]; [lia|contradiction].
      - intros x d X. rewrite load_count_app.
        destruct (K x d) as [Z|(-> & Z1 & Z2)].
        + rewrite Z. rewrite (i_never0 x d); [lia|].
          destruct X as [X|X]; [left; exact X|]. right. rewrite in_snoc in X. tauto.
        + exfalso. destruct X as [X|X]; [contradiction|]. apply X. apply in_snoc. right. reflexivity.
    Qed.

    Lemma step_spec past rs log u o a t :
      Inv rs log u -> name a = inl t ->
      (exists lg u1, step past o a u = (lg, (u1, None)) /\
         can_meet rs (o, t) /\ Inv (rs ++ [(o, t)]) (log ++ lg) u1) \/
      (exists lg u1 e, step past o a u = (lg, (u1, Some e)) /\ ~ can_meet rs (o, t)).
    Proof.
      intros I N. pose proof I as I0. destruct I0.
      destruct (frame_fields _ _ _ _ i_frame0) as (f1 & f2 & f3 & f4 & f5 & f6).
      cbn [BundleModel.preload]. rewrite N. unfold BundleModel.create_locale.
      destruct (tag_eq_dec t und) as [U|U].
      { (* und *)
        unfold wret. destruct o.
        - left. do 2 eexists. split; [reflexivity|]. split.
          + split; [reflexivity|]. intros X. contradiction.
          + apply inv_same; [exact I|tauto|tauto|].
            intros t' d. left. rewrite app_nil_r. cbn [app]. apply load_count_missing.
        - right. do 3 eexists. split; [reflexivity|]. intros (X & _). specialize (X U). discriminate. }
      rewrite f1. destruct (tag_eq_dec t s) as [S|S].
      { (* source *)
        left. unfold wret. cbn [app]. rewrite f4, f6. do 2 eexists. split; [reflexivity|].
        split; [split; [intros; contradiction|intros; contradiction]|].
        subst t. constructor; cbn.
        - reflexivity.
        - apply loc_set_nodup. assumption.
        - intros t l J. apply loc_set_in in J; [|assumption].
          destruct J as [[-> ->]|[_ J]]; [left; split; reflexivity|apply i_locs0; exact J].
        - intros t. rewrite loc_set_keys, i_keys0, in_snoc. intuition congruence.
        - apply g_source; assumption.
        - intros t d J X. rewrite app_nil_r. apply i_once0; [|exact X].
          apply loc_set_keys in J. destruct J as [J|J]; [exact J|contradiction].
        - intros t d J. rewrite app_nil_r. apply i_never0.
          destruct J as [J|J]; [left; exact J|]. right. rewrite in_snoc in J. tauto.
        - intros t J X. apply i_clean0; [|exact X].
          apply loc_set_keys in J. destruct J as [J|J]; [exact J|contradiction].
        - assumption.
        - intros d. rewrite i_doms0. split.
          + intros (t & l & c & J & K). exists t, l, c. split; [|exact K].
            apply loc_set_in; [assumption|]. destruct (tag_eq_dec t s) as [->|Q]; [|tauto].
            exfalso. destruct (i_locs0 _ _ J) as [(_ & X)|(X & _)]; [|contradiction].
            subst l. cbn in K. destruct K.
          + intros (t & l & c & J & K). exists t, l, c. split; [|exact K].
            apply loc_set_in in J; [|assumption]. destruct J as [[-> ->]|[_ J]]; [|exact J].
            cbn in K. destruct K. }
      destruct (loc_get (u_locales u) t) as [l|] eqn:G.
      { (* cached *)
        apply loc_get_in in G. pose proof (in_map fst _ _ G) as G1. cbn [fst] in G1.
        pose proof (proj1 (i_keys0 t) G1) as (R & _ & A).
        destruct A as [A|A]; [contradiction|].
        left. unfold wret. cbn [app]. do 2 eexists. split; [reflexivity|]. split.
        - split; [intros; contradiction|]. intros _ _. destruct o; [apply i_clean0; assumption|].
          right. tauto.
        - apply inv_same; [exact I|tauto|tauto|]. intros; left; reflexivity. }
      (* a new language *)
      apply loc_get_none in G. rewrite f2.
      pose proof (iter_perm _ past L) as P.
      assert (PI : forall p, In p (iter _ past L) <-> In p L).
      { intros p. split; apply Permutation_in; [exact P|apply Permutation_sym; exact P]. }
      assert (PA : available (iter _ past L) t <-> available L t).
      { unfold BundleSpec.available. split; intros (p & J & K); exists p; (split; [apply PI; exact J|exact K]). }
      assert (NR : In t (map snd rs) -> ~ available L t).
      { intros J A. apply G. apply i_keys0. tauto. }
      set (Q := fun p => loads t p \/ (o = true /\ not_found t p)).
      assert (QD : forall p, Q p \/ ~ Q p).
      { intros p. unfold Q. destruct (loads_dec t p), (not_found_dec t p), o; intuition congruence. }
      destruct (all_dec Q (iter _ past L) QD) as [Y|(p & J & Z)].
      2:{ (* some catalog is broken, or missing though required *)
        destruct (load_domains_bad (u_callback u) o t (iter _ past L) [] (u_domains u) p)
          as (lg & dm & e & R & K).
        { intros d ld t' X. apply L_contract. apply PI. exact X. }
        { exact J. }
        { unfold Q in Z. tauto. }
        { unfold Q in Z. tauto. }
        rewrite R. unfold wbind, wret.
        assert (M : ~ can_meet rs (o, t)).
        { intros (_ & M). specialize (M U S). apply PI in J. unfold Q in Z. destruct o.
          - specialize (M p J). tauto.
          - destruct M as [(_ & M)|(M1 & M2)]; [specialize (M p J); tauto|]. exact (NR M1 M2). }
        right. destruct o.
        - specialize (K eq_refl).
          destruct e as [t0 d0|t0|e| | |e];
            try (do 3 eexists; split; [reflexivity|exact M]).
          exfalso. exact (K t0 eq_refl).
        - do 3 eexists. split; [reflexivity|exact M]. }
      destruct (load_domains_ok (u_callback u) o t (iter _ past L) [] (u_domains u) Y)
        as (lg & R & K).
      rewrite R. unfold wbind, wret. cbn [app].
      destruct (found t (iter _ past L)) as [|fc fr] eqn:F.
      { (* no catalog at all *)
        apply found_nil in F. rewrite PA in F.
        assert (SU : set_locales u (u_languages u) (u_locales u) (adds (u_domains u) (map fst (@nil (bytes * catalog)))) = u).
        { rewrite f6. symmetry. exact i_frame0. }
        destruct o.
        - left. do 2 eexists. split; [rewrite SU; reflexivity|]. split.
          + split; [reflexivity|]. intros _ _ p J. destruct (Y p) as [X|X]; [apply PI; exact J| |];
              [left; exact X|right; tauto].
          + rewrite !app_nil_r. apply inv_same; [exact I|tauto|tauto|].
            intros t' d. rewrite load_count_app, load_count_missing, K.
            destruct (tag_eq_dec t' t) as [->|X]; [right; tauto|left; reflexivity].
        - right. do 3 eexists. split; [reflexivity|]. intros (_ & M). specialize (M U S).
          destruct M as [(M1 & M2)|(M1 & M2)]; [|contradiction].
          apply F. destruct L as [|q L'] eqn:QL; [congruence|].
          exists q. split; [left; reflexivity|]. apply M2. left. reflexivity. }
      (* loaded *)
      assert (A : available L t).
      { destruct (available_dec L t) as [A|A]; [exact A|]. rewrite <- PA in A. apply found_nil in A. congruence. }
      rewrite f5, f6. left. do 2 eexists. split; [reflexivity|].
      rewrite !app_nil_r.
      assert (NRS : ~ In t (map snd rs)) by (intros J; exact (NR J A)).
      split.
      { split; [intros; contradiction|]. intros _ _. destruct o.
        - intros p J. destruct (Y p) as [X|X]; [apply PI; exact J| |]; [left; exact X|right; tauto].
        - left. split.
          + intros X. destruct A as (p & J & _). rewrite X in J. exact J.
          + intros p J. destruct (Y p) as [X|(X & _)]; [apply PI; exact J|exact X|discriminate]. }
      assert (FI : forall d c, In (d, c) (fc :: fr) <-> exists ld, In (d, ld) L /\ ld t d = inl c).
      { intros d c. rewrite <- F, found_in. split; intros (ld & J & X); exists ld; (split; [apply PI; exact J|exact X]). }
      assert (FN : NoDup (map fst (fc :: fr))).
      { rewrite <- F. apply found_nodup. eapply Permutation_NoDup; [|exact L_nodup].
        apply Permutation_map. apply Permutation_sym. exact P. }
      constructor; cbn -[adds].
      - reflexivity.
      - apply loc_set_nodup. assumption.
      - intros x l J. apply loc_set_in in J; [|assumption].
        destruct J as [[-> ->]|[_ J]]; [|apply i_locs0; exact J].
        right. split; [exact S|]. exists (fc :: fr). auto.
      - intros x. rewrite loc_set_keys, i_keys0, in_snoc. split.
        + intros [(X1 & X2 & X3)| ->]; tauto.
        + intros ([X| ->] & X2 & X3); tauto.
      - apply g_new; assumption.
      - intros x d J X. rewrite load_count_app, K. apply loc_set_keys in J.
        destruct (tag_eq_dec x t) as [->|Q'].
        + rewrite (i_never0 t d (or_intror NRS)). apply dcount_perm. exact P.
        + destruct J as [J|J]; [|contradiction]. rewrite (i_once0 x d J X). lia.
      - intros x d J. rewrite load_count_app, K. rewrite in_snoc in J.
        destruct (tag_eq_dec x t) as [->|Q']; [exfalso; destruct J as [J|J]; tauto|].
        rewrite i_never0; [lia|]. tauto.
      - intros x J X p W. apply loc_set_keys in J. destruct (tag_eq_dec x t) as [->|Q'].
        + destruct (Y p) as [Z|Z]; [apply PI; exact W| |]; tauto.
        + destruct J as [J|J]; [|contradiction]. exact (i_clean0 x J X p W).
      - apply adds_nodup. assumption.
      - intros d. rewrite adds_in, i_doms0. split.
        + intros [(x & l & c & J & X)|J].
          * exists x, l, c. split; [|exact X]. apply loc_set_in; [assumption|]. right. split; [|exact J].
            intros ->. apply G. apply (in_map fst) in J. exact J.
          * apply (in_map_iff fst (fc :: fr)) in J. destruct J as ([d' c] & X & J). cbn in X. subst d'.
            exists t, (build_locale u0 t (fc :: fr)), c. split; [|exact J].
            apply loc_set_in; [assumption|]. left. split; reflexivity.
        + intros (x & l & c & J & X). apply loc_set_in in J; [|assumption].
          destruct J as [[-> ->]|[_ J]]; [|left; eauto].
          right. cbn in X. apply (in_map fst (fc :: fr)) in X. exact X.
    Qed.

    (** all requests *)
    Lemma run_reqs_spec past rs log u args :
      Inv rs log u ->
      (exists lg u1 rs', run_reqs past args u = (lg, (u1, None)) /\
         Forall2 (named tag E name) args rs' /\
         (forall before r after, rs' = before ++ r :: after -> can_meet (rs ++ before) r) /\
         Inv (rs ++ rs') (log ++ lg) u1) \/
      (exists lg u1 e, run_reqs past args u = (lg, (u1, Some e)) /\
         forall rs', Forall2 (named tag E name) args rs' ->
           ~ (forall before r after, rs' = before ++ r :: after -> can_meet (rs ++ before) r)).
    Proof.
      revert past rs log u. induction args as [|[o a] args IH]; intros past rs log u I.
      - left. exists [], u, []. split; [reflexivity|]. split; [constructor|]. split.
        + intros before r after X. destruct before; discriminate.
        + rewrite !app_nil_r. exact I.
      - cbn [run_reqs]. destruct (name a) as [t|e] eqn:N.
        + destruct (step_spec past rs log u o a t I N) as [(lg & u1 & R & M & I1)|(lg & u1 & e & R & M)];
            rewrite R.
          * destruct (IH (past ++ lg) (rs ++ [(o, t)]) (log ++ lg) u1 I1)
              as [(lg2 & u2 & rs' & R2 & F & M2 & I2)|(lg2 & u2 & e & R2 & M2)]; rewrite R2.
            -- left. exists (lg ++ lg2), u2, ((o, t) :: rs'). split; [reflexivity|].
               split; [constructor; [split; [reflexivity|exact N]|exact F]|]. split.
               ++ intros before r after X. destruct before as [|b before].
                  ** injection X as <- <-. rewrite app_nil_r. exact M.
                  ** injection X as <- X. specialize (M2 before r after X).
                     rewrite <- app_assoc in M2. exact M2.
               ++ rewrite <- !app_assoc in I2. exact I2.
            -- right. exists (lg ++ lg2), u2, e. split; [reflexivity|].
               intros rs' F X. inversion F as [|x [o' t'] y rs2 (Q1 & Q2) F2]; subst.
               cbn [fst snd] in Q1, Q2. rewrite N in Q2. injection Q2 as <-. subst o'.
               apply (M2 rs2 F2). intros before r after Y.
               rewrite <- app_assoc. apply (X ((o, t) :: before) r after). rewrite Y. reflexivity.
          * right. exists lg, u1, e. split; [reflexivity|].
            intros rs' F X. inversion F as [|x [o' t'] y rs2 (Q1 & Q2) F2]; subst.
            cbn [fst snd] in Q1, Q2. rewrite N in Q2. injection Q2 as <-. subst o'.
            apply M. specialize (X [] (o, t) rs2 eq_refl). rewrite app_nil_r in X. exact X.
        + right. cbn [BundleModel.preload]. rewrite N. unfold wret. do 3 eexists.
          split; [reflexivity|]. intros rs' F X.
          inversion F as [|x [o' t'] y rs2 (Q1 & Q2) F2]; subst. cbn [snd] in Q2. congruence.
    Qed.
  End Run.
End Proofs.
