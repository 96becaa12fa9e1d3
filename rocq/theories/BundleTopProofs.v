(** Proofs about NewBundle as a whole and about the localizers it gives. *)
From Coq Require Import String Ascii List ZArith Bool Lia Permutation.
From Verif Require Import Base BaseProofs LocaleModel BundleModel LocaleSpec LocaleProofs
  BundleSpec BundleProofs BundleRunProofs.
Import ListNotations.
Open Scope nat_scope.

Section Proofs.
  Variable tag : Type.
  Variable tag_eq_dec : forall a b : tag, {a = b} + {a <> b}.
  Variable und : tag.
  Variable any E C : Type.
  Variable parse : bytes -> tag + E.
  Variable trim_space : bytes -> bytes.
  Variable plural_for : tag -> plural_func any E.
  Variable iter : forall A, list (event tag E) -> list A -> list A.
  Variable no_string opt_error : E.
  Variable default_printer : printer tag any.
  Variable default_matcher : matcher_builder tag.
  Hypothesis iter_perm : forall A past (l : list A), Permutation (iter A past l) l.

  Notation bundle := (bundle tag any E C).
  Notation opt := (opt tag any E C).
  Notation locale := (locale tag any E).
  Notation name := (lang_tag tag E parse trim_space no_string).
  Notation new_bundle := (new_bundle tag tag_eq_dec und any E C parse trim_space plural_for iter
                            no_string opt_error default_printer default_matcher).
  Notation valid := (valid tag any E C name).
  Notation loaders_of := (loaders_of tag any E C).
  Notation requests_of := (requests_of tag any E C name).
  Notation source_of := (source_of tag und any E C).
  Notation fallback_of := (fallback_of tag und any E C name).
  Notation setting := (setting tag any E C).
  Notation sets_source := (sets_source tag any E C).
  Notation sets_fallback := (sets_fallback tag any E C name).
  Notation sets_callback := (sets_callback tag any E C).
  Notation sets_domain := (sets_domain tag any E C).
  Notation sets_printer := (sets_printer tag any E C).
  Notation sets_matcher := (sets_matcher tag any E C).
  Notation sets_err_ctx := (sets_err_ctx tag any E C).
  Notation contract := (contract tag any E).
  Notation all_met := (all_met tag und any E).
  Notation languages := (languages tag und any E).
  Notation available := (available tag any E).
  Notation load_count := (load_count tag tag_eq_dec E).
  Notation b_locales := (b_locales tag any E C).
  Notation b_languages := (b_languages tag any E C).
  Notation b_source := (b_source tag any E C).
  Notation b_fallback := (b_fallback tag any E C).
  Notation l_cats := (l_cats tag any E).
  Notation l_lang := (l_lang tag any E).
  Notation loc_get := (loc_get tag tag_eq_dec any E).
  Notation printer_of os := (setting sets_printer default_printer os).

  (** a locale as the options define it *)
  Record locale_ok (os : list opt) (t : tag) (l : locale) : Prop := {
    k_lang : l_lang l = t;
    k_print : l_print _ _ _ l = printer_of os t;
    k_plural : l_plural _ _ _ l = plural_for t;
    k_source : l_source _ _ _ l = true <-> t = source_of os;
    k_cats : NoDup (map fst (l_cats l));
    k_backed : forall d c, In (d, c) (l_cats l) <->
        t <> source_of os /\ exists ld, In (d, ld) (loaders_of os) /\ ld t d = inl c
  }.

  Record made (os : list opt) (rs : list (bool * tag)) (log : list (event tag E)) (b : bundle) : Prop := {
    m_named : Forall2 (named tag E name) (requests_of os) rs;
    m_met : all_met (source_of os) (loaders_of os) rs;
    m_callback : b_callback _ _ _ _ b = setting sets_callback None os;
    m_domain : b_default_domain _ _ _ _ b = setting sets_domain [] os;
    m_err_ctx : b_err_ctx _ _ _ _ b = setting sets_err_ctx (bs "errors") os;
    m_match : b_match _ _ _ _ b = setting sets_matcher default_matcher os (b_languages b);
    m_nodup : NoDup (map fst (b_locales b));
    m_locs : forall t l, In (t, l) (b_locales b) -> locale_ok os t l;
    m_keys : forall t, In t (map fst (b_locales b)) <->
        In t (map snd rs) /\ t <> und /\ (t = source_of os \/ available (loaders_of os) t);
    m_langs : languages (source_of os) (loaders_of os) rs (b_languages b);
    m_source : locale_ok os (source_of os) (b_source b);
    m_source_in : In (source_of os) (map fst (b_locales b)) ->
        In (source_of os, b_source b) (b_locales b);
    m_fallback : (In (fallback_of os, b_fallback b) (b_locales b)) \/
        (~ In (fallback_of os) (map fst (b_locales b)) /\ b_fallback b = b_source b);
    m_once : forall t d, In t (map fst (b_locales b)) -> t <> source_of os ->
        In d (map fst (loaders_of os)) -> load_count t d log = 1;
    m_never : forall t d, t = source_of os \/ ~ In t (map snd rs) -> load_count t d log = 0;
    m_dnodup : NoDup (b_domains _ _ _ _ b);
    m_doms : forall d, In d (b_domains _ _ _ _ b) <->
        exists t l c, In (t, l) (b_locales b) /\ In (d, c) (l_cats l)
  }.

  Lemma start_loaders : BundleModel.u_loaders tag any E C
     (start tag und any E C default_printer default_matcher) = [].
  Proof. reflexivity. Qed.

  Lemma new_bundle_cases os :
    contract (loaders_of os) ->
    (exists log b rs, new_bundle os = (log, inl b) /\ valid os /\ made os rs log b) \/
    (exists log e, new_bundle os = (log, inr e) /\
       ~ (valid os /\ exists rs, Forall2 (named tag E name) (requests_of os) rs /\
                        all_met (source_of os) (loaders_of os) rs)).
  Proof.
    intros K. unfold BundleModel.new_bundle.
    set (u := start tag und any E C default_printer default_matcher).
    destruct (apply_opts tag any E C parse trim_space no_string opt_error os u) as [u0|e] eqn:A.
    2:{ right. unfold wret. do 2 eexists. split; [reflexivity|]. intros ((V & N) & _).
        destruct (apply_opts_ok tag und any E C parse trim_space plural_for no_string opt_error os u V N)
          as (u' & A' & _).
        congruence. }
    destruct (apply_opts_valid tag und any E C parse trim_space plural_for no_string opt_error os u u0) as (V & N).
    { constructor. }
    { exact A. }
    cbn [app] in N.
    destruct (apply_opts_ok tag und any E C parse trim_space plural_for no_string opt_error os u V N)
      as (u0' & A' & f1 & f2 & f3 & f4 & f5 & f6 & f7 & f8 & f9 & f10 & f11 & f12).
    rewrite A in A'. injection A' as <-.
    cbn in f1, f2, f3, f4, f5, f6, f7, f8, f9, f10, f11, f12.
    change (u_source tag any E C u0 = source_of os) in f1.
    change (u_fallback tag any E C u0 = fallback_of os) in f2.
    rewrite run_actions_reqs, f9.
    assert (LN : NoDup (map fst (u_loaders tag any E C u0))) by (rewrite f8; exact N).
    assert (LK : contract (u_loaders tag any E C u0)) by (rewrite f8; exact K).
    assert (I0 : Inv tag tag_eq_dec und any E C plural_for u0 [] [] u0).
    { apply inv_start; auto. }
    destruct (run_reqs_spec tag tag_eq_dec und any E C parse trim_space plural_for iter no_string
                iter_perm u0 LN LK (conj f10 (conj f11 f12)) [] [] [] u0 (requests_of os) I0)
      as [(lg & u1 & rs & R & F & M & I)|(lg & u1 & e & R & M)]; rewrite R.
    - left. exists lg, (finish tag tag_eq_dec any E C plural_for u1), rs.
      split; [reflexivity|]. split; [split; assumption|].
      cbn [app] in M, I. destruct I.
      assert (FR : forall t l, good_locale tag any E C plural_for u0 t l -> locale_ok os t l).
      { intros t l [(-> & ->)|(X & cats & -> & N1 & N2)].
        - constructor; cbn; try reflexivity.
          + rewrite f5. reflexivity.
          + split; [intros _; exact f1|reflexivity].
          + constructor.
          + intros d c. split; [intros []|intros (Y & _); rewrite f1 in Y; congruence].
        - constructor; cbn; try reflexivity.
          + rewrite f5. reflexivity.
          + rewrite f1 in X. split; [discriminate|contradiction].
          + exact N1.
          + intros d c. rewrite N2, f8, f1 in *. tauto. }
      assert (SRC : u_source tag any E C u1 = source_of os).
      { rewrite i_frame. cbn. exact f1. }
      assert (FB : u_fallback tag any E C u1 = fallback_of os).
      { rewrite i_frame. cbn. exact f2. }
      assert (BS : build_source_locale tag any E C plural_for u1 (source_of os) =
                   build_source_locale tag any E C plural_for u0 (source_of os)).
      { rewrite i_frame. reflexivity. }
      rewrite f1, f8 in *.
      constructor; try assumption.
      + cbn. rewrite i_frame. cbn. exact f3.
      + cbn. rewrite i_frame. cbn. exact f4.
      + cbn. rewrite i_frame. cbn. exact f7.
      + cbn. rewrite i_frame at 1. cbn. rewrite f6. reflexivity.
      + intros t l J. apply FR. apply i_locs. exact J.
      + cbn. rewrite SRC. destruct (loc_get (u_locales tag any E C u1) (source_of os)) as [l|] eqn:G.
        * apply loc_get_in in G. apply FR, i_locs. exact G.
        * apply FR. left. split; [symmetry; exact f1|]. rewrite BS, f1. reflexivity.
      + cbn. rewrite SRC. intros J.
        destruct (loc_get (u_locales tag any E C u1) (source_of os)) as [l|] eqn:G.
        * apply loc_get_in in G. exact G.
        * apply loc_get_none in G; [|exact und|exact plural_for]. contradiction.
      + cbn. rewrite SRC, FB.
        destruct (loc_get (u_locales tag any E C u1) (fallback_of os)) as [l|] eqn:G.
        * left. apply loc_get_in in G. exact G.
        * right. apply loc_get_none in G; [|exact und|exact plural_for]. split; [exact G|reflexivity].
      + intros t d J X Y. rewrite i_once by assumption.
        apply (dcount_nodup tag und any E parse trim_space plural_for); assumption.
    - right. do 2 eexists. split; [reflexivity|].
      intros (_ & rs & F & X). apply (M rs F). cbn [app]. rewrite f1, f8. exact X.
  Qed.

  Lemma new_bundle_made os log b :
    contract (loaders_of os) -> new_bundle os = (log, inl b) ->
    valid os /\ exists rs, made os rs log b.
  Proof.
    intros K R. destruct (new_bundle_cases os K) as [(log' & b' & rs & R' & V & M)|(log' & e & R' & _)].
    - rewrite R in R'. injection R' as <- <-. split; [exact V|]. exists rs. exact M.
    - congruence.
  Qed.

  Lemma new_bundle_iff os :
    contract (loaders_of os) ->
    (exists log b, new_bundle os = (log, inl b)) <->
    valid os /\ exists rs, Forall2 (named tag E name) (requests_of os) rs /\
                           all_met (source_of os) (loaders_of os) rs.
  Proof.
    intros K. destruct (new_bundle_cases os K) as [(log & b & rs & R & V & M)|(log & e & R & N)].
    - split; [|eauto]. intros _. split; [exact V|]. exists rs. split; [apply (m_named _ _ _ _ M)|apply (m_met _ _ _ _ M)].
    - split; [|tauto]. intros (log' & b & R'). congruence.
  Qed.

  (** ** Localizers *)
  Notation localizer := (localizer tag any E C).
  Notation wf := (wf tag any E C).
  Notation from_tag := (new_localizer_from_tag tag tag_eq_dec any E C).

  Lemma made_same_lang os rs log b t l t' l' :
    made os rs log b -> In (t, l) (b_locales b) -> In (t', l') (b_locales b) ->
    l_lang l = l_lang l' -> l = l'.
  Proof.
    intros M I J Q. pose proof (k_lang _ _ _ (m_locs _ _ _ _ M _ _ I)) as A.
    pose proof (k_lang _ _ _ (m_locs _ _ _ _ M _ _ J)) as B.
    assert (t = t') by congruence. subst t'.
    pose proof (loc_get_nodup tag tag_eq_dec any E _ _ _ (m_nodup _ _ _ _ M) I).
    pose proof (loc_get_nodup tag tag_eq_dec any E _ _ _ (m_nodup _ _ _ _ M) J). congruence.
  Qed.

  Lemma from_tag_wf os rs log b d t : made os rs log b -> wf (from_tag b d t).
  Proof.
    intros M.
    assert (NS : NoDup (map fst (l_cats (b_source b)))) by apply (k_cats _ _ _ (m_source _ _ _ _ M)).
    assert (NF : NoDup (map fst (l_cats (b_fallback b)))).
    { destruct (m_fallback _ _ _ _ M) as [J|(_ & ->)]; [|exact NS].
      apply (k_cats _ _ _ (m_locs _ _ _ _ M _ _ J)). }
    assert (SS : l_source _ _ _ (b_source b) = true).
    { apply (k_source _ _ _ (m_source _ _ _ _ M)). reflexivity. }
    assert (FB : wf {| z_bundle := b; z_locale := b_fallback b; z_domain := d; z_found := false |}).
    { split; [exact SS|]. split; [reflexivity|].
      intros l [<-|[<-|[<-|[]]]]; cbn; assumption. }
    unfold new_localizer_from_tag. destruct t as [t|]; [|exact FB].
    destruct (loc_get (b_locales b) t) as [l|] eqn:G; [|exact FB].
    apply loc_get_in in G. split; [exact SS|]. split; cbn.
    - intros Q. destruct (m_fallback _ _ _ _ M) as [J|(N & J)].
      + eapply made_same_lang; [exact M|exact G|exact J|exact Q].
      + rewrite J in *. rewrite (k_lang _ _ _ (m_source _ _ _ _ M)) in Q.
        rewrite (k_lang _ _ _ (m_locs _ _ _ _ M _ _ G)) in Q. subst t.
        eapply made_same_lang; [exact M|exact G| |].
        * apply (m_source_in _ _ _ _ M). apply (in_map fst) in G. exact G.
        * rewrite (k_lang _ _ _ (m_source _ _ _ _ M)). apply (k_lang _ _ _ (m_locs _ _ _ _ M _ _ G)).
    - intros x [<-|[<-|[<-|[]]]]; cbn; [|assumption|assumption].
      apply (k_cats _ _ _ (m_locs _ _ _ _ M _ _ G)).
  Qed.

  Lemma languages_in s L rs ts t :
    languages s L rs ts -> In t ts <-> In t (map snd rs) /\ t <> und /\ (t = s \/ available L t).
  Proof.
    intros H. revert t. induction H as [|rs o ts U H IH|rs o t ts U S A N H IH|rs o t ts S I H IH|rs o t ts X H IH];
      intros x; rewrite ?map_app, ?in_app_iff; cbn [map snd In]; rewrite ?IH.
    - tauto.
    - intuition congruence.
    - split; [intros [X|[X|[]]]; [tauto|subst; tauto]|].
      intros ([X|[X|[]]] & Y & Z); [tauto|subst; tauto].
    - split; [tauto|]. intros ([X|[X|[]]] & Y & Z); [tauto|subst; tauto].
    - split; [tauto|]. intros ([Y|[Y|[]]] & Z & W); [tauto|]. subst x.
      destruct X as [X|[X1 X2]]; [contradiction|]. destruct W; contradiction.
  Qed.

  (** every listed language has a locale *)
  Lemma made_languages os rs log b t :
    made os rs log b -> In t (b_languages b) <-> In t (map fst (b_locales b)).
  Proof.
    intros M. rewrite (languages_in _ _ _ _ _ (m_langs _ _ _ _ M)), (m_keys _ _ _ _ M). tauto.
  Qed.

  (** ** Order of options *)
  Definition once {A} (f : opt -> option A) (os : list opt) : Prop :=
    length (filter (fun o => match f o with Some _ => true | None => false end) os) <= 1.

  Lemma last_set_none {A} (f : opt -> option A) os :
    filter (fun o => match f o with Some _ => true | None => false end) os = [] ->
    last_set tag any E C f os = None.
  Proof.
    induction os as [|o os IH]; [reflexivity|]. cbn. destruct (f o) eqn:F; [discriminate|].
    intros H. rewrite (IH H). reflexivity.
  Qed.

  Lemma last_set_single {A} (f : opt -> option A) os o :
    filter (fun o => match f o with Some _ => true | None => false end) os = [o] ->
    last_set tag any E C f os = f o.
  Proof.
    induction os as [|p os IH]; [discriminate|]. cbn. destruct (f p) eqn:F.
    - intros H. injection H as -> H. rewrite (last_set_none f os H). symmetry. exact F.
    - intros H. rewrite (IH H). destruct (f o) eqn:G; [reflexivity|].
      exfalso. assert (I : In o [o]) by (left; reflexivity). rewrite <- H in I.
      apply filter_In in I. destruct I as [_ I]. rewrite G in I. discriminate.
  Qed.

  Lemma filter_perm {A} (p : A -> bool) l l' : Permutation l l' -> Permutation (filter p l) (filter p l').
  Proof.
    induction 1 as [|x a b P IH|x y a|a b c P IH P' IH']; cbn.
    - constructor.
    - destruct (p x); [constructor|]; assumption.
    - destruct (p x), (p y); try apply Permutation_refl. constructor.
    - eapply perm_trans; eassumption.
  Qed.

  Lemma setting_perm {A} (f : opt -> option A) d os os' :
    Permutation os os' -> once f os -> setting f d os = setting f d os'.
  Proof.
    intros P O. unfold BundleSpec.setting, once in *.
    set (p := fun o => match f o with Some _ => true | None => false end) in *.
    pose proof (filter_perm p _ _ P) as Q.
    destruct (filter p os) as [|o [|o2 r]] eqn:F.
    - apply Permutation_nil in Q.
      rewrite (last_set_none f os F), (last_set_none f os' Q). reflexivity.
    - apply Permutation_length_1_inv in Q.
      rewrite (last_set_single f os o F), (last_set_single f os' o Q). reflexivity.
    - cbn in O. lia.
  Qed.

  Lemma loaders_perm os os' : Permutation os os' -> Permutation (loaders_of os) (loaders_of os').
  Proof. intros P. apply Permutation_flat_map. exact P. Qed.
  Lemma requests_perm os os' : Permutation os os' -> Permutation (requests_of os) (requests_of os').
  Proof. intros P. apply Permutation_flat_map. exact P. Qed.

  Lemma valid_perm os os' : Permutation os os' -> valid os -> valid os'.
  Proof.
    intros P (V & N). split.
    - eapply Permutation_Forall; eassumption.
    - eapply Permutation_NoDup; [|exact N]. apply Permutation_map. apply loaders_perm. exact P.
  Qed.

  Lemma contract_perm L L' : Permutation L L' -> contract L -> contract L'.
  Proof.
    intros P K d ld t t' I. apply K. eapply Permutation_in; [apply Permutation_sym; exact P|exact I].
  Qed.

  Lemma named_fun as_ rs rs' :
    Forall2 (named tag E name) as_ rs -> Forall2 (named tag E name) as_ rs' -> rs = rs'.
  Proof.
    intros F. revert rs'. induction F as [|a [o t] as_ rs (A & B) F IH]; intros rs' G; inversion G as [|x [o' t'] y z (A' & B') G2]; subst.
    - reflexivity.
    - rewrite (IH _ G2). cbn [fst snd] in *. f_equal. congruence.
  Qed.

  Lemma named_perm as_ as' rs rs' :
    Permutation as_ as' -> Forall2 (named tag E name) as_ rs -> Forall2 (named tag E name) as' rs' ->
    Permutation rs rs'.
  Proof.
    intros P F G. destruct (Permutation_Forall2 P F) as (rs2 & P2 & F2).
    rewrite (named_fun _ _ _ G F2). exact P2.
  Qed.

  Lemma available_perm L L' t : Permutation L L' -> available L t -> available L' t.
  Proof. intros P (p & I & A). exists p. split; [eapply Permutation_in; eassumption|exact A]. Qed.

  Lemma languages_fun s L L' rs ts ts' :
    Permutation L L' -> languages s L rs ts -> languages s L' rs ts' -> ts = ts'.
  Proof.
    intros P H. revert ts'.
    assert (AV : forall t, available L t <-> available L' t).
    { intros t. split; apply available_perm; [exact P|apply Permutation_sym; exact P]. }
    induction H as [|rs o ts U H IH|rs o t ts U S A N H IH|rs o t ts S I H IH|rs o t ts X H IH];
      intros ts' G; inversion G as [Q|rs' o' x U' H' Q|rs' o' t' x U' S' A' N' H' Q
                                   |rs' o' t' x S' I' H' Q|rs' o' t' x X' H' Q]; subst;
      try (match goal with
           | E : [] = _ ++ [_] |- _ => destruct (app_cons_not_nil _ _ _ E)
           | E : _ ++ [_] = [] |- _ => symmetry in E; destruct (app_cons_not_nil _ _ _ E)
           end);
      try (match goal with E : _ ++ [_] = _ ++ [_] |- _ =>
             apply app_inj_tail in E; destruct E as [-> E]; injection E as E0 E1; subst end);
      try reflexivity; try contradiction;
      try (rewrite (IH _ H'); reflexivity); try (apply IH; assumption);
      try (destruct X' as [X'|[X1 X2]]; [contradiction|]; try contradiction;
           rewrite <- AV in X2; contradiction);
      try (destruct X as [X|[X1 X2]]; [contradiction|]; try contradiction;
           rewrite AV in X2; contradiction).
    apply app_inj_tail in Q. destruct Q as [-> _]. rewrite (IH _ H'). reflexivity.
  Qed.

  Lemma all_met_perm s L L' rs : Permutation L L' -> all_met s L rs -> all_met s L' rs.
  Proof.
    intros P M before [o t] after Q. specialize (M before (o, t) after Q).
    destruct M as (M1 & M2). split; [exact M1|]. intros U S. specialize (M2 U S). destruct o.
    - intros p I. apply M2. eapply Permutation_in; [apply Permutation_sym; exact P|exact I].
    - destruct M2 as [(X & Y)|(X & Y)].
      + left. split.
        * intros ->. apply Permutation_sym, Permutation_nil in P. contradiction.
        * intros p I. apply Y. eapply Permutation_in; [apply Permutation_sym; exact P|exact I].
      + right. split; [exact X|]. eapply available_perm; eassumption.
  Qed.

  (** ** Two bundles of the same options *)
  Definition same_locale (l l' : locale) : Prop :=
    l_lang l = l_lang l' /\ l_print _ _ _ l = l_print _ _ _ l' /\
    l_plural _ _ _ l = l_plural _ _ _ l' /\ l_source _ _ _ l = l_source _ _ _ l' /\
    NoDup (map fst (l_cats l)) /\ NoDup (map fst (l_cats l')) /\
    forall d c, In (d, c) (l_cats l) <-> In (d, c) (l_cats l').

  Lemma same_locale_sym l l' : same_locale l l' -> same_locale l' l.
  Proof. unfold same_locale. intros (A & B & D & F & G & H & J). repeat split; try congruence; apply J. Qed.

  Lemma same_answers l l' q t :
    same_locale l l' -> answers tag any E l q t -> answers tag any E l' q t.
  Proof.
    intros (A & B & D & F & G & H & J) X. destruct X; rewrite B.
    - apply a_source. congruence.
    - apply a_source_one; [congruence|]. rewrite <- D. assumption.
    - apply a_source_many; [congruence| |assumption]. rewrite <- D. assumption.
    - eapply a_catalog; [congruence|apply J; eassumption|eassumption].
    - eapply a_catalog_plural; [congruence|apply J; eassumption|eassumption].
  Qed.

  Lemma same_lacks l l' q e :
    same_locale l l' -> lacks tag any E l q e -> lacks tag any E l' q e.
  Proof.
    intros (A & B & D & F & G & H & J) X. destruct X.
    - rewrite A. apply k_domain; [congruence|]. intros c I. eapply H1. apply J. exact I.
    - eapply k_message; [congruence|apply J; eassumption|eassumption].
    - eapply LocaleSpec.k_plural; [congruence|apply J; eassumption|eassumption].
  Qed.

  Lemma same_asked q ls ls' es w t :
    Forall2 same_locale ls ls' -> asked tag any E q ls es w t ->
    exists w', same_locale w w' /\ asked tag any E q ls' es w' t.
  Proof.
    intros F A. revert ls' F. induction A as [l ls t A|l ls e es w t K A IH]; intros ls' F;
      inversion F as [|x l' y ls2 S F2]; subst.
    - exists l'. split; [exact S|]. apply hit. eapply same_answers; eassumption.
    - destruct (IH _ F2) as (w' & S' & A'). exists w'. split; [exact S'|].
      apply miss; [eapply same_lacks; eassumption|exact A'].
  Qed.

  Lemma ok_same os os' t l l' :
    source_of os = source_of os' -> printer_of os = printer_of os' ->
    Permutation (loaders_of os) (loaders_of os') ->
    locale_ok os t l -> locale_ok os' t l' -> same_locale l l'.
  Proof.
    intros S P L [a1 a2 a3 a4 a5 a6] [b1 b2 b3 b4 b5 b6].
    split; [congruence|]. split; [congruence|]. split; [congruence|]. split.
    - destruct (l_source _ _ _ l), (l_source _ _ _ l'); try reflexivity.
      + symmetry. apply b4. rewrite <- S. apply a4. reflexivity.
      + apply a4. rewrite S. apply b4. reflexivity.
    - split; [exact a5|]. split; [exact b5|]. intros d c. rewrite a6, b6, S.
      split; intros (X & ld & I & Y); (split; [exact X|]); exists ld; (split; [|exact Y]).
      + eapply Permutation_in; eassumption.
      + eapply Permutation_in; [apply Permutation_sym|]; eassumption.
  Qed.
End Proofs.
