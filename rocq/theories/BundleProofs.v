(** Proofs about bundle creation: options. *)
From Coq Require Import String Ascii List ZArith Bool Lia Permutation.
From Verif Require Import Base BaseProofs LocaleModel BundleModel LocaleSpec BundleSpec.
Import ListNotations.

Section Proofs.
  Variable tag : Type.
  Variable tag_eq_dec : forall a b : tag, {a = b} + {a <> b}.
  Variable und : tag.
  Variable any E C : Type.
  Variable parse : bytes -> tag + E.
  Variable trim_space : bytes -> bytes.
  Variable plural_for : tag -> plural_func any E.
  Variable iter : forall A, list (event tag E) -> list A -> list A.
  Variable no_string opt_error : E.
  Variable default_printer : printer tag any.
  Variable default_matcher : matcher_builder tag.

  Notation error := (error tag E).
  Notation event := (event tag E).
  Notation catalog := (catalog any E).
  Notation locale := (locale tag any E).
  Notation langarg := (langarg tag).
  Notation builder := (builder tag any E C).
  Notation opt := (opt tag any E C).
  Notation loader := (loader tag any E).
  Notation u_callback := (u_callback tag any E C).
  Notation u_printer := (u_printer tag any E C).
  Notation u_default_domain := (u_default_domain tag any E C).
  Notation u_err_ctx := (u_err_ctx tag any E C).
  Notation u_languages := (u_languages tag any E C).
  Notation u_locales := (u_locales tag any E C).
  Notation u_domains := (u_domains tag any E C).
  Notation u_source := (u_source tag any E C).
  Notation u_fallback := (u_fallback tag any E C).
  Notation u_matcher := (u_matcher tag any E C).
  Notation u_loaders := (u_loaders tag any E C).
  Notation u_actions := (u_actions tag any E C).
  Notation name := (lang_tag tag E parse trim_space no_string).
  Notation apply_opt := (apply_opt tag any E C parse trim_space no_string opt_error).
  Notation apply_opts := (apply_opts tag any E C parse trim_space no_string opt_error).
  Notation valid_opt := (valid_opt tag any E C name).
  Notation loaders_of := (loaders_of tag any E C).
  Notation loader_of := (loader_of tag any E C).
  Notation requests_of := (requests_of tag any E C name).
  Notation request_of := (request_of tag any E C name).
  Notation setting := (setting tag any E C).
  Notation last_set := (last_set tag any E C).
  Notation sets_source := (sets_source tag any E C).
  Notation sets_fallback := (sets_fallback tag any E C name).
  Notation sets_callback := (sets_callback tag any E C).
  Notation sets_domain := (sets_domain tag any E C).
  Notation sets_printer := (sets_printer tag any E C).
  Notation sets_matcher := (sets_matcher tag any E C).
  Notation sets_err_ctx := (sets_err_ctx tag any E C).

  (** the flat list of requests behind the actions *)
  Definition flat (acts : list (bool * list langarg)) : list (bool * langarg) :=
    flat_map (fun a => map (pair (fst a)) (snd a)) acts.

  Lemma has_loader_iff m d : has_loader tag any E m d = true <-> In d (map fst m).
  Proof.
    induction m as [|[k l] m IH]; [cbn; split; [discriminate|intros []]|].
    cbn [has_loader map fst]. rewrite orb_true_iff, IH, beq_eq. cbn [In]. tauto.
  Qed.

  (** one option *)
  Definition eff {A} (f : opt -> option A) (o : opt) (a : A) : A :=
    match f o with Some b => b | None => a end.

  Definition effect_ok (o : opt) (u u' : builder) : Prop :=
    u_source u' = eff sets_source o (u_source u) /\
    u_fallback u' = eff sets_fallback o (u_fallback u) /\
    u_callback u' = eff sets_callback o (u_callback u) /\
    u_default_domain u' = eff sets_domain o (u_default_domain u) /\
    u_printer u' = eff sets_printer o (u_printer u) /\
    u_matcher u' = eff sets_matcher o (u_matcher u) /\
    u_err_ctx u' = eff sets_err_ctx o (u_err_ctx u) /\
    u_loaders u' = u_loaders u ++ loader_of o /\
    flat (u_actions u') = flat (u_actions u) ++ request_of o /\
    u_languages u' = u_languages u /\ u_locales u' = u_locales u /\ u_domains u' = u_domains u.

  Lemma flat_snoc acts a : flat (acts ++ [a]) = flat acts ++ map (pair (fst a)) (snd a).
  Proof. unfold flat. rewrite flat_map_app. cbn [flat_map]. rewrite app_nil_r. reflexivity. Qed.

  Lemma apply_opt_ok o u :
    valid_opt o -> (forall d, In d (map fst (loader_of o)) -> ~ In d (map fst (u_loaders u))) ->
    exists u', apply_opt o u = inl u' /\ effect_ok o u u'.
  Proof.
    intros V F. unfold effect_ok, eff.
    destruct o as [|t|a|c|d|d [l|]|d [l|e]|l|l|[p|]|[m|]|c]; cbn [BundleSpec.valid_opt] in V;
      try (exfalso; congruence || tauto);
      try (destruct V; congruence);
      cbn [BundleModel.apply_opt BundleSpec.sets_source BundleSpec.sets_fallback
           BundleSpec.sets_callback BundleSpec.sets_domain BundleSpec.sets_printer
           BundleSpec.sets_matcher BundleSpec.sets_err_ctx BundleSpec.loader_of
           BundleSpec.request_of].
    all: try (eexists; split; [reflexivity|]; cbn; rewrite ?app_nil_r, ?flat_snoc; cbn;
              intuition congruence).
    - destruct V as [t V]. rewrite V. eexists; split; [reflexivity|]; cbn;
        rewrite ?app_nil_r, ?flat_snoc; cbn; intuition congruence.
    - destruct (has_loader _ _ _ (u_loaders u) d) eqn:H.
      + exfalso. apply has_loader_iff in H. apply (F d); [left; reflexivity|exact H].
      + eexists; split; [reflexivity|]; cbn; rewrite ?app_nil_r; intuition congruence.
    - destruct (has_loader _ _ _ (u_loaders u) d) eqn:H.
      + exfalso. apply has_loader_iff in H. apply (F d); [left; reflexivity|exact H].
      + eexists; split; [reflexivity|]; cbn; rewrite ?app_nil_r; intuition congruence.
  Qed.

  Lemma apply_opt_valid o u u' :
    apply_opt o u = inl u' ->
    valid_opt o /\ (forall d, In d (map fst (loader_of o)) -> ~ In d (map fst (u_loaders u))).
  Proof.
    intros H.
    destruct o as [|t|a|c|d|d [l|]|d [l|e]|l|l|[p|]|[m|]|c];
      cbn [BundleModel.apply_opt BundleSpec.valid_opt BundleSpec.loader_of map] in *;
      try discriminate H; try (split; [congruence || exact I|]; intros d0 []; fail).
    - destruct (name a) as [t|e] eqn:N; [|discriminate]. split; [eauto|intros d []].
    - destruct (has_loader _ _ _ (u_loaders u) d) eqn:B; [discriminate|].
      split; [discriminate|]. intros d' [<-|[]] I.
      apply has_loader_iff in I. cbn [fst] in I. congruence.
    - destruct (has_loader _ _ _ (u_loaders u) d) eqn:B; discriminate.
    - destruct (has_loader _ _ _ (u_loaders u) d) eqn:B; [discriminate|].
      split; [eauto|]. intros d' [<-|[]] I.
      apply has_loader_iff in I. cbn [fst] in I. congruence.
  Qed.

  Definition effects_ok (os : list opt) (u u' : builder) : Prop :=
    u_source u' = setting sets_source (u_source u) os /\
    u_fallback u' = setting sets_fallback (u_fallback u) os /\
    u_callback u' = setting sets_callback (u_callback u) os /\
    u_default_domain u' = setting sets_domain (u_default_domain u) os /\
    u_printer u' = setting sets_printer (u_printer u) os /\
    u_matcher u' = setting sets_matcher (u_matcher u) os /\
    u_err_ctx u' = setting sets_err_ctx (u_err_ctx u) os /\
    u_loaders u' = u_loaders u ++ loaders_of os /\
    flat (u_actions u') = flat (u_actions u) ++ requests_of os /\
    u_languages u' = u_languages u /\ u_locales u' = u_locales u /\ u_domains u' = u_domains u.

  Lemma setting_cons {A} (f : opt -> option A) a o os :
    setting f a (o :: os) = setting f (eff f o a) os.
  Proof.
    unfold BundleSpec.setting, eff. cbn [BundleSpec.last_set].
    destruct (last_set f os); [reflexivity|]. destruct (f o); reflexivity.
  Qed.

  Lemma apply_opts_ok os u :
    Forall valid_opt os -> NoDup (map fst (u_loaders u ++ loaders_of os)) ->
    exists u', apply_opts os u = inl u' /\ effects_ok os u u'.
  Proof.
    revert u. induction os as [|o os IH]; intros u V N.
    - exists u. split; [reflexivity|]. unfold effects_ok.
      cbn [BundleSpec.loaders_of BundleSpec.requests_of flat_map]. rewrite !app_nil_r.
      repeat split.
    - inversion V as [|x y Vo Vs]; subst.
      unfold BundleSpec.loaders_of in N. cbn [flat_map] in N. fold loaders_of in N.
      change (flat_map loader_of os) with (loaders_of os) in N.
      destruct (apply_opt_ok o u Vo) as (u1 & A1 & F1).
      { intros d I J. rewrite !map_app in N.
        assert (N2 : NoDup (map fst (u_loaders u) ++ map fst (loader_of o))).
        { rewrite app_assoc in N. clear -N.
          induction (map fst (u_loaders u) ++ map fst (loader_of o)) as [|a l IH]; [constructor|].
          cbn in N. inversion N; subst. constructor; [|auto].
          intros I. apply H1. apply in_or_app. left. exact I. }
        clear -N2 I J. induction (map fst (u_loaders u)) as [|a l IH]; [destruct J|].
        cbn in N2. inversion N2; subst. destruct J as [->|J]; [|auto].
        apply H1. apply in_or_app. right. exact I. }
      cbn [BundleModel.apply_opts]. rewrite A1.
      destruct F1 as (f1 & f2 & f3 & f4 & f5 & f6 & f7 & f8 & f9 & f10 & f11 & f12).
      destruct (IH u1 Vs) as (u2 & A2 & F2).
      { rewrite f8, <- app_assoc. exact N. }
      destruct F2 as (g1 & g2 & g3 & g4 & g5 & g6 & g7 & g8 & g9 & g10 & g11 & g12).
      exists u2. split; [exact A2|]. unfold effects_ok.
      rewrite !setting_cons, <- f1, <- f2, <- f3, <- f4, <- f5, <- f6, <- f7.
      unfold BundleSpec.loaders_of, BundleSpec.requests_of. cbn [flat_map].
      change (flat_map loader_of os) with (loaders_of os).
      change (flat_map request_of os) with (requests_of os).
      rewrite !app_assoc, <- f8, <- f9.
      repeat split; congruence.
  Qed.

  Lemma apply_opts_valid os u u' :
    NoDup (map fst (u_loaders u)) -> apply_opts os u = inl u' ->
    Forall valid_opt os /\ NoDup (map fst (u_loaders u ++ loaders_of os)).
  Proof.
    revert u. induction os as [|o os IH]; intros u N H.
    - split; [constructor|]. cbn. rewrite app_nil_r. exact N.
    - cbn [BundleModel.apply_opts] in H. destruct (apply_opt o u) as [u1|e] eqn:A; [|discriminate].
      destruct (apply_opt_valid o u u1 A) as [V F].
      destruct (apply_opt_ok o u V F) as (u1' & A' & F1). rewrite A in A'. injection A' as <-.
      destruct F1 as (f1 & f2 & f3 & f4 & f5 & f6 & f7 & f8 & f9 & f10 & f11 & f12).
      assert (N1 : NoDup (map fst (u_loaders u1))).
      { rewrite f8, map_app.
        assert (NL : NoDup (map fst (loader_of o))).
        { destruct o as [|t|a|c|d|d [l|]|d [l|e]|l|l|[p|]|[m|]|c]; cbn;
            try constructor; try (intros []); constructor. }
        clear -N NL F. revert F. generalize dependent (map fst (u_loaders u)).
        intros l N F. induction l as [|a l IH]; [exact NL|].
        cbn. inversion N; subst. constructor.
        - intros I. apply in_app_or in I. destruct I as [I|I]; [auto|].
          apply (F a I). left. reflexivity.
        - apply IH; [assumption|]. intros d I J. apply (F d I). right. exact J. }
      destruct (IH u1 N1 H) as [Vs N2]. split; [constructor; assumption|].
      unfold BundleSpec.loaders_of. cbn [flat_map].
      change (flat_map loader_of os) with (loaders_of os).
      rewrite app_assoc, <- f8. exact N2.
  Qed.
End Proofs.
