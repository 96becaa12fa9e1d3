(** C75: what bundles and localizers tell about themselves is true.
    Theorems, examples and Print Assumptions only. *)
From Coq Require Import String Ascii List ZArith Bool Lia Permutation.
From Verif Require Import Base BaseProofs LocaleModel BundleModel LocaleSpec LocaleProofs
  BundleSpec BundleProofs BundleRunProofs BundleTopProofs SelfModel TheoremsLocale SelfSpec SelfProofs.
Import ListNotations.
Open Scope nat_scope.

Section Theorems.
  Variable tag : Type.
  Variable tag_eq_dec : forall a b : tag, {a = b} + {a <> b}.
  Variable und : tag.
  Variable any : Type.
  Variable of_int : Z -> any.
  Variable E C : Type.
  Variable parse : bytes -> tag + E.
  Variable parse_accept : bytes -> option (list tag).
  Variable trim_space : bytes -> bytes.
  Variable plural_for : tag -> plural_func any E.
  Variable no_string opt_error : E.
  Variable default_printer : printer tag any.
  Variable default_matcher : matcher_builder tag.
  Variable iter : forall A, list (event tag E) -> list A -> list A.
  Hypothesis iter_perm : forall A past (l : list A), Permutation (iter A past l) l.

  Notation bundle := (bundle tag any E C).
  Notation localizer := (localizer tag any E C).
  Notation opt := (opt tag any E C).
  Notation name := (lang_tag tag E parse trim_space no_string).
  Notation new_bundle := (new_bundle tag tag_eq_dec und any E C parse trim_space plural_for iter
                            no_string opt_error default_printer default_matcher).
  Notation new_localizer_for_domain := (new_localizer_for_domain tag tag_eq_dec any E C parse_accept).
  Notation new_localizer := (new_localizer tag tag_eq_dec any E C parse_accept).
  Notation lookup_singular := (lookup_singular tag tag_eq_dec any E C).
  Notation lookup_plural := (lookup_plural tag any E C).
  Notation localize_with_error := (localize_with_error tag tag_eq_dec any of_int E C).
  Notation loaders_of := (loaders_of tag any E C).
  Notation requests_of := (requests_of tag any E C name).
  Notation source_of := (source_of tag und any E C).
  Notation fallback_of := (fallback_of tag und any E C name).
  Notation setting := (setting tag any E C).
  Notation sets_domain := (sets_domain tag any E C).
  Notation contract := (contract tag any E).
  Notation z_bundle := (z_bundle tag any E C).
  Notation localizer_of := (localizer_of tag tag_eq_dec und any E C parse parse_accept trim_space plural_for
                              no_string opt_error default_printer default_matcher iter).
  Notation bundle_domains := (bundle_domains tag any E C).
  Notation supported_languages := (supported_languages tag any E C).
  Notation can_localize := (can_localize tag any E C).
  Notation is_language_supported := (is_language_supported tag any E C).
  Notation has_domain := (has_domain tag any E C).
  Notation domains := (domains tag any E C).
  Notation has_locale := (has_locale tag any E C).
  Notation default_domain := (default_domain tag any E C).
  Notation language := (language tag any E C).
  Notation made := (made tag tag_eq_dec und any E C parse trim_space plural_for no_string default_printer default_matcher).

  Notation requested := (requested tag any E C name).
  Notation catalog_for := (catalog_for tag any E C).

  (** ** Bundles *)
  (** Domains: each once, those with a catalog in a requested language. *)
  Theorem C75_bundle_domains : forall os log b, contract (loaders_of os) -> new_bundle os = (log, inl b) ->
    NoDup (bundle_domains b) /\
    forall d, In d (bundle_domains b) <->
      exists t, requested os t /\ t <> und /\ t <> source_of os /\ catalog_for os t d.
  Proof.
    intros os log b K B. destruct (bundle_made tag tag_eq_dec und any E C parse trim_space plural_for no_string opt_error default_printer default_matcher iter iter_perm _ _ _ K B) as (rs & M). split; [eapply m_dnodup; exact M|].
    intro d. unfold SelfModel.bundle_domains. erewrite m_doms by exact M. split.
    - intros (t & l & c & I & J). exists t.
      pose proof (in_map fst _ _ I) as T. cbn [fst] in T. erewrite m_keys in T by exact M. destruct T as (T & U & _).
      rewrite (named_requested _ _ _ _ _ _ _ _ _ _ (m_named _ _ _ _ _ _ _ _ _ _ _ _ _ _ _ _ M)) in T.
      pose proof (proj1 (k_backed _ _ _ _ _ _ _ _ _ _ (m_locs _ _ _ _ _ _ _ _ _ _ _ _ _ _ _ _ M t l I) d c) J) as (S & ld & L & Q).
      split; [exact T|]. split; [exact U|]. split; [exact S|]. exists ld, c. auto.
    - intros (t & T & U & S & ld & c & L & Q).
      rewrite <- (named_requested _ _ _ _ _ _ _ _ _ _ (m_named _ _ _ _ _ _ _ _ _ _ _ _ _ _ _ _ M)) in T.
      assert (I : In t (map fst (b_locales _ _ _ _ b))).
      { erewrite m_keys by exact M. split; [exact T|]. split; [exact U|]. right. exists (d, ld). split; [exact L|]. exists c. exact Q. }
      apply in_map_iff in I. destruct I as ([t' l] & Q' & I). cbn in Q'. subst t'. exists t, l, c. split; [exact I|].
      apply (proj2 (k_backed _ _ _ _ _ _ _ _ _ _ (m_locs _ _ _ _ _ _ _ _ _ _ _ _ _ _ _ _ M t l I) d c)). eauto.
  Qed.

  (** SupportedLanguages: each once, the requested ones with a catalog and the
      source language. *)
  Theorem C75_bundle_languages : forall os log b, contract (loaders_of os) -> new_bundle os = (log, inl b) ->
    NoDup (supported_languages b) /\
    forall t, In t (supported_languages b) <->
      requested os t /\ t <> und /\ (t = source_of os \/ exists d, catalog_for os t d).
  Proof.
    intros os log b K B. destruct (bundle_made tag tag_eq_dec und any E C parse trim_space plural_for no_string opt_error default_printer default_matcher iter iter_perm _ _ _ K B) as (rs & M). split; [eapply m_nodup; exact M|].
    intro t. unfold BundleModel.supported_languages. erewrite m_keys by exact M.
    rewrite (named_requested _ _ _ _ _ _ _ _ _ _ (m_named _ _ _ _ _ _ _ _ _ _ _ _ _ _ _ _ M)). unfold available, loads, SelfSpec.catalog_for.
    split; intros (T & U & [S|S]); (split; [exact T|]); (split; [exact U|]); auto; right.
    - destruct S as ([d ld] & I & c & Q). exists d, ld, c. auto.
    - destruct S as (d & ld & c & I & Q). exists (d, ld). eauto.
  Qed.

  (** CanLocalize: some requested language has a catalog. *)
  Theorem C75_can_localize : forall os log b, contract (loaders_of os) -> new_bundle os = (log, inl b) ->
    can_localize b = true <->
    exists t d, requested os t /\ t <> und /\ t <> source_of os /\ catalog_for os t d.
  Proof.
    intros os log b K B. pose proof (C75_bundle_domains os log b K B) as (_ & D).
    destruct (bundle_made tag tag_eq_dec und any E C parse trim_space plural_for no_string opt_error default_printer default_matcher iter iter_perm _ _ _ K B) as (rs & M). unfold BundleModel.can_localize. rewrite andb_true_iff. split.
    - intros (_ & H). destruct (b_domains _ _ _ _ b) as [|d ds] eqn:Q; [discriminate|].
      assert (I : In d (bundle_domains b)) by (unfold SelfModel.bundle_domains; rewrite Q; now left).
      apply D in I. destruct I as (t & I). exists t, d. exact I.
    - intros (t & d & H). assert (I : In d (bundle_domains b)) by (apply D; eauto). pose proof I as J. unfold SelfModel.bundle_domains in I, J.
      erewrite m_doms in J by exact M. destruct J as (t' & l & c & J & _).
      split; [destruct (b_locales _ _ _ _ b); [contradiction|reflexivity]|destruct (b_domains _ _ _ _ b); [contradiction|reflexivity]].
  Qed.

  (** ** Localizers *)
  (** HasDomain and Domains: the domains with a catalog in the localizer's
      language, which are domains of the bundle. *)
  Theorem C75_domains : forall os z, localizer_of os z ->
    NoDup (domains z) /\
    (forall d, has_domain z d = true <-> In d (domains z)) /\
    (forall d, In d (domains z) <-> language z <> source_of os /\ catalog_for os (language z) d) /\
    (forall d, In d (domains z) -> In d (bundle_domains (z_bundle z))).
  Proof.
    intros os z L. destruct (localizer_locale tag tag_eq_dec und any E C parse parse_accept trim_space plural_for no_string opt_error default_printer default_matcher iter iter_perm _ _ L) as (rs & log & M & O & P).
    assert (H : forall d, In d (domains z) <-> exists c, In (d, c) (l_cats _ _ _ (z_locale _ _ _ _ z))).
    { intro d. unfold SelfModel.domains. rewrite in_map_iff. split.
      - intros ([d' c] & Q & I). cbn in Q. subst. eauto.
      - intros (c & I). exists (d, c). auto. }
    split; [exact (k_cats _ _ _ _ _ _ _ _ _ _ O)|]. split; [|split].
    - intro d. rewrite H. unfold SelfModel.has_domain. apply cat_get_iff.
    - intro d. rewrite H. split.
      + intros (c & I). apply (proj1 (k_backed _ _ _ _ _ _ _ _ _ _ O d c)) in I. destruct I as (S & ld & I & Q).
        split; [exact S|]. exists ld, c. auto.
      + intros (S & ld & c & I & Q). exists c. apply (proj2 (k_backed _ _ _ _ _ _ _ _ _ _ O d c)). eauto.
    - intros d I. apply H in I. destruct I as (c & I). unfold SelfModel.bundle_domains. erewrite m_doms by exact M.
      destruct P as [P|(P & _)]; [exists (language z), (z_locale _ _ _ _ z), c; auto|].
      exfalso. apply (proj1 (k_backed _ _ _ _ _ _ _ _ _ _ O d c)) in I. destruct I as (S & _). apply S.
      unfold SelfModel.language. rewrite P. apply (k_lang _ _ _ _ _ _ _ _ _ _ (m_source _ _ _ _ _ _ _ _ _ _ _ _ _ _ _ _ M)).
  Qed.

  (** HasDomain decides whether a request is refused for its domain. *)
  Theorem C75_missing_domain : forall os z d, localizer_of os z ->
    (forall ctx id vars t d', snd (snd (lookup_singular z d ctx id vars)) = Some (EDomain _ _ t d') <->
       has_domain z d = false /\ language z <> source_of os /\ t = language z /\ d' = d) /\
    (forall ctx sg pl n vars t d', snd (snd (lookup_plural z d ctx sg pl n vars)) = Some (EDomain _ _ t d') <->
       has_domain z d = false /\ language z <> source_of os /\ t = language z /\ d' = d).
  Proof.
    intros os z d L. destruct (localizer_locale tag tag_eq_dec und any E C parse parse_accept trim_space plural_for no_string opt_error default_printer default_matcher iter iter_perm _ _ L) as (rs & log & M & O & _).
    pose proof (k_source _ _ _ _ _ _ _ _ _ _ O) as S.
    split; intros; [apply singular_domain|apply plural_domain]; exact S.
  Qed.

  (** Without a locale every request has an error. *)
  Theorem C75_no_locale : forall os z d ctx, localizer_of os z -> has_locale z = false ->
    (forall id vars, snd (snd (lookup_singular z d ctx id vars)) <> None) /\
    (forall sg pl n vars, snd (snd (lookup_plural z d ctx sg pl n vars)) <> None).
  Proof.
    intros os z d ctx L H. unfold SelfModel.has_locale in H. split; intros.
    - rewrite singular_error, H. destruct (snd (locale_singular _ _ _ _ _ _ _ _ _ _)); discriminate.
    - rewrite plural_error, H. destruct (snd (locale_plural _ _ _ _ _ _ _ _ _ _ _ _)); discriminate.
  Qed.

  (** HasLocale and Language *)
  Theorem C75_language : forall os log b dom langs z, contract (loaders_of os) -> new_bundle os = (log, inl b) ->
    new_localizer_for_domain b dom langs = Ok z ->
    (has_locale z = true -> In (language z) (supported_languages b)) /\
    (has_locale z = false -> In (fallback_of os) (supported_languages b) -> language z = fallback_of os) /\
    (has_locale z = false -> ~ In (fallback_of os) (supported_languages b) -> language z = source_of os) /\
    default_domain z = dom.
  Proof.
    intros os log b dom langs z K B Z. destruct (bundle_made tag tag_eq_dec und any E C parse trim_space plural_for no_string opt_error default_printer default_matcher iter iter_perm _ _ _ K B) as (rs & M).
    unfold SelfModel.has_locale, SelfModel.language, BundleModel.supported_languages.
    assert (FB : (In (fallback_of os) (map fst (b_locales _ _ _ _ b)) -> l_lang _ _ _ (b_fallback _ _ _ _ b) = fallback_of os) /\
      (~ In (fallback_of os) (map fst (b_locales _ _ _ _ b)) -> l_lang _ _ _ (b_fallback _ _ _ _ b) = source_of os)).
    { destruct (m_fallback _ _ _ _ _ _ _ _ _ _ _ _ _ _ _ _ M) as [J|(N & Q)].
      - split; [intros _|intro X; exfalso; apply X; exact (in_map fst _ _ J)].
        apply (k_lang _ _ _ _ _ _ _ _ _ _ (m_locs _ _ _ _ _ _ _ _ _ _ _ _ _ _ _ _ M _ _ J)).
      - split; [intro X; contradiction|intros _]. rewrite Q.
        apply (k_lang _ _ _ _ _ _ _ _ _ _ (m_source _ _ _ _ _ _ _ _ _ _ _ _ _ _ _ _ M)). }
    destruct FB as (F1 & F2).
    destruct (localizer_from_tag tag tag_eq_dec any E C parse_accept _ _ _ _ Z) as (t & Q).
    unfold new_localizer_from_tag in Q.
    assert (X : z = {| LocaleModel.z_bundle := b; z_locale := b_fallback _ _ _ _ b; z_domain := dom; z_found := false |} \/
      exists t l, In (t, l) (b_locales _ _ _ _ b) /\ z = {| LocaleModel.z_bundle := b; z_locale := l; z_domain := dom; z_found := true |}).
    { destruct t as [t|]; [destruct (loc_get _ _ _ _ _ t) as [l|] eqn:G|]; auto. right. apply loc_get_in in G. eauto. }
    destruct X as [->|(t' & l & I & ->)]; cbn [z_found z_locale default_domain z_domain].
    - split; [discriminate|]. auto.
    - split; [intros _|split; [discriminate|split; [discriminate|reflexivity]]].
      rewrite (k_lang _ _ _ _ _ _ _ _ _ _ (m_locs _ _ _ _ _ _ _ _ _ _ _ _ _ _ _ _ M _ _ I)). exact (in_map fst _ _ I).
  Qed.

  (** IsLanguageSupported says whether a localizer for the language has a locale. *)
  Theorem C75_is_supported : forall os log b dom t z, contract (loaders_of os) -> new_bundle os = (log, inl b) ->
    new_localizer_for_domain b dom [LTag _ t] = Ok z -> has_locale z = is_language_supported b t.
  Proof.
    intros os log b dom t z K B Z. pose proof (C40_localizer tag tag_eq_dec und any E C parse parse_accept trim_space plural_for
      no_string opt_error default_printer default_matcher iter iter_perm os log b dom [LTag _ t] K B) as H.
    unfold BundleModel.is_language_supported. cbn [flat_map tags_of app] in H.
    destruct (b_match _ _ _ _ b [t]) as [i|].
    - destruct (nth_error _ i); [|congruence]. destruct H as (z' & Z' & _ & F & _). unfold SelfModel.has_locale. congruence.
    - destruct H as (z' & Z' & _ & F & _). unfold SelfModel.has_locale. congruence.
  Qed.

  (** NewLocalizer takes the default domain of the bundle, which is the one of
      the options; key localizers do the same. *)
  Theorem C75_default_domain : forall os log b langs z, contract (loaders_of os) -> new_bundle os = (log, inl b) ->
    new_localizer b langs = Ok z \/ new_key_localizer tag tag_eq_dec any E C parse_accept b langs = Ok z ->
    default_domain z = setting sets_domain [] os /\
    (forall m, Get tag tag_eq_dec any E C z m = DGet tag tag_eq_dec any E C z (default_domain z) m) /\
    forall d z', new_key_localizer_for_domain tag tag_eq_dec any E C parse_accept b d langs = Ok z' -> default_domain z' = d.
  Proof.
    intros os log b langs z K B H.
    assert (Z : new_localizer_for_domain b (b_default_domain _ _ _ _ b) langs = Ok z) by (destruct H; assumption).
    split; [|split; [reflexivity|]].
    - destruct (C75_language os log b _ langs z K B Z) as (_ & _ & _ & ->).
      destruct (bundle_made tag tag_eq_dec und any E C parse trim_space plural_for no_string opt_error default_printer default_matcher iter iter_perm _ _ _ K B) as (rs & M). eapply m_domain. exact M.
    - intros d z' Z'. exact (proj2 (proj2 (proj2 (C75_language os log b d langs z' K B Z')))).
  Qed.
End Theorems.

(** ** Concrete bundles (see TheoremsLocale) *)
Notation x_requested := (requested bytes Z unit unit (lang_tag bytes unit x_parse (fun s => s) tt)).
Notation x_catalog_for := (catalog_for bytes Z unit unit).

Example C75_bundle_example : match snd (x_new x_os) with
  | inl b => (bundle_domains _ _ _ _ b, supported_languages _ _ _ _ b, can_localize _ _ _ _ b,
              map (is_language_supported _ _ _ _ b) [bs "fr"; bs "xx"])
             = ([bs "a"], [bs "en"; bs "de"; bs "fr"], true, [true; false])
  | inr _ => False
  end.
Proof. vm_compute. reflexivity. Qed.
Example C75_localizer_example : exists z, x_localizer_of x_os z /\
  (has_locale _ _ _ _ z, language _ _ _ _ z, domains _ _ _ _ z, map (has_domain _ _ _ _ z) [bs "a"; bs "b"], default_domain _ _ _ _ z)
  = (true, bs "fr", [bs "a"], [true; false], bs "dom").
Proof. apply (x_make _ (bs "dom") [OT "fr"]); [exact x_os_contract|]. vm_compute. reflexivity. Qed.

(** The comment of Language promises language.Und if no language is present;
    the localizer without a matching language has the fallback language. *)
Theorem C75_language_refuted : exists os z, x_localizer_of os z /\ has_locale _ _ _ _ z = false /\ language _ _ _ _ z <> [].
Proof.
  exists x_os. apply (x_make _ (bs "a") [OT "xx"]); [exact x_os_contract|]. vm_compute. split; [reflexivity|discriminate].
Qed.
(** The comment of SupportedLanguages promises languages with a catalog; the
    source language is there without one. *)
Theorem C75_catalog_refuted : exists os log b t, x_contract os /\ x_new os = (log, inl b) /\
  In t (supported_languages _ _ _ _ b) /\ forall d, ~ x_catalog_for os t d.
Proof.
  exists x_os. destruct (x_new x_os) as [log [b|]] eqn:B.
  - exists log, b, (bs "en"). split; [exact x_os_contract|]. split; [reflexivity|].
    assert (H : match snd (x_new x_os) with inl b => existsb (beq (bs "en")) (supported_languages _ _ _ _ b) | inr _ => false end = true)
      by (vm_compute; reflexivity).
    rewrite B in H. cbn [snd] in H. split.
    + apply existsb_exists in H. destruct H as (x & I & Q). apply beq_eq in Q. now subst x.
    + intros d (ld & c & I & Q). unfold x_os, loaders_of in I. cbn [flat_map loader_of app In] in I.
      destruct I as [I|[]]. injection I as <- <-. vm_compute in Q. discriminate.
  - assert (H : match snd (x_new x_os) with inl b => true | inr _ => false end = true) by (vm_compute; reflexivity).
    rewrite B in H. discriminate.
Qed.

(** The contract of loaders is needed: one that answers with
    ErrMissingLanguage makes Domains list a domain without any catalog. *)
Definition x_odd : loader bytes Z unit := fun t _ => inr (ELanguage _ _ t).
Theorem C75_contract_refuted : exists os log b d, x_new os = (log, inl b) /\
  In d (bundle_domains _ _ _ _ b) /\ b_locales _ _ _ _ b = [].
Proof.
  exists [OLoader _ _ _ _ (bs "b") (Some x_odd); OLoader _ _ _ _ (bs "a") (Some x_a); OLanguages _ _ _ _ [OT "de"]].
  eexists _, _, (bs "a"). split; [vm_compute; reflexivity|]. split; [now left|reflexivity].
Qed.

Print Assumptions C75_bundle_domains.
Print Assumptions C75_bundle_languages.
Print Assumptions C75_can_localize.
Print Assumptions C75_domains.
Print Assumptions C75_missing_domain.
Print Assumptions C75_no_locale.
Print Assumptions C75_language.
Print Assumptions C75_is_supported.
Print Assumptions C75_default_domain.
Print Assumptions C75_language_refuted.
Print Assumptions C75_catalog_refuted.
Print Assumptions C75_contract_refuted.
