(** Proofs about what bundles and localizers tell about themselves. *)
From Coq Require Import String Ascii List ZArith Bool Lia Permutation.
From Verif Require Import Base BaseProofs LocaleModel BundleModel LocaleSpec LocaleProofs
  BundleSpec BundleProofs BundleRunProofs BundleTopProofs SelfModel TheoremsLocale SelfSpec.
Import ListNotations.
Open Scope nat_scope.

Section Proofs.
  Variable tag : Type.
  Variable tag_eq_dec : forall a b : tag, {a = b} + {a <> b}.
  Variable und : tag.
  Variable any : Type.
  Variable of_int : Z -> any.
  Variable E C : Type.
  Variable parse : bytes -> tag + E.
  Variable parse_accept : bytes -> option (list tag).
  Variable trim_space : bytes -> bytes.
  Variable plural_for : tag -> plural_func any E.
  Variable no_string opt_error : E.
  Variable default_printer : printer tag any.
  Variable default_matcher : matcher_builder tag.
  Variable iter : forall A, list (event tag E) -> list A -> list A.
  Hypothesis iter_perm : forall A past (l : list A), Permutation (iter A past l) l.

  Notation bundle := (bundle tag any E C).
  Notation localizer := (localizer tag any E C).
  Notation opt := (opt tag any E C).
  Notation name := (lang_tag tag E parse trim_space no_string).
  Notation new_bundle := (new_bundle tag tag_eq_dec und any E C parse trim_space plural_for iter
                            no_string opt_error default_printer default_matcher).
  Notation new_localizer_for_domain := (new_localizer_for_domain tag tag_eq_dec any E C parse_accept).
  Notation new_localizer := (new_localizer tag tag_eq_dec any E C parse_accept).
  Notation lookup_singular := (lookup_singular tag tag_eq_dec any E C).
  Notation lookup_plural := (lookup_plural tag any E C).
  Notation localize_with_error := (localize_with_error tag tag_eq_dec any of_int E C).
  Notation loaders_of := (loaders_of tag any E C).
  Notation requests_of := (requests_of tag any E C name).
  Notation source_of := (source_of tag und any E C).
  Notation fallback_of := (fallback_of tag und any E C name).
  Notation setting := (setting tag any E C).
  Notation sets_domain := (sets_domain tag any E C).
  Notation contract := (contract tag any E).
  Notation z_bundle := (z_bundle tag any E C).
  Notation localizer_of := (localizer_of tag tag_eq_dec und any E C parse parse_accept trim_space plural_for
                              no_string opt_error default_printer default_matcher iter).
  Notation bundle_domains := (bundle_domains tag any E C).
  Notation supported_languages := (supported_languages tag any E C).
  Notation can_localize := (can_localize tag any E C).
  Notation is_language_supported := (is_language_supported tag any E C).
  Notation has_domain := (has_domain tag any E C).
  Notation domains := (domains tag any E C).
  Notation has_locale := (has_locale tag any E C).
  Notation default_domain := (default_domain tag any E C).
  Notation language := (language tag any E C).
  Notation made := (made tag tag_eq_dec und any E C parse trim_space plural_for no_string default_printer default_matcher).

  Notation requested := (requested tag any E C name).
  Notation catalog_for := (catalog_for tag any E C).

  Lemma named_requested os rs t : Forall2 (named tag E name) (requests_of os) rs ->
    In t (map snd rs) <-> requested os t.
  Proof.
    unfold SelfSpec.requested. generalize (requests_of os). intros l F. induction F as [|[o a] [o' t'] l rs [H1 H2] F IH]; cbn.
    - split; [intros []|intros (? & ? & [] & _)].
    - cbn in H1, H2. rewrite IH. split.
      + intros [->|(x & y & I & N)]; [exists o, a; split; [now left|exact H2]|exists x, y; split; [now right|exact N]].
      + intros (x & y & [Q|I] & N); [injection Q as <- <-; left; congruence|right; exists x, y; auto].
  Qed.
  Lemma bundle_made os log b : contract (loaders_of os) -> new_bundle os = (log, inl b) -> exists rs, made os rs log b.
  Proof.
    intros K B. destruct (new_bundle_made tag tag_eq_dec und any E C parse trim_space plural_for iter
                no_string opt_error default_printer default_matcher iter_perm _ _ _ K B) as (_ & rs & M).
    exists rs. exact M.
  Qed.

  (** Where the locale of a localizer comes from. *)
  Lemma localizer_locale os z : localizer_of os z ->
    exists rs log, made os rs log (z_bundle z) /\
      locale_ok tag und any E C plural_for default_printer os (language z) (z_locale _ _ _ _ z) /\
      (In (language z, z_locale _ _ _ _ z) (b_locales _ _ _ _ (z_bundle z)) \/
       z_locale _ _ _ _ z = b_source _ _ _ _ (z_bundle z) /\ has_locale z = false).
  Proof.
    intros (K & log & dom & langs & B & Z). destruct (bundle_made _ _ _ K B) as (rs & M). exists rs, log. split; [exact M|].
    unfold language.
    assert (FB : let l := b_fallback _ _ _ _ (z_bundle z) in
      locale_ok tag und any E C plural_for default_printer os (l_lang _ _ _ l) l /\
      (In (l_lang _ _ _ l, l) (b_locales _ _ _ _ (z_bundle z)) \/ l = b_source _ _ _ _ (z_bundle z))).
    { cbn. destruct (m_fallback _ _ _ _ _ _ _ _ _ _ _ _ _ _ _ _ M) as [J|(_ & Q)].
      - pose proof (m_locs _ _ _ _ _ _ _ _ _ _ _ _ _ _ _ _ M _ _ J) as O. pose proof (k_lang _ _ _ _ _ _ _ _ _ _ O) as L.
        rewrite L. auto.
      - rewrite Q. pose proof (m_source _ _ _ _ _ _ _ _ _ _ _ _ _ _ _ _ M) as O. pose proof (k_lang _ _ _ _ _ _ _ _ _ _ O) as L.
        rewrite L. auto. }
    cbn in FB. destruct FB as (FO & FI).
    destruct (localizer_from_tag tag tag_eq_dec any E C parse_accept _ _ _ _ Z) as (t & Q).
    unfold new_localizer_from_tag in Q. destruct t as [t|].
    - destruct (loc_get _ _ _ _ _ t) as [l|] eqn:G.
      + rewrite Q. cbn [z_locale]. apply loc_get_in in G.
        pose proof (m_locs _ _ _ _ _ _ _ _ _ _ _ _ _ _ _ _ M _ _ G) as O. pose proof (k_lang _ _ _ _ _ _ _ _ _ _ O) as L.
        rewrite L. split; [exact O|]. left. rewrite Q in G. exact G.
      + rewrite Q. cbn [z_locale LocaleModel.z_bundle has_locale]. split; [exact FO|]. destruct FI; auto.
    - rewrite Q. cbn [z_locale LocaleModel.z_bundle has_locale]. split; [exact FO|]. destruct FI; auto.
  Qed.
  Lemma cat_get_iff m d : (match cat_get any E m d with Some _ => true | None => false end) = true <-> exists c, In (d, c) m.
  Proof.
    induction m as [|[k c] m IH]; cbn [cat_get In].
    - split; [discriminate|intros (? & [])].
    - destruct (beq k d) eqn:Q.
      + apply beq_eq in Q. subst k. split; [intros _; exists c; now left|reflexivity].
      + rewrite IH. split; [intros (x & I); exists x; now right|].
        intros (x & [I|I]); [injection I as -> _; rewrite beq_refl in Q; discriminate|eauto].
  Qed.

  (** the error of a request is that of the localizer's language *)
  Lemma singular_error z d ctx id vars : snd (snd (lookup_singular z d ctx id vars)) =
    match snd (locale_singular tag any E C (b_callback _ _ _ _ (z_bundle z)) (z_locale _ _ _ _ z) d ctx id vars) with
    | inl _ => if z_found _ _ _ _ z then None else Some (ELocale _ _)
    | inr e => Some e
    end.
  Proof.
    unfold LocaleModel.lookup_singular, wbind, wret.
    destruct (locale_singular _ _ _ _ _ (z_locale _ _ _ _ z) _ _ _ _) as [l0 [t|e]]; [reflexivity|].
    destruct (tag_eq_dec _ _).
    - destruct (locale_singular _ _ _ _ _ (b_source _ _ _ _ _) _ _ _ _) as [l1 r1]. reflexivity.
    - destruct (locale_singular _ _ _ _ _ (b_fallback _ _ _ _ _) _ _ _ _) as [l1 [t|e']]; [reflexivity|].
      destruct (locale_singular _ _ _ _ _ (b_source _ _ _ _ _) _ _ _ _) as [l2 r2]. reflexivity.
  Qed.
  Lemma plural_error z d ctx sg pl n vars : snd (snd (lookup_plural z d ctx sg pl n vars)) =
    match snd (locale_plural tag any E C (b_callback _ _ _ _ (z_bundle z)) (z_locale _ _ _ _ z) d ctx sg pl n vars) with
    | inl _ => if z_found _ _ _ _ z then None else Some (ELocale _ _)
    | inr e => Some e
    end.
  Proof.
    unfold LocaleModel.lookup_plural, wbind, wret.
    destruct (locale_plural _ _ _ _ _ (z_locale _ _ _ _ z) _ _ _ _ _ _) as [l0 [t|e]]; [reflexivity|].
    destruct (locale_plural _ _ _ _ _ (b_fallback _ _ _ _ _) _ _ _ _ _ _) as [l1 [t|e']]; [reflexivity|].
    destruct (locale_plural _ _ _ _ _ (b_source _ _ _ _ _) _ _ _ _ _ _) as [l2 r2]. reflexivity.
  Qed.

  Lemma singular_domain z s d ctx id vars t d' :
    (l_source _ _ _ (z_locale _ _ _ _ z) = true <-> language z = s) ->
    snd (snd (lookup_singular z d ctx id vars)) = Some (EDomain _ _ t d') <->
    has_domain z d = false /\ language z <> s /\ t = language z /\ d' = d.
  Proof.
    intro S. rewrite singular_error. unfold LocaleModel.locale_singular, SelfModel.has_domain, get_catalog, SelfModel.language, wret in *.
    destruct (l_source _ _ _ _).
    - cbn [snd]. split; [destruct (z_found _ _ _ _ z); discriminate|]. intros (_ & X & _). exfalso. apply X, S. reflexivity.
    - destruct (cat_get _ _ _ d) as [c|].
      + split; [|intros (X & _); discriminate].
        destruct (cat_lookup _ _ c ctx id); cbn [snd]; [destruct (z_found _ _ _ _ z); discriminate|discriminate].
      + cbn [snd]. split.
        * intro Q. injection Q as <- <-. repeat split. intro X. apply S in X. discriminate.
        * intros (_ & _ & -> & ->). reflexivity.
  Qed.
  Lemma plural_domain z s d ctx sg pl n vars t d' :
    (l_source _ _ _ (z_locale _ _ _ _ z) = true <-> language z = s) ->
    snd (snd (lookup_plural z d ctx sg pl n vars)) = Some (EDomain _ _ t d') <->
    has_domain z d = false /\ language z <> s /\ t = language z /\ d' = d.
  Proof.
    intro S. rewrite plural_error. unfold LocaleModel.locale_plural, SelfModel.has_domain, get_catalog, SelfModel.language, wret, wbind in *.
    destruct (l_source _ _ _ _).
    - destruct (print_source _ _ _ _ _ _ _ _ _ _) as [? ?].
      cbn [snd]. split; [destruct (z_found _ _ _ _ z); discriminate|]. intros (_ & X & _). exfalso. apply X, S. reflexivity.
    - destruct (cat_get _ _ _ d) as [c|].
      + split; [|intros (X & _); discriminate].
        destruct (cat_lookup_plural _ _ c ctx sg n); cbn [snd]; [destruct (z_found _ _ _ _ z); discriminate|discriminate].
      + cbn [snd]. split.
        * intro Q. injection Q as <- <-. repeat split. intro X. apply S in X. discriminate.
        * intros (_ & _ & -> & ->). reflexivity.
  Qed.
End Proofs.
