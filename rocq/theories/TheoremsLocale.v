(** Property theorems C35-C40: lookups through the fallback chain, bundle
    creation.  Theorems, examples and Print Assumptions only. *)
From Coq Require Import String Ascii List ZArith Bool Lia Permutation.
From Verif Require Import Base BaseProofs LocaleModel BundleModel LocaleSpec LocaleProofs
  BundleSpec BundleProofs BundleRunProofs BundleTopProofs.
Import ListNotations.
Open Scope nat_scope.

Section Theorems.
  (** external parts, see LocaleModel and BundleModel *)
  Variable tag : Type.
  Variable tag_eq_dec : forall a b : tag, {a = b} + {a <> b}.
  Variable und : tag.
  Variable any : Type.
  Variable of_int : Z -> any.
  Variable E C : Type.
  Variable parse : bytes -> tag + E.
  Variable parse_accept : bytes -> option (list tag).
  Variable trim_space : bytes -> bytes.
  Variable plural_for : tag -> plural_func any E.
  Variable no_string opt_error : E.
  Variable default_printer : printer tag any.
  Variable default_matcher : matcher_builder tag.
  (** the order of map iteration: any order, another one each time *)
  Variable iter : forall A, list (event tag E) -> list A -> list A.
  Hypothesis iter_perm : forall A past (l : list A), Permutation (iter A past l) l.

  Notation bundle := (bundle tag any E C).
  Notation localizer := (localizer tag any E C).
  Notation opt := (opt tag any E C).
  Notation name := (lang_tag tag E parse trim_space no_string).
  Notation new_bundle := (new_bundle tag tag_eq_dec und any E C parse trim_space plural_for iter
                            no_string opt_error default_printer default_matcher).
  Notation new_localizer_for_domain :=
    (new_localizer_for_domain tag tag_eq_dec any E C parse_accept).
  Notation lookup_singular := (lookup_singular tag tag_eq_dec any E C).
  Notation lookup_plural := (lookup_plural tag any E C).
  Notation loaders_of := (loaders_of tag any E C).
  Notation requests_of := (requests_of tag any E C name).
  Notation source_of := (source_of tag und any E C).
  Notation fallback_of := (fallback_of tag und any E C name).
  Notation setting := (setting tag any E C).
  Notation sets_source := (sets_source tag any E C).
  Notation sets_fallback := (sets_fallback tag any E C name).
  Notation sets_callback := (sets_callback tag any E C).
  Notation sets_domain := (sets_domain tag any E C).
  Notation sets_printer := (sets_printer tag any E C).
  Notation sets_matcher := (sets_matcher tag any E C).
  Notation sets_err_ctx := (sets_err_ctx tag any E C).
  Notation contract := (contract tag any E).
  Notation valid := (valid tag any E C name).
  Notation named := (named tag E name).
  Notation all_met := (all_met tag und any E).
  Notation languages := (languages tag und any E).
  Notation available := (available tag any E).
  Notation load_count := (load_count tag tag_eq_dec E).
  Notation asked := (asked tag any E).
  Notation chain := (chain tag any E C).
  Notation reported := (reported tag E).
  Notation calls := (calls tag E C).
  Notation bad_number := (bad_number tag any E).
  Notation z_locale := (z_locale tag any E C).
  Notation z_bundle := (z_bundle tag any E C).
  Notation z_found := (z_found tag any E C).
  Notation z_domain := (z_domain tag any E C).
  Notation b_callback := (b_callback tag any E C).
  Notation b_fallback := (b_fallback tag any E C).
  Notation b_source := (b_source tag any E C).
  Notation b_locales := (b_locales tag any E C).
  Notation b_languages := (b_languages tag any E C).
  Notation b_domains := (b_domains tag any E C).
  Notation l_lang := (l_lang tag any E).
  Notation l_cats := (l_cats tag any E).
  Notation printer_of os := (setting sets_printer default_printer os).

  (** [z] is a localizer of a bundle made with the options [os]. *)
  Definition localizer_of (os : list opt) (z : localizer) : Prop :=
    contract (loaders_of os) /\
    exists log dom langs, new_bundle os = (log, inl (z_bundle z)) /\
      new_localizer_for_domain (z_bundle z) dom langs = Ok z.

  Lemma localizer_from_tag b dom langs z :
    new_localizer_for_domain b dom langs = Ok z ->
    exists t, z = new_localizer_from_tag tag tag_eq_dec any E C b dom t.
  Proof.
    unfold LocaleModel.new_localizer_for_domain.
    destruct (b_match _ _ _ _ b _) as [i|].
    - destruct (nth_error _ _) as [t|]; [|discriminate].
      intros H. injection H as H. exists (Some t). symmetry. exact H.
    - intros H. injection H as H. exists None. symmetry. exact H.
  Qed.

  Lemma localizer_wf os z : localizer_of os z -> wf tag any E C z.
  Proof.
    intros (K & log & dom & langs & B & Z).
    destruct (new_bundle_made tag tag_eq_dec und any E C parse trim_space plural_for iter
                no_string opt_error default_printer default_matcher iter_perm _ _ _ K B)
      as (_ & rs & M).
    destruct (localizer_from_tag _ _ _ _ Z) as (t & ->).
    eapply from_tag_wf. exact M.
  Qed.

  (** C35: a request is answered by the first language of the chain
      (localizer's language, fallback language, source text) that has the
      message; the error is that of the first language. *)
  Theorem C35_singular :
    forall os z d ctx id vars, localizer_of os z ->
    exists es w t, asked (Sing any d ctx id vars) (chain z) es w t /\
      snd (lookup_singular z d ctx id vars) = (t, reported (z_found z) es).
  Proof.
    intros os z d ctx id vars L.
    exact (run_chain tag tag_eq_dec any E C z (Sing any d ctx id vars) (localizer_wf os z L)).
  Qed.

  Theorem C35_plural :
    forall os z d ctx sg pl n vars, localizer_of os z ->
    exists es w t, asked (Plur any d ctx sg pl n vars) (chain z) es w t /\
      snd (lookup_plural z d ctx sg pl n vars) = (t, reported (z_found z) es).
  Proof.
    intros os z d ctx sg pl n vars L.
    exact (run_chain tag tag_eq_dec any E C z (Plur any d ctx sg pl n vars) (localizer_wf os z L)).
  Qed.

  (** The chain determines the answer: there is no other one. *)
  Theorem C35_determined :
    forall os z q es w t es' w' t', localizer_of os z ->
    asked q (chain z) es w t -> asked q (chain z) es' w' t' ->
    es = es' /\ w = w' /\ t = t'.
  Proof.
    intros os z q es w t es' w' t' L A B.
    destruct (localizer_wf os z L) as (_ & _ & N).
    exact (asked_fun tag any E q (chain z) es w t es' w' t' N A B).
  Qed.

  (** C36: a singular request calls the callback once for each language that
      lacks the message; a language that is also the fallback counts once. *)
  Definition distinct_chain (z : localizer) : list (locale tag any E) :=
    if tag_eq_dec (l_lang (z_locale z)) (l_lang (b_fallback (z_bundle z)))
    then [z_locale z; b_source (z_bundle z)] else chain z.

  Theorem C36_singular :
    forall os z d ctx id vars, localizer_of os z ->
    exists es w t, asked (Sing any d ctx id vars) (distinct_chain z) es w t /\
      fst (lookup_singular z d ctx id vars) = calls (b_callback (z_bundle z)) es.
  Proof.
    intros os z d ctx id vars L. destruct (localizer_wf os z L) as (S & _ & _).
    destruct (run_asked tag tag_eq_dec any E C z (Sing any d ctx id vars) S) as (es & w & t & A & R).
    exists es, w, t. split; [exact A|]. cbn [run] in R. rewrite R. cbn [fst].
    cbn [LocaleSpec.bad_number]. rewrite app_nil_r. reflexivity.
  Qed.

  (** Plural requests: likewise when the fallback is another language; the
      source language's plural rule may add a complaint about the number.
      Missing from C36: the fallback language itself, see
      [C36_plural_twice_refuted]. *)
  Theorem C36_plural_partial :
    forall os z d ctx sg pl n vars, localizer_of os z ->
    l_lang (z_locale z) <> l_lang (b_fallback (z_bundle z)) ->
    exists es w t, asked (Plur any d ctx sg pl n vars) (distinct_chain z) es w t /\
      fst (lookup_plural z d ctx sg pl n vars)
      = calls (b_callback (z_bundle z)) (es ++ bad_number (Plur any d ctx sg pl n vars) w).
  Proof.
    intros os z d ctx sg pl n vars L D. destruct (localizer_wf os z L) as (S & _ & _).
    destruct (run_asked tag tag_eq_dec any E C z (Plur any d ctx sg pl n vars) S)
      as (es & w & t & A & R).
    exists es, w, t. unfold distinct_chain. destruct (tag_eq_dec _ _) as [Q|_]; [contradiction|].
    split; [exact A|]. cbn [run] in R. rewrite R. reflexivity.
  Qed.

  (** Every plural request: the fallback language is asked once more even if it
      is the localizer's language; a miss there is reported a second time, with
      the same reason. *)
  Theorem C36_plural :
    forall os z d ctx sg pl n vars, localizer_of os z ->
    exists es w t, asked (Plur any d ctx sg pl n vars) (chain z) es w t /\
      fst (lookup_plural z d ctx sg pl n vars)
      = calls (b_callback (z_bundle z)) (es ++ bad_number (Plur any d ctx sg pl n vars) w).
  Proof.
    intros os z d ctx sg pl n vars L. destruct (localizer_wf os z L) as (S & _ & _).
    destruct (run_asked tag tag_eq_dec any E C z (Plur any d ctx sg pl n vars) S)
      as (es & w & t & A & R).
    exists es, w, t. split; [exact A|]. cbn [run] in R. rewrite R. reflexivity.
  Qed.
  Theorem C36_plural_twice :
    forall os z d ctx sg pl n vars es w t, localizer_of os z ->
    l_lang (z_locale z) = l_lang (b_fallback (z_bundle z)) ->
    asked (Plur any d ctx sg pl n vars) (distinct_chain z) es w t ->
    (es = [] \/ exists e, es = [e]) /\
    fst (lookup_plural z d ctx sg pl n vars)
    = calls (b_callback (z_bundle z)) (es ++ es ++ bad_number (Plur any d ctx sg pl n vars) w).
  Proof.
    intros os z d ctx sg pl n vars es w t L Q A. destruct (localizer_wf os z L) as (S & F & N).
    destruct (C36_plural os z d ctx sg pl n vars L) as (es' & w' & t' & B & ->).
    unfold distinct_chain in A. destruct (tag_eq_dec _ _) as [_|X]; [|contradiction].
    assert (G : asked (Plur any d ctx sg pl n vars) (chain z) (es ++ es) w t /\ (es = [] \/ exists e, es = [e])).
    { unfold LocaleSpec.chain. rewrite <- (F Q). inversion A as [l ls t0 H|l ls e es0 w0 t0 K A1]; subst.
      - split; [|left; reflexivity]. apply hit. exact H.
      - inversion A1 as [l ls t0 H|l ls e' es1 w0 t0 K1 A2]; subst.
        + split; [|right; eexists; reflexivity]. apply miss; [exact K|]. apply miss; [exact K|]. apply hit. exact H.
        + exfalso. eapply (source_answers tag any E); [exact S|exact K1]. }
    destruct G as [G G2]. split; [exact G2|].
    destruct (C35_determined _ _ _ _ _ _ _ _ _ L B G) as (-> & -> & _). now rewrite app_assoc.
  Qed.

  (** Nothing is reported when the localizer's language has the message. *)
  Theorem C36_present :
    forall os z d ctx id vars t, localizer_of os z ->
    answers tag any E (z_locale z) (Sing any d ctx id vars) t ->
    fst (lookup_singular z d ctx id vars) = [].
  Proof.
    intros os z d ctx id vars t L A. destruct (localizer_wf os z L) as (S & F & N).
    destruct (C36_singular os z d ctx id vars L) as (es & w & t' & B & ->).
    assert (es = []) as ->; [|destruct (b_callback _); reflexivity].
    assert (NL : NoDup (map fst (l_cats (z_locale z)))) by (apply N; left; reflexivity).
    unfold distinct_chain, LocaleSpec.chain in B.
    destruct (tag_eq_dec _ _) in B; inversion B; subst; try reflexivity;
      exfalso; eapply (answers_lacks tag any E); eassumption.
  Qed.

  (** C37: the variants are the two general lookups with default domain, empty
      context and no arguments filled in (text and effects). *)
  Theorem C37_singular : forall z d c m vars,
    Get tag tag_eq_dec any E C z m = DPGetf tag tag_eq_dec any E C z (z_domain z) [] m [] /\
    Getf tag tag_eq_dec any E C z m vars = DPGetf tag tag_eq_dec any E C z (z_domain z) [] m vars /\
    DGet tag tag_eq_dec any E C z d m = DPGetf tag tag_eq_dec any E C z d [] m [] /\
    DGetf tag tag_eq_dec any E C z d m vars = DPGetf tag tag_eq_dec any E C z d [] m vars /\
    PGet tag tag_eq_dec any E C z c m = DPGetf tag tag_eq_dec any E C z (z_domain z) c m [] /\
    PGetf tag tag_eq_dec any E C z c m vars = DPGetf tag tag_eq_dec any E C z (z_domain z) c m vars /\
    DPGet tag tag_eq_dec any E C z d c m = DPGetf tag tag_eq_dec any E C z d c m [].
  Proof. intros. repeat split. Qed.

  Theorem C37_plural : forall z d c sg pl n vars,
    NGet tag any E C z sg pl n = DNPGetf tag any E C z (z_domain z) [] sg pl n [] /\
    NGetf tag any E C z sg pl n vars = DNPGetf tag any E C z (z_domain z) [] sg pl n vars /\
    DNGet tag any E C z d sg pl n = DNPGetf tag any E C z d [] sg pl n [] /\
    DNGetf tag any E C z d sg pl n vars = DNPGetf tag any E C z d [] sg pl n vars /\
    NPGet tag any E C z c sg pl n = DNPGetf tag any E C z (z_domain z) c sg pl n [] /\
    NPGetf tag any E C z c sg pl n vars = DNPGetf tag any E C z (z_domain z) c sg pl n vars /\
    DNPGet tag any E C z d c sg pl n = DNPGetf tag any E C z d c sg pl n [].
  Proof. intros. repeat split. Qed.

  (** The key variants: the key stands for singular and plural. *)
  Theorem C37_keys : forall z d c k n vars,
    KGet tag tag_eq_dec any E C z k = DPGetf tag tag_eq_dec any E C z (z_domain z) [] k [] /\
    KGetf tag tag_eq_dec any E C z k vars = DPGetf tag tag_eq_dec any E C z (z_domain z) [] k vars /\
    KDGet tag tag_eq_dec any E C z d k = DPGetf tag tag_eq_dec any E C z d [] k [] /\
    KDGetf tag tag_eq_dec any E C z d k vars = DPGetf tag tag_eq_dec any E C z d [] k vars /\
    KPGet tag tag_eq_dec any E C z c k = DPGetf tag tag_eq_dec any E C z (z_domain z) c k [] /\
    KPGetf tag tag_eq_dec any E C z c k vars = DPGetf tag tag_eq_dec any E C z (z_domain z) c k vars /\
    KDPGet tag tag_eq_dec any E C z d c k = DPGetf tag tag_eq_dec any E C z d c k [] /\
    KDPGetf tag tag_eq_dec any E C z d c k vars = DPGetf tag tag_eq_dec any E C z d c k vars /\
    KNGet tag any E C z k n = DNPGetf tag any E C z (z_domain z) [] k k n [] /\
    KNGetf tag any E C z k n vars = DNPGetf tag any E C z (z_domain z) [] k k n vars /\
    KDNGet tag any E C z d k n = DNPGetf tag any E C z d [] k k n [] /\
    KDNGetf tag any E C z d k n vars = DNPGetf tag any E C z d [] k k n vars /\
    KNPGet tag any E C z c k n = DNPGetf tag any E C z (z_domain z) c k k n [] /\
    KNPGetf tag any E C z c k n vars = DNPGetf tag any E C z (z_domain z) c k k n vars /\
    KDNPGet tag any E C z d c k n = DNPGetf tag any E C z d c k k n [] /\
    KDNPGetf tag any E C z d c k n vars = DNPGetf tag any E C z d c k k n vars.
  Proof. intros. repeat split. Qed.

  (** The general lookups answer along the chain (with C35): their text is the
      text of the first language that has the message. *)
  Theorem C37_general :
    forall os z d c m sg pl n vars, localizer_of os z ->
    (exists es w t, asked (Sing any d c m vars) (chain z) es w t /\
       snd (DPGetf tag tag_eq_dec any E C z d c m vars) = t) /\
    (exists es w t, asked (Plur any d c sg pl n vars) (chain z) es w t /\
       snd (DNPGetf tag any E C z d c sg pl n vars) = t).
  Proof.
    intros os z d c m sg pl n vars L. split.
    - destruct (C35_singular os z d c m vars L) as (es & w & t & A & R).
      exists es, w, t. split; [exact A|]. unfold DPGetf, drop_err, wbind, wret.
      destruct (lookup_singular z d c m vars) as [lg r]. cbn [snd] in *. rewrite R. reflexivity.
    - destruct (C35_plural os z d c sg pl n vars L) as (es & w & t & A & R).
      exists es, w, t. split; [exact A|]. unfold DNPGetf, drop_err, wbind, wret.
      destruct (lookup_plural z d c sg pl n vars) as [lg r]. cbn [snd] in *. rewrite R. reflexivity.
  Qed.

  (** Localize: a message without plural text is a singular request, one with
      a plural text a plural request with its count; the default domain is
      used unless the value has its own. *)
  Theorem C37_localize : forall z m,
    let d := if m_has_domain any m then LocaleModel.m_domain any m else z_domain z in
    (m_plural any m = [] ->
     localize tag tag_eq_dec any of_int E C z (Some m)
     = DPGetf tag tag_eq_dec any E C z d (m_ctx any m) (m_id any m) (m_vars any m)) /\
    (m_plural any m <> [] ->
     localize tag tag_eq_dec any of_int E C z (Some m)
     = DNPGetf tag any E C z d (m_ctx any m) (m_id any m) (m_plural any m)
         (of_int (m_count any m)) (m_vars any m)).
  Proof.
    intros z m d. unfold localize, localize_with_error. fold d.
    split; intros P.
    - rewrite P. reflexivity.
    - destruct (m_plural any m); [congruence|]. reflexivity.
  Qed.

  Theorem C37_message : forall z sg pl ctx vars count,
    localize tag tag_eq_dec any of_int E C z (Some (message any sg pl ctx vars count)) =
    match pl with
    | [] => PGetf tag tag_eq_dec any E C z ctx sg vars
    | _ => NPGetf tag any E C z ctx sg pl (of_int count) vars
    end.
  Proof. intros. destruct pl; reflexivity. Qed.

  (** An error is translated exactly when its message is; otherwise it is
      returned as it is. *)
  Theorem C37_error : forall z G (g : G) msg m,
    snd (localize_error tag tag_eq_dec any of_int E C z (GNil any G)) = RNil G /\
    snd (localize_error tag tag_eq_dec any of_int E C z (GText any G g msg)) =
      (let (t, e) := snd (lookup_singular z (z_domain z) (b_err_ctx _ _ _ _ (z_bundle z)) msg []) in
       match e with None => RWrapped G t g | Some _ => RSame G g end) /\
    snd (localize_error tag tag_eq_dec any of_int E C z (GLocalizable any G g m)) =
      (let (t, e) := snd (localize_with_error tag tag_eq_dec any of_int E C z (Some m)) in
       match e with None => RWrapped G t g | Some _ => RSame G g end).
  Proof.
    intros z G g msg m. split; [reflexivity|]. split; unfold localize_error, wbind, wret.
    - destruct (lookup_singular _ _ _ _ _) as [lg [t [e|]]]; reflexivity.
    - destruct (localize_with_error _ _ _ _ _ _ _ _) as [lg [t [e|]]]; reflexivity.
  Qed.

  (** C38: with the source language active the texts themselves are printed,
      whatever catalogs exist; only a number the plural rule rejects is
      reported. *)
  Theorem C38_source :
    forall os z, localizer_of os z -> l_lang (z_locale z) = source_of os ->
    let s := source_of os in
    let err := if z_found z then None else Some (ELocale tag E) in
    (forall d ctx id vars,
       lookup_singular z d ctx id vars = ([], (printer_of os s id vars, err))) /\
    (forall d ctx sg pl n vars,
       let (idx, bad) := plural_for s n in
       lookup_plural z d ctx sg pl n vars =
       (match bad with Some e => calls (b_callback (z_bundle z)) [EOther _ _ e] | None => [] end,
        (if (idx =? 0)%Z then printer_of os s sg vars
         else match pl with [] => printer_of os s sg vars | _ => printer_of os s pl vars end,
         err))).
  Proof.
    intros os z (K & log & dom & langs & B & Z) S s err.
    destruct (new_bundle_made tag tag_eq_dec und any E C parse trim_space plural_for iter
                no_string opt_error default_printer default_matcher iter_perm _ _ _ K B)
      as (_ & rs & M).
    assert (LO : exists t, locale_ok tag und any E C plural_for default_printer os t (z_locale z)).
    { destruct (localizer_from_tag _ _ _ _ Z) as (t & ZQ).
      assert (FB : exists t, locale_ok tag und any E C plural_for default_printer os t
                               (b_fallback (z_bundle z))).
      { destruct (m_fallback _ _ _ _ _ _ _ _ _ _ _ _ _ _ _ _ M) as [J|(_ & J)].
        - eexists. eapply m_locs; [exact M|exact J].
        - rewrite J. eexists. eapply m_source. exact M. }
      rewrite ZQ. unfold new_localizer_from_tag. destruct t as [t|]; [|exact FB].
      destruct (loc_get tag tag_eq_dec any E (b_locales (z_bundle z)) t) as [l|] eqn:G; [|exact FB].
      apply loc_get_in in G. exists t. cbn. eapply m_locs; [exact M|exact G]. }
    destruct LO as (t & LO).
    assert (t = s) as ->.
    { rewrite <- (k_lang _ _ _ _ _ _ _ _ _ _ LO). exact S. }
    pose proof (proj2 (k_source _ _ _ _ _ _ _ _ _ _ LO) eq_refl) as SRC.
    pose proof (k_print _ _ _ _ _ _ _ _ _ _ LO) as PR.
    pose proof (BundleTopProofs.k_plural _ _ _ _ _ _ _ _ _ _ LO) as PL.
    split.
    - intros d ctx id vars. unfold LocaleModel.lookup_singular, locale_singular.
      rewrite SRC, PR. reflexivity.
    - intros d ctx sg pl n vars. unfold LocaleModel.lookup_plural, locale_plural, print_source.
      rewrite SRC, PR, PL. destruct (plural_for s n) as [idx bad].
      assert (EV : match bad with Some e => missing tag E C (b_callback (z_bundle z)) (EOther tag E e) | None => [] end
              = match bad with Some e => calls (b_callback (z_bundle z)) [EOther _ _ e] | None => [] end).
      { destruct bad; [apply missing_calls|reflexivity]. }
      rewrite EV. unfold wbind, wret.
      destruct (idx =? 0)%Z, pl; cbn [orb PoStrModel.is_nil]; rewrite !app_nil_r; reflexivity.
  Qed.

  (** C40: when does NewBundle succeed. *)
  Theorem C40_success :
    forall os, contract (loaders_of os) ->
    (exists log b, new_bundle os = (log, inl b)) <->
    valid os /\ exists rs, Forall2 named (requests_of os) rs /\
                           all_met (source_of os) (loaders_of os) rs.
  Proof.
    intros os K. apply new_bundle_iff; assumption.
  Qed.

  (** After success: a language is there iff it was requested and is the
      source language or has a catalog; its catalogs are those its loaders
      give; each was loaded exactly once, nothing for the source language. *)
  Theorem C40_content :
    forall os log b, contract (loaders_of os) -> new_bundle os = (log, inl b) ->
    exists rs, Forall2 named (requests_of os) rs /\
    (forall t, In t (map fst (b_locales b)) <->
       In t (map snd rs) /\ t <> und /\ (t = source_of os \/ available (loaders_of os) t)) /\
    (forall t l d c, In (t, l) (b_locales b) ->
       (In (d, c) (l_cats l) <->
        t <> source_of os /\ exists ld, In (d, ld) (loaders_of os) /\ ld t d = inl c)) /\
    (forall t d, In t (map fst (b_locales b)) -> t <> source_of os ->
       In d (map fst (loaders_of os)) -> load_count t d log = 1) /\
    (forall d, load_count (source_of os) d log = 0) /\
    (forall t d, ~ In t (map snd rs) -> load_count t d log = 0) /\
    languages (source_of os) (loaders_of os) rs (b_languages b) /\
    (NoDup (b_domains b) /\ forall d, In d (b_domains b) <->
       exists t l c, In (t, l) (b_locales b) /\ In (d, c) (l_cats l)).
  Proof.
    intros os log b K B.
    destruct (new_bundle_made tag tag_eq_dec und any E C parse trim_space plural_for iter
                no_string opt_error default_printer default_matcher iter_perm _ _ _ K B)
      as (_ & rs & M).
    exists rs. split; [eapply m_named; exact M|]. split; [eapply m_keys; exact M|].
    split. { intros t l d c I. exact (k_backed _ _ _ _ _ _ _ _ _ _ (m_locs _ _ _ _ _ _ _ _ _ _ _ _ _ _ _ _ M t l I) d c). }
    split; [eapply m_once; exact M|].
    split. { intros d. eapply m_never; [exact M|]. left. reflexivity. }
    split. { intros t d N. eapply m_never; [exact M|]. right. exact N. }
    split; [eapply m_langs; exact M|].
    split; [eapply m_dnodup; exact M|eapply m_doms; exact M].
  Qed.

  (** Every language a localizer can be matched to has its locale: an index
      within the language list gives a localizer of that language. *)
  Theorem C40_localizer :
    forall os log b dom langs, contract (loaders_of os) -> new_bundle os = (log, inl b) ->
    match b_match _ _ _ _ b (flat_map (tags_of tag parse_accept) langs) with
    | None => exists z, new_localizer_for_domain b dom langs = Ok z /\
                z_locale z = b_fallback b /\ z_found z = false /\ z_domain z = dom
    | Some i =>
        match nth_error (b_languages b) i with
        | Some t => exists z, new_localizer_for_domain b dom langs = Ok z /\
                      l_lang (z_locale z) = t /\ z_found z = true /\ z_domain z = dom
        | None => new_localizer_for_domain b dom langs = Panic
        end
    end.
  Proof.
    intros os log b dom langs K B.
    destruct (new_bundle_made tag tag_eq_dec und any E C parse trim_space plural_for iter
                no_string opt_error default_printer default_matcher iter_perm _ _ _ K B)
      as (_ & rs & M).
    unfold LocaleModel.new_localizer_for_domain.
    destruct (b_match _ _ _ _ b _) as [i|]; [|eexists; split; [reflexivity|repeat split]].
    destruct (nth_error (b_languages b) i) as [t|] eqn:N; [|reflexivity].
    apply nth_error_In in N. eapply made_languages in N; [|exact M].
    unfold new_localizer_from_tag.
    destruct (loc_get tag tag_eq_dec any E (b_locales b) t) as [l|] eqn:G.
    - eexists. split; [reflexivity|]. cbn. split; [|split; reflexivity].
      apply loc_get_in in G. eapply k_lang. eapply m_locs; [exact M|exact G].
    - apply loc_get_none in G; [contradiction|exact und|exact plural_for].
  Qed.

  (** C39: options in another order. *)
  Notation once := (once tag any E C).
  Definition each_once (os : list opt) : Prop :=
    once sets_source os /\ once sets_fallback os /\ once sets_callback os /\
    once sets_domain os /\ once sets_printer os /\ once sets_matcher os /\ once sets_err_ctx os.

  (** The settings do not depend on the order. *)
  Theorem C39_settings :
    forall os os' log log' b b', Permutation os os' -> each_once os ->
    contract (loaders_of os) -> new_bundle os = (log, inl b) -> new_bundle os' = (log', inl b') ->
    b_callback b = b_callback b' /\
    b_default_domain _ _ _ _ b = b_default_domain _ _ _ _ b' /\
    b_err_ctx _ _ _ _ b = b_err_ctx _ _ _ _ b' /\
    same_locale tag any E (b_source b) (b_source b') /\
    same_locale tag any E (b_fallback b) (b_fallback b') /\
    (exists mb, b_match _ _ _ _ b = mb (b_languages b) /\ b_match _ _ _ _ b' = mb (b_languages b')) /\
    (forall t, In t (b_languages b) <-> In t (b_languages b')) /\
    (forall t l l', In (t, l) (b_locales b) -> In (t, l') (b_locales b') -> same_locale tag any E l l').
  Proof.
    intros os os' log log' b b' P (O1 & O2 & O3 & O4 & O5 & O6 & O7) K B B'.
    assert (PL : Permutation (loaders_of os) (loaders_of os')) by (apply loaders_perm; exact P).
    assert (K' : contract (loaders_of os')) by (eapply contract_perm; eassumption).
    destruct (new_bundle_made tag tag_eq_dec und any E C parse trim_space plural_for iter
                no_string opt_error default_printer default_matcher iter_perm _ _ _ K B)
      as (_ & rs & M).
    destruct (new_bundle_made tag tag_eq_dec und any E C parse trim_space plural_for iter
                no_string opt_error default_printer default_matcher iter_perm _ _ _ K' B')
      as (_ & rs' & M').
    assert (SR : source_of os = source_of os') by (apply setting_perm; assumption).
    assert (FB : fallback_of os = fallback_of os') by (apply setting_perm; assumption).
    assert (PR : printer_of os = printer_of os') by (apply setting_perm; assumption).
    assert (RP : Permutation rs rs').
    { eapply named_perm; [apply requests_perm; exact P|eapply m_named; exact M|eapply m_named; exact M']. }
    assert (AV : forall t, available (loaders_of os) t <-> available (loaders_of os') t).
    { intros t. split; apply available_perm; [exact PL|apply Permutation_sym; exact PL]. }
    assert (KEYS : forall t, In t (map fst (b_locales b)) <-> In t (map fst (b_locales b'))).
    { intros t. rewrite (m_keys _ _ _ _ _ _ _ _ _ _ _ _ _ _ _ _ M t).
      rewrite (m_keys _ _ _ _ _ _ _ _ _ _ _ _ _ _ _ _ M' t). rewrite SR, AV.
      assert (In t (map snd rs) <-> In t (map snd rs')).
      { split; apply Permutation_in; apply Permutation_map; [exact RP|apply Permutation_sym; exact RP]. }
      tauto. }
    assert (SL : forall t l l', In (t, l) (b_locales b) -> In (t, l') (b_locales b') ->
                   same_locale tag any E l l').
    { intros t l l' I I'. eapply ok_same; [exact SR|exact PR|exact PL| |].
      - eapply m_locs; [exact M|exact I].
      - eapply m_locs; [exact M'|exact I']. }
    assert (SS : same_locale tag any E (b_source b) (b_source b')).
    { pose proof (m_source _ _ _ _ _ _ _ _ _ _ _ _ _ _ _ _ M) as X.
      pose proof (m_source _ _ _ _ _ _ _ _ _ _ _ _ _ _ _ _ M') as X'.
      rewrite <- SR in X'. eapply ok_same; [exact SR|exact PR|exact PL|exact X|exact X']. }
    split. { rewrite (m_callback _ _ _ _ _ _ _ _ _ _ _ _ _ _ _ _ M), (m_callback _ _ _ _ _ _ _ _ _ _ _ _ _ _ _ _ M').
             apply setting_perm; assumption. }
    split. { rewrite (BundleTopProofs.m_domain _ _ _ _ _ _ _ _ _ _ _ _ _ _ _ _ M), (BundleTopProofs.m_domain _ _ _ _ _ _ _ _ _ _ _ _ _ _ _ _ M').
             apply setting_perm; assumption. }
    split. { rewrite (m_err_ctx _ _ _ _ _ _ _ _ _ _ _ _ _ _ _ _ M), (m_err_ctx _ _ _ _ _ _ _ _ _ _ _ _ _ _ _ _ M').
             apply setting_perm; assumption. }
    split; [exact SS|].
    split. { pose proof (m_fallback _ _ _ _ _ _ _ _ _ _ _ _ _ _ _ _ M) as X.
             pose proof (m_fallback _ _ _ _ _ _ _ _ _ _ _ _ _ _ _ _ M') as X'.
             rewrite <- FB in X'.
             destruct X as [X|(X & Y)], X' as [X'|(X' & Y')].
             - eapply SL; eassumption.
             - exfalso. apply X'. apply KEYS. apply (in_map fst) in X. exact X.
             - exfalso. apply X. apply KEYS. apply (in_map fst) in X'. exact X'.
             - rewrite Y, Y'. exact SS. }
    split. { exists (setting sets_matcher default_matcher os). split.
             - eapply m_match. exact M.
             - replace (setting sets_matcher default_matcher os)
                 with (setting sets_matcher default_matcher os').
               + eapply m_match. exact M'.
               + symmetry. apply setting_perm; assumption. }
    split; [|exact SL].
    intros t. rewrite (made_languages _ _ _ _ _ _ _ _ _ _ _ _ _ _ _ _ t M).
    rewrite (made_languages _ _ _ _ _ _ _ _ _ _ _ _ _ _ _ _ t M'). apply KEYS.
  Qed.

  (** If the options naming languages keep their order, also the outcome and
      the order of the languages are the same. *)
  Theorem C39_same_order :
    forall os os', Permutation os os' -> each_once os -> requests_of os = requests_of os' ->
    contract (loaders_of os) ->
    ((exists log b, new_bundle os = (log, inl b)) <-> (exists log b, new_bundle os' = (log, inl b))) /\
    (forall log log' b b', new_bundle os = (log, inl b) -> new_bundle os' = (log', inl b') ->
       b_languages b = b_languages b').
  Proof.
    intros os os' P (O1 & O2 & O3 & O4 & O5 & O6 & O7) R K.
    assert (PL : Permutation (loaders_of os) (loaders_of os')) by (apply loaders_perm; exact P).
    assert (K' : contract (loaders_of os')) by (eapply contract_perm; eassumption).
    assert (SR : source_of os = source_of os') by (apply setting_perm; assumption).
    split.
    - rewrite (C40_success os K), (C40_success os' K'), <- SR, <- R.
      split; intros (V & rs & N & M).
      + split; [eapply valid_perm; eassumption|]. exists rs. split; [exact N|].
        eapply all_met_perm; eassumption.
      + split; [eapply valid_perm; [apply Permutation_sym; exact P|exact V]|].
        exists rs. split; [exact N|].
        eapply all_met_perm; [apply Permutation_sym; exact PL|exact M].
    - intros log log' b b' B B'.
      destruct (new_bundle_made tag tag_eq_dec und any E C parse trim_space plural_for iter
                no_string opt_error default_printer default_matcher iter_perm _ _ _ K B)
        as (_ & rs & M).
      destruct (new_bundle_made tag tag_eq_dec und any E C parse trim_space plural_for iter
                no_string opt_error default_printer default_matcher iter_perm _ _ _ K' B')
        as (_ & rs' & M').
      pose proof (m_named _ _ _ _ _ _ _ _ _ _ _ _ _ _ _ _ M) as F.
      pose proof (m_named _ _ _ _ _ _ _ _ _ _ _ _ _ _ _ _ M') as F'.
      rewrite R in F. pose proof (named_fun _ _ _ _ _ _ _ _ F F') as <-.
      pose proof (m_langs _ _ _ _ _ _ _ _ _ _ _ _ _ _ _ _ M) as G.
      pose proof (m_langs _ _ _ _ _ _ _ _ _ _ _ _ _ _ _ _ M') as G'.
      rewrite <- SR in G'. eapply languages_fun; eassumption.
  Qed.

  (** In both orders a localizer for the same language and domain gives the
      same texts and the same errors. *)
  Theorem C39_texts :
    forall os os' log log' b b' d t q, Permutation os os' -> each_once os ->
    contract (loaders_of os) -> new_bundle os = (log, inl b) -> new_bundle os' = (log', inl b') ->
    snd (run tag tag_eq_dec any E C (new_localizer_from_tag tag tag_eq_dec any E C b d t) q)
    = snd (run tag tag_eq_dec any E C (new_localizer_from_tag tag tag_eq_dec any E C b' d t) q).
  Proof.
    intros os os' log log' b b' d t q P O K B B'.
    assert (PL : Permutation (loaders_of os) (loaders_of os')) by (apply loaders_perm; exact P).
    assert (K' : contract (loaders_of os')) by (eapply contract_perm; eassumption).
    destruct (C39_settings os os' log log' b b' P O K B B')
      as (_ & _ & _ & SS & SF & _ & LG & SL).
    destruct (new_bundle_made tag tag_eq_dec und any E C parse trim_space plural_for iter
                no_string opt_error default_printer default_matcher iter_perm _ _ _ K B)
      as (_ & rs & M).
    destruct (new_bundle_made tag tag_eq_dec und any E C parse trim_space plural_for iter
                no_string opt_error default_printer default_matcher iter_perm _ _ _ K' B')
      as (_ & rs' & M').
    set (z := new_localizer_from_tag _ _ _ _ _ b d t).
    set (z' := new_localizer_from_tag _ _ _ _ _ b' d t).
    assert (W : wf tag any E C z) by (eapply from_tag_wf; exact M).
    assert (W' : wf tag any E C z') by (eapply from_tag_wf; exact M').
    assert (Q : Forall2 (same_locale tag any E) (chain z) (chain z') /\ z_found z = z_found z').
    { assert (FBQ : Forall2 (same_locale tag any E) [b_fallback b; b_fallback b; b_source b]
                      [b_fallback b'; b_fallback b'; b_source b']) 
        by exact (Forall2_cons _ _ SF (Forall2_cons _ _ SF (Forall2_cons _ _ SS (Forall2_nil _)))).
      unfold z, z', new_localizer_from_tag. destruct t as [t|]; [|split; [exact FBQ|reflexivity]].
      destruct (loc_get tag tag_eq_dec any E (b_locales b) t) as [l|] eqn:G;
        destruct (loc_get tag tag_eq_dec any E (b_locales b') t) as [l'|] eqn:G'.
      - split; [|reflexivity]. apply loc_get_in in G, G'.
        constructor; [exact (SL t l l' G G')|]. constructor; [exact SF|]. constructor; [exact SS|]. constructor.
      - exfalso. apply loc_get_in in G. apply (in_map fst) in G. cbn [fst] in G.
        apply (made_languages _ _ _ _ _ _ _ _ _ _ _ _ _ _ _ _ t M) in G. apply LG in G.
        apply (made_languages _ _ _ _ _ _ _ _ _ _ _ _ _ _ _ _ t M') in G.
        apply loc_get_none in G'; [contradiction|exact und|exact plural_for].
      - exfalso. apply loc_get_in in G'. apply (in_map fst) in G'. cbn [fst] in G'.
        apply (made_languages _ _ _ _ _ _ _ _ _ _ _ _ _ _ _ _ t M') in G'. apply LG in G'.
        apply (made_languages _ _ _ _ _ _ _ _ _ _ _ _ _ _ _ _ t M) in G'.
        apply loc_get_none in G; [contradiction|exact und|exact plural_for].
      - split; [exact FBQ|reflexivity]. }
    destruct Q as [Q QF].
    destruct (run_chain tag tag_eq_dec any E C z q W) as (es & w & x & A & R).
    destruct (same_asked tag any E q _ _ _ _ _ Q A) as (w' & _ & A').
    rewrite R, (run_total tag tag_eq_dec any E C z' q es w' x W' A'), QF. reflexivity.
  Qed.
End Theorems.

(** A concrete instance: tags are names, numbers are integers, a plural rule
    that complains about negative numbers, maps iterated backwards. *)
Definition x_dec (a b : bytes) : {a = b} + {a <> b} := list_eq_dec ascii_dec a b.
Definition x_plural (_ : bytes) (n : Z) : Z * option unit :=
  (if (n =? 1)%Z then 0%Z else 1%Z, if (n <? 0)%Z then Some tt else None).
Definition x_print (_ : bytes) (f : bytes) (vars : list Z) : bytes := f ++ map (fun v => ascii_of_nat (Z.to_nat v)) vars.
Fixpoint x_find (m : list (bytes * bytes)) (k : bytes) : bytes + unit :=
  match m with [] => inr tt | (a, b) :: m' => if beq a k then inl b else x_find m' k end.
Definition x_cat (m : list (bytes * bytes)) : catalog Z unit :=
  {| cat_lookup := fun _ id => x_find m id; cat_lookup_plural := fun _ sg _ => x_find m sg |}.
Definition x_loader (m : list (bytes * list (bytes * bytes))) : loader bytes Z unit :=
  fun t d => match find (fun p => beq (fst p) t) m with
             | Some p => inl (x_cat (snd p))
             | None => inr (ENotFound _ _ tt)
             end.
Definition x_iter (A : Type) (_ : list (event bytes unit)) (l : list A) : list A := rev l.
Lemma x_iter_perm : forall A past (l : list A), Permutation (x_iter A past l) l.
Proof. intros. apply Permutation_sym, Permutation_rev. Qed.
(** the matcher: the first supported language that was asked for *)
Fixpoint x_index (t : bytes) (l : list bytes) : option nat :=
  match l with [] => None | a :: l' => if beq a t then Some 0 else option_map S (x_index t l') end.
Definition x_matcher : matcher_builder bytes :=
  fun have want => match flat_map (fun t => match x_index t have with Some i => [i] | None => [] end) want with
                   | i :: _ => Some i | [] => None end.
Definition x_parse (s : bytes) : bytes + unit := if PoStrModel.is_nil s then inr tt else inl s.
Notation x_opt := (opt bytes Z unit unit).
Notation x_localizer := (localizer bytes Z unit unit).
Definition x_new : list x_opt -> W bytes unit (bundle bytes Z unit unit + error bytes unit) :=
  new_bundle bytes x_dec [] Z unit unit x_parse (fun s => s) x_plural x_iter tt tt x_print x_matcher.
Definition x_localizer_of : list x_opt -> x_localizer -> Prop :=
  localizer_of bytes x_dec [] Z unit unit x_parse (fun _ => None) (fun s => s) x_plural tt tt x_print x_matcher x_iter.
Definition x_for := new_localizer_for_domain bytes x_dec Z unit unit (fun _ => None).
Definition x_contract (os : list x_opt) : Prop := contract bytes Z unit (loaders_of bytes Z unit unit os).

Lemma x_make os dom langs (P : x_localizer -> Prop) :
  x_contract os ->
  match snd (x_new os) with
  | inl b => match x_for b dom langs with Ok z => P z | _ => False end
  | inr _ => False
  end -> exists z, x_localizer_of os z /\ P z.
Proof.
  intros K H. destruct (x_new os) as [log [b|]] eqn:B; [|contradiction]. cbn [snd] in H.
  destruct (x_for b dom langs) as [z| | |] eqn:F; try contradiction.
  exists z. split; [|exact H].
  assert (z_bundle _ _ _ _ z = b) as ZB.
  { destruct (localizer_from_tag bytes x_dec Z unit unit (fun _ => None) b dom langs z F) as (t & ->).
    unfold new_localizer_from_tag. destruct t; [destruct (loc_get _ _ _ _ _ _)|]; reflexivity. }
  split; [exact K|]. exists log, dom, langs. rewrite ZB. split; [exact B|exact F].
Qed.
Lemma x_loader_contract m t d t' : x_loader m t d <> inr (ELanguage _ _ t').
Proof. unfold x_loader. destruct (find _ m); discriminate. Qed.
Ltac x_contract :=
  unfold x_contract, contract, loaders_of; cbn [flat_map loader_of app]; intros ? ? ? ? I;
  cbn [In] in I; repeat (destruct I as [I|I]; [injection I as <- <-; apply x_loader_contract|]); contradiction.

Definition x_a := x_loader [(bs "de", [(bs "hello", bs "Hallo"); (bs "bye", bs "Ciao")]);
                            (bs "fr", [(bs "hello", bs "Bonjour")])].
Definition x_b := x_loader [(bs "fr", [(bs "hello", bs "Salut")])].
Definition OT (t : string) : langarg bytes := LTag _ (bs t).
Definition x_os : list x_opt :=
  [OSource _ _ _ _ (bs "en"); OFallback _ _ _ _ (OT "de"); OCallback _ _ _ _ (Some tt);
   OLoader _ _ _ _ (bs "a") (Some x_a); OLanguages _ _ _ _ [LString _ (bs "fr"); OT "xx"]].
Lemma x_os_contract : x_contract x_os.
Proof. x_contract. Qed.

(** C35: French has the first message, German (the fallback) the second, the
    third is printed as it is. *)
Example C35_example : exists z, x_localizer_of x_os z /\
  map (fun m => lookup_singular bytes x_dec Z unit unit z (bs "a") [] m [33%Z]) [bs "hello"; bs "bye"; bs "x"] =
  [([], (bs "Bonjour!", None));
   ([EvMissing _ _ (EOther _ _ tt)], (bs "Ciao!", Some (EOther _ _ tt)));
   ([EvMissing _ _ (EOther _ _ tt); EvMissing _ _ (EOther _ _ tt)], (bs "x!", Some (EOther _ _ tt)))] /\
  snd (lookup_plural bytes Z unit unit z (bs "b") [] (bs "one") (bs "many") 3%Z []) =
    (bs "many", Some (EDomain _ _ (bs "fr") (bs "b"))).
Proof. apply (x_make _ (bs "a") [OT "fr"]); [exact x_os_contract|]. vm_compute. split; reflexivity. Qed.

Example C36_present_example : exists z, x_localizer_of x_os z /\
  answers bytes Z unit (z_locale _ _ _ _ z) (Sing Z (bs "a") [] (bs "hello") []) (bs "Bonjour") /\
  l_lang _ _ _ (z_locale _ _ _ _ z) <> l_lang _ _ _ (b_fallback _ _ _ _ (z_bundle _ _ _ _ z)).
Proof.
  assert (H : exists z, x_localizer_of x_os z /\
    l_source _ _ _ (z_locale _ _ _ _ z) = false /\
    map (fun p => (fst p, cat_lookup _ _ (snd p) [] (bs "hello"))) (l_cats _ _ _ (z_locale _ _ _ _ z))
      = [(bs "a", inl (bs "Bonjour"))] /\
    l_print _ _ _ (z_locale _ _ _ _ z) (bs "Bonjour") [] = bs "Bonjour" /\
    beq (l_lang _ _ _ (z_locale _ _ _ _ z)) (l_lang _ _ _ (b_fallback _ _ _ _ (z_bundle _ _ _ _ z))) = false).
  { apply (x_make _ (bs "a") [OT "fr"]); [exact x_os_contract|]. vm_compute. repeat split. }
  destruct H as (z & L & S & CS & P & D). exists z. split; [exact L|]. split.
  - destruct (l_cats _ _ _ (z_locale _ _ _ _ z)) as [|[d c] [|]] eqn:Q; cbn [map fst snd] in CS; try discriminate.
    injection CS as D1 C1. rewrite <- P. subst d. eapply a_catalog; [exact S| |exact C1].
    rewrite Q. left. reflexivity.
  - intros Q. rewrite Q, beq_refl in D. discriminate.
Qed.

(** C36 fails for plural requests of the fallback language itself: it is asked
    twice and each time reported. *)
Theorem C36_plural_twice_refuted :
  exists os z e, x_localizer_of os z /\
    asked bytes Z unit (Plur Z (bs "a") [] (bs "one") (bs "many") 3%Z [])
      (distinct_chain bytes x_dec Z unit unit z) [e] (b_source _ _ _ _ (z_bundle _ _ _ _ z)) (bs "many") /\
    fst (lookup_plural bytes Z unit unit z (bs "a") [] (bs "one") (bs "many") 3%Z []) =
      [EvMissing _ _ e; EvMissing _ _ e].
Proof.
  exists x_os.
  assert (H : exists z, x_localizer_of x_os z /\
    (l_lang _ _ _ (z_locale _ _ _ _ z), l_lang _ _ _ (b_fallback _ _ _ _ (z_bundle _ _ _ _ z)),
     l_source _ _ _ (z_locale _ _ _ _ z), l_source _ _ _ (b_source _ _ _ _ (z_bundle _ _ _ _ z)),
     map (fun p => (fst p, cat_lookup_plural _ _ (snd p) [] (bs "one") 3%Z)) (l_cats _ _ _ (z_locale _ _ _ _ z)),
     l_plural _ _ _ (b_source _ _ _ _ (z_bundle _ _ _ _ z)) 3%Z,
     l_print _ _ _ (b_source _ _ _ _ (z_bundle _ _ _ _ z)) (bs "many") [],
     fst (lookup_plural bytes Z unit unit z (bs "a") [] (bs "one") (bs "many") 3%Z []))
    = (bs "de", bs "de", false, true, [(bs "a", inr tt)], (1%Z, None), bs "many",
       [EvMissing _ _ (EOther _ _ tt); EvMissing _ _ (EOther _ _ tt)])).
  { apply (x_make _ (bs "a") [OT "de"]); [exact x_os_contract|]. vm_compute. reflexivity. }
  destruct H as (z & L & H). injection H as H1 H2 H3 H4 H5 H6 H7 H8.
  exists z, (EOther _ _ tt). split; [exact L|]. split; [|exact H8].
  unfold distinct_chain. rewrite H1, H2. destruct (x_dec _ _) as [_|N]; [|contradiction].
  destruct (l_cats _ _ _ (z_locale _ _ _ _ z)) as [|[d c] [|]] eqn:Q; cbn [map fst snd] in H5; try discriminate.
  injection H5 as D1 C1. eapply miss.
  - eapply LocaleSpec.k_plural; [exact H3| |exact C1]. rewrite Q. subst d. left. reflexivity.
  - apply hit. rewrite <- H7 at 2. apply a_source_many; [exact H4|rewrite H6; discriminate|discriminate].
Qed.

(** C36/C38 fail for a number the plural rule rejects: the source text is
    there, yet the callback is called. *)
Theorem C38_callback_refuted :
  exists os z, x_localizer_of os z /\ l_lang _ _ _ (z_locale _ _ _ _ z) = source_of bytes [] Z unit unit os /\
    lookup_plural bytes Z unit unit z (bs "a") [] (bs "one") (bs "many") (-1)%Z [] =
      ([EvMissing _ _ (EOther _ _ tt)], (bs "many", None)).
Proof.
  exists x_os. apply (x_make _ (bs "a") [OT "en"]); [exact x_os_contract|]. vm_compute. split; reflexivity.
Qed.

(** C38 fails for a localizer without a matching language that falls back to
    the source language: text and "no matching locale". *)
Theorem C38_error_refuted :
  exists os z, x_localizer_of os z /\ l_lang _ _ _ (z_locale _ _ _ _ z) = source_of bytes [] Z unit unit os /\
    lookup_singular bytes x_dec Z unit unit z (bs "a") [] (bs "one") [] = ([], (bs "one", Some (ELocale _ _))).
Proof.
  exists [OSource _ _ _ _ (bs "en")]. apply (x_make _ (bs "a") [OT "fr"]); [x_contract|]. vm_compute. split; reflexivity.
Qed.

Example C38_example : exists z, x_localizer_of x_os z /\
  l_lang _ _ _ (z_locale _ _ _ _ z) = source_of bytes [] Z unit unit x_os /\ z_found _ _ _ _ z = true /\
  map (fun n => lookup_plural bytes Z unit unit z (bs "a") [] (bs "one") (bs "many") n [33%Z]) [1%Z; 2%Z] =
    [([], (bs "one!", None)); ([], (bs "many!", None))] /\
  lookup_plural bytes Z unit unit z (bs "a") [] (bs "one") [] 2%Z [] = ([], (bs "one", None)).
Proof. apply (x_make _ (bs "a") [OT "en"]); [exact x_os_contract|]. vm_compute. repeat split. Qed.

Example C37_example : exists z, x_localizer_of x_os z /\
  (snd (Get bytes x_dec Z unit unit z (bs "hello")), snd (DGet bytes x_dec Z unit unit z (bs "b") (bs "hello")),
   snd (NGetf bytes Z unit unit z (bs "one") (bs "many") 2%Z [33%Z]), snd (KNGet bytes Z unit unit z (bs "k") 2%Z),
   snd (localize bytes x_dec Z (fun n => n) unit unit z (Some (message Z (bs "one") (bs "many") [] [] 1%Z))))
  = (bs "Bonjour", bs "hello", bs "many!", bs "k", bs "one") /\
  snd (localize_error bytes x_dec Z (fun n => n) unit unit z (GText Z nat 7 (bs "hello"))) = RWrapped nat (bs "Bonjour") 7 /\
  snd (localize_error bytes x_dec Z (fun n => n) unit unit z (GText Z nat 7 (bs "bye"))) = RSame nat 7.
Proof. apply (x_make _ (bs "a") [OT "fr"]); [exact x_os_contract|]. vm_compute. repeat split. Qed.

(** C39, C40: German has a catalog for domain a only.  Requested first as
    optional and then as required language, the bundle is made; the other way
    round it is not. *)
Definition x_opt_req : list x_opt :=
  [OLoader _ _ _ _ (bs "a") (Some x_a); OLoader _ _ _ _ (bs "b") (Some x_b);
   OLanguages _ _ _ _ [OT "de"]; ORequired _ _ _ _ [OT "de"]].
Definition x_req_opt : list x_opt :=
  [OLoader _ _ _ _ (bs "a") (Some x_a); OLoader _ _ _ _ (bs "b") (Some x_b);
   ORequired _ _ _ _ [OT "de"]; OLanguages _ _ _ _ [OT "de"]].

Definition x_each_once (os : list x_opt) : Prop := each_once bytes Z unit unit x_parse (fun s => s) tt os.

Theorem C39_outcome_refuted :
  exists os os', Permutation os os' /\ x_each_once os /\ x_contract os /\
    (exists log b, x_new os = (log, inl b)) /\ (exists log e, x_new os' = (log, inr e)).
Proof.
  exists x_opt_req, x_req_opt. split.
  { apply perm_skip, perm_skip, perm_swap. }
  split. { unfold x_each_once, each_once, once. cbn. repeat split; lia. }
  split. { x_contract. }
  split.
  - assert (H : match snd (x_new x_opt_req) with inl _ => true | inr _ => false end = true) by (vm_compute; reflexivity).
    destruct (x_new x_opt_req) as [log [b|]]; [eauto|discriminate].
  - assert (H : match snd (x_new x_req_opt) with inl _ => false | inr _ => true end = true) by (vm_compute; reflexivity).
    destruct (x_new x_req_opt) as [log [b|]]; [discriminate|eauto].
Qed.

(** The bundle was made although a catalog of a required language is missing. *)
Theorem C40_required_refuted :
  exists os t d ld, x_contract os /\ (exists log b, x_new os = (log, inl b)) /\
    In (ORequired _ _ _ _ [LTag _ t]) os /\ In (d, ld) (loaders_of bytes Z unit unit os) /\
    exists e, ld t d = inr (ENotFound _ _ e).
Proof.
  exists x_opt_req, (bs "de"), (bs "b"), x_b. split; [x_contract|]. split.
  - assert (H : match snd (x_new x_opt_req) with inl _ => true | inr _ => false end = true) by (vm_compute; reflexivity).
    destruct (x_new x_opt_req) as [log [b|]]; [eauto|discriminate].
  - split; [right; right; right; left; reflexivity|]. split; [right; left; reflexivity|].
    exists tt. vm_compute. reflexivity.
Qed.

(** C40 needs the contract of loaders: a loader that answers
    ErrMissingLanguage makes an optional language disappear without a load or
    "not found". *)
Theorem C40_contract_refuted :
  exists os log b rs, x_new os = (log, inl b) /\
    Forall2 (named bytes unit (lang_tag bytes unit x_parse (fun s => s) tt))
      (requests_of bytes Z unit unit (lang_tag bytes unit x_parse (fun s => s) tt) os) rs /\
    ~ all_met bytes [] Z unit (source_of bytes [] Z unit unit os) (loaders_of bytes Z unit unit os) rs.
Proof.
  set (os := [OLoader bytes Z unit unit (bs "a") (Some (fun t _ => inr (ELanguage _ _ t)));
              OLanguages _ _ _ _ [OT "de"]] : list x_opt).
  assert (H : match snd (x_new os) with inl _ => true | inr _ => false end = true) by (vm_compute; reflexivity).
  exists os. destruct (x_new os) as [log [b|]] eqn:B; [|discriminate].
  exists log, b, [(true, bs "de")]. split; [reflexivity|]. split.
  - repeat constructor.
  - intros A. destruct (A [] (true, bs "de") [] eq_refl) as [_ A'].
    specialize (A' ltac:(discriminate) ltac:(discriminate) _ (or_introl eq_refl)).
    destruct A' as [(c & Q)|(e & Q)]; discriminate.
Qed.

(** C40's and C39's hypotheses are met: both orders of the same options. *)
Example C40_example : x_contract x_os /\
  (fst (x_new x_os), match snd (x_new x_os) with inl b => b_languages _ _ _ _ b | inr _ => [] end) =
  ([EvLoad _ _ (bs "de") (bs "a"); EvLoad _ _ (bs "fr") (bs "a"); EvLoad _ _ (bs "xx") (bs "a");
    EvMissing _ _ (ENotFound _ _ tt); EvMissing _ _ (ELanguage _ _ (bs "xx"))],
   [bs "en"; bs "de"; bs "fr"]).
Proof. split; [exact x_os_contract|]. vm_compute. reflexivity. Qed.

Example C39_example : x_each_once x_os /\ Permutation x_os (rev x_os) /\
  (exists log b, x_new x_os = (log, inl b)) /\ (exists log b, x_new (rev x_os) = (log, inl b)).
Proof.
  split. { unfold x_each_once, each_once, once. cbn. repeat split; lia. }
  split; [apply Permutation_rev|]. split.
  - assert (H : match snd (x_new x_os) with inl _ => true | inr _ => false end = true) by (vm_compute; reflexivity).
    destruct (x_new x_os) as [log [b|]]; [eauto|discriminate].
  - assert (H : match snd (x_new (rev x_os)) with inl _ => true | inr _ => false end = true) by (vm_compute; reflexivity).
    destruct (x_new (rev x_os)) as [log [b|]]; [eauto|discriminate].
Qed.

Print Assumptions C35_singular.
Print Assumptions C35_plural.
Print Assumptions C35_determined.
Print Assumptions C36_singular.
Print Assumptions C36_plural_partial.
Print Assumptions C36_plural.
Print Assumptions C36_plural_twice.
Print Assumptions C36_present.
Print Assumptions C36_plural_twice_refuted.
Print Assumptions C37_singular.
Print Assumptions C37_plural.
Print Assumptions C37_keys.
Print Assumptions C37_general.
Print Assumptions C37_localize.
Print Assumptions C37_message.
Print Assumptions C37_error.
Print Assumptions C38_source.
Print Assumptions C38_callback_refuted.
Print Assumptions C38_error_refuted.
Print Assumptions C39_settings.
Print Assumptions C39_same_order.
Print Assumptions C39_texts.
Print Assumptions C39_outcome_refuted.
Print Assumptions C40_success.
Print Assumptions C40_content.
Print Assumptions C40_localizer.
Print Assumptions C40_required_refuted.
Print Assumptions C40_contract_refuted.
