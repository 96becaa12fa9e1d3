(** Property theorems C57-C58: from files to the texts shown; errors while
    reading.  Theorems, examples and Print Assumptions only. *)
From Coq Require Import String Ascii List ZArith Bool Lia ZifyBool Permutation.
From Verif Require Import Base BaseProofs Utf8Model LocaleModel BundleModel LocaleSpec LocaleProofs BundleSpec BundleProofs
  BundleRunProofs BundleTopProofs TheoremsLocale LoaderModel LoaderSpec LoaderProofs
  Utf8Proofs PoStrSpec PoStrProofs TrimProofs PoItemProofs PoFileModel PoFileSpec PoParseProofs PoOutcomeProofs PoHeaderProofs MoModel MoSpec MoProofs
  NumModel PopModel PopSpec PopSameSpec PopBuiltin LangSpec GettextModel GettextSpec GettextProofs AskedSpec PoExamples PopScanProofs PopProofs PopComplete PopBuiltinProofs TheoremsMo TheoremsGettext TheoremsLoader AppModel AppSpec AppProofs.
From Verif Require PoLineSpec PoLineProofs PoAnyProofs PoHeadProofs PoFormProofs TheoremsPoHang TheoremsPoLine TheoremsMoAny TheoremsPoHead.
Import ListNotations.
Open Scope Z_scope.

Lemma last_lf : forall (x r : bytes), ~ In LF r -> StrModel.last_index_byte LF (x ++ LF :: r) = Some (length x).
Proof.
  induction x as [|c x IH]; intros r N; cbn [app StrModel.last_index_byte length].
  - now rewrite (proj2 (PoDecodeProofs.last_index_none LF r) N), Ascii.eqb_refl.
  - now rewrite IH.
Qed.

Section Theorems.
  (** external parts, see GettextModel, LocaleModel, BundleModel, LoaderModel *)
  Variable tag : Type.
  Variable tag_eq_dec : forall a b : tag, {a = b} + {a <> b}.
  Variable und : tag.
  Variable is_root : tag -> bool.
  Variable tag_string : tag -> bytes.
  Variable base : tag -> bytes * bool.
  Variable parent : tag -> tag.
  Variable fold : rune -> rune.
  Variable fuel : nat.
  Variable E C : Type.
  Variable of_lookup : lookup_error tag -> E.
  Variable decode_failed : E.
  Variable parse : bytes -> tag + E.
  Variable parse_accept : bytes -> option (list tag).
  Variable trim_space : bytes -> bytes.
  Variable plural_for : tag -> plural_func number E.
  Variable no_string opt_error : E.
  Variable default_printer : printer tag number.
  Variable default_matcher : matcher_builder tag.
  Variable iter : forall A, list (event tag E) -> list A -> list A.
  Hypothesis iter_perm : forall A past (l : list A), Permutation (iter A past l) l.
  Variable parts : tag -> tag_parts.
  Variable clean : bytes -> bytes.
  Variable is_not_exist : E -> bool.
  Variable not_exist : E.
  Variable not_found : tag -> bytes -> E.
  Variable decode_error : bytes -> E -> E.
  Variable join_errors : E -> E -> E.
  (** errors.Is(_, os.ErrNotExist) *)
  Hypothesis not_exist_is : is_not_exist not_exist = true.
  Hypothesis decode_failed_is : is_not_exist decode_failed = false.

  Notation opt := (opt tag number E C).
  Notation localizer := (localizer tag number E C).
  Notation name := (lang_tag tag E parse trim_space no_string).
  Notation new_bundle := (new_bundle tag tag_eq_dec und number E C parse trim_space plural_for iter
                            no_string opt_error default_printer default_matcher).
  Notation localizer_of := (localizer_of tag tag_eq_dec und number E C parse parse_accept trim_space plural_for
                              no_string opt_error default_printer default_matcher iter).
  Notation lookup_singular := (LocaleModel.lookup_singular tag tag_eq_dec number E C).
  Notation lookup_plural := (LocaleModel.lookup_plural tag number E C).
  Notation loaders_of := (loaders_of tag number E C).
  Notation requests_of := (requests_of tag number E C name).
  Notation source_of := (source_of tag und number E C).
  Notation fallback_of := (fallback_of tag und number E C name).
  Notation printer_of os := (setting tag number E C (sets_printer tag number E C) default_printer os).
  Notation load := (load tag number E is_not_exist not_found decode_error join_errors).
  Notation chosen := (chosen tag E parts clean is_not_exist not_exist).
  Notation gdecoder := (gettext_decoder tag is_root tag_string base parent fold fuel E of_lookup decode_failed).
  Notation catalog_of := (catalog_of tag E of_lookup decode_failed).
  Notation decode := (decode tag is_root tag_string base parent fold fuel).
  Notation z_locale := (z_locale tag number E C).
  Notation z_bundle := (z_bundle tag number E C).
  Notation z_found := (z_found tag number E C).
  Notation l_lang := (l_lang tag number E).
  Notation found_error z := (if z_found z then None else Some (ELocale tag E)).

  (** The loader of domain [d] uses the gettext file [s] for language [t]; *)
  Definition placed (os : list opt) (d : bytes) (t : tag) (mo u : bool) (s : bytes) : Prop :=
    exists l r ds, In (d, load l) (loaders_of os) /\ chosen l r ds t d (gdecoder mo u) s.
  (** it has the messages [ms] and the header fields [kvs]. *)
  Definition served (os : list opt) (d : bytes) (t : tag) (mo u : bool) (s : bytes)
      (ms : list PoFileModel.message) (kvs : list (bytes * bytes)) : Prop :=
    holds s ms kvs mo /\ placed os d t mo u s.

  Lemma placed_load os d t mo u s : placed os d t mo u s ->
    exists ld, In (d, ld) (loaders_of os) /\
      ld t d = match decode mo u t d s with Ok c => inl (catalog_of c) | _ => inr (EOther _ _ decode_failed) end.
  Proof.
    intros (l & r & ds & I & CH). exists (load l). split; [exact I|].
    destruct (gdecoder_run tag is_root tag_string base parent fold fuel E of_lookup decode_failed mo u) as (g & Q & G).
    rewrite Q in CH.
    rewrite (load_chosen tag E parts clean is_not_exist not_exist not_found decode_error join_errors not_exist_is _ _ _ _ _ _ _ CH).
    - rewrite G. destruct (decode mo u t d s); reflexivity.
    - intros e. rewrite G. destruct (decode mo u t d s); try discriminate; intros X; injection X as <-; exact decode_failed_is.
  Qed.
  Lemma served_load os d t mo u s ms kvs : served os d t mo u s ms kvs ->
    exists ld, In (d, ld) (loaders_of os) /\
      ld t d = match decode mo u t d s with Ok c => inl (catalog_of c) | _ => inr (EOther _ _ decode_failed) end.
  Proof. intros (_ & P). exact (placed_load _ _ _ _ _ _ P). Qed.

  (** every loader of a language that is there gave a catalog or nothing *)
  Lemma met_first os rs t d ld : all_met tag und number E (source_of os) (loaders_of os) rs ->
    In t (map snd rs) -> t <> und -> t <> source_of os -> In (d, ld) (loaders_of os) ->
    (exists c, ld t d = inl c) \/ (exists e, ld t d = inr (ENotFound _ _ e)).
  Proof.
    intros M I U S L. apply in_map_iff in I as ((o & t') & Q & I). cbn [snd] in Q. subst t'.
    assert (X : exists before o after, rs = before ++ (o, t) :: after /\ ~ In t (map snd before)).
    { clear - I tag_eq_dec. induction rs as [|[o' t'] rs IH]; [destruct I|].
      destruct (tag_eq_dec t' t) as [->|N].
      - exists [], o', rs. split; [reflexivity|intros []].
      - destruct I as [I|I]; [congruence|]. destruct (IH I) as (b & o2 & a & -> & NI).
        exists ((o', t') :: b), o2, a. split; [reflexivity|]. intros [X|X]; [cbn in X; congruence|contradiction]. }
    destruct X as (before & o' & after & Q & N). destruct (M before (o', t) after Q) as (_ & H).
    specialize (H U S). destruct o'.
    - destruct (H _ L) as [H'|H']; [left|right]; exact H'.
    - destruct H as [[_ H]|[H _]]; [left; apply (H _ L)|contradiction].
  Qed.

  (** The localizer's language has its locale with the catalog of the file. *)
  Lemma served_locale os z d t mo u s ms kvs :
    localizer_of os z -> served os d t mo u s ms kvs -> l_lang (z_locale z) = t -> t <> source_of os ->
    exists c, decode mo u t d s = Ok c /\ In (d, catalog_of c) (l_cats tag number E (z_locale z)) /\
      NoDup (map fst (l_cats tag number E (z_locale z))) /\
      l_source tag number E (z_locale z) = false /\ l_print tag number E (z_locale z) = printer_of os t.
  Proof.
    intros (K & log & dom & langs & B & Z) SV L S.
    destruct (new_bundle_made tag tag_eq_dec und number E C parse trim_space plural_for iter
                no_string opt_error default_printer default_matcher iter_perm _ _ _ K B) as (_ & rs & M).
    destruct M as [MN MM _ _ _ _ _ ML MK _ MS _ MF _ _ _ _].
    assert (IL : In (t, z_locale z) (b_locales tag number E C (z_bundle z))).
    { assert (FB : z_locale z = b_fallback tag number E C (z_bundle z) -> In (t, z_locale z) (b_locales tag number E C (z_bundle z))).
      { intros Q. destruct MF as [J|(N & J)].
        - pose proof (k_lang _ _ _ _ _ _ _ _ _ _ (ML _ _ J)) as X. rewrite <- Q in J, X. rewrite X in L. subst t. exact J.
        - pose proof (k_lang _ _ _ _ _ _ _ _ _ _ MS) as X. rewrite Q, J, X in L. symmetry in L. contradiction. }
      destruct (localizer_from_tag tag tag_eq_dec number E C parse_accept _ _ _ _ Z) as (t0 & ZQ).
      unfold new_localizer_from_tag in ZQ. destruct t0 as [t0|]; [|apply FB; rewrite ZQ; reflexivity].
      destruct (loc_get tag tag_eq_dec number E (b_locales tag number E C (z_bundle z)) t0) as [l|] eqn:G;
        [|apply FB; rewrite ZQ; reflexivity].
      apply loc_get_in in G. pose proof (k_lang _ _ _ _ _ _ _ _ _ _ (ML _ _ G)) as X.
      assert (ZL : z_locale z = l) by (rewrite ZQ; reflexivity). rewrite ZL in *. congruence. }
    pose proof (ML _ _ IL) as OK. destruct (served_load _ _ _ _ _ _ _ _ SV) as (ld & LI & LQ).
    assert (U : In t (map fst (b_locales tag number E C (z_bundle z)))) by (apply (in_map fst) in IL; exact IL).
    apply MK in U as (U1 & U2 & _).
    destruct (met_first os rs t d ld MM U1 U2 S LI) as [(c & Q)|(e & Q)];
      rewrite LQ in Q; destruct (decode mo u t d s) as [g| | |]; try discriminate.
    exists g. split; [reflexivity|]. destruct OK as [_ OP _ OS OC OB]. split; [|split; [exact OC|split; [|exact OP]]].
    - apply OB. split; [exact S|]. exists ld. split; [exact LI|]. rewrite LQ. reflexivity.
    - destruct (l_source tag number E (z_locale z)); [|reflexivity]. exfalso. apply S. apply OS. reflexivity.
  Qed.

  Lemma localizer_good os z : localizer_of os z -> wf tag number E C z.
  Proof.
    exact (localizer_wf tag tag_eq_dec und number E C parse parse_accept trim_space plural_for no_string opt_error
      default_printer default_matcher iter iter_perm os z).
  Qed.

  (** ** C57 *)
  (** A message with a translation in the file is shown with it: no callback,
      no error of its own. *)
  Theorem C57_singular : forall os z d t mo u s ms kvs ctx id txt vars,
    localizer_of os z -> served os d t mo u s ms kvs -> l_lang (z_locale z) = t -> t <> source_of os ->
    translation ms ctx id 0 txt ->
    lookup_singular z d ctx id vars = ([], (printer_of os t txt vars, found_error z)).
  Proof.
    intros os z d t mo u s ms kvs ctx id txt vars LO SV L S TR.
    destruct (served_locale _ _ _ _ _ _ _ _ _ LO SV L S) as (c & D & IC & NC & SF & PR).
    apply (run_first tag tag_eq_dec number E C z (Sing number d ctx id vars)); [apply (localizer_good os), LO|exact SF|].
    rewrite <- PR. eapply a_catalog; [exact SF|exact IC|].
    destruct (holds_read s ms kvs mo fold (proj1 SV)) as (f & RF & ND & AL & _).
    unfold AppProofs.decode in D. rewrite RF in D. cbn [rbind] in D.
    apply (singular_answer tag is_root tag_string base parent fold fuel E of_lookup decode_failed c ms t ctx id) with (r := (txt, None)).
    - eauto 6.
    - apply an_found. exact TR.
  Qed.

  Lemma served_plural os z d t mo u s ms kvs ctx sg pl n vars f c i r :
    localizer_of os z -> served os d t mo u s ms kvs -> l_lang (z_locale z) = t -> t <> source_of os ->
    read_file mo s = Ok f -> NoDup (map key (f_messages f)) -> Forall2 alike (f_messages f) ms ->
    build_catalog tag is_root tag_string base parent fold fuel f t d u = Ok c ->
    GettextModel.lookup_plural tag c ctx sg n = Ok r -> answer (f_messages f) t [] ctx sg i r ->
    forall txt, translation ms ctx sg i txt ->
    lookup_plural z d ctx sg pl n vars = ([], (printer_of os t txt vars, found_error z)).
  Proof.
    intros LO SV L S RF ND AL B LP AN txt TR.
    destruct (served_locale _ _ _ _ _ _ _ _ _ LO SV L S) as (c' & D & IC & NC & SF & PR).
    unfold AppProofs.decode in D. rewrite RF in D. cbn [rbind] in D. rewrite B in D. injection D as <-.
    apply (run_first tag tag_eq_dec number E C z (Plur number d ctx sg pl n vars)); [apply (localizer_good os), LO|exact SF|].
    rewrite <- PR. eapply a_catalog_plural; [exact SF|exact IC|].
    cbn [AppModel.catalog_of cat_lookup_plural]. rewrite LP.
    assert (A' : answer (f_messages f) t [] ctx sg i (txt, None)).
    { eapply (answer_alike tag is_root tag_string base parent fold); [|apply an_found; exact TR].
      clear - AL. induction AL as [|x y l l' H AL IH]; constructor; [|exact IH].
      destruct H as (P & Q & R). split; [congruence|]. split; [intro; symmetry; apply Q|symmetry; exact R]. }
    rewrite (answer_fun _ _ _ _ _ _ _ _ _ ND AN A'). reflexivity.
  Qed.

  (** Plural requests with an integer, the file having a rule of its own: the
      form is the value of the rule for the absolute value.  Missing from C57:
      larger numbers, fractions, rules that differ from their C reading (C03,
      C06, C07). *)
  Theorem C57_plural_header_partial : forall os z d t mo u s ms kvs forms flag np e ctx sg pl k n v txt vars,
    localizer_of os z -> served os d t mo u s ms kvs -> l_lang (z_locale z) = t -> t <> source_of os ->
    ascii_fold fold -> regular_fields kvs -> plural_fields kvs forms flag -> ~ wants_cldr u forms flag ->
    PopSpec.header_text forms np e -> plain e = true ->
    Z.abs n <= 2 ^ 53 -> conds01 e (Z.abs n) -> csem e (Z.abs n) = Some v -> translation ms ctx sg v txt ->
    lookup_plural z d ctx sg pl (NInt k n) vars = ([], (printer_of os t txt vars, found_error z)).
  Proof.
    intros os z d t mo u s ms kvs forms flag np e ctx sg pl k n v txt vars LO SV L S AF RG (PF & PX & AX) W H PL B C0 V TR.
    destruct (holds_read s ms kvs mo fold (proj1 SV)) as (f & RF & ND & AL & HD). specialize (HD AF RG).
    assert (Q1 : header_get fold (f_header f) (bs "Plural-Forms") = forms).
    { eapply last_value_fun; [apply HD; repeat constructor|exact PF]. }
    assert (Q2 : header_get fold (f_header f) (bs "X-spreak-use-CLDR") = flag).
    { eapply last_value_fun; [apply HD; repeat constructor|exact PX]. }
    destruct (C31_header_rule tag is_root tag_string base parent fold fuel f u t d np e ND AF) as (c & BC & P & _);
      rewrite ?Q1, ?Q2; try assumption.
    destruct (P ctx sg k n v B C0 V) as (r & LP & AN).
    exact (served_plural _ _ _ _ _ _ _ _ _ _ _ _ _ _ _ _ _ _ LO SV L S RF ND AL BC LP AN _ TR).
  Qed.

  (** Every header, every number: the form of the rule for the integer that the
      number rounds to (AskedSpec); the rule is the header's, or that of a header
      of the recognition table with other parentheses (C06). *)
  Theorem C57_plural_header_exactly : forall os z d t mo u s ms kvs forms flag np e,
    localizer_of os z -> served os d t mo u s ms kvs -> l_lang (z_locale z) = t -> t <> source_of os ->
    ascii_fold fold -> regular_fields kvs -> plural_fields kvs forms flag -> ~ wants_cldr u forms flag ->
    PopSpec.header_text forms np e ->
    exists r, r_nplurals r = np /\
      ((forall n v, conds01 e n -> csem e n = Some v -> r_form r n = v) \/
       exists k e', In (k, r) raw_table /\ PopSpec.header_text (bs k) np e' /\ symbols e' = symbols e /\
         forall n, csem e' n = Some (r_form r n)) /\
      forall ctx sg pl n a txt vars, holdable n -> asked n a -> translation ms ctx sg (r_form r a) txt ->
        lookup_plural z d ctx sg pl n vars = ([], (printer_of os t txt vars, found_error z)).
  Proof.
    intros os z d t mo u s ms kvs forms flag np e LO SV L S AF RG (PF & PX & AX) W H.
    destruct (holds_read s ms kvs mo fold (proj1 SV)) as (f & RF & ND & AL & HD). specialize (HD AF RG).
    assert (Q1 : header_get fold (f_header f) (bs "Plural-Forms") = forms).
    { eapply last_value_fun; [apply HD; repeat constructor|exact PF]. }
    assert (Q2 : header_get fold (f_header f) (bs "X-spreak-use-CLDR") = flag).
    { eapply last_value_fun; [apply HD; repeat constructor|exact PX]. }
    destruct (C31_header_exactly tag is_root tag_string base parent fold fuel f u t d np e ND AF) as (c & r & BC & N & R & P & _);
      rewrite ?Q1, ?Q2; try assumption.
    exists r. split; [exact N|]. split; [exact R|]. intros ctx sg pl n a txt vars HN A TR.
    destruct (P ctx sg n HN) as (b & x & _ & U & LP & AN). rewrite <- (U a A) in AN.
    exact (served_plural _ _ _ _ _ _ _ _ _ _ _ _ _ _ _ _ _ _ LO SV L S RF ND AL BC LP AN _ TR).
  Qed.

  (** ... otherwise it is the place of the CLDR category of the number among
      the categories of the language. *)
  Theorem C57_plural_cldr : forall os z d t mo u s ms kvs forms flag dp,
    localizer_of os z -> served os d t mo u s ms kvs -> l_lang (z_locale z) = t -> t <> source_of os ->
    ascii_fold fold -> regular_fields kvs -> plural_fields kvs forms flag -> wants_cldr u forms flag ->
    LangSpec.depth tag is_root parent t dp -> (dp <= fuel)%nat ->
    exists rs,
      (nearest tag tag_string base parent CldrModel.rule_set CldrBuiltin.cldr_built_in t dp rs \/
       CldrBuiltin.cldr_built_in (bs "en") = Some rs /\
         nothing tag tag_string base parent CldrModel.rule_set CldrBuiltin.cldr_built_in t dp) /\
      forall ctx sg pl n cat i txt vars,
        CldrModel.rs_evaluate rs (to_carg n) = Ok cat ->
        nth_error (CldrModel.rs_categories rs) i = Some cat -> translation ms ctx sg (Z.of_nat i) txt ->
        lookup_plural z d ctx sg pl n vars = ([], (printer_of os t txt vars, found_error z)).
  Proof.
    intros os z d t mo u s ms kvs forms flag dp LO SV L S AF RG (PF & PX & AX) W DP LE.
    destruct (holds_read s ms kvs mo fold (proj1 SV)) as (f & RF & ND & AL & HD). specialize (HD AF RG).
    assert (Q1 : header_get fold (f_header f) (bs "Plural-Forms") = forms).
    { eapply last_value_fun; [apply HD; repeat constructor|exact PF]. }
    assert (Q2 : header_get fold (f_header f) (bs "X-spreak-use-CLDR") = flag).
    { eapply last_value_fun; [apply HD; repeat constructor|exact PX]. }
    destruct (C31_cldr_rule tag is_root tag_string base parent fold fuel f u t d dp ND AF) as (c & rs & BC & N & P);
      rewrite ?Q1, ?Q2; try assumption.
    exists rs. split; [exact N|]. intros ctx sg pl n cat i txt vars EV NT TR.
    destruct (proj1 (P ctx sg n) cat EV) as (i' & r & NT' & LP & AN).
    assert (i' = i) as ->.
    { assert (BI : exists l, CldrBuiltin.cldr_built_in l = Some rs).
      { destruct N as [N|[N _]]; [|eauto]. eapply nearest_built_in; exact N. }
      destruct BI as (l & BI). destruct (TheoremsCldr.C10_category_of_language l rs BI) as (_ & NC & _).
      rewrite NoDup_nth_error in NC. apply NC; [|congruence].
      apply nth_error_Some. congruence. }
    exact (served_plural _ _ _ _ _ _ _ _ _ _ _ _ _ _ _ _ _ _ LO SV L S RF ND AL BC LP AN _ TR).
  Qed.

  (** A message without translation in the file, no other fallback language:
      the source text, with the reason. *)
  Theorem C57_missing : forall os z d t mo u s ms kvs ctx id e vars,
    localizer_of os z -> served os d t mo u s ms kvs -> l_lang (z_locale z) = t -> t <> source_of os ->
    fallback_of os = source_of os -> answer ms t [] ctx id 0 (id, Some e) ->
    lookup_singular z d ctx id vars =
      (calls tag E C (b_callback tag number E C (z_bundle z)) [EOther _ _ (of_lookup e)],
       (printer_of os (source_of os) id vars, Some (EOther _ _ (of_lookup e)))).
  Proof.
    intros os z d t mo u s ms kvs ctx id e vars LO SV L S FB AN.
    destruct (served_locale _ _ _ _ _ _ _ _ _ LO SV L S) as (c & D & IC & NC & SF & PR).
    pose proof (localizer_good os z LO) as WF.
    destruct LO as (K & log & dom & langs & B & Z).
    destruct (new_bundle_made tag tag_eq_dec und number E C parse trim_space plural_for iter
                no_string opt_error default_printer default_matcher iter_perm _ _ _ K B) as (_ & rs & M).
    destruct M as [MN MM _ _ _ _ ND ML MK _ MS MI MF _ _ _ _].
    assert (FQ : b_fallback tag number E C (z_bundle z) = b_source tag number E C (z_bundle z)).
    { destruct MF as [J|(N & J)]; [|exact J]. rewrite FB in J.
      assert (SI : In (source_of os, b_source tag number E C (z_bundle z)) (b_locales tag number E C (z_bundle z))).
      { apply MI. apply (in_map fst) in J. exact J. }
      clear - ND J SI. induction (b_locales tag number E C (z_bundle z)) as [|[k v] m IH]; [destruct J|].
      cbn [map fst] in ND. inversion ND as [|x y N1 N2]; subst. destruct J as [J|J], SI as [SI|SI].
      - congruence.
      - injection J as -> ->. exfalso. apply N1. apply (in_map fst) in SI. exact SI.
      - injection SI as -> ->. exfalso. apply N1. apply (in_map fst) in J. exact J.
      - exact (IH N2 J SI). }
    destruct MS as [_ SP _ SS _ _].
    apply (run_source tag tag_eq_dec number E C z (Sing number d ctx id vars) (EOther _ _ (of_lookup e))
      (printer_of os (source_of os) id vars) WF FQ).
    - eapply k_message; [exact SF|exact IC|].
      destruct (holds_read s ms kvs mo fold (proj1 SV)) as (f & RF & NF & AL & _).
      unfold AppProofs.decode in D. rewrite RF in D. cbn [rbind] in D.
      apply (singular_answer tag is_root tag_string base parent fold fuel E of_lookup decode_failed c ms t ctx id) with (r := (id, Some e)).
      + eauto 6.
      + exact AN.
    - rewrite <- SP. apply a_source. apply SS. reflexivity.
  Qed.

  (** Creation succeeds when every requested language has such a file for
      every domain, with a usable plural rule. *)
  Definition usable (u : bool) (kvs : list (bytes * bytes)) (t : tag) : Prop :=
    regular_fields kvs /\ exists forms flag, plural_fields kvs forms flag /\
      ((wants_cldr u forms flag /\ exists dp, LangSpec.depth tag is_root parent t dp /\ (dp <= fuel)%nat) \/
       (~ wants_cldr u forms flag /\ exists np e, PopSpec.header_text forms np e)).
  Lemma usable_decodes os d t mo u s ms kvs : ascii_fold fold -> served os d t mo u s ms kvs -> usable u kvs t ->
    exists c, decode mo u t d s = Ok c.
  Proof.
    intros AF SV (RG & forms & flag & (PF & PX & AX) & H).
    destruct (holds_read s ms kvs mo fold (proj1 SV)) as (f & RF & ND & AL & HD). specialize (HD AF RG).
    assert (Q1 : header_get fold (f_header f) (bs "Plural-Forms") = forms).
    { eapply last_value_fun; [apply HD; repeat constructor|exact PF]. }
    assert (Q2 : header_get fold (f_header f) (bs "X-spreak-use-CLDR") = flag).
    { eapply last_value_fun; [apply HD; repeat constructor|exact PX]. }
    unfold AppProofs.decode. rewrite RF. cbn [rbind]. destruct H as [(W & dp & DP & LE)|(W & np & e & HT)].
    - destruct (C31_cldr_rule tag is_root tag_string base parent fold fuel f u t d dp ND AF) as (c & rs & BC & _);
        rewrite ?Q1, ?Q2; eauto.
    - destruct (C31_header_exactly tag is_root tag_string base parent fold fuel f u t d np e ND AF) as (c & r & BC & _);
        rewrite ?Q1, ?Q2; eauto.
  Qed.
  Lemma usable_loads os d t mo u s ms kvs ld : ascii_fold fold -> NoDup (map fst (loaders_of os)) -> In (d, ld) (loaders_of os) ->
    served os d t mo u s ms kvs -> usable u kvs t -> exists c, ld t d = inl c.
  Proof.
    intros AF ND J SV US.
    destruct (served_load _ _ _ _ _ _ _ _ SV) as (ld' & LI & LQ).
    destruct (usable_decodes _ _ _ _ _ _ _ _ AF SV US) as (c & D). rewrite D in LQ.
    assert (ld' = ld) as ->.
    { clear - ND J LI. induction (loaders_of os) as [|[k v] m IH]; [destruct J|].
      cbn [map fst] in ND. inversion ND as [|x y N1 N2]; subst. destruct J as [J|J], LI as [SI|SI].
      - congruence.
      - injection J as -> ->. exfalso. apply N1. apply (in_map fst) in SI. exact SI.
      - injection SI as -> ->. exfalso. apply N1. apply (in_map fst) in J. exact J.
      - exact (IH N2 J SI). }
    exists (catalog_of c). exact LQ.
  Qed.
  Lemma loads_created os rs :
    contract tag number E (loaders_of os) -> valid tag number E C name os ->
    Forall2 (named tag E name) (requests_of os) rs -> loaders_of os <> [] -> (forall t, In t (map snd rs) -> t <> und) ->
    (forall t p, In t (map snd rs) -> t <> source_of os -> In p (loaders_of os) -> BundleSpec.loads tag number E t p) ->
    exists log b, new_bundle os = (log, inl b) /\
      forall t, In t (map snd rs) -> In t (b_languages tag number E C b).
  Proof.
    intros K V N NE H LD.
    assert (AM : all_met tag und number E (source_of os) (loaders_of os) rs).
    { intros before [o t] after Q. assert (I : In t (map snd rs)).
      { rewrite Q, map_app. apply in_or_app. right. now left. }
      split; [intros ->; destruct (H und I eq_refl)|]. intros _ S. destruct o.
      - intros p J. left. exact (LD t p I S J).
      - left. split; [exact NE|]. intros p J. exact (LD t p I S J). }
    destruct (new_bundle_cases tag tag_eq_dec und number E C parse trim_space plural_for iter
                no_string opt_error default_printer default_matcher iter_perm os K)
      as [(log & b & rs' & B & _ & M)|(log & e & _ & X)]; [|exfalso; apply X; eauto].
    exists log, b. split; [exact B|]. intros t I.
    assert (rs' = rs) as ->.
    { pose proof (m_named _ _ _ _ _ _ _ _ _ _ _ _ _ _ _ _ M) as N'. clear - N N'.
      revert rs' N'. induction N as [|a r l rs [P Q] N IH]; intros rs' N'; inversion N' as [|a' r' l' rs2 [P' Q'] N2]; subst; [reflexivity|].
      f_equal; [|auto]. destruct r as [o t], r' as [o' t']. cbn [fst snd] in *. congruence. }
    pose proof (m_langs _ _ _ _ _ _ _ _ _ _ _ _ _ _ _ _ M) as ML. apply (languages_in tag und number E plural_for _ _ _ _ t ML).
    split; [exact I|]. split; [apply (H t I)|].
    destruct (tag_eq_dec t (source_of os)) as [->|S]; [now left|right].
    destruct (loaders_of os) as [|p L]; [congruence|]. exists p. split; [now left|]. apply (LD t p I S). now left.
  Qed.
  Theorem C57_created : forall os rs, ascii_fold fold ->
    contract tag number E (loaders_of os) -> valid tag number E C name os ->
    Forall2 (named tag E name) (requests_of os) rs -> loaders_of os <> [] ->
    (forall t, In t (map snd rs) -> t <> und /\ (t <> source_of os -> forall d, In d (map fst (loaders_of os)) ->
       exists mo u s ms kvs, served os d t mo u s ms kvs /\ usable u kvs t)) ->
    exists log b, new_bundle os = (log, inl b) /\
      forall t, In t (map snd rs) -> In t (b_languages tag number E C b).
  Proof.
    intros os rs AF K V N NE H.
    assert (LD : forall t p, In t (map snd rs) -> t <> source_of os -> In p (loaders_of os) ->
              BundleSpec.loads tag number E t p).
    { intros t [d ld] I S J. destruct (proj2 (H t I) S d) as (mo & u & s & ms & kvs & SV & US).
      { apply (in_map fst) in J. exact J. }
      eapply usable_loads; [exact AF|apply V|exact J|exact SV|exact US]. }
    apply (loads_created os rs K V N NE); [intros t I; apply (H t I)|exact LD].
  Qed.

  (** Creation fails when a requested language has a file that its parser
      refuses, or whose Plural-Forms field is not of the grammar. *)
  Definition bad_forms (mo u : bool) (s : bytes) : Prop :=
    exists ms kvs forms flag, holds s ms kvs mo /\ regular_fields kvs /\ plural_fields kvs forms flag /\ ~ wants_cldr u forms flag /\
      PopScanProofs.clean forms /\ ~ exists ls np e, lays ls forms /\ header ls np e.
  Lemma refused_err s mo : refused s mo -> read_file mo s = Err.
  Proof.
    assert (X : forall rs, PoLineSpec.reads_lines s rs -> ends rs -> (forall f, parse_po_fuel (S (length s)) true s <> Ok f) -> parse_po_fuel (S (length s)) true s = Err).
    { intros rs R N NO. destruct (proj2 (TheoremsPoHang.C22_ends_exactly true s rs (S (length s)) R (Nat.lt_succ_diag_r _)) N) as [X|[f X]]; [exact X|].
      destruct (NO f X). }
    intros [N|rs R N U|rs es ms R N A F D|rs es R N A H|rs es R N A H F]; cbn [read_file].
    - now apply TheoremsMoAny.C29_accepted.
    - apply (X rs R N). intros f P. apply U. eapply TheoremsPoLine.C83_understood; [exact P|exact R].
    - apply (X rs R N). exact (PoAnyProofs.file_rejects _ _ _ _ _ _ R A F D).
    - apply (X rs R N). intros f P. destruct (PoFormProofs.lines_header _ _ _ _ _ _ P R A) as (o & HO & _). exact (H o HO).
    - apply (X rs R N). intros f P. exact (PoFormProofs.lines_nonempty _ _ _ _ _ _ P R A H F).
  Qed.
  Theorem C57_rejected : forall os rs t d mo u s, ascii_fold fold ->
    contract tag number E (loaders_of os) -> Forall2 (named tag E name) (requests_of os) rs ->
    In t (map snd rs) -> t <> und -> t <> source_of os -> placed os d t mo u s ->
    refused s mo \/ bad_forms mo u s ->
    exists log e, new_bundle os = (log, inr e).
  Proof.
    intros os rs t d mo u s AF K N I U S PL BAD. destruct (new_bundle os) as [log [b|e]] eqn:B; [exfalso|eauto].
    destruct (new_bundle_made tag tag_eq_dec und number E C parse trim_space plural_for iter
                no_string opt_error default_printer default_matcher iter_perm _ _ _ K B) as (_ & rs' & M).
    assert (rs' = rs) as ->.
    { pose proof (m_named _ _ _ _ _ _ _ _ _ _ _ _ _ _ _ _ M) as N'. clear - N N'.
      revert rs' N'. induction N as [|a r l rs [P Q] N IH]; intros rs' N'; inversion N' as [|a' r' l' rs2 [P' Q'] N2]; subst; [reflexivity|].
      f_equal; [|auto]. destruct r as [o t], r' as [o' t']. cbn [fst snd] in *. congruence. }
    assert (DE : decode mo u t d s = Err).
    { unfold AppProofs.decode. destruct BAD as [R|(ms & kvs & forms & flag & H & RG & (PF & PX & AX) & W & CL & NG)]; [now rewrite (refused_err _ _ R)|].
      destruct (holds_read s ms kvs mo fold H) as (f & RF & ND & AL & HD). specialize (HD AF RG).
      assert (Q1 : header_get fold (f_header f) (bs "Plural-Forms") = forms).
      { eapply last_value_fun; [apply HD; repeat constructor|exact PF]. }
      assert (Q2 : header_get fold (f_header f) (bs "X-spreak-use-CLDR") = flag).
      { eapply last_value_fun; [apply HD; repeat constructor|exact PX]. }
      rewrite RF. cbn [rbind]. apply C31_bad_header; rewrite ?Q1, ?Q2; assumption. }
    destruct (placed_load _ _ _ _ _ _ PL) as (ld & LI & LQ). rewrite DE in LQ.
    destruct (met_first os rs t d ld (m_met _ _ _ _ _ _ _ _ _ _ _ _ _ _ _ _ M) I U S LI) as [(c & Q)|(e & Q)]; rewrite LQ in Q; discriminate.
  Qed.

  (** ** C58 *)
  (** A file that cannot be read to its end is not taken for a catalog, if its
      decoder gets the data as a whole or is the one for MO files.  Missing
      from C58: PO files, see [C58_po_refuted]. *)
  Theorem C58_reading_partial : forall l t dom ext d p fl e,
    l_resolver _ _ _ l (l_fsys _ _ _ l) ext t dom = inl p -> fs_open E (l_fsys _ _ _ l) p = inl fl ->
    f_err E fl = Some e -> (exists f, d = DData _ _ _ f) \/ (exists u, d = gdecoder true u) ->
    exists e', load_from_file tag number E decode_error join_errors l t dom ext d = inr e' /\
      (f_close E fl = None -> e' = e).
  Proof.
    intros l t dom ext d p fl e R O F H. unfold load_from_file. rewrite R, O.
    destruct H as [(f & ->)|(u & ->)]; [|cbn [gettext_decoder mo_decoder]];
      rewrite F; destruct (f_close E fl) as [ce|]; eexists; (split; [reflexivity|]); congruence.
  Qed.
  (** A PO file whose reading fails is taken for the file of its complete
      lines. *)
  Theorem C58_po_lines : forall u a r, (a = [] \/ exists x, a = x ++ [LF]) -> ~ In LF r ->
    exists f, gdecoder false u = DReader _ _ _ f /\ forall t dom e, f t dom (a ++ r) (Some e) = f t dom a None.
  Proof.
    intros u a r A N. eexists. split; [reflexivity|]. intros t dom e. cbv beta. f_equal. f_equal. unfold whole_lines.
    destruct A as [->|(x & ->)].
    - cbn [app]. now rewrite (proj2 (PoDecodeProofs.last_index_none LF r) N).
    - replace ((x ++ [LF]) ++ r) with (x ++ LF :: r) by (rewrite <- app_assoc; reflexivity). rewrite last_lf by exact N.
      replace (S (length x)) with (length (x ++ [LF])) by (rewrite app_length; cbn; apply Nat.add_1_r).
      replace (x ++ LF :: r) with ((x ++ [LF]) ++ r) by (rewrite <- app_assoc; reflexivity). rewrite firstn_app, Nat.sub_diag, firstn_all. cbn [firstn]. apply app_nil_r.
  Qed.
End Theorems.

(** ** A concrete application *)
(** Tags are strings whose parent is the root; an error is true if it means
    "does not exist". *)
Definition a_dec : forall a b : bytes, {a = b} + {a <> b} := list_eq_dec ascii_dec.
Definition a_parts (t : bytes) : tag_parts :=
  {| p_string := t; p_base := Some (t, t); p_region := None; p_script := None |}.
Notation a_gdecoder := (gettext_decoder bytes ex_root (fun s => s) (fun s => (s, false)) ex_parent fold_ascii 5 bool
                          (fun _ => false) false).
Notation a_resolver := (default_resolver bytes bool a_parts (fun s => s) (fun e => e) true).
Notation a_load := (load bytes number bool (fun e => e) (fun _ _ => true) (fun _ e => e) orb).
(** files with their text and the error that ends reading *)
Definition a_fs (files : list (bytes * (bytes * option bool))) : fsys bool :=
  {| fs_stat := fun p => existsb (fun f => beq (fst f) p) files;
     fs_open := fun p => match find (fun f => beq (fst f) p) files with
                         | Some (_, (s, e)) => inl {| f_data := s; f_err := e; f_close := None |}
                         | None => inr true
                         end |}.
Definition a_loader (files : list (bytes * (bytes * option bool))) : fs_loader bytes number bool :=
  {| l_fsys := a_fs files; l_resolver := a_resolver {| r_search := true; r_category := [] |};
     l_decoders := [(bs ".po", a_gdecoder false false); (bs ".mo", a_gdecoder true false)] |}.
(** a French PO file and a German MO file; a PO file that is not reached *)
Definition fr_file : list string :=
  ["msgid """""; "msgstr ""Plural-Forms: nplurals=2; plural=n>1;\n""";
   ""; "msgid ""file"""; "msgid_plural ""files"""; "msgstr[0] ""fichier"""; "msgstr[1] ""fichiers""";
   ""; "msgid ""c"""; "msgstr ""d"""]%string.
Definition fr_kvs : list (bytes * bytes) := [(bs "Plural-Forms", bs "nplurals=2; plural=n>1;")].
Definition fr_ms : list PoFileModel.message :=
  [Msg (Some (com_of [])) [] (bs "file") (bs "files") [(0, bs "fichier"); (1, bs "fichiers")]; msg_c].
Definition a_files : list (bytes * (bytes * option bool)) :=
  [(bs "de.mo", (ex_mo true, None)); (bs "fr/app.po", (PoExamples.text fr_file, None)); (bs "fr.po", (bs "x", None))].
Definition a_os (files : list (bytes * (bytes * option bool))) : list (opt bytes number bool unit) :=
  [OSource _ _ _ _ (bs "en"); OFallback _ _ _ _ (LTag _ (bs "en")); OCallback _ _ _ _ (Some tt);
   OFsLoader _ _ _ _ (bs "app") (inl (a_load (a_loader files)));
   OLanguages _ _ _ _ [LTag _ (bs "fr"); LTag _ (bs "de")]].
Definition a_print : printer bytes number := fun t s vars => s ++ repeat "!"%char (length vars).
Definition a_plural (_ : bytes) (n : number) : Z * option bool :=
  (match n with NInt _ 1 => 0 | _ => 1 end, None).
Definition a_iter (A : Type) (_ : list (event bytes bool)) (l : list A) : list A := l.
Notation a_new := (new_bundle bytes a_dec [] number bool unit (fun s => inl s) (fun s => s)
  a_plural a_iter false false a_print x_matcher).
Notation a_localizer_of := (localizer_of bytes a_dec [] number bool unit (fun s => inl s) (fun _ => None) (fun s => s)
  a_plural false false a_print x_matcher a_iter).
Notation a_for := (new_localizer_for_domain bytes a_dec number bool unit (fun _ => None)).
Notation a_served := (served bytes ex_root (fun s => s) (fun s => (s, false)) ex_parent fold_ascii 5 bool unit (fun _ => false) false
  a_parts (fun s => s) (fun e => e) true (fun _ _ => true) (fun _ e => e) orb).
Lemma fr_layout : layout [BHeader [] fr_kvs; BMsg (hd msg_c fr_ms); BMsg msg_c] (map bs fr_file).
Proof.
  apply (lay_cons (BHeader [] fr_kvs) [BMsg (hd msg_c fr_ms); BMsg msg_c] []
    (map bs (firstn 2 fr_file)) [] (map bs (skipn 3 fr_file))); [constructor| |constructor|].
  - apply bl_header. apply (hl_intro [] [] [bs "msgid """""] [bs "msgstr ""Plural-Forms: nplurals=2; plural=n>1;\n"""] fr_kvs
      (bs "Plural-Forms: nplurals=2; plural=n>1;" ++ [LF])); [constructor|exact (field_one (bs "msgid") [] [] eq_refl)| |].
    + rewrite <- (app_nil_r (_ ++ [LF])).
      apply (field_intro (bs "msgstr") [] _ [] (bs """Plural-Forms: nplurals=2; plural=n>1;\n""") _ [] []);
        [exists [], []; repeat split; constructor|constructor| |constructor].
      exists (bs "Plural-Forms: nplurals=2; plural=n>1;\n"). split; [reflexivity|].
      assert (X : forall s v, forallb (fun c => (bval c <? 128) && negb (bval c =? 10) && negb (bval c =? 34) && negb (bval c =? 92)) s = true ->
        forall t, po_body t v -> po_body (s ++ t) (s ++ v)).
      { intros s v. induction s as [|c s IH]; intros F t T; [exact T|]. cbn [forallb] in F. apply andb_prop in F as [C F].
        pose proof (encode_byte c ltac:(lia)) as Q. change (c :: s) with ([c] ++ s). rewrite <- Q, <- !app_assoc.
        apply pb_rune; [apply solid_scalar; lia|lia|lia|lia|apply IH; assumption]. }
      apply (X (bs "Plural-Forms: nplurals=2; plural=n>1;") [LF] eq_refl (bs "\n")).
      apply (pb_esc "n"%char 10 [] []); [vm_compute; tauto|constructor].
    + split; [|reflexivity]. constructor; [|constructor]. cbn [fst snd].
      split; [solve_clean|]. split; [vm_compute; intuition discriminate|]. split; [vm_compute; intuition discriminate|].
      split; [solve_clean|]. vm_compute; intuition discriminate.
  - apply (lay_cons (BMsg (hd msg_c fr_ms)) [BMsg msg_c] []
      (map bs ["msgid ""file"""; "msgid_plural ""files"""; "msgstr[0] ""fichier"""; "msgstr[1] ""fichiers"""]%string) []
      (map bs ["msgid ""c"""; "msgstr ""d"""]%string)); [constructor| |constructor|].
    + constructor. apply (el_intro [] [] [] [] (bs "file") [bs "msgid ""file"""] (bs "files")
        (map bs ["msgid_plural ""files"""; "msgstr[0] ""fichier"""; "msgstr[1] ""fichiers"""]%string)
        [(0, bs "fichier"); (1, bs "fichiers")]); [constructor|constructor|exact (field_one (bs "msgid") [] (bs "file") eq_refl)| |discriminate].
      apply (tl_plural [bs "msgid_plural ""files"""] (bs "files") (map bs ["msgstr[0] ""fichier"""; "msgstr[1] ""fichiers"""]%string));
        [exact (field_one (bs "msgid_plural") [] (bs "files") eq_refl)|discriminate|].
      apply (fl_cons 0 [bs "msgstr[0] ""fichier"""] (bs "fichier") [bs "msgstr[1] ""fichiers"""]);
        [vm_compute; discriminate|exact (field_one (bs "msgstr[0]") [] (bs "fichier") eq_refl)|].
      apply (fl_cons 1 [bs "msgstr[1] ""fichiers"""] (bs "fichiers") []);
        [vm_compute; discriminate|exact (field_one (bs "msgstr[1]") [] (bs "fichiers") eq_refl)|constructor].
    + apply (lay_last (BMsg msg_c) []); [constructor|constructor; apply entry_c].
Qed.
Lemma fr_holds : holds (PoExamples.text fr_file) fr_ms fr_kvs false.
Proof.
  eapply h_po; [exact fr_layout|apply text_lines; reflexivity|reflexivity| |left; discriminate|right; exists []; reflexivity].
  constructor; [intros [Q|[]]; discriminate|constructor; [intros []|constructor]].
Qed.
Lemma fr_plural : regular_fields fr_kvs /\ plural_fields fr_kvs (bs "nplurals=2; plural=n>1;") [] /\
  ~ wants_cldr false (bs "nplurals=2; plural=n>1;") [].
Proof.
  split; [|split].
  - split; [constructor; [|constructor]; repeat (constructor; [vm_compute; reflexivity|]); constructor|].
    intros a b [<-|[]] [<-|[]] _ _. reflexivity.
  - split; [|split].
    + apply (lv_some [] (bs "Plural-Forms") (bs "Plural-Forms")); [reflexivity|constructor].
    + apply lv_none. constructor; [|constructor]. intros Q. vm_compute in Q. discriminate.
    + constructor.
  - intros [W|[W|W]]; vm_compute in W; discriminate.
Qed.
Lemma fr_rule : exists e, PopSpec.header_text (bs "nplurals=2; plural=n>1;") 2 e /\ plain e = true /\
  forall n, conds01 e n /\ csem e n = Some (if 1 <? n then 1 else 0).
Proof.
  exists (CBin CGt CN (CV 1)). split; [|split; [reflexivity|]].
  - exists ([LNplurals; LAssign; LNum (bs "2"); LSemi; LPlural; LAssign] ++ [LN; LGt; LNum (bs "1")] ++ [LSemi]). split; [|split].
    + apply (lex_all_sound 30); [|vm_compute; reflexivity]. apply cleanb_clean. reflexivity.
    + apply fitsb_fits. reflexivity.
    + exists (bs "2"), [LN; LGt; LNum (bs "1")]. split; [reflexivity|]. split; [reflexivity|].
      do 4 (apply g_up; [lia|]). apply (g_bin 1 LGt CGt [LN] [LNum (bs "1")] CN (CV 1)); [reflexivity| |].
      * apply g_up; [lia|]. constructor.
      * apply g_up; [lia|]. exact (g_num (bs "1")).
  - intros n. split; [cbn; auto|]. cbn [csem]. destruct (1 <? n); reflexivity.
Qed.
Lemma a_served_fr : a_served (a_os a_files) (bs "app") (bs "fr") false false (PoExamples.text fr_file) fr_ms fr_kvs.
Proof.
  split; [exact fr_holds|]. exists (a_loader a_files), {| r_search := true; r_category := [] |}, (l_decoders _ _ _ (a_loader a_files)).
  split; [now left|]. split; [reflexivity|]. split; [reflexivity|].
  exists [], (bs ".po"), [(bs ".mo", a_gdecoder true false)], (bs "fr/app.po"),
    {| f_data := PoExamples.text fr_file; f_err := None; f_close := None |}.
  split; [reflexivity|]. split; [intros ed p []|]. split; [apply first_of_find; vm_compute; reflexivity|]. repeat split.
Qed.
Lemma a_served_de : a_served (a_os a_files) (bs "app") (bs "de") true false (ex_mo true)
  [Msg (Some (Com [] [] [] [] [] [])) (bs "menu") (bs "%d file") (bs "%d files") [(0, bs "Datei"); (1, bs "Dateien")]; Msg (Some (Com [] [] [] [] [] [])) [] (bs "yes") [] [(0, bs "ja")]]
  [(bs "Language", bs "de"); (bs "X-Id", bs "7")].
Proof.
  split.
  { eapply h_mo; [apply ex_file| | |right; exists []; reflexivity].
    - constructor; [intros [Q|[]]; discriminate|constructor; [intros []|constructor]].
    - repeat constructor. }
  exists (a_loader a_files), {| r_search := true; r_category := [] |}, (l_decoders _ _ _ (a_loader a_files)).
  split; [now left|]. split; [reflexivity|]. split; [reflexivity|].
  exists [(bs ".po", a_gdecoder false false)], (bs ".mo"), [], (bs "de.mo"),
    {| f_data := ex_mo true; f_err := None; f_close := None |}.
  split; [reflexivity|]. split; [|split; [apply first_of_find; vm_compute; reflexivity|repeat split]].
  intros ed p [<-|[]] I X.
  assert (F : forallb (fun p => negb (fs_stat bool (a_fs a_files) p))
    (candidates bytes a_parts (fun s => s) {| r_search := true; r_category := [] |} (bs "de") (bs "app") (bs ".po")) = true)
    by (vm_compute; reflexivity).
  rewrite forallb_forall in F. apply F in I. unfold exists_in in X. cbn [l_fsys a_loader] in X. rewrite X in I. discriminate.
Qed.
Lemma a_contract : forall files, contract bytes number bool (loaders_of bytes number bool unit (a_os files)).
Proof.
  intros files. apply (C41_contract bytes number bool (fun e => e) (fun _ _ => true) (fun _ e => e) orb).
Qed.
Lemma a_make os dom langs (P : localizer bytes number bool unit -> Prop) :
  contract bytes number bool (loaders_of bytes number bool unit os) ->
  match snd (a_new os) with
  | inl b => match a_for b dom langs with Ok z => P z | _ => False end
  | inr _ => False
  end -> exists z, a_localizer_of os z /\ P z.
Proof.
  intros K H. destruct (a_new os) as [log [b|]] eqn:B; [|contradiction]. cbn [snd] in H.
  destruct (a_for b dom langs) as [z| | |] eqn:F; try contradiction.
  exists z. split; [|exact H].
  assert (z_bundle _ _ _ _ z = b) as ZB.
  { destruct (localizer_from_tag bytes a_dec number bool unit (fun _ => None) b dom langs z F) as (t & ->).
    unfold new_localizer_from_tag. destruct t; [destruct (loc_get _ _ _ _ _ _)|]; reflexivity. }
  split; [exact K|]. exists log, dom, langs. rewrite ZB. split; [exact B|exact F].
Qed.
Notation a_sing := (LocaleModel.lookup_singular bytes a_dec number bool unit).
Notation a_plur := (LocaleModel.lookup_plural bytes number bool unit).

(** The French localizer: hypotheses of C57_singular, C57_plural_header_partial,
    C57_missing; what is shown. *)
Example C57_example : exists z, a_localizer_of (a_os a_files) z /\
  l_lang _ _ _ (z_locale _ _ _ _ z) = bs "fr" /\ z_found _ _ _ _ z = true /\
  a_sing z (bs "app") [] (bs "c") [NInt Kint 1] = ([], (bs "d!", None)) /\
  map (fun n => a_plur z (bs "app") [] (bs "file") (bs "files") (NInt Kint n) []) [0; 1; 2; -7] =
    [([], (bs "fichier", None)); ([], (bs "fichier", None)); ([], (bs "fichiers", None)); ([], (bs "fichiers", None))] /\
  a_sing z (bs "app") [] (bs "x") [] = ([EvMissing _ _ (EOther _ _ false)], (bs "x", Some (EOther _ _ false))).
Proof. apply (a_make _ (bs "app") [LTag _ (bs "fr")]); [apply a_contract|]. vm_compute. repeat split. Qed.
Example C57_hypotheses_met :
  a_served (a_os a_files) (bs "app") (bs "fr") false false (PoExamples.text fr_file) fr_ms fr_kvs /\
  translation fr_ms [] (bs "file") 1 (bs "fichiers") /\ fallback_of bytes [] number bool unit
    (lang_tag bytes bool (fun s => inl s) (fun s => s) false) (a_os a_files) = source_of bytes [] number bool unit (a_os a_files) /\
  usable bytes ex_root ex_parent 5 false fr_kvs (bs "fr").
Proof.
  split; [exact a_served_fr|]. split.
  { eexists. split; [now left|]. split; [split; [discriminate|intros (c & Q & X); injection Q as <-; destruct X]|]. split; [reflexivity|]. split; [reflexivity|discriminate]. }
  split; [reflexivity|]. destruct fr_plural as (R & P & W). split; [exact R|].
  exists (bs "nplurals=2; plural=n>1;"), []. split; [exact P|]. right. split; [exact W|].
  destruct fr_rule as (e & H & _). exists 2, e. exact H.
Qed.
(** A PO file with the fields of an entry the wrong way round and a comment
    within it. *)
Definition any_files : list (bytes * (bytes * option bool)) :=
  [(bs "fr/app.po", (PoLineSpec.with_ends TheoremsPoHead.head_lines, None))].
Example C57_any_layout : a_served (a_os any_files) (bs "app") (bs "fr") false false
    (PoLineSpec.with_ends TheoremsPoHead.head_lines) TheoremsPoHead.head_messages [(bs "Language", bs "fr")] /\
  translation TheoremsPoHead.head_messages [] (bs "c") 0 (bs "d").
Proof.
  split.
  - split; [apply h_any, TheoremsPoHead.C30_any_example|].
    exists (a_loader any_files), {| r_search := true; r_category := [] |}, (l_decoders _ _ _ (a_loader any_files)).
    split; [now left|]. split; [reflexivity|]. split; [reflexivity|].
    exists [], (bs ".po"), [(bs ".mo", a_gdecoder true false)], (bs "fr/app.po"),
      {| f_data := PoLineSpec.with_ends TheoremsPoHead.head_lines; f_err := None; f_close := None |}.
    split; [reflexivity|]. split; [intros ed p []|]. split; [apply first_of_find; vm_compute; reflexivity|]. repeat split.
  - eexists. split; [right; left; reflexivity|]. split; [split; [discriminate|intros (c & Q & X); injection Q as <-; destruct X]|]. split; [reflexivity|]. split; [reflexivity|discriminate].
Qed.
(** A PO file with a keyword that is misspelt, an MO file that is cut short. *)
Definition misspelt : bytes := PoLineSpec.with_ends [bs "msgid ""a"""; bs "msgsrt ""b"""].
Notation a_placed := (placed bytes ex_root (fun s => s) (fun s => (s, false)) ex_parent fold_ascii 5 bool unit (fun _ => false) false
  a_parts (fun s => s) (fun e => e) true (fun _ _ => true) (fun _ e => e) orb).
Example C57_rejected_hypotheses_met : a_placed (a_os [(bs "fr/app.po", (misspelt, None))]) (bs "app") (bs "fr") false false misspelt /\
  refused misspelt false /\ refused (firstn 60 (ex_mo true)) true.
Proof.
  split; [|split].
  - exists (a_loader [(bs "fr/app.po", (misspelt, None))]), {| r_search := true; r_category := [] |}, (l_decoders _ _ _ (a_loader [(bs "fr/app.po", (misspelt, None))])).
    split; [now left|]. split; [reflexivity|]. split; [reflexivity|].
    exists [], (bs ".po"), [(bs ".mo", a_gdecoder true false)], (bs "fr/app.po"), {| f_data := misspelt; f_err := None; f_close := None |}.
    split; [reflexivity|]. split; [intros ed p []|]. split; [apply first_of_find; vm_compute; reflexivity|]. repeat split.
  - assert (R : PoLineSpec.reads_lines misspelt [bs "msgid ""a"""; bs "msgsrt ""b"""]) by (apply PoLineProofs.reads_file_lines; vm_compute; reflexivity).
    eapply rf_lines; [exact R| |].
    + apply (TheoremsPoHang.C22_ends_exactly true misspelt _ (S (length misspelt)) R (Nat.lt_succ_diag_r _)). left. vm_compute. reflexivity.
    + intro U. apply (PoLineProofs.scan_understood true _ PoFileModel.TEof false) in U; [|discriminate]. vm_compute in U.
      inversion U as [|x y _ U2]; subst. inversion U2 as [|x y X _]; subst. exact (proj1 X eq_refl).
  - apply rf_mo. apply TheoremsMoAny.C29_accepted. vm_compute. reflexivity.
Qed.
(** ** A header that is not followed *)
Definition odd_file : list string :=
  ["msgid """""; "msgstr ""Plural-Forms: nplurals=2; plural=n%2;\n""";
   ""; "msgid ""file"""; "msgid_plural ""files"""; "msgstr[0] ""fichier"""; "msgstr[1] ""fichiers""";
   ""; "msgid ""c"""; "msgstr ""d"""]%string.
Definition odd_kvs : list (bytes * bytes) := [(bs "Plural-Forms", bs "nplurals=2; plural=n%2;")].
Definition odd_files : list (bytes * (bytes * option bool)) :=
  [(bs "de.mo", (ex_mo true, None)); (bs "fr/app.po", (PoExamples.text odd_file, None))].
Lemma odd_layout : layout [BHeader [] odd_kvs; BMsg (hd msg_c fr_ms); BMsg msg_c] (map bs odd_file).
Proof.
  apply (lay_cons (BHeader [] odd_kvs) [BMsg (hd msg_c fr_ms); BMsg msg_c] []
    (map bs (firstn 2 odd_file)) [] (map bs (skipn 3 odd_file))); [constructor| |constructor|].
  - apply bl_header. apply (hl_intro [] [] [bs "msgid """""] [bs "msgstr ""Plural-Forms: nplurals=2; plural=n%2;\n"""] odd_kvs
      (bs "Plural-Forms: nplurals=2; plural=n%2;" ++ [LF])); [constructor|exact (field_one (bs "msgid") [] [] eq_refl)| |].
    + rewrite <- (app_nil_r (_ ++ [LF])).
      apply (field_intro (bs "msgstr") [] _ [] (bs """Plural-Forms: nplurals=2; plural=n%2;\n""") _ [] []);
        [exists [], []; repeat split; constructor|constructor| |constructor].
      exists (bs "Plural-Forms: nplurals=2; plural=n%2;\n"). split; [reflexivity|].
      assert (X : forall s v, forallb (fun c => (bval c <? 128) && negb (bval c =? 10) && negb (bval c =? 34) && negb (bval c =? 92)) s = true ->
        forall t, po_body t v -> po_body (s ++ t) (s ++ v)).
      { intros s v. induction s as [|c s IH]; intros F t T; [exact T|]. cbn [forallb] in F. apply andb_prop in F as [C F].
        pose proof (encode_byte c ltac:(lia)) as Q. change (c :: s) with ([c] ++ s). rewrite <- Q, <- !app_assoc.
        apply pb_rune; [apply solid_scalar; lia|lia|lia|lia|apply IH; assumption]. }
      apply (X (bs "Plural-Forms: nplurals=2; plural=n%2;") [LF] eq_refl (bs "\n")).
      apply (pb_esc "n"%char 10 [] []); [vm_compute; tauto|constructor].
    + split; [|reflexivity]. constructor; [|constructor]. cbn [fst snd].
      split; [solve_clean|]. split; [vm_compute; intuition discriminate|]. split; [vm_compute; intuition discriminate|].
      split; [solve_clean|]. vm_compute; intuition discriminate.
  - apply (lay_cons (BMsg (hd msg_c fr_ms)) [BMsg msg_c] []
      (map bs ["msgid ""file"""; "msgid_plural ""files"""; "msgstr[0] ""fichier"""; "msgstr[1] ""fichiers"""]%string) []
      (map bs ["msgid ""c"""; "msgstr ""d"""]%string)); [constructor| |constructor|].
    + constructor. apply (el_intro [] [] [] [] (bs "file") [bs "msgid ""file"""] (bs "files")
        (map bs ["msgid_plural ""files"""; "msgstr[0] ""fichier"""; "msgstr[1] ""fichiers"""]%string)
        [(0, bs "fichier"); (1, bs "fichiers")]); [constructor|constructor|exact (field_one (bs "msgid") [] (bs "file") eq_refl)| |discriminate].
      apply (tl_plural [bs "msgid_plural ""files"""] (bs "files") (map bs ["msgstr[0] ""fichier"""; "msgstr[1] ""fichiers"""]%string));
        [exact (field_one (bs "msgid_plural") [] (bs "files") eq_refl)|discriminate|].
      apply (fl_cons 0 [bs "msgstr[0] ""fichier"""] (bs "fichier") [bs "msgstr[1] ""fichiers"""]);
        [vm_compute; discriminate|exact (field_one (bs "msgstr[0]") [] (bs "fichier") eq_refl)|].
      apply (fl_cons 1 [bs "msgstr[1] ""fichiers"""] (bs "fichiers") []);
        [vm_compute; discriminate|exact (field_one (bs "msgstr[1]") [] (bs "fichiers") eq_refl)|constructor].
    + apply (lay_last (BMsg msg_c) []); [constructor|constructor; apply entry_c].
Qed.
Lemma odd_served : a_served (a_os odd_files) (bs "app") (bs "fr") false false (PoExamples.text odd_file) fr_ms odd_kvs.
Proof.
  split.
  { eapply h_po; [exact odd_layout|apply text_lines; reflexivity|reflexivity| |left; discriminate|right; exists []; reflexivity].
    constructor; [intros [Q|[]]; discriminate|constructor; [intros []|constructor]]. }
  exists (a_loader odd_files), {| r_search := true; r_category := [] |}, (l_decoders _ _ _ (a_loader odd_files)).
  split; [now left|]. split; [reflexivity|]. split; [reflexivity|].
  exists [], (bs ".po"), [(bs ".mo", a_gdecoder true false)], (bs "fr/app.po"),
    {| f_data := PoExamples.text odd_file; f_err := None; f_close := None |}.
  split; [reflexivity|]. split; [intros ed p []|]. split; [apply first_of_find; vm_compute; reflexivity|]. repeat split.
Qed.
(** The property is false: the file translates the form that its header gives
    for 2^53+1, another form is shown. *)
Theorem C57_plural_header_refuted : exists os z d t mo u s ms kvs forms flag np e ctx sg pl k n v txt,
  a_localizer_of os z /\ a_served os d t mo u s ms kvs /\ l_lang _ _ _ (z_locale _ _ _ _ z) = t /\
  t <> source_of bytes [] number bool unit os /\ regular_fields kvs /\ plural_fields kvs forms flag /\
  ~ wants_cldr u forms flag /\ PopSpec.header_text forms np e /\ plain e = true /\ conds01 e (Z.abs n) /\ kmin k <= n <= kmax k /\
  csem e (Z.abs n) = Some v /\ translation ms ctx sg v txt /\
  a_plur z d ctx sg pl (NInt k n) [] <> ([], (a_print t txt [], None)) /\
  fst (snd (a_plur z d ctx sg pl (NInt k n) [])) <> a_print t txt [].
Proof.
  destruct (a_make (a_os odd_files) (bs "app") [LTag _ (bs "fr")]
    (fun z => l_lang _ _ _ (z_locale _ _ _ _ z) = bs "fr" /\
      a_plur z (bs "app") [] (bs "file") (bs "files") (NInt Kint 9007199254740993) [] = ([], (bs "fichier", None))))
    as (z & LO & L & A); [apply a_contract|vm_compute; repeat split|].
  exists (a_os odd_files), z, (bs "app"), (bs "fr"), false, false, (PoExamples.text odd_file), fr_ms, odd_kvs,
    (bs "nplurals=2; plural=n%2;"), [], 2, (CBin CRem CN (CV 2)), [], (bs "file"), (bs "files"), Kint, 9007199254740993, 1, (bs "fichiers").
  split; [exact LO|]. split; [exact odd_served|]. split; [exact L|]. split; [discriminate|].
  split; [|split; [|split; [|split]]].
  - split; [constructor; [|constructor]; repeat (constructor; [vm_compute; reflexivity|]); constructor|].
    intros a b [<-|[]] [<-|[]] _ _. reflexivity.
  - split; [|split].
    + apply (lv_some [] (bs "Plural-Forms") (bs "Plural-Forms")); [reflexivity|constructor].
    + apply lv_none. constructor; [|constructor]. intros Q. vm_compute in Q. discriminate.
    + constructor.
  - intros [W|[W|W]]; vm_compute in W; discriminate.
  - exists ([LNplurals; LAssign; LNum (bs "2"); LSemi; LPlural; LAssign] ++ [LN; LRem; LNum (bs "2")] ++ [LSemi]). split; [|split].
    + apply (lex_all_sound 30); [|vm_compute; reflexivity]. apply cleanb_clean. reflexivity.
    + apply fitsb_fits. reflexivity.
    + exists (bs "2"), [LN; LRem; LNum (bs "2")]. split; [reflexivity|]. split; [reflexivity|].
      do 5 (apply g_up; [lia|]). exact (g_bin 0 LRem CRem [LN] [LNum (bs "2")] CN (CV 2) eq_refl g_n (g_num (bs "2"))).
  - split; [reflexivity|]. split; [cbn; auto|]. split; [vm_compute; split; discriminate|]. split; [vm_compute; reflexivity|]. split; [|rewrite A; split; intros Q; vm_compute in Q; discriminate].
    eexists. split; [now left|]. split; [split; [discriminate|intros (c & Q & X); injection Q as <-; destruct X]|]. split; [reflexivity|]. split; [reflexivity|discriminate].
Qed.

(** German, in an MO file: one of the categories of the language. *)
Example C57_cldr_example : exists z, a_localizer_of (a_os a_files) z /\
  l_lang _ _ _ (z_locale _ _ _ _ z) = bs "de" /\
  map (fun n => snd (a_plur z (bs "app") (bs "menu") (bs "%d file") [] n [])) [NInt Kint 1; NInt Kuint8 2; NFloat false (bs "15") 1] =
    [(bs "Datei", None); (bs "Dateien", None); (bs "Dateien", None)].
Proof. apply (a_make _ (bs "app") [LTag _ (bs "de")]); [apply a_contract|]. vm_compute. repeat split. Qed.

(** The hypotheses of C57_created and of C57_plural_cldr are met. *)
Example C57_created_example : exists log b, a_new (a_os a_files) = (log, inl b) /\
  (In (bs "fr") (b_languages _ _ _ _ b) /\ In (bs "de") (b_languages _ _ _ _ b)).
Proof.
  destruct (C57_created bytes a_dec [] ex_root (fun s => s) (fun s => (s, false)) ex_parent fold_ascii 5 bool unit
    (fun _ => false) false (fun s => inl s) (fun s => s) a_plural false false a_print x_matcher a_iter
    (fun A past l => Permutation_refl l) a_parts (fun s => s) (fun e => e) true (fun _ _ => true) (fun _ e => e) orb eq_refl eq_refl
    (a_os a_files) [(false, bs "en"); (false, bs "en"); (true, bs "fr"); (true, bs "de")]) as (log & b & B & L).
  - exact fold_ascii_ok.
  - apply a_contract.
  - split; [repeat constructor; eexists; reflexivity|]. constructor; [intros []|constructor].
  - repeat constructor.
  - discriminate.
  - intros t [<-|[<-|[<-|[<-|[]]]]]; cbn [snd]; (split; [discriminate|]); intros S d [<-|[]];
      [now destruct S|now destruct S| |].
    + exists false, false, (PoExamples.text fr_file), fr_ms, fr_kvs. split; [exact a_served_fr|apply C57_hypotheses_met].
    + do 2 eexists. exists (ex_mo true). do 2 eexists. split; [exact a_served_de|]. split.
      * split; [repeat constructor|]. intros a c [<-|[<-|[]]] [<-|[<-|[]]] Q N; try reflexivity; vm_compute in Q; discriminate.
      * exists [], []. split; [|left; split; [right; now left|]].
        -- split; [|split; [|constructor]]; apply lv_none; repeat (constructor; [intros Q; vm_compute in Q; discriminate|]); constructor.
        -- exists 2%nat. split; [split; [reflexivity|intros [|[|k]] K; [reflexivity|reflexivity|lia]]|lia].
  - exists log, b. split; [exact B|]. split; apply L; [right; right; now left|do 3 right; now left].
Qed.

(** A PO file whose reading fails after the second entry: the bundle is made
    and the messages after that point are missing. *)
Definition cut_files : list (bytes * (bytes * option bool)) :=
  [(bs "de.mo", (ex_mo true, None)); (bs "fr/app.po", (PoExamples.text (firstn 8 fr_file), Some false))].
Theorem C58_po_refuted : exists l p fl e z,
  l_resolver _ _ _ l (l_fsys _ _ _ l) (bs ".po") (bs "fr") (bs "app") = inl p /\
  fs_open bool (l_fsys _ _ _ l) p = inl fl /\ f_err bool fl = Some e /\
  l_decoders _ _ _ l = [(bs ".po", a_gdecoder false false); (bs ".mo", a_gdecoder true false)] /\
  a_localizer_of (a_os cut_files) z /\
  In (bs "app", a_load l) (loaders_of bytes number bool unit (a_os cut_files)) /\
  l_lang _ _ _ (z_locale _ _ _ _ z) = bs "fr" /\
  a_sing z (bs "app") [] (bs "file") [] = ([], (bs "fichier", None)) /\
  a_sing z (bs "app") [] (bs "c") [] = ([EvMissing _ _ (EOther _ _ false)], (bs "c", Some (EOther _ _ false))).
Proof.
  exists (a_loader cut_files), (bs "fr/app.po"), {| f_data := PoExamples.text (firstn 8 fr_file); f_err := Some false; f_close := None |}, false.
  assert (H : exists z, a_localizer_of (a_os cut_files) z /\
    l_lang _ _ _ (z_locale _ _ _ _ z) = bs "fr" /\
    a_sing z (bs "app") [] (bs "file") [] = ([], (bs "fichier", None)) /\
    a_sing z (bs "app") [] (bs "c") [] = ([EvMissing _ _ (EOther _ _ false)], (bs "c", Some (EOther _ _ false)))).
  { apply (a_make _ (bs "app") [LTag _ (bs "fr")]); [apply a_contract|]. vm_compute. repeat split. }
  destruct H as (z & LO & H). exists z. split; [vm_compute; reflexivity|]. split; [vm_compute; reflexivity|].
  split; [reflexivity|]. split; [reflexivity|]. split; [exact LO|]. split; [now left|exact H].
Qed.
(** The German file cut short: no bundle. *)
Example C58_mo_example : 
  snd (a_new (a_os [(bs "de.mo", (firstn 40 (ex_mo true), Some false)); (bs "fr/app.po", (PoExamples.text fr_file, None))])) =
    inr (EOther _ _ false).
Proof. vm_compute. reflexivity. Qed.

Print Assumptions C57_singular.
Print Assumptions C57_plural_header_partial.
Print Assumptions C57_plural_header_exactly.
Print Assumptions C57_plural_header_refuted.
Print Assumptions C57_plural_cldr.
Print Assumptions C57_missing.
Print Assumptions C57_created.
Print Assumptions C57_rejected.
Print Assumptions C58_reading_partial.
Print Assumptions C58_po_lines.
Print Assumptions C58_po_refuted.
