(** Property theorems C72, C82: JSON files, from the file to the texts shown.
    Theorems, examples and (** A PO file for French, a JSON file for Polish. *)
Definition both_files : list (bytes * (bytes * option bool)) := (bs "fr/app.po", (PoExamples.text fr_file, None)) :: pl_files pl_text.
Example C57_mixed_hypotheses_met :
  TheoremsApp.served bytes ex_root (fun s => s) (fun s => (s, false)) ex_parent fold_ascii 5 bool unit (fun _ => false) false
    a_parts (fun s => s) (fun e => e) true (fun _ _ => true) (fun _ e => e) orb
    (b_os both_files) (bs "app") (bs "fr") false false (PoExamples.text fr_file) fr_ms fr_kvs /\
  usable bytes ex_root ex_parent 5 false fr_kvs (bs "fr") /\
  b_picked (b_os both_files) (bs "app") (bs "pl") pl_text.
Proof.
  split; [|split; [apply C57_hypotheses_met|]].
  - split; [exact fr_holds|]. exists (b_loader both_files), {| r_search := true; r_category := [] |}, (l_decoders _ _ _ (b_loader both_files)).
    split; [now left|]. split; [reflexivity|]. split; [reflexivity|].
    exists [], (bs ".po"), [(bs ".json", b_jdecoder)], (bs "fr/app.po"), {| f_data := PoExamples.text fr_file; f_err := None; f_close := None |}.
    split; [reflexivity|]. split; [intros ed p []|]. split; [apply first_of_find; vm_compute; reflexivity|]. repeat split.
  - exists (b_loader both_files), {| r_search := true; r_category := [] |}, (l_decoders _ _ _ (b_loader both_files)).
    split; [now left|]. split; [reflexivity|]. split; [reflexivity|].
    exists [(bs ".po", a_gdecoder false false)], (bs ".json"), [], (bs "pl/app.json"), {| f_data := pl_text; f_err := None; f_close := None |}.
    split; [reflexivity|]. split; [|split; [apply first_of_find; vm_compute; reflexivity|repeat split]].
    intros ed p [<-|[]] I X.
    assert (F : forallb (fun p => negb (fs_stat bool (a_fs both_files) p))
      (candidates bytes a_parts (fun s => s) {| r_search := true; r_category := [] |} (bs "pl") (bs "app") (bs ".po")) = true)
      by (vm_compute; reflexivity).
    rewrite forallb_forall in F. apply F in I. unfold exists_in in X. cbn [l_fsys b_loader] in X. rewrite X in I. discriminate.
Qed.

Print Assumptions only. *)
From Coq Require Import String Ascii List ZArith Bool Lia ZifyBool Permutation.
From Verif Require Import Base BaseProofs Utf8Model LocaleModel BundleModel LocaleSpec LocaleProofs BundleSpec BundleProofs
  BundleRunProofs BundleTopProofs TheoremsLocale LoaderModel LoaderSpec LoaderProofs LangSpec TheoremsLoader
  NumModel CldrModel CldrBuiltin GettextModel GettextSpec GettextProofs TheoremsGettext AppSpec AppProofs TheoremsApp
  JsonModel JsonSpec JsonProofs TheoremsJson JTextModel JTextSpec JTextProofs JFileSpec JFileProofs TheoremsJText AppJsonModel AppJsonSpec AppJsonProofs.
Import ListNotations.
Open Scope Z_scope.

Section Theorems.
  (** external parts, see AppJsonModel, LocaleModel, BundleModel, LoaderModel *)
  Variable tag : Type.
  Variable tag_eq_dec : forall a b : tag, {a = b} + {a <> b}.
  Variable und : tag.
  Variable is_root : tag -> bool.
  Variable tag_string : tag -> bytes.
  Variable base : tag -> bytes * bool.
  Variable parent : tag -> tag.
  Variable fuel : nat.
  Variable E C : Type.
  Variable of_lookup : lookup_error tag -> E.
  Variable decode_failed crash : E.
  Variable order : tag -> bytes -> bytes -> list category.
  Variable perm : tag -> bytes -> bytes -> list (bytes * bytes) -> list (bytes * bytes).
  Variable fperm : tag -> bytes -> bytes -> list (bytes * option jmsg) -> list (bytes * option jmsg).
  Hypothesis order_ok : forall t d s, every_category (order t d s).
  Hypothesis perm_ok : forall t d s x, Permutation x (perm t d s x).
  Hypothesis fperm_ok : forall t d s x, Permutation x (fperm t d s x).
  Variable parse : bytes -> tag + E.
  Variable parse_accept : bytes -> option (list tag).
  Variable trim_space : bytes -> bytes.
  Variable plural_for : tag -> plural_func number E.
  Variable no_string opt_error : E.
  Variable default_printer : printer tag number.
  Variable default_matcher : matcher_builder tag.
  Variable iter : forall A, list (event tag E) -> list A -> list A.
  Hypothesis iter_perm : forall A past (l : list A), Permutation (iter A past l) l.
  Variable parts : tag -> tag_parts.
  Variable clean : bytes -> bytes.
  Variable is_not_exist : E -> bool.
  Variable not_exist : E.
  Variable not_found : tag -> bytes -> E.
  Variable decode_error : bytes -> E -> E.
  Variable join_errors : E -> E -> E.
  (** errors.Is(_, os.ErrNotExist) *)
  Hypothesis not_exist_is : is_not_exist not_exist = true.
  Hypothesis decode_error_is : forall p e, is_not_exist (decode_error p e) = is_not_exist e.
  Hypothesis decode_failed_is : is_not_exist decode_failed = false.

  Notation opt := (opt tag number E C).
  Notation localizer := (localizer tag number E C).
  Notation name := (lang_tag tag E parse trim_space no_string).
  Notation new_bundle := (new_bundle tag tag_eq_dec und number E C parse trim_space plural_for iter
                            no_string opt_error default_printer default_matcher).
  Notation localizer_of := (localizer_of tag tag_eq_dec und number E C parse parse_accept trim_space plural_for
                              no_string opt_error default_printer default_matcher iter).
  Notation lookup_singular := (LocaleModel.lookup_singular tag tag_eq_dec number E C).
  Notation lookup_plural := (LocaleModel.lookup_plural tag number E C).
  Notation loaders_of := (loaders_of tag number E C).
  Notation requests_of := (requests_of tag number E C name).
  Notation source_of := (source_of tag und number E C).
  Notation fallback_of := (fallback_of tag und number E C name).
  Notation printer_of os := (setting tag number E C (sets_printer tag number E C) default_printer os).
  Notation load := (load tag number E is_not_exist not_found decode_error join_errors).
  Notation chosen := (chosen tag E parts clean is_not_exist not_exist).
  Notation z_locale := (z_locale tag number E C).
  Notation z_bundle := (z_bundle tag number E C).
  Notation z_found := (z_found tag number E C).
  Notation l_lang := (l_lang tag number E).
  Notation found_error z := (if z_found z then None else Some (ELocale tag E)).

  Notation jdecoder := (json_decoder tag is_root tag_string base parent fuel order perm fperm E of_lookup decode_failed crash).
  Notation jdecode := (json_decode tag is_root tag_string base parent fuel order perm fperm).
  Notation jcatalog := (jcatalog_of tag E of_lookup crash).
  Notation rules_of t dp rs :=
    (nearest tag tag_string base parent rule_set cldr_built_in t dp rs \/
     cldr_built_in (bs "en") = Some rs /\ nothing tag tag_string base parent rule_set cldr_built_in t dp).

  (** The loader of domain [d] uses the JSON file [s] for language [t]. *)
  Definition picked (os : list opt) (d : bytes) (t : tag) (s : bytes) : Prop :=
    exists l r ds, In (d, load l) (loaders_of os) /\ chosen l r ds t d jdecoder s.

  Lemma picked_load os d t s : picked os d t s -> exists ld p, In (d, ld) (loaders_of os) /\
    ld t d = match jdecode t d s with
             | Ok (Some c) => inl (jcatalog c) | Ok None => inl (no_catalog E crash)
             | _ => inr (EOther _ _ (decode_error p decode_failed)) end.
  Proof.
    intros (l & r & ds & I & CH). exists (load l).
    destruct (load_data tag E parts clean is_not_exist not_exist not_found decode_error join_errors not_exist_is decode_error_is _ _ _ _ _ _ _ CH) as (p & Q).
    - intros e. destruct (jdecode t d s) as [[c|]| | |]; try discriminate; intros X; injection X as <-; exact decode_failed_is.
    - exists p. split; [exact I|]. rewrite Q. destruct (jdecode t d s) as [[c|]| | |]; reflexivity.
  Qed.

  (** The locale of a localizer has what the loaders give. *)
  Lemma loaded os z d t ld : localizer_of os z -> In (d, ld) (loaders_of os) -> l_lang (z_locale z) = t -> t <> source_of os ->
    (exists e, ld t d = inr (ENotFound _ _ e)) \/
    exists c, ld t d = inl c /\ In (d, c) (l_cats tag number E (z_locale z)) /\
      l_source tag number E (z_locale z) = false /\ l_print tag number E (z_locale z) = printer_of os t.
  Proof.
    intros (K & log & dom & langs & B & Z) LI L S.
    destruct (new_bundle_made tag tag_eq_dec und number E C parse trim_space plural_for iter
                no_string opt_error default_printer default_matcher iter_perm _ _ _ K B) as (_ & rs & M).
    destruct M as [MN MM _ _ _ _ _ ML MK _ MS _ MF _ _ _ _].
    assert (IL : In (t, z_locale z) (b_locales tag number E C (z_bundle z))).
    { assert (FB : z_locale z = b_fallback tag number E C (z_bundle z) -> In (t, z_locale z) (b_locales tag number E C (z_bundle z))).
      { intros Q. destruct MF as [J|(N & J)].
        - pose proof (k_lang _ _ _ _ _ _ _ _ _ _ (ML _ _ J)) as X. rewrite <- Q in J, X. rewrite X in L. subst t. exact J.
        - pose proof (k_lang _ _ _ _ _ _ _ _ _ _ MS) as X. rewrite Q, J, X in L. symmetry in L. contradiction. }
      destruct (localizer_from_tag tag tag_eq_dec number E C parse_accept _ _ _ _ Z) as (t0 & ZQ).
      unfold new_localizer_from_tag in ZQ. destruct t0 as [t0|]; [|apply FB; rewrite ZQ; reflexivity].
      destruct (loc_get tag tag_eq_dec number E (b_locales tag number E C (z_bundle z)) t0) as [l|] eqn:G;
        [|apply FB; rewrite ZQ; reflexivity].
      apply loc_get_in in G. pose proof (k_lang _ _ _ _ _ _ _ _ _ _ (ML _ _ G)) as X.
      assert (ZL : z_locale z = l) by (rewrite ZQ; reflexivity). rewrite ZL in *. congruence. }
    pose proof (ML _ _ IL) as OK.
    assert (U : In t (map fst (b_locales tag number E C (z_bundle z)))) by (apply (in_map fst) in IL; exact IL).
    apply MK in U as (U1 & U2 & _).
    destruct (met_first tag tag_eq_dec und E C os rs t d ld MM U1 U2 S LI) as [(c & Q)|H]; [right|left; exact H].
    exists c. split; [exact Q|]. destruct OK as [_ OP _ OS OC OB]. split; [apply OB; split; [exact S|eauto]|]. split; [|exact OP].
    destruct (l_source tag number E (z_locale z)); [|reflexivity]. exfalso. apply S. apply OS. reflexivity.
  Qed.

  (** The localizer's language has the catalog of the file. *)
  Lemma picked_locale os z d t s l : localizer_of os z -> picked os d t s -> json_file s l -> l_lang (z_locale z) = t -> t <> source_of os ->
    exists rs lg c b, cldr_built_in lg = Some rs /\
      LangModel.for_language tag is_root tag_string base parent rule_set cldr_built_in fuel t = Ok (Some rs, b) /\
      decode_json_text tag (order t d s) (perm t d s) (fperm t d s) t d rs s = Ok c /\
      exists c0, c = Some c0 /\ In (d, jcatalog c0) (l_cats tag number E (z_locale z)) /\
      l_source tag number E (z_locale z) = false /\ l_print tag number E (z_locale z) = printer_of os t.
  Proof.
    intros LO PI JF L S. destruct (picked_load _ _ _ _ PI) as (ld & p & LI & LQ).
    destruct (loaded _ _ _ _ _ LO LI L S) as [(e & Q)|(c & Q & IC & SF & PR)]; rewrite LQ in Q.
    - destruct (jdecode t d s) as [[c|]| | |]; discriminate.
    - destruct (jdecode t d s) as [o| | |] eqn:D; try discriminate.
      destruct (json_decode_rules tag is_root tag_string base parent fuel order perm fperm _ _ _ _ D) as (rs & lg & b & FL & B & DT).
      exists rs, lg, o, b. split; [exact B|]. split; [exact FL|]. split; [exact DT|].
      destruct (json_read tag order perm fperm order_ok perm_ok fperm_ok _ _ _ _ _ _ _ B JF DT) as (c0 & -> & _).
      exists c0. split; [reflexivity|]. injection Q as <-. auto.
  Qed.

  Notation good os z LO := (localizer_good tag tag_eq_dec und E C parse parse_accept trim_space plural_for no_string opt_error
      default_printer default_matcher iter iter_perm os z LO).

  (** ** C82 *)
  (** A message with a text in the file is shown with it. *)
  Theorem C82_singular : forall os z d t s l ms ctx id txt vars,
    localizer_of os z -> picked os d t s -> json_file s l -> l_lang (z_locale z) = t -> t <> source_of os ->
    file_messages l ms -> says ms ctx id Other txt ->
    lookup_singular z d ctx id vars = ([], (printer_of os t txt vars, found_error z)).
  Proof.
    intros os z d t s l ms ctx id txt vars LO PI JF L S FM SY.
    destruct (picked_locale _ _ _ _ _ _ LO PI JF L S) as (rs & lg & c & b & B & _ & DT & c0 & -> & IC & SF & PR).
    destruct (json_read tag order perm fperm order_ok perm_ok fperm_ok _ _ _ _ _ _ _ B JF DT) as (c1 & Q & R). injection Q as <-.
    destruct (R ms FM) as (R1 & _).
    apply (run_first tag tag_eq_dec number E C z (Sing number d ctx id vars)); [exact (good os z LO)|exact SF|].
    rewrite <- PR. eapply a_catalog; [exact SF|exact IC|]. cbn [jcatalog_of cat_lookup]. rewrite (R1 ctx id txt SY). reflexivity.
  Qed.

  (** Plural requests: the text of the category of the number in the language. *)
  Theorem C82_plural : forall os z d t s l ms dp,
    localizer_of os z -> picked os d t s -> json_file s l -> l_lang (z_locale z) = t -> t <> source_of os ->
    file_messages l ms -> LangSpec.depth tag is_root parent t dp -> (dp <= fuel)%nat ->
    exists rs, rules_of t dp rs /\
      forall ctx sg pl n cat txt vars, rs_evaluate rs (to_carg n) = Ok cat -> says ms ctx sg cat txt ->
        lookup_plural z d ctx sg pl n vars = ([], (printer_of os t txt vars, found_error z)).
  Proof.
    intros os z d t s l ms dp LO PI JF L S FM DP LE.
    destruct (picked_locale _ _ _ _ _ _ LO PI JF L S) as (rs & lg & c & b & B & FL & DT & c0 & -> & IC & SF & PR).
    destruct (json_read tag order perm fperm order_ok perm_ok fperm_ok _ _ _ _ _ _ _ B JF DT) as (c1 & Q & R). injection Q as <-.
    destruct (R ms FM) as (_ & _ & R3 & _). exists rs. split.
    - destruct (LangProofs.for_language_spec tag is_root tag_string base parent rule_set cldr_built_in dp t DP fuel LE) as [(r & Q & N)|[Q N]];
        rewrite FL in Q.
      + injection Q as -> _. now left.
      + right. split; [|exact N]. symmetry. exact (f_equal (fun x => match x with Ok (o, _) => o | _ => None end) Q).
    - intros ctx sg pl n cat txt vars EV SY.
      apply (run_first tag tag_eq_dec number E C z (Plur number d ctx sg pl n vars)); [exact (good os z LO)|exact SF|].
      rewrite <- PR. eapply a_catalog_plural; [exact SF|exact IC|]. cbn [jcatalog_of cat_lookup_plural].
      rewrite (R3 ctx sg n cat txt EV SY). reflexivity.
  Qed.

  Lemma source_locale os z : localizer_of os z -> fallback_of os = source_of os ->
    b_fallback tag number E C (z_bundle z) = b_source tag number E C (z_bundle z) /\
    locale_ok tag und number E C plural_for default_printer os (source_of os) (b_source tag number E C (z_bundle z)).
  Proof.
    intros (K & log & dom & langs & B & Z) FB.
    destruct (new_bundle_made tag tag_eq_dec und number E C parse trim_space plural_for iter
                no_string opt_error default_printer default_matcher iter_perm _ _ _ K B) as (_ & rs & M).
    destruct M as [MN MM _ _ _ _ ND ML MK _ MS MI MF _ _ _ _]. split; [|exact MS].
    destruct MF as [J|(N & J)]; [|exact J]. rewrite FB in J.
    assert (SI : In (source_of os, b_source tag number E C (z_bundle z)) (b_locales tag number E C (z_bundle z))).
    { apply MI. apply (in_map fst) in J. exact J. }
    clear - ND J SI. induction (b_locales tag number E C (z_bundle z)) as [|[k v] m IH]; [destruct J|].
    cbn [map fst] in ND. inversion ND as [|x y N1 N2]; subst. destruct J as [J|J], SI as [SI|SI].
    - congruence.
    - injection J as -> ->. exfalso. apply N1. apply (in_map fst) in SI. exact SI.
    - injection SI as -> ->. exfalso. apply N1. apply (in_map fst) in J. exact J.
    - exact (IH N2 J SI).
  Qed.

  (** A message without such a text, no other fallback language: the source
      text, with the reason. *)
  Theorem C82_missing : forall os z d t s l ms ctx id e vars,
    localizer_of os z -> picked os d t s -> json_file s l -> l_lang (z_locale z) = t -> t <> source_of os ->
    file_messages l ms -> fallback_of os = source_of os -> silent ms t d ctx id Other e ->
    lookup_singular z d ctx id vars =
      (calls tag E C (b_callback tag number E C (z_bundle z)) [EOther _ _ (of_lookup e)],
       (printer_of os (source_of os) id vars, Some (EOther _ _ (of_lookup e)))).
  Proof.
    intros os z d t s l ms ctx id e vars LO PI JF L S FM FB SI.
    destruct (picked_locale _ _ _ _ _ _ LO PI JF L S) as (rs & lg & c & b & B & _ & DT & c0 & -> & IC & SF & PR).
    destruct (json_read tag order perm fperm order_ok perm_ok fperm_ok _ _ _ _ _ _ _ B JF DT) as (c1 & Q & R). injection Q as <-.
    destruct (R ms FM) as (_ & R2 & _). destruct (source_locale os z LO FB) as (FQ & [_ SP _ SS _ _]).
    apply (run_source tag tag_eq_dec number E C z (Sing number d ctx id vars) (EOther _ _ (of_lookup e))
      (printer_of os (source_of os) id vars) (good os z LO) FQ).
    - eapply k_message; [exact SF|exact IC|]. cbn [jcatalog_of cat_lookup]. rewrite (R2 ctx id e SI). reflexivity.
    - rewrite <- SP. apply a_source. apply SS. reflexivity.
  Qed.

  (** ... the same for plural requests; a number the rules do not take is
      such a reason. *)
  Theorem C82_missing_plural : forall os z d t s l ms dp,
    localizer_of os z -> picked os d t s -> json_file s l -> l_lang (z_locale z) = t -> t <> source_of os ->
    file_messages l ms -> fallback_of os = source_of os -> LangSpec.depth tag is_root parent t dp -> (dp <= fuel)%nat ->
    exists rs, rules_of t dp rs /\
      forall ctx sg pl n e vars,
        (exists cat, rs_evaluate rs (to_carg n) = Ok cat /\ silent ms t d ctx sg cat e) \/
        rs_evaluate rs (to_carg n) = Err /\ e = PluralError ->
        let (i, complaint) := plural_for (source_of os) n in
        lookup_plural z d ctx sg pl n vars =
          (calls tag E C (b_callback tag number E C (z_bundle z))
             (EOther _ _ (of_lookup e) :: match complaint with Some x => [EOther _ _ x] | None => [] end),
           (printer_of os (source_of os) (if i =? 0 then sg else match pl with [] => sg | _ => pl end) vars, Some (EOther _ _ (of_lookup e)))).
  Proof.
    intros os z d t s l ms dp LO PI JF L S FM FB DP LE.
    destruct (picked_locale _ _ _ _ _ _ LO PI JF L S) as (rs & lg & c & b & B & FL & DT & c0 & -> & IC & SF & PR).
    destruct (json_read tag order perm fperm order_ok perm_ok fperm_ok _ _ _ _ _ _ _ B JF DT) as (c1 & Q & R). injection Q as <-.
    destruct (R ms FM) as (_ & _ & _ & R4 & R5). destruct (source_locale os z LO FB) as (FQ & [_ SP SL SS _ _]). exists rs. split.
    - destruct (LangProofs.for_language_spec tag is_root tag_string base parent rule_set cldr_built_in dp t DP fuel LE) as [(r & Q & N)|[Q N]];
        rewrite FL in Q.
      + injection Q as -> _. now left.
      + right. split; [|exact N]. symmetry. exact (f_equal (fun x => match x with Ok (o, _) => o | _ => None end) Q).
    - intros ctx sg pl n e vars H. destruct (plural_for (source_of os) n) as [i complaint] eqn:PF.
      assert (ST : l_source tag number E (b_source tag number E C (z_bundle z)) = true) by (apply SS; reflexivity).
      assert (BN : bad_number tag number E (Plur number d ctx sg pl n vars) (b_source tag number E C (z_bundle z)) =
        match complaint with Some x => [EOther _ _ x] | None => [] end) by (cbn [bad_number]; rewrite ST, SL, PF; reflexivity).
      rewrite <- BN. apply (run_source tag tag_eq_dec number E C z (Plur number d ctx sg pl n vars) (EOther _ _ (of_lookup e))
        (printer_of os (source_of os) (if i =? 0 then sg else match pl with [] => sg | _ => pl end) vars) (good os z LO) FQ).
      + eapply LocaleSpec.k_plural; [exact SF|exact IC|]. cbn [jcatalog_of cat_lookup_plural].
        destruct H as [(cat & EV & SI)|(EV & ->)]; [rewrite (R4 ctx sg n cat e EV SI)|rewrite (R5 ctx sg n EV)]; reflexivity.
      + rewrite <- SP. destruct (i =? 0) eqn:X; [|destruct pl as [|x pl]].
        * apply a_source_one; [exact ST|]. left. rewrite SL, PF. cbn [fst]. lia.
        * apply a_source_one; [exact ST|]. now right.
        * apply a_source_many; [exact ST| |discriminate]. rewrite SL, PF. cbn [fst]. lia.
  Qed.

  (** Creation succeeds when every requested language has an acceptable file
      for every domain ... *)
  Lemma acceptable_loads os d t s l dp ld : NoDup (map fst (loaders_of os)) -> In (d, ld) (loaders_of os) ->
    picked os d t s -> json_file s l -> acceptable l -> LangSpec.depth tag is_root parent t dp -> (dp <= fuel)%nat ->
    exists c, ld t d = inl c.
  Proof.
    intros ND J PI JF (NE & MS) DP LE. destruct (picked_load _ _ _ _ PI) as (ld' & p & LI & LQ).
    assert (ld' = ld) as ->.
    { clear - ND J LI. induction (loaders_of os) as [|[k v] m IH]; [destruct J|].
      cbn [map fst] in ND. inversion ND as [|x y N1 N2]; subst. destruct J as [J|J], LI as [SI|SI].
      - congruence.
      - injection J as -> ->. exfalso. apply N1. apply (in_map fst) in SI. exact SI.
      - injection SI as -> ->. exfalso. apply N1. apply (in_map fst) in J. exact J.
      - exact (IH N2 J SI). }
    destruct (json_decode_deep tag is_root tag_string base parent fuel order perm fperm t d s dp DP LE) as (rs & Q & _).
    destruct JF as (DOC & PN).
    destruct (proj2 (proj1 (C66_file tag (order t d s) (perm t d s) (fperm t d s) t d rs (perm_ok t d s) (fperm_ok t d s) (order_ok t d s) s l DOC PN))) as (c & D);
      [split; assumption|]. rewrite Q, D in LQ. eauto.
  Qed.
  Theorem C82_created : forall os rs,
    contract tag number E (loaders_of os) -> BundleSpec.valid tag number E C name os ->
    Forall2 (named tag E name) (requests_of os) rs -> loaders_of os <> [] ->
    (forall t, In t (map snd rs) -> t <> und /\ (t <> source_of os -> forall d, In d (map fst (loaders_of os)) ->
       exists s l dp, picked os d t s /\ json_file s l /\ acceptable l /\ LangSpec.depth tag is_root parent t dp /\ (dp <= fuel)%nat)) ->
    exists log b, new_bundle os = (log, inl b) /\
      forall t, In t (map snd rs) -> In t (b_languages tag number E C b).
  Proof.
    intros os rs K V N NE H.
    assert (LD : forall t p, In t (map snd rs) -> t <> source_of os -> In p (loaders_of os) ->
              BundleSpec.loads tag number E t p).
    { intros t [d ld] I S J. destruct (proj2 (H t I) S d) as (s & l & dp & PI & JF & AC & DP & LE).
      { apply (in_map fst) in J. exact J. }
      eapply acceptable_loads; [apply V|exact J|exact PI|exact JF|exact AC|exact DP|exact LE]. }
    assert (AM : all_met tag und number E (source_of os) (loaders_of os) rs).
    { intros before [o t] after Q. assert (I : In t (map snd rs)).
      { rewrite Q, map_app. apply in_or_app. right. now left. }
      split; [intros ->; destruct (proj1 (H und I)); reflexivity|]. intros _ S. destruct o.
      - intros p J. left. exact (LD t p I S J).
      - left. split; [exact NE|]. intros p J. exact (LD t p I S J). }
    destruct (new_bundle_cases tag tag_eq_dec und number E C parse trim_space plural_for iter
                no_string opt_error default_printer default_matcher iter_perm os K)
      as [(log & b & rs' & B & _ & M)|(log & e & _ & X)]; [|exfalso; apply X; eauto].
    exists log, b. split; [exact B|]. intros t I.
    assert (rs' = rs) as ->.
    { pose proof (m_named _ _ _ _ _ _ _ _ _ _ _ _ _ _ _ _ M) as N'. clear - N N'.
      revert rs' N'. induction N as [|a r l rs [P Q] N IH]; intros rs' N'; inversion N' as [|a' r' l' rs2 [P' Q'] N2]; subst; [reflexivity|].
      f_equal; [|auto]. destruct r as [o t], r' as [o' t']. cbn [fst snd] in *. congruence. }
    pose proof (m_langs _ _ _ _ _ _ _ _ _ _ _ _ _ _ _ _ M) as ML. apply (languages_in tag und number E plural_for _ _ _ _ t ML).
    split; [exact I|]. split; [apply (H t I)|].
    destruct (tag_eq_dec t (source_of os)) as [->|S]; [now left|right].
    destruct (loaders_of os) as [|p L]; [congruence|]. exists p. split; [now left|]. apply (LD t p I S). now left.
  Qed.

  (** ... and fails when one has an unacceptable file, even for an optional
      language. *)
  Theorem C82_rejected : forall os rs t d s,
    contract tag number E (loaders_of os) -> Forall2 (named tag E name) (requests_of os) rs ->
    In t (map snd rs) -> t <> und -> t <> source_of os -> picked os d t s ->
    (~ document lenient JNull s /\ forall l, ~ document lenient (JObj l) s) \/ (exists l, json_file s l /\ ~ acceptable l) ->
    exists log e, new_bundle os = (log, inr e).
  Proof.
    intros os rs t d s K N I U S PI BAD. destruct (new_bundle os) as [log [b|e]] eqn:B; [exfalso|eauto].
    destruct (new_bundle_made tag tag_eq_dec und number E C parse trim_space plural_for iter
                no_string opt_error default_printer default_matcher iter_perm _ _ _ K B) as (_ & rs' & M).
    assert (rs' = rs) as ->.
    { pose proof (m_named _ _ _ _ _ _ _ _ _ _ _ _ _ _ _ _ M) as N'. clear - N N'.
      revert rs' N'. induction N as [|a r l rs [P Q] N IH]; intros rs' N'; inversion N' as [|a' r' l' rs2 [P' Q'] N2]; subst; [reflexivity|].
      f_equal; [|auto]. destruct r as [o t], r' as [o' t']. cbn [fst snd] in *. congruence. }
    destruct (picked_load _ _ _ _ PI) as (ld & p & LI & LQ).
    assert (NG : forall o, jdecode t d s <> Ok o).
    { intros o D. destruct (json_decode_rules tag is_root tag_string base parent fuel order perm fperm _ _ _ _ D) as (r & lg & bb & _ & BI & DT).
      destruct (C66_outcomes tag (order t d s) (perm t d s) (fperm t d s) t d r s) as (O1 & O2 & _). destruct BAD as [(B1 & B2)|(l & JF & NA)].
      - destruct o as [c|]; [destruct (O2 c DT) as (l & X & _); exact (B2 l X)|exact (B1 (proj1 O1 DT))].
      - destruct (json_read tag order perm fperm order_ok perm_ok fperm_ok _ _ _ _ _ _ _ BI JF DT) as (c0 & -> & _).
        apply NA. destruct JF as (DOC & PN).
        apply (proj1 (C66_file tag (order t d s) (perm t d s) (fperm t d s) t d r (perm_ok t d s) (fperm_ok t d s) (order_ok t d s) s l DOC PN)). eauto. }
    destruct (met_first tag tag_eq_dec und E C os rs t d ld (m_met _ _ _ _ _ _ _ _ _ _ _ _ _ _ _ _ M) I U S LI) as [(c & Q)|(e & Q)]; rewrite LQ in Q;
      destruct (jdecode t d s) as [o| | |]; try discriminate; exact (NG o eq_refl).
  Qed.
  (** ** C72 *)
  (** A localizer of the language only exists if its file is acceptable, or is
      null (see C72_null_refuted). *)
  Theorem C72_accepted : forall os z d t s, localizer_of os z -> picked os d t s -> l_lang (z_locale z) = t -> t <> source_of os ->
    (document lenient JNull s \/ exists l, document lenient (JObj l) s) /\ forall l, json_file s l -> acceptable l.
  Proof.
    intros os z d t s LO PI L S. split.
    - destruct (picked_load _ _ _ _ PI) as (ld & p & LI & LQ).
      destruct (loaded _ _ _ _ _ LO LI L S) as [(e & Q)|(c & Q & _)]; rewrite LQ in Q.
      + destruct (jdecode t d s) as [[c|]| | |]; discriminate.
      + destruct (jdecode t d s) as [o| | |] eqn:D; try discriminate.
        destruct (json_decode_rules tag is_root tag_string base parent fuel order perm fperm _ _ _ _ D) as (rs & lg & b & _ & _ & DT).
        destruct (C66_outcomes tag (order t d s) (perm t d s) (fperm t d s) t d rs s) as (O1 & O2 & _).
        destruct o as [c0|]; [right; destruct (O2 c0 DT) as (l & X & _); now exists l|left; exact (proj1 O1 DT)].
    - intros l JF. destruct (picked_locale _ _ _ _ _ _ LO PI JF L S) as (rs & lg & c & b & _ & _ & DT & c0 & -> & _).
      destruct JF as (DOC & PN).
      apply (proj1 (C66_file tag (order t d s) (perm t d s) (fperm t d s) t d rs (perm_ok t d s) (fperm_ok t d s) (order_ok t d s) s l DOC PN)). eauto.
  Qed.
  (** The file has one list of messages; what it says is shown, without a
      callback ... *)
  Theorem C72_shown_partial : forall os z d t s l dp,
    localizer_of os z -> picked os d t s -> json_file s l -> l_lang (z_locale z) = t -> t <> source_of os ->
    LangSpec.depth tag is_root parent t dp -> (dp <= fuel)%nat ->
    exists ms rs, file_messages l ms /\ rules_of t dp rs /\
      (forall ctx id txt vars, says ms ctx id Other txt ->
         lookup_singular z d ctx id vars = ([], (printer_of os t txt vars, found_error z))) /\
      (forall ctx sg pl n cat txt vars, rs_evaluate rs (to_carg n) = Ok cat -> says ms ctx sg cat txt ->
         lookup_plural z d ctx sg pl n vars = ([], (printer_of os t txt vars, found_error z))).
  Proof.
    intros os z d t s l dp LO PI JF L S DP LE. destruct (proj2 (C72_accepted os z d t s LO PI L S) l JF) as (_ & ms & FM & _).
    destruct (C82_plural os z d t s l ms dp LO PI JF L S FM DP LE) as (rs & R & P). exists ms, rs.
    split; [exact FM|]. split; [exact R|]. split; [|exact P]. intros ctx id txt vars SY. now apply (C82_singular os z d t s l ms).
  Qed.
  (** ... and what it does not say is shown as the program says it, and the
      callback is told the reason. *)
  Theorem C72_missing_partial : forall os z d t s l dp,
    localizer_of os z -> picked os d t s -> json_file s l -> l_lang (z_locale z) = t -> t <> source_of os ->
    fallback_of os = source_of os -> LangSpec.depth tag is_root parent t dp -> (dp <= fuel)%nat ->
    exists ms rs, file_messages l ms /\ rules_of t dp rs /\
      (forall ctx id e vars, silent ms t d ctx id Other e ->
         lookup_singular z d ctx id vars =
           (calls tag E C (b_callback tag number E C (z_bundle z)) [EOther _ _ (of_lookup e)],
            (printer_of os (source_of os) id vars, Some (EOther _ _ (of_lookup e))))) /\
      (forall ctx sg pl n cat e vars, rs_evaluate rs (to_carg n) = Ok cat -> silent ms t d ctx sg cat e ->
         snd (plural_for (source_of os) n) = None ->
         lookup_plural z d ctx sg pl n vars =
           (calls tag E C (b_callback tag number E C (z_bundle z)) [EOther _ _ (of_lookup e)],
            (printer_of os (source_of os) (if fst (plural_for (source_of os) n) =? 0 then sg else match pl with [] => sg | _ => pl end) vars,
             Some (EOther _ _ (of_lookup e))))).
  Proof.
    intros os z d t s l dp LO PI JF L S FB DP LE. destruct (proj2 (C72_accepted os z d t s LO PI L S) l JF) as (_ & ms & FM & _).
    destruct (C82_missing_plural os z d t s l ms dp LO PI JF L S FM FB DP LE) as (rs & R & P). exists ms, rs.
    split; [exact FM|]. split; [exact R|]. split; [intros ctx id e vars SI; now apply (C82_missing os z d t s l ms)|].
    intros ctx sg pl n cat e vars EV SI NC. specialize (P ctx sg pl n e vars (or_introl (ex_intro _ cat (conj EV SI)))).
    destruct (plural_for (source_of os) n) as [i complaint]. cbn [fst snd] in *. subst complaint. exact P.
  Qed.
  (** NewBundle succeeds with acceptable files; with one that is not (nor null)
      it fails, whatever the others are. *)
  Theorem C72_created : forall os rs,
    contract tag number E (loaders_of os) -> BundleSpec.valid tag number E C name os ->
    Forall2 (named tag E name) (requests_of os) rs -> loaders_of os <> [] -> (forall t, In t (map snd rs) -> t <> und) ->
    ((forall t, In t (map snd rs) -> t <> source_of os -> forall d, In d (map fst (loaders_of os)) ->
        exists s l dp, picked os d t s /\ json_file s l /\ acceptable l /\ LangSpec.depth tag is_root parent t dp /\ (dp <= fuel)%nat) ->
     exists log b, new_bundle os = (log, inl b) /\ forall t, In t (map snd rs) -> In t (b_languages tag number E C b)) /\
    forall t d s, In t (map snd rs) -> t <> source_of os -> picked os d t s -> ~ document lenient JNull s ->
      (forall l, document lenient (JObj l) s -> json_file s l /\ ~ acceptable l) -> exists log e, new_bundle os = (log, inr e).
  Proof.
    intros os rs K V N NE U. split.
    - intros H. apply C82_created; try assumption. intros t I. split; [now apply U|]. intros S d J. exact (H t I S d J).
    - intros t d s I S PI NN BAD. destruct (new_bundle os) as [log [b|e]] eqn:B; [exfalso|eauto].
      assert (F : exists log e, new_bundle os = (log, inr e) \/ exists l, document lenient (JObj l) s).
      { destruct (new_bundle_made tag tag_eq_dec und number E C parse trim_space plural_for iter
                no_string opt_error default_printer default_matcher iter_perm _ _ _ K B) as (_ & rs' & M).
        assert (rs' = rs) as ->.
        { pose proof (m_named _ _ _ _ _ _ _ _ _ _ _ _ _ _ _ _ M) as N'. clear - N N'.
          revert rs' N'. induction N as [|a r l rs [P Q] N IH]; intros rs' N'; inversion N' as [|a' r' l' rs2 [P' Q'] N2]; subst; [reflexivity|].
          f_equal; [|auto]. destruct r as [o t], r' as [o' t']. cbn [fst snd] in *. congruence. }
        destruct (picked_load _ _ _ _ PI) as (ld & p & LI & LQ).
        destruct (met_first tag tag_eq_dec und E C os rs t d ld (m_met _ _ _ _ _ _ _ _ _ _ _ _ _ _ _ _ M) I (U t I) S LI) as [(c & Q)|(e & Q)]; rewrite LQ in Q;
          [|destruct (jdecode t d s) as [[c|]| | |]; discriminate].
        destruct (jdecode t d s) as [o| | |] eqn:D; try discriminate. clear Q.
        destruct (json_decode_rules tag is_root tag_string base parent fuel order perm fperm _ _ _ _ D) as (r & lg & bb & _ & _ & DT).
        destruct (C66_outcomes tag (order t d s) (perm t d s) (fperm t d s) t d r s) as (O1 & O2 & _).
        destruct o as [c0|]; [|destruct (NN (proj1 O1 DT))]. destruct (O2 c0 DT) as (l & X & _).
        exists log, (EOther tag E crash). right. now exists l. }
      destruct F as (log' & e & [F|(l & F)]); [congruence|].
      destruct (C82_rejected os rs t d s K N I (U t I) S PI (or_intror (ex_intro _ l (BAD l F)))) as (log2 & e2 & Q). congruence.
  Qed.
  (** ** C57 *)
  (** Creation succeeds when every requested language has a file of any of the
      formats for every domain. *)
  Variable fold : rune -> rune.
  Notation served := (served tag is_root tag_string base parent fold fuel E C of_lookup decode_failed parts clean is_not_exist
    not_exist not_found decode_error join_errors).
  Theorem C57_created_mixed : forall os rs, PoFileSpec.ascii_fold fold ->
    contract tag number E (loaders_of os) -> BundleSpec.valid tag number E C name os ->
    Forall2 (named tag E name) (requests_of os) rs -> loaders_of os <> [] -> (forall t, In t (map snd rs) -> t <> und) ->
    (forall t, In t (map snd rs) -> t <> source_of os -> forall d, In d (map fst (loaders_of os)) ->
       (exists mo u s ms kvs, served os d t mo u s ms kvs /\ usable tag is_root parent fuel u kvs t) \/
       exists s l dp, picked os d t s /\ json_file s l /\ acceptable l /\ LangSpec.depth tag is_root parent t dp /\ (dp <= fuel)%nat) ->
    exists log b, new_bundle os = (log, inl b) /\
      forall t, In t (map snd rs) -> In t (b_languages tag number E C b).
  Proof.
    intros os rs AF K V N NE U H.
    apply (loads_created tag tag_eq_dec und E C parse trim_space plural_for no_string opt_error default_printer default_matcher iter iter_perm os rs K V N NE U).
    intros t [d ld] I S J. destruct (H t I S d) as [(mo & u & s & ms & kvs & SV & US)|(s & l & dp & PI & JF & AC & DP & LE)].
    - apply (in_map fst) in J. exact J.
    - eapply usable_loads; [exact not_exist_is|exact decode_failed_is|exact AF|apply V|exact J|exact SV|exact US].
    - eapply acceptable_loads; [apply V|exact J|exact PI|exact JF|exact AC|exact DP|exact LE].
  Qed.
End Theorems.

(** ** A concrete application *)
Notation b_jdecoder := (json_decoder bytes ex_root (fun s => s) (fun s => (s, false)) ex_parent 5 (fun _ _ _ => all_categories)
  (fun _ _ _ x => x) (fun _ _ _ x => rev x) bool (fun _ => false) false false).
Definition b_loader (files : list (bytes * (bytes * option bool))) : fs_loader bytes number bool :=
  {| l_fsys := a_fs files; l_resolver := a_resolver {| r_search := true; r_category := [] |};
     l_decoders := [(bs ".po", a_gdecoder false false); (bs ".json", b_jdecoder)] |}.
Definition b_os (files : list (bytes * (bytes * option bool))) : list (opt bytes number bool unit) :=
  [OSource _ _ _ _ (bs "en"); OFallback _ _ _ _ (LTag _ (bs "en")); OCallback _ _ _ _ (Some tt);
   OFsLoader _ _ _ _ (bs "app") (inl (a_load (b_loader files)));
   OLanguages _ _ _ _ [LTag _ (bs "pl")]].
Notation b_picked := (picked bytes ex_root (fun s => s) (fun s => (s, false)) ex_parent 5 bool unit (fun _ => false) false false
  (fun _ _ _ => all_categories) (fun _ _ _ x => x) (fun _ _ _ x => rev x)
  a_parts (fun s => s) (fun e => e) true (fun _ _ => true) (fun _ e => e) orb).
Definition pl_text : bytes := bs "{""name"": ""nazwa"", ""file_menu"": {""context"": ""menu"", ""one"": ""plik"", ""few"": ""pliki"", ""other"": ""pliku""}}".
Definition pl_members : list (bytes * json) :=
  [(bs "name", JStr (bs "nazwa"));
   (bs "file_menu", JObj [(bs "context", JStr (bs "menu")); (bs "one", JStr (bs "plik")); (bs "few", JStr (bs "pliki")); (bs "other", JStr (bs "pliku"))])].
Definition pl_ms : list (bytes * option jmsg) :=
  [(bs "name", Some (JMsg [] [] (Some [(Other, bs "nazwa")])));
   (bs "file_menu", Some (JMsg [] (bs "menu") (Some [(One, bs "plik"); (Few, bs "pliki"); (Other, bs "pliku")])))].
Definition pl_files (s : bytes) : list (bytes * (bytes * option bool)) := [(bs "pl/app.json", (s, None))].
Lemma b_contract : forall files, contract bytes number bool (loaders_of bytes number bool unit (b_os files)).
Proof. intros files. apply (C41_contract bytes number bool (fun e => e) (fun _ _ => true) (fun _ e => e) orb). Qed.
Lemma b_picked_pl s : b_picked (b_os (pl_files s)) (bs "app") (bs "pl") s.
Proof.
  exists (b_loader (pl_files s)), {| r_search := true; r_category := [] |}, (l_decoders _ _ _ (b_loader (pl_files s))).
  split; [now left|]. split; [reflexivity|]. split; [reflexivity|].
  exists [(bs ".po", a_gdecoder false false)], (bs ".json"), [], (bs "pl/app.json"), {| f_data := s; f_err := None; f_close := None |}.
  split; [reflexivity|]. split; [|split; [apply first_of_find; vm_compute; reflexivity|repeat split]].
  intros ed p [<-|[]] I X.
  assert (F : forallb (fun p => negb (fs_stat bool (a_fs (pl_files s)) p))
    (candidates bytes a_parts (fun s => s) {| r_search := true; r_category := [] |} (bs "pl") (bs "app") (bs ".po")) = true)
    by (vm_compute; reflexivity).
  rewrite forallb_forall in F. apply F in I. unfold exists_in in X. cbn [l_fsys b_loader] in X. rewrite X in I. discriminate.
Qed.
Lemma b_file : json_file pl_text pl_members.
Proof.
  split; [apply (proj1 (C65_read _ _)); vm_compute; reflexivity|]. constructor; [exact I|]. constructor; [|constructor].
  cbn [snd plain_names map fst In]. intros k k' A B. decompose [or] A; decompose [or] B; try contradiction; subst; intro Q; first [reflexivity|vm_compute in Q; discriminate].
Qed.

(** The Polish localizer: what is shown. *)
Example C82_example : exists z, a_localizer_of (b_os (pl_files pl_text)) z /\
  l_lang _ _ _ (z_locale _ _ _ _ z) = bs "pl" /\ z_found _ _ _ _ z = true /\
  a_sing z (bs "app") [] (bs "name") [NInt Kint 1] = ([], (bs "nazwa!", None)) /\
  map (fun n => snd (a_plur z (bs "app") (bs "menu") (bs "file") (bs "files") (NInt Kint n) [])) [1; 2; 21] =
    [(bs "plik", None); (bs "pliki", None); (bs "files", Some (EOther _ _ false))] /\
  a_sing z (bs "app") [] (bs "x") [] = ([EvMissing _ _ (EOther _ _ false)], (bs "x", Some (EOther _ _ false))).
Proof. apply (a_make _ (bs "app") [LTag _ (bs "pl")]); [apply b_contract|]. vm_compute. repeat split. Qed.

Lemma b_messages : file_messages pl_members pl_ms.
Proof.
  assert (U : exists ms, unmarshal_members (fun x => x) pl_members = Ok ms /\ to_map ms = pl_ms) by (eexists; split; vm_compute; reflexivity).
  destruct U as (ms & U & <-). apply (to_map_file (fun x => x)); [intros; apply Permutation_refl|apply b_file|exact U].
Qed.
(** The hypotheses of the theorems are met. *)
Example C82_hypotheses_met : b_picked (b_os (pl_files pl_text)) (bs "app") (bs "pl") pl_text /\ json_file pl_text pl_members /\
  file_messages pl_members pl_ms /\ says pl_ms [] (bs "name") Other (bs "nazwa") /\ says pl_ms (bs "menu") (bs "file") Few (bs "pliki") /\
  silent pl_ms (bs "pl") (bs "app") [] (bs "x") Other (MissingMessage (bs "pl") (bs "app") [] (bs "x")) /\
  silent pl_ms (bs "pl") (bs "app") (bs "menu") (bs "file") Many (MissingTranslation (bs "pl") (bs "app") (bs "menu") (bs "file_menu") (cat_num Many)) /\
  LangSpec.depth bytes ex_root ex_parent (bs "pl") 2 /\ acceptable pl_members.
Proof.
  split; [apply b_picked_pl|]. split; [exact b_file|]. split; [exact b_messages|].
  split; [split; [discriminate|]; eexists; split; [split; [now left|reflexivity]|reflexivity]|].
  split; [split; [discriminate|]; eexists; split; [split; [right; now left|reflexivity]|reflexivity]|].
  split; [eapply si_message; [now left|reflexivity|]; intros m ([X|[X|[]]] & _); discriminate|].
  split; [eapply (si_text pl_ms (bs "pl") (bs "app") (bs "menu") (bs "file") Many); [split; [right; now left|reflexivity]|]; intros txt X; discriminate|].
  split; [split; [reflexivity|intros [|[|k]] K; [reflexivity|reflexivity|lia]]|].
  split; [discriminate|]. exists pl_ms. split; [exact b_messages|].
  constructor; [|constructor; [|constructor]]; (split; [discriminate|]); eexists; (split; [reflexivity|]); (split; [eexists; reflexivity|]).
  - now left.
  - right. exists (bs "file"). reflexivity.
Qed.
Example C82_created_example : exists log b, a_new (b_os (pl_files pl_text)) = (log, inl b) /\ In (bs "pl") (b_languages _ _ _ _ b).
Proof.
  destruct (C82_created bytes a_dec [] ex_root (fun s => s) (fun s => (s, false)) ex_parent 5 bool unit (fun _ => false) false false
    (fun _ _ _ => all_categories) (fun _ _ _ x => x) (fun _ _ _ x => rev x)
    ltac:(intros ? ? ? []; vm_compute; tauto) (fun _ _ _ x => Permutation_refl x) (fun _ _ _ x => Permutation_rev x)
    (fun s => inl s) (fun s => s) a_plural false false a_print x_matcher a_iter
    (fun A past l => Permutation_refl l) a_parts (fun s => s) (fun e => e) true (fun _ _ => true) (fun _ e => e) orb eq_refl
    (fun _ _ => eq_refl) eq_refl (b_os (pl_files pl_text)) [(false, bs "en"); (false, bs "en"); (true, bs "pl")]) as (log & b & B & L).
  - apply b_contract.
  - split; [repeat constructor; eexists; reflexivity|]. constructor; [intros []|constructor].
  - repeat constructor.
  - discriminate.
  - intros t [<-|[<-|[<-|[]]]]; cbn [snd]; (split; [discriminate|]); intros S d [<-|[]]; [now destruct S|now destruct S|].
    exists pl_text, pl_members, 2%nat. destruct C82_hypotheses_met as (P & F & _ & _ & _ & _ & _ & D & A).
    split; [exact P|]. split; [exact F|]. split; [exact A|]. split; [exact D|lia].
  - exists log, b. split; [exact B|]. apply L. right. right. now left.
Qed.
(** Files that end the creation. *)
Example C82_rejected_example : map (fun s => snd (a_new (b_os (pl_files s)))) [bs "{}"; bs "[]"; bs "{""a"": 1}"; bs "{""a"": {""one"": ""x""}}"; bs "{"] =
  repeat (inr (EOther _ _ false)) 5.
Proof. vm_compute. reflexivity. Qed.

(** A file with null is loaded without a catalog and without an error: the
    bundle is made, and asking it for a message of the domain calls the nil
    catalog, which panics. *)
Theorem C82_null_refuted : exists z, a_localizer_of (b_os (pl_files (bs "null"))) z /\
  b_picked (b_os (pl_files (bs "null"))) (bs "app") (bs "pl") (bs "null") /\
  l_lang _ _ _ (z_locale _ _ _ _ z) = bs "pl" /\ l_source _ _ _ (z_locale _ _ _ _ z) = false /\
  l_cats _ _ _ (z_locale _ _ _ _ z) = [(bs "app", no_catalog bool false)] /\
  json_decode bytes ex_root (fun s => s) (fun s => (s, false)) ex_parent 5 (fun _ _ _ => all_categories)
    (fun _ _ _ x => x) (fun _ _ _ x => rev x) (bs "pl") (bs "app") (bs "null") = Ok None.
Proof.
  assert (H : exists z, a_localizer_of (b_os (pl_files (bs "null"))) z /\ l_lang _ _ _ (z_locale _ _ _ _ z) = bs "pl" /\
    l_source _ _ _ (z_locale _ _ _ _ z) = false /\ l_cats _ _ _ (z_locale _ _ _ _ z) = [(bs "app", no_catalog bool false)]).
  { apply (a_make _ (bs "app") [LTag _ (bs "pl")]); [apply b_contract|]. vm_compute. repeat split. }
  destruct H as (z & A & B & C & D). exists z. split; [exact A|]. split; [apply b_picked_pl|]. repeat (split; [assumption|]). vm_compute. reflexivity.
Qed.

(** The property is false: null is not acceptable, but the bundle is made and
    has a localizer of the language. *)
Theorem C72_null_refuted : exists os z d t s, a_localizer_of os z /\ b_picked os d t s /\
  l_lang _ _ _ (z_locale _ _ _ _ z) = t /\ t <> source_of bytes [] number bool unit os /\ forall l, ~ document lenient (JObj l) s.
Proof.
  destruct C82_null_refuted as (z & A & B & L & _). exists (b_os (pl_files (bs "null"))), z, (bs "app"), (bs "pl"), (bs "null").
  split; [exact A|]. split; [exact B|]. split; [exact L|]. split; [discriminate|].
  intros l D. assert (X : parse_json (bs "null") = Ok JNull) by (vm_compute; reflexivity). apply C65_read in X as [X _].
  pose proof (C65_unique _ _ _ X D). discriminate.
Qed.
(** The hypotheses of the C72 theorems are those of C82_hypotheses_met and
    C82_created_example; a localizer of the language is that of C82_example. *)
Example C72_hypotheses_met : exists z, a_localizer_of (b_os (pl_files pl_text)) z /\
  l_lang _ _ _ (z_locale _ _ _ _ z) = bs "pl" /\ bs "pl" <> source_of bytes [] number bool unit (b_os (pl_files pl_text)) /\
  fallback_of bytes [] number bool unit (lang_tag bytes bool (fun s => inl s) (fun s => s) false) (b_os (pl_files pl_text)) =
    source_of bytes [] number bool unit (b_os (pl_files pl_text)) /\
  b_picked (b_os (pl_files pl_text)) (bs "app") (bs "pl") pl_text /\ json_file pl_text pl_members /\
  snd (a_plural (bs "en") (NInt Kint 21)) = None /\ says pl_ms (bs "menu") (bs "file") Few (bs "pliki").
Proof.
  destruct C82_example as (z & A & L & _). destruct C82_hypotheses_met as (P & F & _ & _ & Y & _). exists z.
  split; [exact A|]. split; [exact L|]. split; [discriminate|]. split; [reflexivity|]. split; [exact P|]. split; [exact F|]. split; [reflexivity|exact Y].
Qed.

Print Assumptions C72_accepted.
Print Assumptions C72_shown_partial.
Print Assumptions C72_missing_partial.
Print Assumptions C72_created.
Print Assumptions C72_null_refuted.
Print Assumptions C82_singular.
Print Assumptions C82_plural.
Print Assumptions C82_missing.
Print Assumptions C82_missing_plural.
Print Assumptions C82_created.
Print Assumptions C82_rejected.
Print Assumptions C82_null_refuted.
Print Assumptions C57_created_mixed.
