(** Property theorems C66 and C82 for files in which names of a message differ
    in letter case only.  Theorems, examples and Print Assumptions only. *)
From Coq Require Import String Ascii List ZArith Bool Lia Permutation.
From Verif Require Import Base BaseProofs LocaleModel LocaleSpec BundleModel BundleSpec TheoremsLocale LoaderModel AppSpec AppProofs TheoremsApp TheoremsCldr
  PoStrModel PoStrSpec CldrModel CldrBuiltin GettextModel GettextProofs JsonModel JsonSpec JsonProofs TheoremsJson
  JTextModel JTextSpec JTextProofs JFileSpec JFileProofs TheoremsJText JAnySpec JAnyProofs AppJsonModel AppJsonSpec AppJsonProofs TheoremsAppJson.
Import ListNotations.
Open Scope Z_scope.

(** Every order of the members of a message gives one of its readings, and
    every reading comes from some order. *)
Theorem C66_readings : forall v,
  (forall perm m, (forall x, Permutation x (perm x)) -> unmarshal_message perm v = Ok m -> may_read v m) /\
  (forall m, may_read v m -> exists perm m', (forall x, Permutation x (perm x)) /\ unmarshal_message perm v = Ok m' /\ same_message m' m) /\
  (plain_names v -> forall m, may_read v m <-> message_of v m).
Proof.
  intro v. split; [|split].
  - intros perm m P U. exact (proj1 (unmarshal_may perm v m P U)).
  - intros m. apply reading_order.
  - intros PN m. split.
    + intros H. destruct H as [s m A B C|l m o o' T CO1 CO2 CX1 CX2 CA]; [now constructor|]. constructor; [exact T| | |].
      * rewrite CO2. destruct o as [s|]; [left; exact CO1|right; split; [reflexivity|exact CO1]].
      * rewrite CX2. destruct o' as [s|]; [left; exact CX1|right; split; [reflexivity|exact CX1]].
      * intros c x. specialize (CA c). destruct (cat_get (tr_of m) c) as [s|]; cbn [one_of] in CA.
        -- split; [intro Q; injection Q as <-; exact CA|]. intro F. f_equal. eapply field_fun; eassumption.
        -- split; [discriminate|]. intro F. destruct (CA x F).
    + intros H. destruct H as [s m A B C|l m T CO CX CA]; [now constructor|].
      assert (X : forall n s, field_or_empty l n s -> exists o, one_of l n o /\ s = or_empty o).
      { intros n s [F|[-> F]]; [exists (Some s)|exists None]; auto. }
      destruct (X _ _ CO) as (o & O1 & O2), (X _ _ CX) as (o' & O1' & O2').
      apply (mr_object _ _ o o' T O1 O2 O1' O2'). intro c. destruct (cat_get (tr_of m) c) as [s|] eqn:G; cbn [one_of].
      * now apply CA.
      * intros s F. apply CA in F. congruence.
Qed.

Section T.
  Variable tag : Type.
  Variables order : list category.
  Variable perm : list (bytes * bytes) -> list (bytes * bytes).
  Variable fperm : list (bytes * option jmsg) -> list (bytes * option jmsg).
  Variables (lang : tag) (dom : bytes) (rs : rule_set).
  Notation decode := (decode_json_text tag order perm fperm lang dom rs).
  Hypothesis perm_ok : forall x, Permutation x (perm x).
  Hypothesis fperm_ok : forall x, Permutation x (fperm x).
  Hypothesis order_ok : every_category order.

  (** Every file with an object: it is refused because it is empty, has a
      member that is no message, or is read as messages of which one is not
      well formed; or every lookup answers what the messages say that it is
      read as. *)
  Theorem C66_every_file : forall s l, document lenient (JObj l) s ->
    (decode s = Err /\ (l = [] \/ unreadable l \/ exists ms, may_messages l ms /\ ~ Forall valid ms)) \/
    (exists c ms, decode s = Ok (Some c) /\ l <> [] /\ may_messages l ms /\ Forall valid ms /\
      forall ctx id,
      (forall r, j_lookup tag c ctx id = r <-> j_answer ms (rs_categories rs) lang dom ctx id Other r) /\
      (forall n cat, rs_evaluate rs (to_carg n) = Ok cat ->
         exists r, j_lookup_plural tag c ctx id n = Ok r /\ j_answer ms (rs_categories rs) lang dom ctx id cat r) /\
      (forall n, rs_evaluate rs (to_carg n) = Err -> j_lookup_plural tag c ctx id n = Ok (id, Some PluralError))).
  Proof.
    intros s l D. destruct (Z.of_nat (nesting (JObj l)) <=? max_nesting) eqn:SD.
    2:{ left. assert (NS : ~ shallow (JObj l)) by (intro SH; apply shallow_iff in SH; congruence).
        split; [|right; left; now apply deep_unreadable].
        assert (PE : parse_json s = Err) by (destruct (C65_total s) as [(w & E)|[E _]]; [apply parse_json_iff in E as [D' SH]; elim NS; now rewrite (document_unique _ _ _ D D')|exact E]).
        unfold decode_json_text. rewrite PE. reflexivity. }
    apply shallow_iff in SD. assert (PD : parse_json s = Ok (JObj l)) by (apply parse_json_iff; auto).
    unfold decode_json_text. rewrite PD. cbn [rbind decode_json]. unfold unmarshal_catalog.
    pose proof (unmarshal_members_may perm l perm_ok) as UM. destruct (unmarshal_members perm l) as [ms| | |] eqn:U; try contradiction; cbn [rbind].
    2:{ left. split; [reflexivity|auto]. }
    pose proof (to_map_may perm l ms perm_ok U) as FM. destruct (may_nonempty l (to_map ms) FM) as [N1 N2].
    destruct (to_map ms) as [|x y] eqn:TM.
    { left. split; [reflexivity|]. left. now apply N1. }
    rewrite <- TM in *.
    assert (NE : l <> []) by (intros ->; rewrite N2 in TM by reflexivity; discriminate).
    assert (PV : Forall valid (fperm (to_map ms)) <-> Forall valid (to_map ms)).
    { split; apply Permutation_Forall; [symmetry|]; apply fperm_ok. }
    assert (WP : wf_messages (fperm (to_map ms))).
    { destruct FM as ([A B] & _). split; [eapply Permutation_NoDup; [apply Permutation_map; apply fperm_ok|exact A]|eapply Permutation_Forall; [apply fperm_ok|exact B]]. }
    destruct (C33_accepted tag order lang dom rs (fperm (to_map ms))) as [ACC REJ].
    destruct (new_json_with tag order lang dom rs (fperm (to_map ms))) as [c| | |] eqn:NJ.
    2:{ left. unfold new_json_with in NJ. rewrite NJ. split; [reflexivity|]. right. right. exists (to_map ms). split; [exact FM|].
        intro V. apply (proj1 REJ eq_refl). now apply PV. }
    2,3: exfalso; unfold new_json_with in NJ; destruct (set_messages_valid tag order (fperm (to_map ms)) (new_json tag lang dom rs)) as [(c & Q & _)|[Q _]]; congruence.
    right. exists c, (to_map ms). unfold new_json_with in NJ. rewrite NJ. split; [reflexivity|]. split; [exact NE|]. split; [exact FM|].
    split; [apply PV, ACC; eauto|]. intros ctx id.
    destruct (C33_lookup tag order lang dom rs (fperm (to_map ms)) c WP order_ok NJ ctx id) as (A & B & C).
    assert (Y : forall cat r, j_answer (fperm (to_map ms)) (rs_categories rs) lang dom ctx id cat r <-> j_answer (to_map ms) (rs_categories rs) lang dom ctx id cat r).
    { intros cat r. split; apply j_answer_perm; [symmetry|]; apply fperm_ok. }
    split; [intro r; rewrite A; apply Y|]. split; [|exact C]. intros n cat E. destruct (B n cat E) as (r & R1 & R2). exists r. split; [exact R1|now apply Y].
  Qed.
End T.

Section App.
  (** external parts, see AppJsonModel, LocaleModel, BundleModel, LoaderModel *)
  Variable tag : Type.
  Variable tag_eq_dec : forall a b : tag, {a = b} + {a <> b}.
  Variable und : tag.
  Variable is_root : tag -> bool.
  Variable tag_string : tag -> bytes.
  Variable base : tag -> bytes * bool.
  Variable parent : tag -> tag.
  Variable fuel : nat.
  Variable E C : Type.
  Variable of_lookup : lookup_error tag -> E.
  Variable decode_failed crash : E.
  Variable order : tag -> bytes -> bytes -> list category.
  Variable perm : tag -> bytes -> bytes -> list (bytes * bytes) -> list (bytes * bytes).
  Variable fperm : tag -> bytes -> bytes -> list (bytes * option jmsg) -> list (bytes * option jmsg).
  Hypothesis order_ok : forall t d s, every_category (order t d s).
  Hypothesis perm_ok : forall t d s x, Permutation x (perm t d s x).
  Hypothesis fperm_ok : forall t d s x, Permutation x (fperm t d s x).
  Variable parse : bytes -> tag + E.
  Variable parse_accept : bytes -> option (list tag).
  Variable trim_space : bytes -> bytes.
  Variable plural_for : tag -> plural_func number E.
  Variable no_string opt_error : E.
  Variable default_printer : printer tag number.
  Variable default_matcher : matcher_builder tag.
  Variable iter : forall A, list (event tag E) -> list A -> list A.
  Hypothesis iter_perm : forall A past (l : list A), Permutation (iter A past l) l.
  Variable parts : tag -> tag_parts.
  Variable clean : bytes -> bytes.
  Variable is_not_exist : E -> bool.
  Variable not_exist : E.
  Variable not_found : tag -> bytes -> E.
  Variable decode_error : bytes -> E -> E.
  Variable join_errors : E -> E -> E.
  (** errors.Is(_, os.ErrNotExist) *)
  Hypothesis not_exist_is : is_not_exist not_exist = true.
  Hypothesis decode_error_is : forall p e, is_not_exist (decode_error p e) = is_not_exist e.
  Hypothesis decode_failed_is : is_not_exist decode_failed = false.

  Notation opt := (opt tag number E C).
  Notation localizer := (localizer tag number E C).
  Notation name := (lang_tag tag E parse trim_space no_string).
  Notation new_bundle := (new_bundle tag tag_eq_dec und number E C parse trim_space plural_for iter
                            no_string opt_error default_printer default_matcher).
  Notation localizer_of := (localizer_of tag tag_eq_dec und number E C parse parse_accept trim_space plural_for
                              no_string opt_error default_printer default_matcher iter).
  Notation lookup_singular := (LocaleModel.lookup_singular tag tag_eq_dec number E C).
  Notation lookup_plural := (LocaleModel.lookup_plural tag number E C).
  Notation loaders_of := (loaders_of tag number E C).
  Notation requests_of := (requests_of tag number E C name).
  Notation source_of := (source_of tag und number E C).
  Notation fallback_of := (fallback_of tag und number E C name).
  Notation printer_of os := (setting tag number E C (sets_printer tag number E C) default_printer os).
  Notation load := (load tag number E is_not_exist not_found decode_error join_errors).
  Notation chosen := (chosen tag E parts clean is_not_exist not_exist).
  Notation z_locale := (z_locale tag number E C).
  Notation z_bundle := (z_bundle tag number E C).
  Notation z_found := (z_found tag number E C).
  Notation l_lang := (l_lang tag number E).
  Notation found_error z := (if z_found z then None else Some (ELocale tag E)).

  Notation picked := (picked tag is_root tag_string base parent fuel E C of_lookup decode_failed crash order perm fperm
    parts clean is_not_exist not_exist not_found decode_error join_errors).
  Notation jdecode := (json_decode tag is_root tag_string base parent fuel order perm fperm).
  Notation jcatalog := (jcatalog_of tag E of_lookup crash).

  (** C82 for every file with an object: what is shown are the texts of one
      reading of the file. *)
  Theorem C82_every_file : forall os z d t s l dp,
    localizer_of os z -> picked os d t s -> document lenient (JObj l) s -> l_lang (z_locale z) = t -> t <> source_of os ->
    LangSpec.depth tag is_root parent t dp -> (dp <= fuel)%nat ->
    exists ms rs, may_messages l ms /\ Forall valid ms /\
      (LangSpec.nearest tag tag_string base parent rule_set cldr_built_in t dp rs \/
       cldr_built_in (bs "en") = Some rs /\ LangSpec.nothing tag tag_string base parent rule_set cldr_built_in t dp) /\
      (forall ctx id txt vars, says ms ctx id Other txt ->
         lookup_singular z d ctx id vars = ([], (printer_of os t txt vars, found_error z))) /\
      (forall ctx sg pl n cat txt vars, rs_evaluate rs (to_carg n) = Ok cat -> says ms ctx sg cat txt ->
         lookup_plural z d ctx sg pl n vars = ([], (printer_of os t txt vars, found_error z))).
  Proof.
    intros os z d t s l dp LO PI DOC L S DP LE.
    assert (X : exists ld p, In (d, ld) (loaders_of os) /\
      ld t d = match jdecode t d s with
               | Ok (Some c) => inl (jcatalog c) | Ok None => inl (no_catalog E crash)
               | _ => inr (EOther _ _ (decode_error p decode_failed)) end).
    { eapply picked_load; [exact not_exist_is|exact decode_error_is|exact decode_failed_is|exact PI]. }
    destruct X as (ld & p & LI & LQ).
    assert (Y : (exists e, ld t d = inr (ENotFound _ _ e)) \/
      exists c, ld t d = inl c /\ In (d, c) (l_cats tag number E (z_locale z)) /\
        l_source tag number E (z_locale z) = false /\ l_print tag number E (z_locale z) = printer_of os t).
    { eapply loaded; [exact iter_perm|exact LO|exact LI|exact L|exact S]. }
    destruct (json_decode_deep tag is_root tag_string base parent fuel order perm fperm t d s dp DP LE) as (rs & JQ & RS).
    rewrite JQ in LQ. clear JQ.
    destruct (C66_every_file tag (order t d s) (perm t d s) (fperm t d s) t d rs (perm_ok t d s) (fperm_ok t d s) (order_ok t d s) s l DOC)
      as [(Q & _)|(c & ms & Q & _ & MM & V & R)]; rewrite Q in LQ.
    { destruct Y as [(e & Y)|(c & Y & _)]; rewrite LQ in Y; discriminate. }
    destruct Y as [(e & Y)|(c' & Y & IC & SF & PR)]; [rewrite LQ in Y; discriminate|]. rewrite LQ in Y. injection Y as <-.
    assert (BI : exists lg, cldr_built_in lg = Some rs) by (destruct RS as [N|[N _]]; [eapply nearest_built_in; exact N|eauto]).
    destruct BI as (lg & B). destruct (C10_category_of_language _ _ B) as (OT & _ & _ & _ & CI).
    assert (WF : wf tag number E C z).
    { eapply localizer_good; [exact iter_perm|exact LO]. }
    exists ms, rs. split; [exact MM|]. split; [exact V|]. split; [exact RS|]. split.
    - intros ctx id txt vars SY.
      apply (run_first tag tag_eq_dec number E C z (Sing number d ctx id vars)); [exact WF|exact SF|].
      rewrite <- PR. eapply a_catalog; [exact SF|exact IC|]. cbn [jcatalog_of cat_lookup].
      rewrite (proj2 (proj1 (R ctx id) (txt, None))); [reflexivity|]. now apply says_answer.
    - intros ctx sg pl n cat txt vars EV SY.
      apply (run_first tag tag_eq_dec number E C z (Plur number d ctx sg pl n vars)); [exact WF|exact SF|].
      rewrite <- PR. eapply a_catalog_plural; [exact SF|exact IC|]. cbn [jcatalog_of cat_lookup_plural].
      destruct (proj1 (proj2 (R ctx sg)) n cat EV) as (r & R1 & R2). rewrite R1.
      assert (r = (txt, None)) as ->; [|reflexivity].
      eapply (j_answer_fun tag ms); [apply MM|exact R2|]. apply says_answer; [|exact SY].
      destruct (CI _ _ EV) as (i & _ & _ & N). eapply nth_error_In. exact N.
  Qed.
End App.

(** ** Example: a message that can be read in two ways *)
Definition two_names : json := JObj [(bs "other", JStr (bs "a")); (bs "Other", JStr (bs "b")); (bs "ONE", JStr (bs "c"))].
Example C66_readings_example :
  (exists m, may_read two_names m /\ cat_get (tr_of m) Other = Some (bs "a") /\ cat_get (tr_of m) One = Some (bs "c")) /\
  (exists m, may_read two_names m /\ cat_get (tr_of m) Other = Some (bs "b") /\ cat_get (tr_of m) One = Some (bs "c")) /\
  ~ exists m, may_read two_names m /\ cat_get (tr_of m) Other = Some (bs "c").
Proof.
  destruct (C66_readings two_names) as (A & _). split; [|split].
  - eexists. split; [eapply (A (@rev _)); [apply Permutation_rev|vm_compute; reflexivity]|]. split; reflexivity.
  - eexists. split; [eapply (A (fun x => x)); [intros; apply Permutation_refl|vm_compute; reflexivity]|]. split; reflexivity.
  - intros (m & H & Q). inversion H as [|l m' o o' T _ _ _ _ CA]; subst. specialize (CA Other). rewrite Q in CA.
    destruct CA as (k & v & LM & E & T'). apply last_member_in in LM as [X|[X|[X|[]]]]; injection X as <- <-;
      destruct T' as [T'|[T' _]]; try discriminate; injection T' as T'; discriminate.
Qed.
Example C66_every_file_example : document lenient (JObj [(bs "x", two_names)]) (bs "{""x"": {""other"": ""a"", ""Other"": ""b"", ""ONE"": ""c""}}").
Proof. apply (proj1 (C65_read _ _)). vm_compute. reflexivity. Qed.
Example C82_every_file_example : exists z, a_localizer_of (b_os (pl_files (bs "{""x"": {""other"": ""a"", ""Other"": ""b"", ""ONE"": ""c""}}"))) z /\
  l_lang _ _ _ (z_locale _ _ _ _ z) = bs "pl" /\ a_sing z (bs "app") [] (bs "x") [] = ([], (bs "b", None)) /\
  snd (a_plur z (bs "app") [] (bs "x") [] (NInt NumModel.Kint 1) []) = (bs "c", None).
Proof. apply (a_make _ (bs "app") [LTag _ (bs "pl")]); [apply b_contract|]. vm_compute. repeat split. Qed.

Print Assumptions C66_readings.
Print Assumptions C66_every_file.
Print Assumptions C82_every_file.
