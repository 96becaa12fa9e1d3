(** Property theorems C68-C71: the translations and formats that come with
    humanize.  Theorems, examples and Print Assumptions only. *)
From Coq Require Import String Ascii List ZArith Bool Lia ZifyBool Permutation.
From Verif Require Import Base BaseProofs Utf8Model NumModel LocaleModel BundleModel LocaleSpec LocaleProofs BundleSpec BundleProofs
  BundleRunProofs BundleTopProofs TheoremsLocale PoFileModel PoFileSpec GettextModel GettextSpec GettextProofs AppModel AppProofs
  CalModel DfmtSpec DfmtModel TheoremsDfmt HumModel IwModel HumLocModel HumLocSpec HumLocProofs
  HumData1 HumData2 HumData3 HumData4 HumData5 HumData6 HumData7 HumData8 HumData9 HumData10 HumCheck TheoremsApp.
Import ListNotations.
Open Scope Z_scope.

(** A shipped package has one file; [f] is what the PO parser makes of it. *)
Definition ships (dir : bytes) (d : locale_data) (po : bytes) (f : pofile) : Prop :=
  In (dir, d) shipped /\ ld_fs d = [(bs "django.po", po)] /\ parse_po_fuel (S (length po)) true po = Ok f.

Lemma all_examined : map examined shipped = map expected shipped.
Proof.
  unfold shipped. rewrite !map_app.
  rewrite checked_1, checked_2, checked_3, checked_4, checked_5, checked_6, checked_7, checked_8, checked_9, checked_10.
  reflexivity.
Qed.
Lemma shipped_examined dir d : In (dir, d) shipped ->
  exists po, ld_fs d = [(bs "django.po", po)] /\ examine po = Some (gaps_of dir, wrong_of dir, numberless_of dir).
Proof.
  intro I. pose proof (map_eq_in _ _ _ _ all_examined I) as H. unfold examined, expected in H. cbn [fst snd] in H.
  destruct (ld_fs d) as [|[name po] [|x l]]; try discriminate. destruct (beq name (bs "django.po")) eqn:B; [|discriminate].
  apply beq_eq in B. subst name. eauto.
Qed.

Section Catalogs.
  (** external parts, see GettextModel *)
  Variable tag : Type.
  Variable is_root : tag -> bool.
  Variable tag_string : tag -> bytes.
  Variable base : tag -> bytes * bool.
  Variable parent : tag -> tag.
  Variable fold : rune -> rune.
  Variable fuel : nat.
  Notation decode_po := (decode_po tag is_root tag_string base parent fold fuel).

  (** ** C68 *)
  (** Every shipped file is read, whatever the language it is registered for,
      and its messages are found. *)
  Theorem C68_files_load : forall dir d, In (dir, d) shipped ->
    exists po f, ships dir d po f /\ forall lang dom, exists c, decode_po false lang dom po = Ok c /\
      forall ctx id r, lookup tag c ctx id = r <-> answer (f_messages f) lang [] ctx id 0 r.
  Proof.
    intros dir d I. destruct (shipped_examined dir d I) as (po & Q & X).
    destruct (examine_ok tag is_root tag_string base parent fold fuel po _ _ _ X) as (f & P & _ & _ & _ & D).
    exists po, f. split; [repeat split; assumption|]. intros lang dom. destruct (D lang dom) as (c & C & L & _). eauto.
  Qed.

  (** Whatever number a translated plural message is asked with, there is a
      translation: the rule of the file never selects a form that is missing.
      Not so for seven messages of the Hebrew file. *)
  Theorem C68_plural_forms_partial : forall dir d po f lang dom c ctx id n t,
    ships dir d po f -> decode_po false lang dom po = Ok c ->
    n <> NNil -> counted (f_messages f) ctx id -> ~ (dir = bs "he" /\ In (ctx, id) hebrew_gaps) ->
    translation (f_messages f) ctx id 0 t ->
    exists i txt, translation (f_messages f) ctx id i txt /\ lookup_plural tag c ctx id n = Ok (txt, None).
  Proof.
    intros dir d po f lang dom c ctx id n t (I & Q & P) C NN CT NH TR.
    destruct (shipped_examined dir d I) as (po' & Q' & X). rewrite Q in Q'. injection Q' as <-.
    destruct (examine_ok tag is_root tag_string base parent fold fuel po _ _ _ X) as (f' & P' & _ & _ & _ & D).
    rewrite P in P'. injection P' as <-. destruct (D lang dom) as (c' & C' & _ & L). rewrite C in C'. injection C' as <-.
    apply (L ctx id n t NN CT); [|exact TR]. unfold gaps_of. destruct (beq dir (bs "he")) eqn:B; [|intros []].
    apply beq_eq in B. intro G. apply NH. auto.
  Qed.

  (** In Hebrew the seven messages lack the form for all numbers but 1, 2 and
      the larger multiples of ten. *)
  Theorem C68_plural_forms_refuted : exists d po f, ships (bs "he") d po f /\
    forall ctx id, In (ctx, id) hebrew_gaps ->
      counted (f_messages f) ctx id /\ (exists t, translation (f_messages f) ctx id 0 t) /\
      forall lang dom, exists c, decode_po false lang dom po = Ok c /\
        forall k n, Z.abs n <= 2 ^ 53 -> Z.abs n <> 1 -> Z.abs n <> 2 -> (n mod 10 <> 0 \/ Z.abs n <= 10) ->
          lookup_plural tag c ctx id (NInt k n) = Ok (id, Some (MissingTranslation lang [] ctx id 3)).
  Proof.
    destruct (hebrew_ok tag is_root tag_string base parent fold fuel po_he hebrew_gaps hebrew_probe) as (f & P & H).
    exists loc_he, po_he, f. split; [|exact H].
    split; [|split; [reflexivity|exact P]]. unfold shipped. do 3 (apply in_or_app; right). apply in_or_app. left.
    do 5 right. left. reflexivity.
  Qed.
End Catalogs.

Section Shown.
  (** external parts, see GettextModel, LocaleModel, BundleModel, HumLocModel *)
  Variable tag : Type.
  Variable tag_eq_dec : forall a b : tag, {a = b} + {a <> b}.
  Variable und : tag.
  Variable is_root : tag -> bool.
  Variable tag_string : tag -> bytes.
  Variable base : tag -> bytes * bool.
  Variable parent : tag -> tag.
  Variable fold : rune -> rune.
  Variable fuel : nat.
  Variable E C : Type.
  Variable of_lookup : lookup_error tag -> E.
  Variable decode_failed : E.
  Variable not_found : tag -> bytes -> E.
  Variable must_parse : bytes -> tag.
  Variable parse : bytes -> tag + E.
  Variable parse_accept : bytes -> option (list tag).
  Variable trim_space : bytes -> bytes.
  Variable plural_for : tag -> plural_func number E.
  Variable no_string opt_error : E.
  Variable default_printer : printer tag number.
  Variable default_matcher : matcher_builder tag.
  Variable iter : forall A, list (event tag E) -> list A -> list A.
  Hypothesis iter_perm : forall A past (l : list A), Permutation (iter A past l) l.

  Notation opt := (opt tag number E C).
  Notation name := (lang_tag tag E parse trim_space no_string).
  Notation new_bundle := (new_bundle tag tag_eq_dec und number E C parse trim_space plural_for iter
                            no_string opt_error default_printer default_matcher).
  Notation localizer_of := (localizer_of tag tag_eq_dec und number E C parse parse_accept trim_space plural_for
                              no_string opt_error default_printer default_matcher iter).
  Notation lookup_singular := (LocaleModel.lookup_singular tag tag_eq_dec number E C).
  Notation lookup_plural := (LocaleModel.lookup_plural tag number E C).
  Notation loaders_of := (loaders_of tag number E C).
  Notation requests_of := (requests_of tag number E C name).
  Notation source_of := (source_of tag und number E C).
  Notation printer_of os := (setting tag number E C (sets_printer tag number E C) default_printer os).
  Notation hum_load := (hum_load tag tag_eq_dec is_root tag_string base parent fold fuel E of_lookup decode_failed not_found must_parse).
  Notation hum_options := (hum_options tag tag_eq_dec is_root tag_string base parent fold fuel E C of_lookup decode_failed not_found must_parse).
  Notation find_locale := (find_locale tag tag_eq_dec must_parse).
  Notation decode_po := (decode_po tag is_root tag_string base parent fold fuel).
  Notation z_locale := (z_locale tag number E C).
  Notation z_bundle := (z_bundle tag number E C).
  Notation z_found := (z_found tag number E C).
  Notation l_lang := (l_lang tag number E).
  Notation found_error z := (if z_found z then None else Some (ELocale tag E)).
  Notation english := (must_parse (bs "en")).

  (** Bundle options of the caller that only set printer, matcher, callback
      and the like. *)
  Definition harmless (own : list opt) : Prop :=
    Forall (valid_opt tag number E C name) own /\ loaders_of own = [] /\ requests_of own = [].
  (** the locales of New: shipped ones, and [langs] are their languages *)
  Definition chosen_locales (ls : list locale_data) (langs : list tag) : Prop :=
    (forall d, In d ls -> exists dir, In (dir, d) shipped) /\
    (forall t, In t langs <-> exists d, In d ls /\ must_parse (ld_lang d) = t).

  Lemma find_locale_in ls t d : find_locale ls t = Some d -> In d ls /\ must_parse (ld_lang d) = t.
  Proof.
    induction ls as [|x ls IH]; [discriminate|]. cbn [HumLocModel.find_locale].
    destruct (find_locale ls t) as [d'|].
    - intro H. injection H as <-. destruct (IH eq_refl). split; [now right|assumption].
    - destruct (tag_eq_dec (must_parse (ld_lang x)) t); [|discriminate]. intro H. injection H as <-. split; [now left|assumption].
  Qed.
  Lemma find_locale_some ls t d : In d ls -> must_parse (ld_lang d) = t -> exists d', find_locale ls t = Some d'.
  Proof.
    induction ls as [|x ls IH]; [intros []|]. cbn [HumLocModel.find_locale]. intros [->|I] Q.
    - destruct (find_locale ls t); [eauto|]. destruct (tag_eq_dec (must_parse (ld_lang d)) t); [eauto|contradiction].
    - destruct (IH I Q) as (d' & ->). eauto.
  Qed.
  Lemma hum_load_ok ls langs t d : chosen_locales ls langs -> find_locale ls t = Some d ->
    exists dir po f c, ships dir d po f /\ decode_po false t (bs "django") po = Ok c /\
      hum_load ls t (bs "django") = inl (catalog_of tag E of_lookup decode_failed c).
  Proof.
    intros [S _] F. destruct (find_locale_in _ _ _ F) as [I _]. destruct (S d I) as (dir & J).
    destruct (C68_files_load tag is_root tag_string base parent fold fuel dir d J) as (po & f & SH & D).
    destruct (D t (bs "django")) as (c & C0 & _). exists dir, po, f, c. split; [exact SH|]. split; [exact C0|].
    destruct SH as (_ & Q & _). unfold HumLocModel.hum_load. rewrite F, Q.
    change (bs "django" ++ bs ".po") with (bs "django.po"). cbn [read_embedded]. rewrite beq_refl, C0. reflexivity.
  Qed.

  Lemma hum_loaders own ls langs : harmless own -> loaders_of (hum_options own ls langs) = [(bs "django", hum_load ls)].
  Proof.
    intros (_ & L & _). unfold HumLocModel.hum_options, BundleSpec.loaders_of in *. rewrite flat_map_app, L. reflexivity.
  Qed.
  Lemma hum_requests own ls langs : harmless own ->
    requests_of (hum_options own ls langs) = (false, LTag _ english) :: map (pair true) (map (LTag tag) langs).
  Proof.
    intros (_ & _ & R). unfold HumLocModel.hum_options, BundleSpec.requests_of in *. rewrite flat_map_app, R.
    cbn. rewrite app_nil_r. reflexivity.
  Qed.
  Lemma last_set_app {A} (g : opt -> option A) a b :
    last_set tag number E C g (a ++ b) = match last_set tag number E C g b with Some x => Some x | None => last_set tag number E C g a end.
  Proof.
    induction a as [|o a IH]; cbn [app last_set].
    - destruct (last_set tag number E C g b); reflexivity.
    - rewrite IH. destruct (last_set tag number E C g b); reflexivity.
  Qed.
  Lemma hum_source own ls langs : source_of (hum_options own ls langs) = english.
  Proof. unfold HumLocModel.hum_options, BundleSpec.source_of, setting. rewrite last_set_app. reflexivity. Qed.
  Lemma hum_fallback own : harmless own ->
    match last_set tag number E C (sets_fallback tag number E C name) own with Some a => a | None => und end = und.
  Proof.
    intros (_ & _ & R). assert (X : last_set tag number E C (sets_fallback tag number E C name) own = None); [|rewrite X; reflexivity].
    unfold BundleSpec.requests_of in R. induction own as [|o own IH]; [reflexivity|]. cbn [flat_map] in R.
    apply app_eq_nil in R as [R1 R2]. cbn [last_set]. rewrite (IH R2). destruct o; cbn in *; try reflexivity.
    destruct (name a); [discriminate|reflexivity].
  Qed.
  Lemma hum_contract own ls langs : harmless own -> contract tag number E (loaders_of (hum_options own ls langs)).
  Proof.
    intros H d ld t t' I. rewrite (hum_loaders _ _ _ H) in I. destruct I as [I|[]]. injection I as <- <-.
    unfold HumLocModel.hum_load. destruct (find_locale ls t) as [x|]; [|discriminate].
    destruct (read_embedded _ _); [|discriminate]. destruct (GettextModel.decode_po _ _ _ _ _ _ _ _ _ _ _); discriminate.
  Qed.

  (** Any choice of shipped locales: New succeeds and the collection has all
      their languages. *)
  Theorem C68_new : forall own ls langs, harmless own -> chosen_locales ls langs ->
    english <> und -> (forall d, In d ls -> must_parse (ld_lang d) <> und) ->
    exists log b, new_bundle (hum_options own ls langs) = (log, inl b) /\
      forall d, In d ls -> In (must_parse (ld_lang d)) (b_languages tag number E C b).
  Proof.
    intros own ls langs H CH EU U. set (os := hum_options own ls langs).
    assert (K : contract tag number E (loaders_of os)) by (apply hum_contract; exact H).
    assert (LT : forall t, In t langs -> t <> und /\ exists c, hum_load ls t (bs "django") = inl c).
    { intros t I. apply (proj2 CH) in I as (d & I & Q). split; [subst t; apply U; exact I|].
      destruct (find_locale_some ls t d I Q) as (d' & F). destruct (hum_load_ok ls langs t d' CH F) as (_ & _ & _ & c & _ & _ & L). eauto. }
    set (rs := (false, english) :: map (pair true) langs).
    assert (N : Forall2 (named tag E name) (requests_of os) rs).
    { unfold os, rs. rewrite (hum_requests _ _ _ H). constructor; [split; reflexivity|].
      clear. induction langs; constructor; [split; reflexivity|assumption]. }
    assert (V : valid tag number E C name os).
    { split; [|unfold os; rewrite (hum_loaders _ _ _ H); repeat constructor; intros []].
      unfold os, HumLocModel.hum_options. apply Forall_app. split; [apply H|]. repeat constructor. discriminate. }
    assert (AM : all_met tag und number E (source_of os) (loaders_of os) rs).
    { unfold os. rewrite hum_source, (hum_loaders _ _ _ H). intros before [o t] after Q.
      assert (I : (o, t) = (false, english) \/ o = true /\ In t langs).
      { assert (I : In (o, t) rs) by (rewrite Q; apply in_or_app; right; now left).
        destruct I as [I|I]; [left; congruence|right]. apply in_map_iff in I as (t' & X & I). injection X as <- <-. auto. }
      destruct I as [I|[-> I]].
      - injection I as -> ->. split; [intro X; contradiction|]. intros _ S. exfalso. apply S. reflexivity.
      - split; [auto|]. intros _ _ p [<-|[]]. left. exact (proj2 (LT t I)). }
    destruct (new_bundle_cases tag tag_eq_dec und number E C parse trim_space plural_for iter
                no_string opt_error default_printer default_matcher iter_perm os K)
      as [(log & b & rs' & B & _ & M)|(log & e & _ & X)]; [|exfalso; apply X; eauto].
    exists log, b. split; [exact B|]. intros d I.
    assert (rs' = rs) as ->.
    { pose proof (m_named _ _ _ _ _ _ _ _ _ _ _ _ _ _ _ _ M) as N'. clear - N N'.
      revert rs' N'. induction N as [|a r l rs [P Q] N IH]; intros rs' N'; inversion N' as [|a' r' l' rs2 [P' Q'] N2]; subst; [reflexivity|].
      f_equal; [|auto]. destruct r as [o t], r' as [o' t']. cbn [fst snd] in *. congruence. }
    pose proof (m_langs _ _ _ _ _ _ _ _ _ _ _ _ _ _ _ _ M) as ML. apply (languages_in tag und number E plural_for _ _ _ _ _ ML).
    assert (J : In (must_parse (ld_lang d)) langs) by (apply (proj2 CH); eauto).
    split; [right; rewrite map_map; cbn [snd]; rewrite map_id; exact J|]. split; [apply U; exact I|].
    right. unfold os. rewrite (hum_loaders _ _ _ H). exists (bs "django", hum_load ls). split; [now left|]. exact (proj2 (LT _ J)).
  Qed.

  (** the catalog of the localizer's language *)
  Lemma hum_locale own ls langs z d t : harmless own -> chosen_locales ls langs ->
    localizer_of (hum_options own ls langs) z -> l_lang (z_locale z) = t -> t <> english -> find_locale ls t = Some d ->
    exists dir po f c, ships dir d po f /\ decode_po false t (bs "django") po = Ok c /\
      In (bs "django", catalog_of tag E of_lookup decode_failed c) (l_cats tag number E (z_locale z)) /\
      l_source tag number E (z_locale z) = false /\ l_print tag number E (z_locale z) = printer_of (hum_options own ls langs) t.
  Proof.
    intros H CH (K & log & dom & lg & B & Z) L S F.
    destruct (hum_load_ok ls langs t d CH F) as (dir & po & f & c & SH & D & LQ). exists dir, po, f, c.
    split; [exact SH|]. split; [exact D|].
    destruct (new_bundle_made tag tag_eq_dec und number E C parse trim_space plural_for iter
                no_string opt_error default_printer default_matcher iter_perm _ _ _ K B) as (_ & rs & M).
    destruct M as [MN MM _ _ _ _ _ ML MK _ MS _ MF _ _ _ _].
    rewrite hum_source in *.
    assert (IL : In (t, z_locale z) (b_locales tag number E C (z_bundle z))).
    { assert (FB : z_locale z = b_fallback tag number E C (z_bundle z) -> In (t, z_locale z) (b_locales tag number E C (z_bundle z))).
      { intros Q. destruct MF as [J|(N & J)].
        - pose proof (k_lang _ _ _ _ _ _ _ _ _ _ (ML _ _ J)) as X. rewrite <- Q in J, X. rewrite X in L. subst t. exact J.
        - pose proof (k_lang _ _ _ _ _ _ _ _ _ _ MS) as X. rewrite Q, J, X in L. symmetry in L. contradiction. }
      destruct (localizer_from_tag tag tag_eq_dec number E C parse_accept _ _ _ _ Z) as (t0 & ZQ).
      unfold new_localizer_from_tag in ZQ. destruct t0 as [t0|]; [|apply FB; rewrite ZQ; reflexivity].
      destruct (loc_get tag tag_eq_dec number E (b_locales tag number E C (z_bundle z)) t0) as [l|] eqn:G;
        [|apply FB; rewrite ZQ; reflexivity].
      apply loc_get_in in G. pose proof (k_lang _ _ _ _ _ _ _ _ _ _ (ML _ _ G)) as X.
      assert (ZL : z_locale z = l) by (rewrite ZQ; reflexivity). rewrite ZL in *. congruence. }
    destruct (ML _ _ IL) as [_ OP _ OS OC OB]. rewrite hum_source, (hum_loaders _ _ _ H) in *.
    split; [|split; [|exact OP]].
    - apply OB. split; [exact S|]. exists (hum_load ls). split; [now left|]. exact LQ.
    - destruct (l_source tag number E (z_locale z)); [|reflexivity]. exfalso. apply S. apply OS. reflexivity.
  Qed.
  Lemma hum_wf own ls langs z : localizer_of (hum_options own ls langs) z -> wf tag number E C z.
  Proof.
    exact (localizer_wf tag tag_eq_dec und number E C parse parse_accept trim_space plural_for no_string opt_error
      default_printer default_matcher iter iter_perm _ z).
  Qed.

  (** Through a humanizer: whatever the locales chosen, a message translated in
      the file of the language is shown with its translation, without a call
      of the missing-translation callback ... *)
  Theorem C68_shown : forall own ls langs z d t, harmless own -> chosen_locales ls langs ->
    localizer_of (hum_options own ls langs) z -> l_lang (z_locale z) = t -> t <> english -> find_locale ls t = Some d ->
    exists dir po f, ships dir d po f /\ forall ctx id txt vars, translation (f_messages f) ctx id 0 txt ->
      lookup_singular z (bs "django") ctx id vars = ([], (printer_of (hum_options own ls langs) t txt vars, found_error z)).
  Proof.
    intros own ls langs z d t H CH LO L S F. destruct (hum_locale own ls langs z d t H CH LO L S F) as (dir & po & f & c & SH & D & IC & SF & PR).
    exists dir, po, f. split; [exact SH|]. intros ctx id txt vars TR.
    apply (run_first tag tag_eq_dec number E C z (Sing number (bs "django") ctx id vars)); [apply (hum_wf _ _ _ _ LO)|exact SF|].
    rewrite <- PR. eapply a_catalog; [exact SF|exact IC|]. cbn [catalog_of cat_lookup].
    destruct SH as (I & Q & P).
    destruct (C68_files_load tag is_root tag_string base parent fold fuel dir d I) as (po' & f' & (_ & Q' & P') & X).
    rewrite Q in Q'. injection Q' as <-. rewrite P in P'. injection P' as <-.
    destruct (X t (bs "django")) as (c' & D' & A). rewrite D in D'. injection D' as <-.
    rewrite (proj2 (A ctx id (txt, None)) (an_found _ _ _ _ _ _ _ TR)). reflexivity.
  Qed.
  (** ... for every number, but for the gaps of the Hebrew file. *)
  Theorem C68_plural_shown_partial : forall own ls langs z d t, harmless own -> chosen_locales ls langs ->
    localizer_of (hum_options own ls langs) z -> l_lang (z_locale z) = t -> t <> english -> find_locale ls t = Some d ->
    exists dir po f, ships dir d po f /\ forall ctx sg pl n vars txt0,
      n <> NNil -> counted (f_messages f) ctx sg -> ~ (dir = bs "he" /\ In (ctx, sg) hebrew_gaps) ->
      translation (f_messages f) ctx sg 0 txt0 ->
      exists i txt, translation (f_messages f) ctx sg i txt /\
        lookup_plural z (bs "django") ctx sg pl n vars = ([], (printer_of (hum_options own ls langs) t txt vars, found_error z)).
  Proof.
    intros own ls langs z d t H CH LO L S F. destruct (hum_locale own ls langs z d t H CH LO L S F) as (dir & po & f & c & SH & D & IC & SF & PR).
    exists dir, po, f. split; [exact SH|]. intros ctx sg pl n vars txt0 NN CT NH TR.
    destruct (C68_plural_forms_partial tag is_root tag_string base parent fold fuel dir d po f t (bs "django") c ctx sg n txt0 SH D NN CT NH TR)
      as (i & txt & T & LP).
    exists i, txt. split; [exact T|].
    apply (run_first tag tag_eq_dec number E C z (Plur number (bs "django") ctx sg pl n vars)); [apply (hum_wf _ _ _ _ LO)|exact SF|].
    rewrite <- PR. eapply a_catalog_plural; [exact SF|exact IC|]. cbn [catalog_of cat_lookup_plural]. rewrite LP. reflexivity.
  Qed.

  (** Hebrew: the English plural is shown and the callback is called. *)
  Theorem C68_plural_shown_refuted : forall own ls langs z t, harmless own -> chosen_locales ls langs ->
    localizer_of (hum_options own ls langs) z -> l_lang (z_locale z) = t -> t <> english -> find_locale ls t = Some loc_he ->
    forall ctx sg pl k n vars, In (ctx, sg) hebrew_gaps -> pl <> [] ->
      Z.abs n <= 2 ^ 53 -> Z.abs n <> 1 -> Z.abs n <> 2 -> (n mod 10 <> 0 \/ Z.abs n <= 10) ->
      fst (plural_for english (NInt k n)) <> 0 -> snd (plural_for english (NInt k n)) = None ->
      let e := EOther tag E (of_lookup (MissingTranslation t [] ctx sg 3)) in
      lookup_plural z (bs "django") ctx sg pl (NInt k n) vars =
        (calls tag E C (b_callback tag number E C (z_bundle z)) [e],
         (printer_of (hum_options own ls langs) english pl vars, Some e)).
  Proof.
    intros own ls langs z t H CH LO L S F ctx sg pl k n vars G PL B1 N1 N2 N3 EP ES e.
    destruct (hum_locale own ls langs z loc_he t H CH LO L S F) as (dir & po & f & c & SH & D & IC & SF & PR).
    destruct SH as (_ & Q & P). change (ld_fs loc_he) with [(bs "django.po", po_he)] in Q. injection Q as <-.
    destruct (hebrew_ok tag is_root tag_string base parent fold fuel po_he hebrew_gaps hebrew_probe) as (f' & _ & HB).
    destruct (HB ctx sg G) as (_ & _ & X). destruct (X t (bs "django")) as (c' & D' & LP). rewrite D in D'. injection D' as <-.
    specialize (LP k n B1 N1 N2 N3). pose proof (hum_wf _ _ _ _ LO) as WF.
    destruct LO as (K & log & dom & lg & B & Z).
    destruct (new_bundle_made tag tag_eq_dec und number E C parse trim_space plural_for iter
                no_string opt_error default_printer default_matcher iter_perm _ _ _ K B) as (_ & rs & M).
    destruct M as [MN MM _ _ _ _ ND ML MK _ MS MI MF _ _ _ _].
    assert (FQ : b_fallback tag number E C (z_bundle z) = b_source tag number E C (z_bundle z)).
    { destruct MF as [J|(N & J)]; [|exact J]. exfalso.
      apply (in_map fst) in J. cbn [fst] in J. apply MK in J as (J1 & J2 & _). apply J2.
      unfold BundleSpec.fallback_of, setting, HumLocModel.hum_options. rewrite last_set_app. exact (hum_fallback own H). }
    rewrite hum_source in MS. destruct MS as [_ SP SQ SS _ _].
    assert (SRC : l_source tag number E (b_source tag number E C (z_bundle z)) = true) by (apply SS; rewrite hum_source; reflexivity).
    pose proof (run_source tag tag_eq_dec number E C z (Plur number (bs "django") ctx sg pl (NInt k n) vars) e
      (printer_of (hum_options own ls langs) english pl vars) WF FQ) as R.
    assert (BN : bad_number tag number E (Plur number (bs "django") ctx sg pl (NInt k n) vars) (b_source tag number E C (z_bundle z)) = []).
    { cbn [bad_number]. rewrite SRC, SQ, ES. reflexivity. }
    rewrite BN in R. apply R.
    - eapply LocaleSpec.k_plural; [exact SF|exact IC|]. cbn [catalog_of cat_lookup_plural]. rewrite LP. reflexivity.
    - rewrite <- SP. apply a_source_many; [exact SRC|rewrite SQ; exact EP|exact PL].
  Qed.
End Shown.

(** Every plural request that humanize makes is among the requests looked at
    above. *)
Lemma units_named dp ad delta u : In u (units_of dp ad delta) -> In (fst u) (map bs time_units).
Proof.
  unfold units_of.
  assert (LP : forall l cur since u, In u (unit_loop ad dp l cur since) -> In (fst u) (map fst l)).
  { intros l. induction l as [|[nm sc] l IH]; cbn [unit_loop]; intros cur since v I; [destruct I|].
    destruct (cur <? dp); [|destruct I]. destruct (count_in since sc <=? 0).
    - destruct ad; [destruct I|]. right. exact (IH _ _ _ I).
    - destruct I as [<-|I]; [now left|]. right. exact (IH _ _ _ I). }
  assert (MN : In (bs "minute") (map bs time_units)) by (do 5 right; now left).
  destruct (_ <=? 0); [intros [<-|[]]; exact MN|].
  destruct (Nat.eqb _ _); [intros [<-|[]]; exact MN|].
  intro I. apply LP in I. change (map bs time_units) with (map fst chunks).
  match type of I with In _ (map fst (skipn ?i _)) => revert I; generalize i end.
  intros i I. rewrite <- (firstn_skipn i chunks), map_app. apply in_or_app. right. exact I.
Qed.
Lemma time_requests clock input opts r :
  (forall c, In (OWithTimeStrings c) opts -> In c (map bs count_contexts)) ->
  requests (time_since clock input opts) r -> In r plural_requests.
Proof.
  intros H R. unfold time_since in R.
  assert (X : In (o_ctx (new_ts_opts clock opts)) (map bs count_contexts)).
  { unfold new_ts_opts. cbn [o_ctx].
    assert (Y : forall os o, In (o_ctx o) (map bs count_contexts) ->
                (forall c, In (OWithTimeStrings c) os -> In c (map bs count_contexts)) ->
                In (o_ctx (fold_left apply_time_opt os o)) (map bs count_contexts)).
    { induction os as [|x os IH]; [auto|]. intros o O HS. cbn [fold_left]. apply IH.
      - destruct x; cbn [apply_time_opt o_ctx]; try exact O. apply HS. now left.
      - intros c I. apply HS. now right. }
    apply Y; [now left|exact H]. }
  set (ctx := o_ctx (new_ts_opts clock opts)) in *. clearbody ctx.
  destruct (if o_reverse (new_ts_opts clock opts) then _ else _) as [d now].
  inversion R as [| | | | | |l sep o r' IO RO|l sep r' RS]; subst; [|inversion RS].
  apply in_map_iff in IO as (u & <- & IU). apply units_named in IU. unfold unit_text, time_string in RO.
  inversion RO; subst. unfold plural_requests. apply in_or_app. left. apply in_flat_map.
  apply in_map_iff in X as (c & <- & IC). exists c. split; [exact IC|].
  apply in_map_iff in IU as (w & Q & IW). apply in_map_iff. exists w. rewrite <- Q. split; [reflexivity|exact IW].
Qed.
Theorem C68_requests : forall r,
  (forall x, requests (filesize_num x) r -> In r plural_requests) /\
  (forall s, requests (filesize_bytes s) r -> In r plural_requests) /\
  (forall x o, apnumber x = Ok o -> ~ requests o r) /\
  (forall x o, ordinal x = Ok o -> ~ requests o r) /\
  (forall x o, intword x = IText o -> requests o r -> In r plural_requests) /\
  (forall now1 now2 t, requests (natural_time now1 now2 t) r -> In r plural_requests) /\
  (forall clock input opts, (forall c, In (OWithTimeStrings c) opts -> In c (map bs count_contexts)) ->
     requests (time_since clock input opts) r -> In r plural_requests).
Proof.
  intro r.
  assert (FS : forall n, requests (filesize n) r -> In r plural_requests).
  { assert (ST : forall n, requests (size_text n) r -> In r plural_requests).
    { intros n. unfold size_text. cbv zeta.
      repeat match goal with |- requests (if ?b then _ else _) _ -> _ => destruct b end; intro R; inversion R; subst;
        try (match goal with X : requests (OPrint _ _) _ |- _ => inversion X end).
      vm_compute. tauto. }
    intros n. unfold filesize. cbv zeta. destruct (n <? 0); [|apply ST]. intro R. inversion R as [| | | |x y r' RL|x y r' RR| |]; subst; [inversion RL|].
    exact (ST _ RR). }
  split; [intro x; apply FS|]. split; [intro s; apply FS|]. split; [|split; [|split; [|split; [|exact (fun c i o => time_requests c i o r)]]]].
  - intros x o. unfold apnumber. cbv zeta. destruct (_ || _); [intro H; injection H as <-; intro R; inversion R|].
    destruct (at_index _ _); try discriminate. cbn [rbind]. intro H. injection H as <-. intro R. inversion R.
  - intros x o. unfold ordinal. cbv zeta. destruct (num_neg x); [intro H; injection H as <-; intro R; inversion R|].
    destruct (_ || _ || _); [intro H; injection H as <-; intro R; inversion R|].
    destruct (at_index _ _); try discriminate. cbn [rbind]. intro H. injection H as <-. intro R. inversion R.
  - intros x o. unfold intword. destruct x as [q| | |]; try discriminate. destruct (qlt _ _); [discriminate|].
    assert (IL : forall l, (forall e, In e l -> In ([], snd e, snd e) plural_requests) ->
      intword_loop l q = IText o -> requests o r -> In r plural_requests).
    { induction l as [|[e w] l IH]; intros HL; cbn [intword_loop]; [discriminate|]. cbv zeta.
      destruct (qlt _ _); [|apply IH; intros x I; apply HL; now right].
      intro H. injection H as <-. intro R. inversion R as [| |c s p n o' r' RO| | | | |]; subst.
      - apply (HL (e, w)). now left.
      - inversion RO; subst. }
    apply IL. intros e I. unfold plural_requests. apply in_or_app. right. apply in_or_app. right.
    apply in_map_iff. revert I. unfold converters. cbn [In].
    intro I. repeat destruct I as [I|I]; try contradiction; subst e; cbn [snd];
      [exists "million"%string|exists "billion"%string|exists "trillion"%string|exists "quadrillion"%string|exists "quintillion"%string
      |exists "sextillion"%string|exists "septillion"%string|exists "octillion"%string|exists "nonillion"%string|exists "decillion"%string|exists "googol"%string];
      (split; [reflexivity|vm_compute; tauto]).
  - intros now1 now2 t.
    assert (CT : forall a b n, In ([], a, b) plural_requests -> requests (count_text a b n) r -> In r plural_requests).
    { intros a b n I R. inversion R; subst. exact I. }
    assert (TS : forall w c i c0, (c0 = bs "naturaltime-past" \/ c0 = bs "naturaltime-future") ->
      requests (OGetf [] w (AText (time_since c i [OWithTimeStrings c0]))) r -> In r plural_requests).
    { intros w c i c0 C0 R. inversion R; subst. eapply time_requests; [|eassumption].
      intros c' [X|[]]. injection X as <-. destruct C0 as [->| ->]; vm_compute; tauto. }
    assert (TU : forall w c i c0, (c0 = bs "naturaltime-past" \/ c0 = bs "naturaltime-future") ->
      requests (OGetf [] w (AText (time_until c i [OWithTimeStrings c0]))) r -> In r plural_requests).
    { intros w c i c0 C0 R. inversion R; subst. eapply time_requests; [|eassumption].
      intros c' [X|[X|[]]]; [|discriminate]. injection X as <-. destruct C0 as [->| ->]; vm_compute; tauto. }
    unfold natural_time. destruct (before t now1); cbv zeta;
    repeat match goal with |- requests (if ?b then _ else _) _ -> _ => destruct b end;
      try (apply TS; auto; fail); try (apply TU; auto; fail); try (apply CT; vm_compute; tauto); intro R; inversion R.
Qed.

(** ** C69 *)
(** A translation has only directives of the text or of the plural text it
    translates.  Not so for one text of the Belarusian file. *)
Theorem C69_directives_partial : forall dir d po f m i t, ships dir d po f -> In m (f_messages f) -> live m ->
  ~ (dir = bs "be" /\ key m = ([], bs "%[1]s billion")) -> In (i, t) (m_str m) -> t <> [] ->
  uses_directives (m_id m) t \/ m_pl m <> [] /\ uses_directives (m_pl m) t.
Proof.
  intros dir d po f m i t (I & Q & P) IM L NB S NE.
  destruct (shipped_examined dir d I) as (po' & Q' & X). rewrite Q in Q'. injection Q' as <-.
  destruct (examine_ok bytes (fun _ => true) (fun s => s) (fun s => (s, true)) (fun s => s) (fun r => r) 0 po _ _ _ X) as (f' & P' & _ & D & _).
  rewrite P in P'. injection P' as <-. apply (D m i t IM L); [|exact S|exact NE].
  unfold wrong_of. destruct (beq dir (bs "be")) eqn:B; [|intros []]. apply beq_eq in B. intros [K|[]]. apply NB. auto.
Qed.
Theorem C69_directives_refuted : exists d po f m t, ships (bs "be") d po f /\ In m (f_messages f) /\ live m /\
  key m = ([], bs "%[1]s billion") /\ str_get (m_str m) 0 = Some t /\ t <> [] /\
  ~ uses_directives (m_id m) t /\ ~ uses_directives (m_pl m) t.
Proof.
  destruct (look_ok _ _ _ _ _ belarusian_probe) as (f & m & P & I & L & K & G). injection G as G1 G2.
  exists loc_be, po_be, f, m, (form m 0). split.
  { split; [|split; [reflexivity|exact P]]. unfold shipped. apply in_or_app. left. do 5 right. left. reflexivity. }
  split; [exact I|]. split; [exact L|]. split; [exact K|].
  assert (N : form m 0 <> []) by (rewrite G2; discriminate).
  split; [apply form_str; exact N|]. split; [exact N|].
  assert (X : ~ uses_directives (bs "%[1]s billion") (form m 0)).
  { rewrite G2. intros (ds & ds' & rest & D1 & D2 & PM). apply dirs_only in D1. apply dirs_only in D2. subst ds ds'.
    assert (Y : In (bs "%(v") (dirs None (bs "%[1]s billion"))).
    { apply (Permutation_in _ (Permutation_sym PM)). apply in_or_app. left. vm_compute. now left. }
    vm_compute in Y. destruct Y as [Y|[]]. discriminate. }
  unfold key in K. injection K as _ K. rewrite K, G1. split; exact X.
Qed.
(** The texts for large numbers show the number.  Not so in Hebrew, nor for
    that one text. *)
Theorem C69_number_kept_partial : forall dir d po f m w i t, ships dir d po f -> In m (f_messages f) ->
  In w large_numbers -> key m = ([], bs "%[1]s " ++ bs w) -> dir <> bs "he" -> ~ (dir = bs "be" /\ w = "billion"%string) ->
  In (i, t) (m_str m) -> t <> [] -> exists ds, directives t ds /\ In (bs "%[1]s") ds.
Proof.
  intros dir d po f m w i t (I & Q & P) IM W K NH NB S NE.
  destruct (shipped_examined dir d I) as (po' & Q' & X). rewrite Q in Q'. injection Q' as <-.
  destruct (examine_ok bytes (fun _ => true) (fun s => s) (fun s => (s, true)) (fun s => s) (fun r => r) 0 po _ _ _ X) as (f' & P' & _ & _ & D & _).
  rewrite P in P'. injection P' as <-. apply (D m w i t IM W K); [|exact S|exact NE].
  unfold numberless_of, wrong_of. destruct (beq dir (bs "he")) eqn:B; [apply beq_eq in B; contradiction|].
  destruct (beq dir (bs "be")) eqn:B2; [|intros []]. apply beq_eq in B2. intros [Y|[]]. apply NB. split; [exact B2|].
  rewrite K in Y. apply (f_equal snd) in Y. cbn [snd] in Y. change (bs "%[1]s billion") with (bs "%[1]s " ++ bs "billion") in Y.
  apply app_inv_head in Y. apply (f_equal string_of_list_ascii) in Y. unfold bs in Y.
  rewrite !string_of_list_ascii_of_string in Y. symmetry. exact Y.
Qed.
(** One million and minus one million are requested with the same number; the
    Hebrew text has no place for the sign. *)
Theorem C69_number_kept_refuted : exists d po f m t a b, ships (bs "he") d po f /\ In m (f_messages f) /\ live m /\
  key m = ([], bs "%[1]s million") /\ str_get (m_str m) 0 = Some t /\ t <> [] /\ directives t [] /\
  intword (FFin (QArith_base.inject_Z 1000000)) = IText (ONGetf [] (m_id m) (m_id m) 1 a) /\
  intword (FFin (QArith_base.inject_Z (-1000000))) = IText (ONGetf [] (m_id m) (m_id m) 1 b) /\ a <> b.
Proof.
  destruct (look_ok _ _ _ _ _ hebrew_million) as (f & m & P & I & L & K & G).
  pose proof K as K'. unfold key in K'. injection K' as _ K'.
  exists loc_he, po_he, f, m, (form m 0). do 2 eexists. split.
  { split; [|split; [reflexivity|exact P]]. unfold shipped. do 3 (apply in_or_app; right). apply in_or_app. left. do 5 right. left. reflexivity. }
  split; [exact I|]. split; [exact L|]. split; [exact K|].
  assert (N : form m 0 <> []) by (rewrite G; discriminate).
  split; [apply form_str; exact N|]. split; [exact N|].
  split; [rewrite G; apply dirs_ok|]. rewrite K'. split; [vm_compute; reflexivity|]. split; [vm_compute; reflexivity|discriminate].
Qed.

(** ** C70 *)
(** A package registers the language it is named after.  Not so the package for
    Lithuanian. *)
Definition named_after (dir lang : bytes) : Prop :=
  map lower dir = map lower (filter (fun c => negb (Ascii.eqb c "-")) lang).
Lemma names_checked : forallb (fun p => beq (map lower (fst p)) (map lower (filter (fun c => negb (Ascii.eqb c "-")) (ld_lang (snd p)))) ||
  beq (fst p) (bs "lt")) shipped = true.
Proof. vm_cast_no_check (eq_refl true). Qed.
Theorem C70_language_partial : forall dir d, In (dir, d) shipped -> dir <> bs "lt" -> named_after dir (ld_lang d).
Proof.
  intros dir d I N. pose proof (proj1 (forallb_forall _ _) names_checked _ I) as H. cbn [fst snd] in H.
  apply orb_true_iff in H as [H|H]; apply beq_eq in H; [exact H|contradiction].
Qed.
Lemma langs_checked : map fst (filter (fun p => beq (ld_lang (snd p)) (bs "lt")) shipped) = [] /\
  map fst (filter (fun p => beq (ld_lang (snd p)) (bs "lv")) shipped) = [bs "lt"; bs "lv"].
Proof. split; [vm_cast_no_check (eq_refl (@nil bytes))|vm_cast_no_check (eq_refl [bs "lt"; bs "lv"])]. Qed.
(** Lithuanian cannot be had from any choice of shipped locales, and the package
    for it takes the place of Latvian. *)
Theorem C70_language_refuted :
  (forall tag (dec : forall a b : tag, {a = b} + {a <> b}) (must_parse : bytes -> tag) ls,
     (forall dir d, In (dir, d) shipped -> must_parse (ld_lang d) = must_parse (bs "lt") -> ld_lang d = bs "lt") ->
     (forall d, In d ls -> exists dir, In (dir, d) shipped) -> find_locale tag dec must_parse ls (must_parse (bs "lt")) = None) /\
  (exists d, In (bs "lt", d) shipped /\ ld_lang d = bs "lv" /\
     forall tag (dec : forall a b : tag, {a = b} + {a <> b}) must_parse ls,
       find_locale tag dec must_parse (ls ++ [d]) (must_parse (bs "lv")) = Some d).
Proof.
  split.
  - intros tag dec must_parse ls INJ S. induction ls as [|x ls IH]; [reflexivity|]. cbn [HumLocModel.find_locale].
    rewrite IH by (intros d I; apply S; now right). destruct (dec _ _) as [Q|_]; [|reflexivity]. exfalso.
    destruct (S x (or_introl eq_refl)) as (dir & I). apply (INJ dir x I) in Q.
    pose proof (proj1 langs_checked) as H. assert (J : In dir []); [|destruct J].
    rewrite <- H. change dir with (fst (dir, x)). apply in_map. apply filter_In. split; [exact I|]. cbn [snd]. rewrite Q. apply beq_refl.
  - pose proof (proj2 langs_checked) as H. assert (J : In (bs "lt") [bs "lt"; bs "lv"]) by now left.
    rewrite <- H in J. apply in_map_iff in J as ((dir & d) & Q & I). cbn [fst] in Q. subst dir.
    apply filter_In in I as [I Q]. cbn [snd] in Q. apply beq_eq in Q. exists d. split; [exact I|]. split; [exact Q|].
    intros tag dec must_parse ls. induction ls as [|x ls IH]; cbn [app HumLocModel.find_locale].
    + rewrite Q. destruct (dec _ _); [reflexivity|congruence].
    + rewrite IH. reflexivity.
Qed.
(** The other packages have languages of their own. *)
Lemma distinct_checked : (fix nodupb (l : list bytes) := match l with [] => true | x :: l' => negb (existsb (beq x) l') && nodupb l' end)
  (map (fun p => ld_lang (snd p)) (filter (fun p => negb (beq (fst p) (bs "lt"))) shipped)) = true.
Proof. vm_cast_no_check (eq_refl true). Qed.
Theorem C70_distinct_partial : NoDup (map (fun p => ld_lang (snd p)) (filter (fun p => negb (beq (fst p) (bs "lt"))) shipped)).
Proof.
  pose proof distinct_checked as H. revert H. generalize (map (fun p => ld_lang (snd p)) (filter (fun p => negb (beq (fst p) (bs "lt"))) shipped)).
  induction l as [|x l IH]; [constructor|]. intro H. apply andb_true_iff in H as [H1 H2]. constructor; [|apply IH; exact H2].
  intro I. rewrite (proj2 (existsb_exists _ _)) in H1; [discriminate|]. exists x. split; [exact I|apply beq_refl].
Qed.

(** ** C71 *)
(** Whatever shipped locales are chosen and whatever the language, the
    predefined formats show what they are named for.  Not so in Vietnamese: a
    time without its hour. *)
Theorem C71_formats_partial : forall tag tag_eqb (must_parse : bytes -> tag) ls lang key parts p,
  (forall d, In d ls -> exists dir, In (dir, d) shipped /\ ~ (dir = bs "vi" /\ key = "DATETIME_FORMAT"%string /\ p = Hour)) ->
  In (key, parts) format_parts -> In p parts ->
  exists ts, tokens (runes (select_format
    (humanizer_format tag tag_eqb (map (fun d => (must_parse (ld_lang d), ld_format d)) ls) lang) (bs key))) ts /\ shown ts p.
Proof.
  intros tag tag_eqb must_parse ls lang key parts p H K J. apply shownb_ok.
  assert (FB : forall key parts p, In (key, parts) format_parts -> In p parts -> shownb (select_format fallback (bs key)) p = true).
  { assert (A : forallb (fun k => forallb (shownb (select_format fallback (bs (fst k)))) (snd k)) format_parts = true) by (vm_compute; reflexivity).
    intros k ps q I1 I2. rewrite forallb_forall in A. specialize (A _ I1). cbn [fst snd] in A. rewrite forallb_forall in A. exact (A _ I2). }
  unfold humanizer_format.
  assert (E : forall f, last_entry tag tag_eqb (collect tag (map (fun d => (must_parse (ld_lang d), ld_format d)) ls)) lang = Some f ->
    exists d, In d ls /\ f = filled d).
  { clear. induction ls as [|x ls IH]; cbn [map collect last_entry fst snd]; [discriminate|]. intros f.
    destruct (last_entry _ _ _ _) as [g|] eqn:G.
    - intro Q. injection Q as <-. destruct (IH g eq_refl) as (d & I & Q). exists d. split; [now right|exact Q].
    - destruct (tag_eqb _ _); [|discriminate]. intro Q. injection Q as <-. exists x. split; [now left|reflexivity]. }
  destruct (last_entry _ _ _ _) as [f|] eqn:G; [|exact (FB _ _ _ K J)].
  destruct (E f eq_refl) as (d & I & ->). destruct (H d I) as (dir & S & NV).
  pose proof (map_eq_in _ _ _ _ formats_checked S) as X. apply (f_equal snd) in X. cbn [fst snd] in X.
  destruct (shownb (select_format (filled d) (bs key)) p) eqn:SB; [reflexivity|]. exfalso.
  assert (HD : In (bs key, p) (hidden d)).
  { unfold hidden. apply in_flat_map. exists (key, parts). split; [exact K|]. apply in_map. apply filter_In. split; [exact J|].
    cbn [fst]. rewrite SB. reflexivity. }
  rewrite X in HD. destruct (beq dir (bs "vi")) eqn:B; [|destruct HD]. apply beq_eq in B. destruct HD as [Q|[]].
  apply pair_equal_spec in Q as [Q1 Q2].
  apply NV. split; [exact B|]. split; [|congruence]. unfold bs in Q1. apply (f_equal string_of_list_ascii) in Q1.
  rewrite !string_of_list_ascii_of_string in Q1. congruence.
Qed.
Theorem C71_formats_refuted : exists d t1 t2, In (bs "vi", d) shipped /\ hour t1 <> hour t2 /\
  forall get pget upper local,
    format_time get pget upper local (filled d) t1 (bs "DATETIME_FORMAT") =
    format_time get pget upper local (filled d) t2 (bs "DATETIME_FORMAT") /\
    exists s, format_time get pget upper local (filled d) t1 (bs "DATETIME_FORMAT") = Ok s.
Proof.
  exists loc_vi, (GT 0 0 utc), (GT 3600 0 utc). split.
  { unfold shipped. do 9 (apply in_or_app; right). do 4 right. left. reflexivity. }
  split; [vm_compute; discriminate|]. intros get pget upper local. split; [vm_compute; reflexivity|].
  eexists. vm_compute. reflexivity.
Qed.

(** ** Examples *)
(** A collection with German, Hebrew and the package for Lithuanian. *)
Definition h_locales : list locale_data := [loc_de; loc_he; loc_lt].
Definition h_langs : list bytes := [bs "lv"; bs "de"; bs "he"].
Notation h_options := (hum_options bytes a_dec TheoremsGettext.ex_root (fun s => s) (fun s => (s, false)) TheoremsGettext.ex_parent
  PoExamples.fold_ascii 5 bool unit (fun _ => false) false (fun _ _ => true) (fun s => s)).
Definition h_own : list (opt bytes number bool unit) := [OCallback _ _ _ _ (Some tt)].
Notation h_harmless := (harmless bytes bool unit (fun s => inl s) (fun s => s) false).
Lemma in_de : In (bs "de", loc_de) shipped.
Proof. unfold shipped. do 1 (apply in_or_app; right). apply in_or_app. left. do 5 right. left. reflexivity. Qed.
Lemma in_he : In (bs "he", loc_he) shipped.
Proof. unfold shipped. do 3 (apply in_or_app; right). apply in_or_app. left. do 5 right. left. reflexivity. Qed.
Lemma in_lt : In (bs "lt", loc_lt) shipped.
Proof. unfold shipped. do 5 (apply in_or_app; right). apply in_or_app. left. do 6 right. left. reflexivity. Qed.
Lemma h_chosen : chosen_locales bytes (fun s => s) h_locales h_langs.
Proof.
  split.
  - intros d [<-|[<-|[<-|[]]]]; [exists (bs "de"); exact in_de|exists (bs "he"); exact in_he|exists (bs "lt"); exact in_lt].
  - intros t. split.
    + intros [<-|[<-|[<-|[]]]]; [exists loc_lt|exists loc_de|exists loc_he]; (split; [cbn [In h_locales]; tauto|reflexivity]).
    + intros (d & [<-|[<-|[<-|[]]]] & <-); [right; left|right; right; left|left]; reflexivity.
Qed.
Lemma h_own_harmless : h_harmless h_own.
Proof. repeat split. repeat constructor. Qed.
(** The hypotheses of C68_new are met. *)
Example C68_new_example : exists log b, a_new (h_options h_own h_locales h_langs) = (log, inl b) /\
  forall d, In d h_locales -> In (ld_lang d) (b_languages bytes number bool unit b).
Proof.
  apply (C68_new bytes a_dec [] TheoremsGettext.ex_root (fun s => s) (fun s => (s, false)) TheoremsGettext.ex_parent
    PoExamples.fold_ascii 5 bool unit (fun _ => false) false (fun _ _ => true) (fun s => s) (fun s => inl s) (fun s => s)
    a_plural false false a_print x_matcher a_iter (fun A past l => Permutation_refl l)).
  - exact h_own_harmless.
  - exact h_chosen.
  - discriminate.
  - intros d [<-|[<-|[<-|[]]]]; discriminate.
Qed.
(** The German and the Hebrew localizer: hypotheses of C68_shown,
    C68_plural_shown_partial and C68_plural_shown_refuted; what is shown. *)
Lemma h_contract : contract bytes number bool (loaders_of bytes number bool unit (h_options h_own h_locales h_langs)).
Proof. exact (hum_contract bytes a_dec TheoremsGettext.ex_root (fun s => s) (fun s => (s, false)) TheoremsGettext.ex_parent
    PoExamples.fold_ascii 5 bool unit (fun _ => false) false (fun _ _ => true) (fun s => s) (fun s => inl s) (fun s => s)
    false h_own h_locales h_langs h_own_harmless). Qed.
Definition h_shows (t : bytes) (ns : list Z) (z : localizer bytes number bool unit)
    : bool * bool * bytes * list (list (event bytes bool) * bytes) :=
  (beq (l_lang _ _ _ (z_locale _ _ _ _ z)) t, z_found _ _ _ _ z,
   fst (snd (a_sing z (bs "django") [] (bs "yesterday") [])),
   map (fun n => let r := a_plur z (bs "django") [] (bs "%[1]v day") (bs "%[1]v days") (NInt Kint n) [] in (fst r, fst (snd r))) ns).
Definition h_make (os : list (opt bytes number bool unit)) (t : bytes) (ns : list Z) :=
  match snd (a_new os) with
  | inl b => match a_for b (bs "django") [LTag _ t] with Ok z => Some (h_shows t ns z) | _ => None end
  | inr _ => None
  end.
Lemma h_make_ok os t ns r : contract bytes number bool (loaders_of bytes number bool unit os) ->
  h_make os t ns = Some r -> exists z, a_localizer_of os z /\ h_shows t ns z = r.
Proof.
  intros K H. apply (a_make _ (bs "django") [LTag _ t]); [exact K|]. unfold h_make in H.
  destruct (snd (a_new os)) as [b|]; [|discriminate].
  destruct (a_for b (bs "django") [LTag _ t]); try discriminate. injection H as H. exact H.
Qed.
Example C68_german : exists z, a_localizer_of (h_options h_own h_locales h_langs) z /\
  h_shows (bs "de") [1; 2] z = (true, true, bs "gestern", [([], bs "%[1]v Tag"); ([], bs "%[1]v Tage")]).
Proof. apply h_make_ok; [exact h_contract|]. vm_cast_no_check (eq_refl (h_make (h_options h_own h_locales h_langs) (bs "de") [1; 2])). Qed.
(** Hebrew: one, two and twenty days in Hebrew, three days in English. *)
Example C68_hebrew : exists z, a_localizer_of (h_options h_own h_locales h_langs) z /\
  h_shows (bs "he") [1; 2; 20; 3] z = (true, true, bs "אתמול",
    [([], bs "יום"); ([], bs "יומיים"); ([], bs "%[1]v ימים"); ([EvMissing _ _ (EOther _ _ false)], bs "%[1]v days")]).
Proof. apply h_make_ok; [exact h_contract|]. vm_cast_no_check (eq_refl (h_make (h_options h_own h_locales h_langs) (bs "he") [1; 2; 20; 3])). Qed.
Example C68_hypotheses_met :
  find_locale bytes a_dec (fun s => s) h_locales (bs "de") = Some loc_de /\
  find_locale bytes a_dec (fun s => s) h_locales (bs "he") = Some loc_he /\
  In ([], bs "%[1]v day") hebrew_gaps /\ fst (a_plural (bs "en") (NInt Kint 3)) <> 0.
Proof. repeat split; try discriminate. right. left. reflexivity. Qed.
(** A plural message of the German file, and one with a directive. *)
Lemma german_probe : look po_de [] (bs "%[1]s million") (fun m => (m_pl m, form m 0, form m 1)) =
  Some (bs "%[1]s million", bs "%[1]s Million", bs "%[1]s Millionen").
Proof. vm_cast_no_check (eq_refl (look po_de [] (bs "%[1]s million") (fun m => (m_pl m, form m 0, form m 1)))). Qed.
Example C69_hypotheses_met : exists f m, ships (bs "de") loc_de po_de f /\ In m (f_messages f) /\ live m /\
  key m = ([], bs "%[1]s million") /\ In (1, bs "%[1]s Millionen") (m_str m) /\
  counted (f_messages f) [] (bs "%[1]s million") /\ translation (f_messages f) [] (bs "%[1]s million") 0 (bs "%[1]s Million").
Proof.
  destruct (look_ok _ _ _ _ _ german_probe) as (f & m & P & I & L & K & G). injection G as G1 G2 G3.
  exists f, m. split; [split; [exact in_de|split; [reflexivity|exact P]]|]. split; [exact I|]. split; [exact L|]. split; [exact K|].
  assert (X : forall i t, form m i = t -> t <> [] -> str_get (m_str m) i = Some t) by (intros i t <- N; apply form_str; exact N).
  split; [apply (str_get_in (m_str m) 1), X; [exact G3|discriminate]|]. split.
  - left. exists (bs "%[1]s million"). vm_compute. tauto.
  - exists m. split; [exact I|]. split; [exact L|]. split; [exact K|]. split; [apply X; [exact G2|discriminate]|discriminate].
Qed.
(** C70: identity instead of MustParse; C71: the format of the German locale. *)
Example C70_hypotheses_met : forall dir d, In (dir, d) shipped -> (fun s : bytes => s) (ld_lang d) = bs "lt" -> ld_lang d = bs "lt".
Proof. intros dir d _ Q. exact Q. Qed.
Example C71_hypotheses_met : exists ls, In loc_de ls /\
  (forall d, In d ls -> exists dir, In (dir, d) shipped /\ ~ (dir = bs "vi" /\ "DATETIME_FORMAT"%string = "DATETIME_FORMAT"%string /\ Hour = Hour)) /\
  select_format (humanizer_format bytes beq (map (fun d => (ld_lang d, ld_format d)) ls) (bs "de")) (bs "DATETIME_FORMAT") = bs "j. F Y H:i".
Proof.
  exists h_locales. split; [now left|]. split; [|vm_compute; reflexivity].
  intros d [<-|[<-|[<-|[]]]]; [exists (bs "de")|exists (bs "he")|exists (bs "lt")];
    (split; [exact in_de || exact in_he || exact in_lt|intros (X & _); discriminate X]).
Qed.

Print Assumptions C68_files_load.
Print Assumptions C68_plural_forms_partial.
Print Assumptions C68_plural_forms_refuted.
Print Assumptions C68_new.
Print Assumptions C68_shown.
Print Assumptions C68_plural_shown_partial.
Print Assumptions C68_plural_shown_refuted.
Print Assumptions C68_requests.
Print Assumptions C69_directives_partial.
Print Assumptions C69_directives_refuted.
Print Assumptions C69_number_kept_partial.
Print Assumptions C69_number_kept_refuted.
Print Assumptions C70_language_partial.
Print Assumptions C70_language_refuted.
Print Assumptions C70_distinct_partial.
Print Assumptions C71_formats_partial.
Print Assumptions C71_formats_refuted.
