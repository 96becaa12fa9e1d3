(** Property theorems C74: the names of languages. *)
From Coq Require Import String Ascii List ZArith Bool Permutation.
From Verif Require Import Base BaseProofs Utf8Model NumModel LocaleModel BundleModel LocaleSpec LocaleProofs BundleSpec BundleProofs
  BundleRunProofs BundleTopProofs TheoremsLocale PoFileModel PoFileSpec GettextModel GettextSpec GettextProofs AppModel AppProofs
  DfmtModel HumLocModel HumLocSpec HumLocProofs HumData2 HumData9 HumCheck TheoremsApp TheoremsHumLoc LangNameModel.
Import ListNotations.
Open Scope Z_scope.

(** ** The table *)
Definition code_char (c : ascii) : Prop := In c (bs "abcdefghijklmnopqrstuvwxyz-").
Definition plain_code (s : bytes) : bool := forallb (fun c => existsb (Ascii.eqb c) (bs "abcdefghijklmnopqrstuvwxyz-")) s.
Fixpoint distinctb (l : list bytes) : bool :=
  match l with [] => true | x :: l' => negb (existsb (beq x) l') && distinctb l' end.
Lemma distinctb_ok l : distinctb l = true -> NoDup l.
Proof.
  induction l as [|x l IH]; [constructor|]. intro H. cbn [distinctb] in H. apply andb_true_iff in H as [H1 H2]. constructor; [|apply IH; exact H2].
  intro I. rewrite (proj2 (existsb_exists _ _)) in H1; [discriminate|]. exists x. split; [exact I|apply beq_refl].
Qed.
Lemma table_checked :
  forallb (fun e => beq (fst e) (li_code (snd e)) && negb (beq (li_name (snd e)) []) && negb (beq (li_local (snd e)) []) && plain_code (fst e)) locale_infos &&
  distinctb (map fst locale_infos) && distinctb (map (fun e => li_name (snd e)) locale_infos) &&
  distinctb (map (fun e => li_local (snd e)) locale_infos) = true.
Proof. vm_cast_no_check (eq_refl true). Qed.
(** Every entry is filed under its own code, in lower case; no two languages
    have the same code, name or name of their own. *)
Theorem C74_table :
  (forall k i, In (k, i) locale_infos -> li_code i = k /\ li_name i <> [] /\ li_local i <> [] /\ forall c, In c k -> code_char c) /\
  NoDup (map fst locale_infos) /\ NoDup (map (fun e => li_name (snd e)) locale_infos) /\
  NoDup (map (fun e => li_local (snd e)) locale_infos).
Proof.
  pose proof table_checked as H. apply andb_true_iff in H as [H H4]. apply andb_true_iff in H as [H H3]. apply andb_true_iff in H as [H1 H2].
  split; [|split; [apply distinctb_ok; exact H2|split; apply distinctb_ok; assumption]].
  intros k i I. rewrite forallb_forall in H1. specialize (H1 _ I). cbn [fst snd] in H1.
  apply andb_true_iff in H1 as [H1 P]. apply andb_true_iff in H1 as [H1 L]. apply andb_true_iff in H1 as [K N].
  apply beq_eq in K. split; [congruence|]. split; [intro Z; rewrite Z, beq_refl in N; discriminate|].
  split; [intro Z; rewrite Z, beq_refl in L; discriminate|].
  intros c IC. unfold plain_code in P. rewrite forallb_forall in P. specialize (P c IC). apply existsb_exists in P as (x & IX & E).
  apply Ascii.eqb_eq in E. subst x. exact IX.
Qed.
Lemma info_of_in l code i : NoDup (map fst l) -> (info_of l code = Some i <-> In (code, i) l).
Proof.
  induction l as [|[k j] l IH]; cbn [info_of map fst In]; intro ND.
  - split; [discriminate|intros []].
  - inversion ND as [|? ? NI ND']; subst. destruct (beq k code) eqn:B.
    + apply beq_eq in B. subst k. split; [intro H; injection H as ->; now left|].
      intros [H|H]; [congruence|]. exfalso. apply NI. apply (in_map fst) in H. exact H.
    + rewrite (IH ND'). split; [now right|]. intros [H|H]; [|exact H]. injection H as -> ->. rewrite beq_refl in B. discriminate.
Qed.
Lemma info_of_none l code : info_of l code = None <-> ~ In code (map fst l).
Proof.
  induction l as [|[k j] l IH]; cbn [info_of map fst In]; [tauto|]. destruct (beq k code) eqn:B.
  - apply beq_eq in B. split; [discriminate|tauto].
  - rewrite IH. split; [intros N [->|H]; [rewrite beq_refl in B; discriminate|tauto]|tauto].
Qed.

(** ** Looking at single files *)
Definition looks (po : bytes) (ids : list bytes) : option (list (bytes * option bytes)) :=
  match parse_po_fuel (S (length po)) true po with
  | Ok f => Some (map (fun id => (id, option_map (fun m => form m 0) (pick (f_messages f) [] id))) ids)
  | _ => None
  end.
Lemma looks_ok po ids r : looks po ids = Some r ->
  exists f, parse_po_fuel (S (length po)) true po = Ok f /\
    (forall id txt, txt <> [] -> In (id, Some txt) r -> translation (f_messages f) [] id 0 txt) /\
    (forall id, In (id, None) r -> forall txt, ~ translation (f_messages f) [] id 0 txt).
Proof.
  unfold looks. destruct (parse_po_fuel (S (length po)) true po) as [f| | |] eqn:P; try discriminate.
  intro H. injection H as <-. exists f. split; [reflexivity|].
  pose proof (parse_po_nodup _ _ _ _ P) as ND. split.
  - intros id txt NE I. apply in_map_iff in I as (id' & Q & _). apply pair_equal_spec in Q as [-> Q].
    destruct (pick (f_messages f) [] id) as [m|] eqn:K; [|discriminate]. cbn [option_map] in Q. injection Q as Q.
    apply (pick_iff _ _ _ _ ND) in K as (I & L & K). exists m. split; [exact I|]. split; [exact L|]. split; [exact K|].
    split; [rewrite <- Q; apply form_str; rewrite Q; exact NE|exact NE].
  - intros id I txt (m & IM & L & K & _). apply in_map_iff in I as (id' & Q & _). apply pair_equal_spec in Q as [-> Q].
    rewrite (proj2 (pick_iff _ _ _ _ ND) (conj IM (conj L K))) in Q. discriminate.
Qed.
Lemma swedish_probe : looks po_sv [bs "Latvian"; bs "Lithuanian"] =
  Some [(bs "Latvian", Some (bs "Lettiska")); (bs "Lithuanian", Some (bs "Lettiska"))].
Proof. vm_cast_no_check (eq_refl (looks po_sv [bs "Latvian"; bs "Lithuanian"])). Qed.
Lemma german_names : looks po_de [bs "Norwegian Bokmål"; bs "Norwegian Bokmal"; bs "Norwegian"] =
  Some [(bs "Norwegian Bokmål", Some (bs "Norwegisch (Bokmål)")); (bs "Norwegian Bokmal", None); (bs "Norwegian", None)].
Proof. vm_cast_no_check (eq_refl (looks po_de [bs "Norwegian Bokmål"; bs "Norwegian Bokmal"; bs "Norwegian"])). Qed.
Lemma table_in code i : info_of locale_infos code = Some i -> In (code, i) locale_infos.
Proof. destruct C74_table as (_ & ND & _). apply info_of_in. exact ND. Qed.
Lemma lt_info : In (bs "lt", Info (bs "lt") (bs "Lithuanian") (bs "Lietuviškai")) locale_infos.
Proof. apply table_in. vm_compute. reflexivity. Qed.
Lemma lv_info : In (bs "lv", Info (bs "lv") (bs "Latvian") (bs "latviešu")) locale_infos.
Proof. apply table_in. vm_compute. reflexivity. Qed.
Lemma nb_info : In (bs "nb", Info (bs "nb") (bs "Norwegian Bokmal") (bs "norsk (bokmål)")) locale_infos.
Proof. apply table_in. vm_compute. reflexivity. Qed.
Lemma no_info : In (bs "no", Info (bs "no") (bs "Norwegian") (bs "norsk")) locale_infos.
Proof. apply table_in. vm_compute. reflexivity. Qed.

Section Shown.
  (** external parts, see TheoremsHumLoc *)
  Variable tag : Type.
  Variable tag_eq_dec : forall a b : tag, {a = b} + {a <> b}.
  Variable und : tag.
  Variable is_root : tag -> bool.
  Variable tag_string : tag -> bytes.
  Variable base : tag -> bytes * bool.
  Variable parent : tag -> tag.
  Variable fold : rune -> rune.
  Variable fuel : nat.
  Variable E C : Type.
  Variable of_lookup : lookup_error tag -> E.
  Variable decode_failed : E.
  Variable not_found : tag -> bytes -> E.
  Variable must_parse : bytes -> tag.
  Variable parse : bytes -> tag + E.
  Variable parse_accept : bytes -> option (list tag).
  Variable trim_space : bytes -> bytes.
  Variable plural_for : tag -> plural_func number E.
  Variable no_string opt_error : E.
  Variable default_printer : printer tag number.
  Variable default_matcher : matcher_builder tag.
  Variable iter : forall A, list (event tag E) -> list A -> list A.
  Hypothesis iter_perm : forall A past (l : list A), Permutation (iter A past l) l.

  Notation opt := (opt tag number E C).
  Notation name := (lang_tag tag E parse trim_space no_string).
  Notation new_bundle := (new_bundle tag tag_eq_dec und number E C parse trim_space plural_for iter
                            no_string opt_error default_printer default_matcher).
  Notation localizer_of := (localizer_of tag tag_eq_dec und number E C parse parse_accept trim_space plural_for
                              no_string opt_error default_printer default_matcher iter).
  Notation lookup_singular := (LocaleModel.lookup_singular tag tag_eq_dec number E C).
  Notation printer_of os := (setting tag number E C (sets_printer tag number E C) default_printer os).
  Notation hum_options := (hum_options tag tag_eq_dec is_root tag_string base parent fold fuel E C of_lookup decode_failed not_found must_parse).
  Notation find_locale := (find_locale tag tag_eq_dec must_parse).
  Notation z_locale := (z_locale tag number E C).
  Notation z_bundle := (z_bundle tag number E C).
  Notation z_domain := (z_domain tag number E C).
  Notation l_lang := (l_lang tag number E).
  Notation english := (must_parse (bs "en")).
  Notation harmless := (harmless tag E C parse trim_space no_string).
  Notation chosen_locales := (chosen_locales tag must_parse).
  Notation by_code := (language_name_by_code tag tag_eq_dec number E C).

  (** An untranslated text is shown as it stands, and the callback is called. *)
  Lemma untranslated : forall own ls langs z d t, harmless own -> chosen_locales ls langs ->
    localizer_of (hum_options own ls langs) z -> l_lang (z_locale z) = t -> t <> english -> find_locale ls t = Some d ->
    exists dir po f, ships dir d po f /\ forall ctx id vars, (forall txt, ~ translation (f_messages f) ctx id 0 txt) ->
      exists e, lookup_singular z (bs "django") ctx id vars =
        (calls tag E C (b_callback tag number E C (z_bundle z)) [e], (printer_of (hum_options own ls langs) english id vars, Some e)).
  Proof.
    intros own ls langs z d t H CH LO L S F.
    destruct (hum_locale tag tag_eq_dec und is_root tag_string base parent fold fuel E C of_lookup decode_failed not_found must_parse
      parse parse_accept trim_space plural_for no_string opt_error default_printer default_matcher iter iter_perm
      own ls langs z d t H CH LO L S F) as (dir & po & f & c & SH & D & IC & SF & PR).
    exists dir, po, f. split; [exact SH|]. intros ctx id vars NT.
    assert (LK : exists e, cat_lookup number E (catalog_of tag E of_lookup decode_failed c) ctx id = inr e).
    { destruct SH as (I & Q & P).
      destruct (C68_files_load tag is_root tag_string base parent fold fuel dir d I) as (po' & f' & (_ & Q' & P') & X).
      rewrite Q in Q'. injection Q' as <-. rewrite P in P'. injection P' as <-.
      destruct (X t (bs "django")) as (c' & D' & A). rewrite D in D'. injection D' as <-.
      pose proof (proj1 (A ctx id _) eq_refl) as AN. cbn [catalog_of cat_lookup].
      destruct (GettextModel.lookup tag c ctx id) as [txt [e|]]; [eauto|]. inversion AN as [? TR| | |]; subst. destruct (NT _ TR). }
    destruct LK as (e & LK). exists (EOther tag E e).
    pose proof (hum_wf tag tag_eq_dec und is_root tag_string base parent fold fuel E C of_lookup decode_failed not_found must_parse
      parse parse_accept trim_space plural_for no_string opt_error default_printer default_matcher iter iter_perm own ls langs z LO) as WF.
    destruct LO as (K & log & dom & lg & B & Z).
    destruct (new_bundle_made tag tag_eq_dec und number E C parse trim_space plural_for iter
                no_string opt_error default_printer default_matcher iter_perm _ _ _ K B) as (_ & rs & M).
    destruct M as [MN MM _ _ _ _ ND ML MK _ MS MI MF _ _ _ _].
    assert (SO : BundleSpec.source_of tag und number E C (hum_options own ls langs) = english) by apply hum_source.
    assert (FQ : b_fallback tag number E C (z_bundle z) = b_source tag number E C (z_bundle z)).
    { destruct MF as [J|(N & J)]; [|exact J]. exfalso.
      apply (in_map fst) in J. cbn [fst] in J. apply MK in J as (J1 & J2 & _). apply J2.
      unfold BundleSpec.fallback_of, setting, HumLocModel.hum_options. rewrite last_set_app. exact (hum_fallback tag und E C parse trim_space no_string own H). }
    rewrite SO in MS. destruct MS as [_ SP SQ SS _ _].
    assert (SRC : l_source tag number E (b_source tag number E C (z_bundle z)) = true) by (apply SS; rewrite SO; reflexivity).
    pose proof (run_source tag tag_eq_dec number E C z (Sing number (bs "django") ctx id vars) (EOther tag E e)
      (printer_of (hum_options own ls langs) english id vars) WF FQ) as R.
    cbn [bad_number] in R. apply R.
    - eapply LocaleSpec.k_message; [exact SF|exact IC|exact LK].
    - rewrite <- SP. apply a_source. exact SRC.
  Qed.

  (** ** The name of a language in the language of the humanizer *)
  (** An unknown code has no name; a known one has the translation of its
      English name in the file of the language, and the English name if there
      is none. *)
  Theorem C74_names : forall own ls langs z d t, harmless own -> chosen_locales ls langs ->
    localizer_of (hum_options own ls langs) z -> z_domain z = bs "django" ->
    l_lang (z_locale z) = t -> t <> english -> find_locale ls t = Some d ->
    exists dir po f, ships dir d po f /\
      (forall code, ~ In code (map fst locale_infos) -> by_code z code = ([], [])) /\
      (forall code i txt, In (code, i) locale_infos -> translation (f_messages f) [] (li_name i) 0 txt ->
         by_code z code = ([], printer_of (hum_options own ls langs) t txt [])) /\
      (forall code i, In (code, i) locale_infos -> (forall txt, ~ translation (f_messages f) [] (li_name i) 0 txt) ->
         snd (by_code z code) = printer_of (hum_options own ls langs) english (li_name i) []).
  Proof.
    intros own ls langs z d t H CH LO DM L S F.
    destruct (C68_shown tag tag_eq_dec und is_root tag_string base parent fold fuel E C of_lookup decode_failed not_found must_parse
      parse parse_accept trim_space plural_for no_string opt_error default_printer default_matcher iter iter_perm
      own ls langs z d t H CH LO L S F) as (dir & po & f & SH & TR).
    destruct (untranslated own ls langs z d t H CH LO L S F) as (dir' & po' & f' & SH' & UN).
    assert (f' = f) as ->.
    { destruct SH as (_ & Q & P), SH' as (_ & Q' & P'). rewrite Q in Q'. injection Q' as <-. rewrite P in P'. now injection P'. }
    exists dir, po, f. split; [exact SH|]. destruct C74_table as (_ & ND & _). split; [|split].
    - intros code N. unfold language_name_by_code. rewrite (proj2 (info_of_none _ _) N). reflexivity.
    - intros code i txt I T. unfold language_name_by_code. rewrite (proj2 (info_of_in _ _ _ ND) I).
      unfold Get, NoCtx. rewrite DM, (TR _ _ _ _ T). reflexivity.
    - intros code i I T. unfold language_name_by_code. rewrite (proj2 (info_of_in _ _ _ ND) I).
      unfold Get, NoCtx. rewrite DM. destruct (UN [] (li_name i) [] T) as (e & ->). cbn. reflexivity.
  Qed.
  (** Two languages are shown with the same name in Swedish: Lithuanian and
      Latvian. *)
  Theorem C74_distinct_refuted : forall own ls langs z t, harmless own -> chosen_locales ls langs ->
    localizer_of (hum_options own ls langs) z -> z_domain z = bs "django" ->
    l_lang (z_locale z) = t -> t <> english -> find_locale ls t = Some loc_sv ->
    by_code z (bs "lt") = by_code z (bs "lv") /\ snd (by_code z (bs "lt")) = printer_of (hum_options own ls langs) t (bs "Lettiska") [].
  Proof.
    intros own ls langs z t H CH LO DM L S F.
    destruct (C74_names own ls langs z loc_sv t H CH LO DM L S F) as (dir & po & f & (I & Q & P) & _ & T & _).
    change (ld_fs loc_sv) with [(bs "django.po", po_sv)] in Q. injection Q as <-.
    destruct (looks_ok po_sv [bs "Latvian"; bs "Lithuanian"] _ swedish_probe) as (f' & P' & Y & _).
    rewrite P in P'. injection P' as <-.
    rewrite (T (bs "lt") _ (bs "Lettiska") lt_info), (T (bs "lv") _ (bs "Lettiska") lv_info); [split; reflexivity| |];
      (apply Y; [discriminate|]); [left|right; left]; reflexivity.
  Qed.
  (** Norwegian is shown with its English name in German, though the file has
      a translation for the name with its own letters. *)
  Theorem C74_translated_refuted : exists dir po f, ships dir loc_de po f /\
    (exists txt, translation (f_messages f) [] (bs "Norwegian Bokmål") 0 txt) /\
    forall own ls langs z t, harmless own -> chosen_locales ls langs ->
    localizer_of (hum_options own ls langs) z -> z_domain z = bs "django" ->
    l_lang (z_locale z) = t -> t <> english -> find_locale ls t = Some loc_de ->
    snd (by_code z (bs "nb")) = printer_of (hum_options own ls langs) english (bs "Norwegian Bokmal") [] /\
    snd (by_code z (bs "no")) = printer_of (hum_options own ls langs) english (bs "Norwegian") [].
  Proof.
    destruct (looks_ok po_de [bs "Norwegian Bokmål"; bs "Norwegian Bokmal"; bs "Norwegian"] _ german_names) as (f & P & Y & N).
    exists (bs "de"), po_de, f. split; [split; [exact in_de|split; [reflexivity|exact P]]|].
    split; [exists (bs "Norwegisch (Bokmål)"); apply Y; [discriminate|left; reflexivity]|].
    intros own ls langs z t H CH LO DM L S F.
    destruct (C74_names own ls langs z loc_de t H CH LO DM L S F) as (dir & po & f' & (I & Q & P') & _ & _ & T).
    change (ld_fs loc_de) with [(bs "django.po", po_de)] in Q. injection Q as <-.
    rewrite P in P'. injection P' as <-.
    split; [apply (T (bs "nb") _ nb_info)|apply (T (bs "no") _ no_info)]; apply N; [right; left|right; right; left]; reflexivity.
  Qed.
  (** In English the names are those of the table. *)
  Theorem C74_english : forall own ls langs z, harmless own ->
    localizer_of (hum_options own ls langs) z -> l_lang (z_locale z) = english ->
    forall code i, In (code, i) locale_infos ->
      by_code z code = ([], printer_of (hum_options own ls langs) english (li_name i) []).
  Proof.
    intros own ls langs z H LO L code i I.
    assert (SO : BundleSpec.source_of tag und number E C (hum_options own ls langs) = english) by apply hum_source.
    destruct (C38_source tag tag_eq_dec und number E C parse parse_accept trim_space plural_for no_string opt_error
      default_printer default_matcher iter iter_perm (hum_options own ls langs) z LO ltac:(rewrite SO; exact L)) as (SG & _).
    destruct C74_table as (_ & ND & _). unfold language_name_by_code. rewrite (proj2 (info_of_in _ _ _ ND) I).
    unfold Get. rewrite SG, SO. reflexivity.
  Qed.
End Shown.

(** ** Examples *)
(** A humanizer for German: hypotheses met, and what it shows. *)
Definition n_shows (z : localizer bytes number bool unit) : bool * bool * list (nat * bytes) :=
  (beq (l_lang _ _ _ (z_locale _ _ _ _ z)) (bs "de"), beq (z_domain _ _ _ _ z) (bs "django"),
   map (fun c => let r := language_name_by_code bytes a_dec number bool unit z (bs c) in (length (fst r), snd r)) ["fr"; "nb"; "xx"]%string).
Definition n_make (os : list (opt bytes number bool unit)) :=
  match snd (a_new os) with
  | inl b => match a_for b (bs "django") [LTag _ (bs "de")] with Ok z => Some (n_shows z) | _ => None end
  | inr _ => None
  end.
Lemma n_make_ok os r : contract bytes number bool (loaders_of bytes number bool unit os) ->
  n_make os = Some r -> exists z, a_localizer_of os z /\ n_shows z = r.
Proof.
  intros K H. apply (a_make _ (bs "django") [LTag _ (bs "de")]); [exact K|]. unfold n_make in H.
  destruct (snd (a_new os)) as [b|]; [|discriminate].
  destruct (a_for b (bs "django") [LTag _ (bs "de")]); try discriminate. injection H as H. exact H.
Qed.
Notation n_options := (hum_options bytes a_dec TheoremsGettext.ex_root (fun s => s) (fun s => (s, false)) TheoremsGettext.ex_parent
  PoExamples.fold_ascii 5 bool unit (fun _ => false) false (fun _ _ => true) (fun s => s)).
Definition n_locales : list locale_data := [loc_de; loc_sv].
Lemma n_contract : contract bytes number bool (loaders_of bytes number bool unit (n_options h_own n_locales [bs "de"; bs "sv"])).
Proof. exact (hum_contract bytes a_dec TheoremsGettext.ex_root (fun s => s) (fun s => (s, false)) TheoremsGettext.ex_parent
    PoExamples.fold_ascii 5 bool unit (fun _ => false) false (fun _ _ => true) (fun s => s) (fun s => inl s) (fun s => s)
    false h_own n_locales [bs "de"; bs "sv"] h_own_harmless). Qed.
Example C74_german : exists z, a_localizer_of (n_options h_own n_locales [bs "de"; bs "sv"]) z /\
  n_shows z = (true, true, [(0%nat, bs "Französisch"); (1%nat, bs "Norwegian Bokmal"); (0%nat, [])]).
Proof. apply n_make_ok; [exact n_contract|]. vm_cast_no_check (eq_refl (n_make (n_options h_own n_locales [bs "de"; bs "sv"]))). Qed.
Lemma in_sv : In (bs "sv", loc_sv) shipped.
Proof. unfold shipped. do 8 (apply in_or_app; right). apply in_or_app. left. repeat (first [left; reflexivity | right]). Qed.
Example C74_hypotheses_met : chosen_locales bytes (fun s => s) n_locales [bs "de"; bs "sv"] /\
  find_locale bytes a_dec (fun s => s) n_locales (bs "de") = Some loc_de /\
  find_locale bytes a_dec (fun s => s) n_locales (bs "sv") = Some loc_sv.
Proof.
  split; [|split; reflexivity]. split.
  - intros d [<-|[<-|[]]]; [exists (bs "de"); exact in_de|exists (bs "sv"); exact in_sv].
  - intros t. split.
    + intros [<-|[<-|[]]]; [exists loc_de|exists loc_sv]; (split; [cbn [In n_locales]; tauto|reflexivity]).
    + intros (d & [<-|[<-|[]]] & <-); [left|right; left]; reflexivity.
Qed.

Print Assumptions C74_table.
Print Assumptions C74_names.
Print Assumptions C74_distinct_refuted.
Print Assumptions C74_translated_refuted.
Print Assumptions C74_english.
