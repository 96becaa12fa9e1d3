(** * C68, C71, C74: what humanizers ask for *)
From Coq Require Import String Ascii List ZArith Bool Permutation.
From Verif Require Import Base BaseProofs Utf8Model NumModel LocaleModel BundleModel LocaleSpec LocaleProofs BundleSpec BundleProofs
  BundleRunProofs BundleTopProofs TheoremsLocale PoFileModel PoFileSpec GettextModel GettextSpec GettextProofs AppModel AppProofs
  DfmtModel HumLocModel HumLocSpec HumLocProofs HumData2 HumData9 HumCheck TheoremsApp TheoremsHumLoc LangNameModel TheoremsLangName.
Import ListNotations.
Open Scope Z_scope.

Section Shown.
  (** external parts, see TheoremsHumLoc *)
  Variable tag : Type.
  Variable tag_eq_dec : forall a b : tag, {a = b} + {a <> b}.
  Variable und : tag.
  Variable is_root : tag -> bool.
  Variable tag_string : tag -> bytes.
  Variable base : tag -> bytes * bool.
  Variable parent : tag -> tag.
  Variable fold : rune -> rune.
  Variable fuel : nat.
  Variable E C : Type.
  Variable of_lookup : lookup_error tag -> E.
  Variable decode_failed : E.
  Variable not_found : tag -> bytes -> E.
  Variable must_parse : bytes -> tag.
  Variable parse : bytes -> tag + E.
  Variable parse_accept : bytes -> option (list tag).
  Variable trim_space : bytes -> bytes.
  Variable plural_for : tag -> plural_func number E.
  Variable no_string opt_error : E.
  Variable default_printer : printer tag number.
  Variable default_matcher : matcher_builder tag.
  Variable iter : forall A, list (event tag E) -> list A -> list A.
  Hypothesis iter_perm : forall A past (l : list A), Permutation (iter A past l) l.

  Notation opt := (opt tag number E C).
  Notation name := (lang_tag tag E parse trim_space no_string).
  Notation new_bundle := (new_bundle tag tag_eq_dec und number E C parse trim_space plural_for iter
                            no_string opt_error default_printer default_matcher).
  Notation localizer_of := (localizer_of tag tag_eq_dec und number E C parse parse_accept trim_space plural_for
                              no_string opt_error default_printer default_matcher iter).
  Notation lookup_singular := (LocaleModel.lookup_singular tag tag_eq_dec number E C).
  Notation printer_of os := (setting tag number E C (sets_printer tag number E C) default_printer os).
  Notation hum_options := (hum_options tag tag_eq_dec is_root tag_string base parent fold fuel E C of_lookup decode_failed not_found must_parse).
  Notation find_locale := (find_locale tag tag_eq_dec must_parse).
  Notation z_locale := (z_locale tag number E C).
  Notation z_bundle := (z_bundle tag number E C).
  Notation z_domain := (z_domain tag number E C).
  Notation l_lang := (l_lang tag number E).
  Notation english := (must_parse (bs "en")).
  Notation harmless := (harmless tag E C parse trim_space no_string).
  Notation chosen_locales := (chosen_locales tag must_parse).
  Notation by_code := (language_name_by_code tag tag_eq_dec number E C).
  Notation new_localizer := (LocaleModel.new_localizer tag tag_eq_dec number E C parse_accept).


  (** humanize/humanizer.go:166-174 (CreateHumanizer) makes the localizer with
      NewLocalizer.  Its domain is that of the shipped files: *)
  Theorem C68_domain : forall own ls langs log b lg z, harmless own ->
    new_bundle (hum_options own ls langs) = (log, inl b) -> new_localizer b lg = Ok z ->
    localizer_of (hum_options own ls langs) z /\ z_domain z = bs "django".
  Proof.
    intros own ls langs log b lg z H B Z. unfold LocaleModel.new_localizer in Z.
    assert (K : contract tag number E (BundleSpec.loaders_of tag number E C (hum_options own ls langs))).
    { eapply hum_contract. exact H. }
    destruct (localizer_from_tag tag tag_eq_dec number E C parse_accept _ _ _ _ Z) as (t & Q).
    assert (ZB : z_bundle z = b /\ z_domain z = b_default_domain tag number E C b).
    { rewrite Q. unfold new_localizer_from_tag. destruct t as [t|]; [destruct (loc_get _ _ _ _ _ t)|]; split; reflexivity. }
    destruct ZB as [ZB ZD]. split.
    - split; [exact K|]. exists log, (b_default_domain tag number E C b), lg. rewrite ZB. split; assumption.
    - rewrite ZD. destruct (new_bundle_made tag tag_eq_dec und number E C parse trim_space plural_for iter
                no_string opt_error default_printer default_matcher iter_perm _ _ _ K B) as (_ & rs & M).
      rewrite (m_domain _ _ _ _ _ _ _ _ _ _ _ _ _ _ _ _ M). unfold setting, HumLocModel.hum_options. rewrite last_set_app. reflexivity.
  Qed.

  (** The requests of a humanizer (date.go, dateformat.go, numbers.go and
      others: Get, Getf, PGet, PGetf) show the translations of the file ... *)
  Theorem C68_asked : forall own ls langs log b lg z d t, harmless own -> chosen_locales ls langs ->
    new_bundle (hum_options own ls langs) = (log, inl b) -> new_localizer b lg = Ok z ->
    l_lang (z_locale z) = t -> t <> english -> find_locale ls t = Some d ->
    exists dir po f, ships dir d po f /\
      (forall id txt vars, translation (f_messages f) [] id 0 txt ->
         Get tag tag_eq_dec number E C z id = ([], printer_of (hum_options own ls langs) t txt []) /\
         Getf tag tag_eq_dec number E C z id vars = ([], printer_of (hum_options own ls langs) t txt vars)) /\
      (forall ctx id txt vars, translation (f_messages f) ctx id 0 txt ->
         PGet tag tag_eq_dec number E C z ctx id = ([], printer_of (hum_options own ls langs) t txt []) /\
         PGetf tag tag_eq_dec number E C z ctx id vars = ([], printer_of (hum_options own ls langs) t txt vars)).
  Proof.
    intros own ls langs log b lg z d t H CH B Z L S F. destruct (C68_domain own ls langs log b lg z H B Z) as [LO DM].
    destruct (C68_shown tag tag_eq_dec und is_root tag_string base parent fold fuel E C of_lookup decode_failed not_found must_parse
      parse parse_accept trim_space plural_for no_string opt_error default_printer default_matcher iter iter_perm
      own ls langs z d t H CH LO L S F) as (dir & po & f & SH & TR).
    exists dir, po, f. split; [exact SH|].
    split; [intros id txt vars T|intros ctx id txt vars T]; split; unfold Get, Getf, PGet, PGetf, NoCtx; rewrite DM, (TR _ _ _ _ T); reflexivity.
  Qed.
  (** ... and those with a number (NGetf, NPGetf) too, but for the gaps of the
      Hebrew file (C68_plural_shown_refuted). *)
  Theorem C68_asked_plural_partial : forall own ls langs log b lg z d t, harmless own -> chosen_locales ls langs ->
    new_bundle (hum_options own ls langs) = (log, inl b) -> new_localizer b lg = Ok z ->
    l_lang (z_locale z) = t -> t <> english -> find_locale ls t = Some d ->
    exists dir po f, ships dir d po f /\ forall ctx sg pl n vars txt0,
      n <> NNil -> counted (f_messages f) ctx sg -> ~ (dir = bs "he" /\ In (ctx, sg) hebrew_gaps) ->
      translation (f_messages f) ctx sg 0 txt0 ->
      exists i txt, translation (f_messages f) ctx sg i txt /\
        (ctx = [] -> NGetf tag number E C z sg pl n vars = ([], printer_of (hum_options own ls langs) t txt vars)) /\
        NPGetf tag number E C z ctx sg pl n vars = ([], printer_of (hum_options own ls langs) t txt vars).
  Proof.
    intros own ls langs log b lg z d t H CH B Z L S F. destruct (C68_domain own ls langs log b lg z H B Z) as [LO DM].
    destruct (C68_plural_shown_partial tag tag_eq_dec und is_root tag_string base parent fold fuel E C of_lookup decode_failed not_found must_parse
      parse parse_accept trim_space plural_for no_string opt_error default_printer default_matcher iter iter_perm
      own ls langs z d t H CH LO L S F) as (dir & po & f & SH & TR).
    exists dir, po, f. split; [exact SH|]. intros ctx sg pl n vars txt0 NN CT NH T0.
    destruct (TR ctx sg pl n vars txt0 NN CT NH T0) as (i & txt & T & LP). exists i, txt. split; [exact T|].
    split; [intros ->|]; unfold NGetf, NPGetf, NoCtx; rewrite DM, LP; reflexivity.
  Qed.
  (** The names of languages (C74_names) as a humanizer of CreateHumanizer
      shows them. *)
  Theorem C74_asked : forall own ls langs log b lg z d t, harmless own -> chosen_locales ls langs ->
    new_bundle (hum_options own ls langs) = (log, inl b) -> new_localizer b lg = Ok z ->
    l_lang (z_locale z) = t -> t <> english -> find_locale ls t = Some d ->
    exists dir po f, ships dir d po f /\
      (forall code, ~ In code (map fst locale_infos) -> by_code z code = ([], [])) /\
      (forall code i txt, In (code, i) locale_infos -> translation (f_messages f) [] (li_name i) 0 txt ->
         by_code z code = ([], printer_of (hum_options own ls langs) t txt [])) /\
      (forall code i, In (code, i) locale_infos -> (forall txt, ~ translation (f_messages f) [] (li_name i) 0 txt) ->
         snd (by_code z code) = printer_of (hum_options own ls langs) english (li_name i) []).
  Proof.
    intros own ls langs log b lg z d t H CH B Z L S F. destruct (C68_domain own ls langs log b lg z H B Z) as [LO DM].
    exact (C74_names tag tag_eq_dec und is_root tag_string base parent fold fuel E C of_lookup decode_failed not_found must_parse
      parse parse_accept trim_space plural_for no_string opt_error default_printer default_matcher iter iter_perm
      own ls langs z d t H CH LO DM L S F).
  Qed.
End Shown.

(** A humanizer for German as CreateHumanizer makes it. *)
Definition ask_make (os : list (opt bytes number bool unit)) :=
  match snd (a_new os) with
  | inl b =>
      match new_localizer bytes a_dec number bool unit (fun _ => None) b [LTag _ (bs "de")] with
      | Ok z => Some (beq (l_lang _ _ _ (z_locale _ _ _ _ z)) (bs "de"), snd (Get bytes a_dec number bool unit z (bs "today")))
      | _ => None
      end
  | inr _ => None
  end.
Example C68_asked_example : ask_make (n_options h_own n_locales [bs "de"; bs "sv"]) = Some (true, bs "heute").
Proof. vm_cast_no_check (eq_refl (ask_make (n_options h_own n_locales [bs "de"; bs "sv"]))). Qed.

(** The formats of a humanizer are those of the package its texts come from:
    of several packages for one language the last one gives both. *)
Theorem C71_package : forall (tag : Type) (tag_eq_dec : forall a b : tag, {a = b} + {a <> b}) (tag_eqb : tag -> tag -> bool) (must_parse : bytes -> tag) ls t,
  (forall a b, tag_eqb a b = true <-> a = b) ->
  let formats := humanizer_format tag tag_eqb (map (fun d => (must_parse (ld_lang d), ld_format d)) ls) t in
  (forall d, find_locale tag tag_eq_dec must_parse ls t = Some d ->
     formats = set_defaults (match ld_format d with Some f => f | None => fallback end)) /\
  (find_locale tag tag_eq_dec must_parse ls t = None -> formats = fallback).
Proof.
  intros tag tag_eq_dec tag_eqb must_parse ls t EQ formats. subst formats. unfold humanizer_format.
  assert (X : last_entry tag tag_eqb (collect tag (map (fun d => (must_parse (ld_lang d), ld_format d)) ls)) t =
    match find_locale tag tag_eq_dec must_parse ls t with
    | Some d => Some (set_defaults (match ld_format d with Some f => f | None => fallback end))
    | None => None
    end).
  { unfold collect. induction ls as [|x ls IH]; [reflexivity|]. cbn [map last_entry find_locale fst snd]. rewrite IH.
    destruct (find_locale tag tag_eq_dec must_parse ls t); [reflexivity|].
    destruct (tag_eq_dec (must_parse (ld_lang x)) t) as [Q|Q].
    - rewrite (proj2 (EQ _ _) Q). reflexivity.
    - destruct (tag_eqb (must_parse (ld_lang x)) t) eqn:B; [|reflexivity]. destruct (Q (proj1 (EQ _ _) B)). }
  rewrite X. split; [intros d ->|intros ->]; reflexivity.
Qed.
(** Two packages for one language: *)
Example C71_package_example :
  let other := LD (ld_lang loc_sv) (ld_fs loc_de) (ld_format loc_de) in
  find_locale bytes a_dec (fun s => s) [loc_sv; other] (bs "sv") = Some other /\
  humanizer_format bytes beq (map (fun d => (ld_lang d, ld_format d)) [loc_sv; other]) (bs "sv") =
    set_defaults (match ld_format loc_de with Some f => f | None => fallback end) /\
  ld_format loc_sv <> ld_format loc_de.
Proof. split; [reflexivity|]. split; [vm_compute; reflexivity|vm_compute; discriminate]. Qed.

Print Assumptions C68_domain.
Print Assumptions C68_asked.
Print Assumptions C68_asked_plural_partial.
Print Assumptions C71_package.
Print Assumptions C74_asked.
