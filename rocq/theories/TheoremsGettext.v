(** Property theorems C30 - C32, C50: gettext catalogs. *)
From Coq Require Import String Ascii List ZArith Bool Lia.
From Verif Require Import Base BaseProofs StrModel PoStrModel PoFileModel PoFileSpec PoParseProofs PoOutcomeProofs PoHeaderProofs PoExamples MoModel MoSpec MoProofs
  Utf8Model NumModel NumProofs CldrModel CldrBuiltin PopModel PopSpec PopProofs PopScanProofs PopSameSpec PopBuiltin PopBuiltinProofs TheoremsPop TheoremsCldr TheoremsMo LangModel LangSpec LangProofs
  GettextModel GettextSpec GettextProofs NearSpec AskedSpec AskedProofs.
Import ListNotations.
Open Scope Z_scope.

Section T.
  (** language tags, folding of letters and bound on the tag depth, as in
      GettextModel *)
  Variable tag : Type.
  Variable is_root : tag -> bool.
  Variable tag_string : tag -> bytes.
  Variable base : tag -> bytes * bool.
  Variable parent : tag -> tag.
  Variable fold : rune -> rune.
  Variable fuel : nat.
  Notation decode_po := (decode_po tag is_root tag_string base parent fold fuel).
  Notation decode_mo := (decode_mo tag is_root tag_string base parent fold fuel).
  Notation build := (build_catalog tag is_root tag_string base parent fold fuel).
  Notation lookup := (lookup tag).
  Notation lookup_plural := (lookup_plural tag).
  Notation flagof f := (header_get fold (f_header f) (bs "X-spreak-use-CLDR")).
  Notation formsof f := (header_get fold (f_header f) (bs "Plural-Forms")).

  (** ** C30 *)
  Theorem C30_catalog_of_file : forall f u lang dom c, NoDup (map key (f_messages f)) -> build f lang dom u = Ok c ->
    forall ctx id r, lookup c ctx id = r <-> answer (f_messages f) lang [] ctx id 0 r.
  Proof.
    intros f u lang dom c ND H ctx id r. destruct (build_ok _ _ _ _ _ _ _ _ _ _ _ _ H) as (p & ->).
    pose proof (lookup_answer tag (f_messages f) lang [] p ctx id ND) as A. split; [intros <-; exact A|].
    intro B. eapply answer_fun; eassumption.
  Qed.
  (** Any PO text, any MO file: the answers are those of the messages that the
      parsers return. *)
  Theorem C30_po_lookup : forall u lang dom s c, decode_po u lang dom s = Ok c ->
    exists f, parse_po_fuel (S (length s)) true s = Ok f /\
      forall ctx id r, lookup c ctx id = r <-> answer (f_messages f) lang [] ctx id 0 r.
  Proof.
    intros u lang dom s c H. unfold GettextModel.decode_po in H.
    destruct (parse_po_fuel (S (length s)) true s) as [f| | |] eqn:P; cbn [rbind] in H; try discriminate.
    exists f. split; [reflexivity|]. eapply C30_catalog_of_file; [eapply parse_po_nodup; exact P|exact H].
  Qed.
  Theorem C30_mo_lookup : forall u lang dom s c, decode_mo u lang dom s = Ok c ->
    exists f, parse_mo s = Ok f /\
      forall ctx id r, lookup c ctx id = r <-> answer (f_messages f) lang [] ctx id 0 r.
  Proof.
    intros u lang dom s c H. unfold GettextModel.decode_mo in H.
    destruct (parse_mo s) as [f| | |] eqn:P; cbn [rbind] in H; try discriminate.
    exists f. split; [reflexivity|]. eapply C30_catalog_of_file; [eapply parse_mo_nodup; exact P|exact H].
  Qed.
  (** From the text of a PO file in its line grammar to the answers. *)
  Theorem C30_po_text : forall bl ls s u lang dom c, layout bl ls -> text_of ls s -> decode_po u lang dom s = Ok c ->
    forall ctx id r, lookup c ctx id = r <-> answer (messages_of bl) lang [] ctx id 0 r.
  Proof.
    intros bl ls s u lang dom c L T H ctx id r. destruct (C30_po_lookup u lang dom s c H) as (f & P & A).
    pose proof (parse_po_nodup _ _ _ _ P) as ND.
    rewrite (layout_file true bl ls s _ L T (Nat.lt_succ_diag_r _)) in P. apply outcome_messages in P. cbn [app] in P.
    rewrite A, P. assert (F : Forall2 alike (map (seen_message true) (messages_of bl)) (messages_of bl)).
    { clear. induction (messages_of bl) as [|m ms IH]; constructor; [|exact IH].
      split; [reflexivity|]. split; [reflexivity|]. apply fuzzy_seen. }
    assert (F' : Forall2 alike (messages_of bl) (map (seen_message true) (messages_of bl))).
    { clear. induction (messages_of bl) as [|m ms IH]; constructor; [|exact IH].
      split; [reflexivity|]. split; [reflexivity|]. symmetry. apply fuzzy_seen. }
    split; intro X; eapply answer_alike; eassumption.
  Qed.
  (** From the bytes of an MO file to the answers. *)
  Theorem C30_mo_file : forall s be l u lang dom c, mo_file s be l -> NoDup (map mo_key (msgs_of l)) -> decode_mo u lang dom s = Ok c ->
    exists ms, Forall2 is_message (msgs_of l) ms /\
      forall ctx id r, lookup c ctx id = r <-> answer ms lang [] ctx id 0 r.
  Proof.
    intros s be l u lang dom c M ND H. destruct (C28_mo_read s be l M ND) as (f & P & F & _).
    destruct (C30_mo_lookup u lang dom s c H) as (f' & P' & A). rewrite P in P'. injection P' as <-. eauto.
  Qed.
  (** What is returned without error is never empty nor from a fuzzy message. *)
  Theorem C30_returned : forall u lang dom s c ctx id t, decode_po u lang dom s = Ok c -> lookup c ctx id = (t, None) ->
    t <> [] /\ exists f m, parse_po_fuel (S (length s)) true s = Ok f /\ In m (f_messages f) /\ key m = (ctx, id) /\
      ~ fuzzy m /\ In (0, t) (m_str m).
  Proof.
    intros u lang dom s c ctx id t H L. destruct (C30_po_lookup u lang dom s c H) as (f & P & A). apply A in L.
    inversion L as [t' T| | |]; subst. destruct T as (m & I & [_ Z] & K & G & N). split; [exact N|].
    exists f, m. repeat (split; [assumption|]). clear - G. induction (m_str m) as [|[j v] l IH]; cbn [str_get] in G; [discriminate|].
    destruct (Z.eqb_spec j 0) as [->|_]; [injection G as <-; now left|right; auto].
  Qed.

  (** ** C31 *)
  Theorem C31_cldr_rule : forall f u lang dom d, NoDup (map key (f_messages f)) ->
    ascii_fold fold -> ascii_text (flagof f) -> wants_cldr u (formsof f) (flagof f) ->
    depth tag is_root parent lang d -> (d <= fuel)%nat ->
    exists c rs, build f lang dom u = Ok c /\
      (nearest tag tag_string base parent rule_set cldr_built_in lang d rs \/
       cldr_built_in (bs "en") = Some rs /\ nothing tag tag_string base parent rule_set cldr_built_in lang d) /\
      forall ctx id n,
        (forall cat, rs_evaluate rs (to_carg n) = Ok cat ->
           exists i r, nth_error (rs_categories rs) i = Some cat /\ lookup_plural c ctx id n = Ok r /\
             answer (f_messages f) lang [] ctx id (Z.of_nat i) r) /\
        (rs_evaluate rs (to_carg n) = Err -> lookup_plural c ctx id n = Ok (id, Some PluralError)).
  Proof.
    intros f u lang dom d ND AF AT W D L.
    destruct (cldr_function_spec tag is_root tag_string base parent fuel lang d D L) as (rs & E & N).
    eexists _, rs. split.
    - rewrite build_cases. rewrite (proj2 (wants_iff fold f u AF AT) W). rewrite E. cbn [rbind]. reflexivity.
    - split; [exact N|]. intros ctx id n.
      assert (B : exists l, cldr_built_in l = Some rs).
      { destruct N as [N|[N _]]; [|eauto]. eapply nearest_built_in; exact N. }
      destruct B as (l & B). destruct (C10_category_of_language l rs B) as (_ & _ & _ & _ & C). split.
      + intros cat EV. destruct (C _ _ EV) as (i & CI & _ & NT). exists i.
        match goal with |- exists r, _ /\ GettextModel.lookup_plural _ (GCat _ _ ?p _) _ _ _ = _ /\ _ =>
          destruct (lookup_plural_answer tag (f_messages f) lang [] p ctx id n (Z.of_nat i) ND) as (r & R & A);
            [cbv beta; rewrite CI; reflexivity|] end.
        exists r. auto.
      + intro EV. unfold GettextModel.lookup_plural. cbn [g_plural]. unfold cldr_plural_index. rewrite EV. reflexivity.
  Qed.
  Theorem C31_header_rule : forall f u lang dom np e, NoDup (map key (f_messages f)) ->
    ascii_fold fold -> ascii_text (flagof f) -> ~ wants_cldr u (formsof f) (flagof f) ->
    PopSpec.header_text (formsof f) np e -> plain e = true ->
    exists c, build f lang dom u = Ok c /\
      (forall ctx id k z v, Z.abs z <= 2 ^ 53 -> conds01 e (Z.abs z) -> csem e (Z.abs z) = Some v ->
         exists r, lookup_plural c ctx id (NInt k z) = Ok r /\ answer (f_messages f) lang [] ctx id v r) /\
      (forall ctx id, lookup_plural c ctx id NNil = Ok (id, Some PluralError)).
  Proof.
    intros f u lang dom np e ND AF AT W H PL. destruct (C06_recognition_partial (formsof f) np e H PL) as (r & P & _ & R).
    assert (WF : u || is_nil (formsof f) || equal_fold fold (flagof f) (bs "true") = false).
    { destruct (_ || _ || _) eqn:X; [|reflexivity]. apply (wants_iff fold f u AF AT) in X. contradiction. }
    eexists. split; [rewrite build_cases, WF, P; cbn [rbind]; reflexivity|]. split; [|reflexivity].
    intros ctx id k z v Z C S.
    match goal with |- exists r, GettextModel.lookup_plural _ (GCat _ _ ?p _) _ _ _ = _ /\ _ =>
      destruct (lookup_plural_answer tag (f_messages f) lang [] p ctx id (NInt k z) v ND) as (x & X & A) end.
    - unfold rule_function. cbn [to_arg]. rewrite (C07_integer_argument_partial r k z Z). f_equal. now apply R.
    - eauto.
  Qed.
  (** Every header and every number: the form is the value of a rule for the
      integer that the number rounds to.  The rule is that of the header, unless
      the header differs from one of the recognition table by parentheses only;
      then it is that one's (C06). *)
  Theorem C31_header_exactly : forall f u lang dom np e, NoDup (map key (f_messages f)) ->
    ascii_fold fold -> ascii_text (flagof f) -> ~ wants_cldr u (formsof f) (flagof f) ->
    PopSpec.header_text (formsof f) np e ->
    exists c r, build f lang dom u = Ok c /\ r_nplurals r = np /\
      ((forall n v, conds01 e n -> csem e n = Some v -> r_form r n = v) \/
       exists k e', In (k, r) raw_table /\ PopSpec.header_text (bs k) np e' /\ symbols e' = symbols e /\
         forall n, csem e' n = Some (r_form r n)) /\
      (forall ctx id n, holdable n -> exists a x, asked n a /\ (forall b, asked n b -> b = a) /\
         lookup_plural c ctx id n = Ok x /\ answer (f_messages f) lang [] ctx id (r_form r a) x) /\
      (forall ctx id, lookup_plural c ctx id NNil = Ok (id, Some PluralError)).
  Proof.
    intros f u lang dom np e ND AF AT W H. destruct (C06_exactly (formsof f) np e H) as (r & P & N & R).
    assert (WF : u || is_nil (formsof f) || equal_fold fold (flagof f) (bs "true") = false).
    { destruct (_ || _ || _) eqn:X; [|reflexivity]. apply (wants_iff fold f u AF AT) in X. contradiction. }
    eexists. exists r. split; [rewrite build_cases, WF, P; cbn [rbind]; reflexivity|]. split; [exact N|]. split; [exact R|].
    split; [|reflexivity]. intros ctx id n HN. destruct (asked_total n HN) as (a & A).
    match goal with |- exists a x, _ /\ _ /\ GettextModel.lookup_plural _ (GCat _ _ ?p _) _ _ _ = _ /\ _ =>
      destruct (lookup_plural_answer tag (f_messages f) lang [] p ctx id n (r_form r a) ND) as (x & X & AN) end.
    - now apply asked_rule.
    - exists a, x. split; [exact A|]. split; [|auto]. intros b B. exact (asked_unique _ _ _ B A).
  Qed.
  (** For the integers up to 2^53 that is the absolute value. *)
  Theorem C31_asked_integer : forall k z a, kmin k <= z <= kmax k -> Z.abs z <= 2 ^ 53 -> (asked (NInt k z) a <-> a = Z.abs z).
  Proof. exact asked_small. Qed.
  (** The header is rejected exactly if it is not of the grammar. *)
  Theorem C31_bad_header : forall f u lang dom, ascii_fold fold -> ascii_text (flagof f) ->
    ~ wants_cldr u (formsof f) (flagof f) -> PopScanProofs.clean (formsof f) ->
    (build f lang dom u = Err <-> ~ exists ls np e, lays ls (formsof f) /\ header ls np e).
  Proof.
    intros f u lang dom AF AT W C.
    assert (WF : u || is_nil (formsof f) || equal_fold fold (flagof f) (bs "true") = false).
    { destruct (_ || _ || _) eqn:X; [|reflexivity]. apply (wants_iff fold f u AF AT) in X. contradiction. }
    rewrite build_cases, WF, <- (C04_accepts_exactly _ C). unfold parse_rule.
    destruct (parse_forms_fin (formsof f)) as [F1 F2].
    destruct (parse_forms (formsof f)) as [x| | |]; cbn [rbind]; try congruence.
    - destruct (built_in_raw _); (split; [discriminate|]; intro N; exfalso; apply N; eauto).
    - split; [|reflexivity]. intros _ (y & Y). discriminate.
  Qed.

  (** ** C32 *)
  (** Messages() panics for every catalog with a message. *)
  Theorem C32_gettext_panic : forall f u lang dom c, NoDup (map key (f_messages f)) -> build f lang dom u = Ok c ->
    (exists ctx id, has_message (f_messages f) ctx id) -> messages tag c = Panic.
  Proof.
    intros f u lang dom c ND H M. destruct (build_ok _ _ _ _ _ _ _ _ _ _ _ _ H) as (p & ->). now apply messages_panic.
  Qed.
End T.

(** Tags as strings whose parent drops the first letter. *)
Definition ex_root (s : bytes) : bool := match s with [] => true | _ => false end.
Definition ex_parent (s : bytes) : bytes := match s with [] => [] | _ :: s' => s' end.
Notation ex_decode := (decode_po bytes ex_root (fun s => s) (fun s => (s, false)) ex_parent fold_ascii 5).
Notation ex_decode_mo := (decode_mo bytes ex_root (fun s => s) (fun s => (s, false)) ex_parent fold_ascii 5).
Definition gt_file (hdr : list string) : list string :=
  ["msgid """""; "msgstr """""]%string ++ hdr ++
  [""; "msgctxt ""menu"""; "msgid ""file"""; "msgid_plural ""files"""; "msgstr[0] ""plik"""; "msgstr[1] ""pliki"""; "msgstr[2] """"";
   ""; "#, fuzzy"; "msgid ""a"""; "msgstr ""b"""; ""; "msgid ""c"""; "msgstr ""d"""]%string.
Definition pl_header : list string :=
  ["""Plural-Forms: nplurals=3; plural=(n==1 ? 0 : n%10>=2 && n%10<=4 && (n%100<10 || n%100>=20) ? 1 : 2);\n"""]%string.
(** evaluates what is observed of a catalog, not the catalog *)
Lemma ok_ex : forall A B (r : res A) (f : A -> B) v, match r with Ok x => Some (f x) | _ => None end = Some v ->
  exists x, r = Ok x /\ f x = v.
Proof. intros A B [x| | |] f v H; try discriminate. injection H as H. eauto. Qed.
Example C30_example : exists c, ex_decode false (bs "pl") (bs "app") (text (gt_file pl_header)) = Ok c /\
  map (fun k => lookup bytes c (fst k) (snd k)) [(bs "menu", bs "file"); ([], bs "c"); ([], bs "a"); (bs "x", bs "c")] =
  [(bs "plik", None); (bs "d", None); (bs "a", Some (MissingMessage (bs "pl") [] [] (bs "a")));
   (bs "c", Some (MissingContext (bs "pl") [] (bs "x")))].
Proof. apply ok_ex. vm_compute. reflexivity. Qed.
Example C30_mo_example : exists c, ex_decode_mo false (bs "de") (bs "app") (ex_mo true) = Ok c /\
  lookup bytes c [] (bs "yes") = (bs "ja", None).
Proof. apply (ok_ex _ _ _ (fun c => lookup bytes c [] (bs "yes"))). vm_compute. reflexivity. Qed.
(** The header's rule, with the missing third form; then the rule of the
    language (with four forms) on request of the decoder or of the file. *)
Definition answers (u : bool) (hdr : list string) : list (res (bytes * option (lookup_error bytes))) :=
  match ex_decode u (bs "pl") (bs "app") (text (gt_file hdr)) with
  | Ok c => map (fun n => lookup_plural bytes c (bs "menu") (bs "file") n) [NInt Kint 1; NInt Kuint8 22; NInt Kint 12; NFloat false (bs "15") 1]
  | _ => []
  end.
Definition no_form (i : Z) : res (bytes * option (lookup_error bytes)) :=
  Ok (bs "file", Some (MissingTranslation (bs "pl") [] (bs "menu") (bs "file") i)).
Example C31_example :
  answers false pl_header = [Ok (bs "plik", None); Ok (bs "pliki", None); no_form 2; Ok (bs "pliki", None)] /\
  answers true pl_header = [Ok (bs "plik", None); Ok (bs "pliki", None); no_form 2; no_form 3] /\
  answers false (pl_header ++ ["""X-Spreak-Use-CLDR: True\n"""%string]) = answers true pl_header /\
  answers false ["""Language: pl\n"""%string] = answers true pl_header.
Proof. vm_compute. auto. Qed.
(** The floats 2.5 and 3.5 and the integer 2^53+1 round to an even number. *)
Example C31_asked_example : exists a b c, asked (NFloat true (bs "25") 1) a /\ asked (NFloat false (bs "35") 1) b /\ asked (NInt Kuint64 (2 ^ 53 + 1)) c /\
  (a, b, c) = (2, 4, 2 ^ 53).
Proof.
  exists 2, 4, (2 ^ 53).
  assert (G : forall n a, holdable n -> (exists g, to_arg n = Some g /\ f64_to_int64 (abs_round g) = a) -> asked n a).
  { intros n a H (g & T & E). destruct (rule_asked n H) as (b & B & V). destruct (V (Rule 1 (fun x => x))) as (g' & T' & V'). cbn [r_form evaluate] in V'. replace a with b by congruence. exact B. }
  split; [|split; [|split; [|reflexivity]]]; apply G; try (split; [repeat constructor|vm_compute; reflexivity]); try (eexists; split; [vm_compute; reflexivity|vm_compute; reflexivity]).
  split; vm_compute; discriminate.
Qed.
(** The property is false: the file has a text for the form that its header
    gives for 100, but another form is asked for. *)
Theorem C31_header_refuted : exists s f c np e v t, parse_po_fuel (S (length s)) true s = Ok f /\ ex_decode false (bs "pl") (bs "app") s = Ok c /\
  PopSpec.header_text (header_get fold_ascii (f_header f) (bs "Plural-Forms")) np e /\ logical_conds e = true /\ csem e 100 = Some v /\
  translation (f_messages f) (bs "menu") (bs "file") v t /\ lookup_plural bytes c (bs "menu") (bs "file") (NInt Kint 100) <> Ok (t, None).
Proof.
  set (a := NCond (NBin BEq NOp (NVal 1)) (NVal 0)
    (NCond (NBin BOr (NBin BEq NOp (NVal 0))
       (NBin BAnd (NBin BNe NOp (NBin BAnd (NVal 1) (NBin BGe (NBin BRem NOp (NVal 100)) (NVal 1))))
          (NBin BLe (NBin BRem NOp (NVal 100)) (NVal 19)))) (NVal 1) (NVal 2))).
  destruct (witness_header (bs collision) (Forms 3 a)) as [e [H C]]; [vm_compute; reflexivity | vm_compute; reflexivity |].
  set (s := text (gt_file [("""Plural-Forms: " ++ collision ++ "\n""")%string])).
  destruct (ok_ex _ _ (ex_decode false (bs "pl") (bs "app") s) (fun c => lookup_plural bytes c (bs "menu") (bs "file") (NInt Kint 100)) (no_form 2)) as (c & D & L); [vm_compute; reflexivity|].
  destruct (ok_ex _ _ (parse_po_fuel (S (length s)) true s) (fun f => (header_get fold_ascii (f_header f) (bs "Plural-Forms"), hd_error (f_messages f)))
    (bs collision, Some (Msg (Some new_comment) (bs "menu") (bs "file") (bs "files") [(0, bs "plik"); (1, bs "pliki"); (2, [])]))) as (f & P & Q); [vm_compute; reflexivity|].
  pose proof (f_equal fst Q) as Q1. pose proof (f_equal snd Q) as Q2. cbn [fst snd] in Q1, Q2. exists s, f, c, 3, e, 1, (bs "pliki"). split; [exact P|]. split; [exact D|]. rewrite Q1. split; [exact H|].
  split; [destruct (ceq_logical _ _ C) as [_ X]; rewrite <- X; reflexivity|]. split; [destruct (ceq_sem _ _ C 100) as [X _]; rewrite <- X; vm_compute; reflexivity|].
  split; [|rewrite L; discriminate].
  destruct (f_messages f) as [|m ms]; [discriminate|]. assert (M : m = Msg (Some new_comment) (bs "menu") (bs "file") (bs "files") [(0, bs "plik"); (1, bs "pliki"); (2, [])]) by (cbn [hd_error] in Q2; congruence).
  rewrite M. eexists. split; [now left|]. split; [|repeat split; discriminate].
  split; [discriminate|]. intros (k & K & I). injection K as <-. destruct I.
Qed.
Example C31_bad : ex_decode false (bs "pl") (bs "app") (text (gt_file ["""Plural-Forms: nplurals=2; plural=n+1;\n"""%string])) = Err /\
  exists c, ex_decode true (bs "pl") (bs "app") (text (gt_file ["""Plural-Forms: nplurals=2; plural=n+1;\n"""%string])) = Ok c /\ g_lang c = bs "pl".
Proof. split; [vm_compute; reflexivity|]. apply ok_ex. vm_compute. reflexivity. Qed.

Theorem C32_gettext_refuted : exists s c, ex_decode false (bs "pl") (bs "app") s = Ok c /\
  (lookup bytes c [] (bs "c"), messages bytes c) = ((bs "d", None), Panic).
Proof.
  exists (text (gt_file pl_header)). apply (ok_ex _ _ _ (fun c => (lookup bytes c [] (bs "c"), messages bytes c))). vm_compute. reflexivity.
Qed.

(** ** C50.  The answers name language, context, message and form as asked
    (C30); the domain handed to the decoder is never named. *)
Theorem C50_domain_refuted : exists s dom c, dom <> [] /\ ex_decode false (bs "pl") dom s = Ok c /\
  (lookup bytes c [] (bs "a"), g_domain c) = ((bs "a", Some (MissingMessage (bs "pl") [] [] (bs "a"))), []).
Proof.
  exists (text (gt_file pl_header)), (bs "app").
  destruct (ok_ex _ _ (ex_decode false (bs "pl") (bs "app") (text (gt_file pl_header)))
    (fun c => (lookup bytes c [] (bs "a"), g_domain c)) ((bs "a", Some (MissingMessage (bs "pl") [] [] (bs "a"))), [])) as (c & E & F).
  - vm_compute. reflexivity.
  - exists c. split; [discriminate|]. auto.
Qed.
Theorem C50_gettext_names_partial : forall tag is_root tag_string base parent fold fuel f lang dom u c ctx id e,
  NoDup (map key (f_messages f)) ->
  build_catalog tag is_root tag_string base parent fold fuel f lang dom u = Ok c -> snd (lookup tag c ctx id) = Some e ->
  exists dom', e = MissingContext lang dom' ctx \/ e = MissingMessage lang dom' ctx id \/ e = MissingTranslation lang dom' ctx id 0.
Proof.
  intros tag is_root tag_string base parent fold fuel f lang dom u c ctx id e ND H E. exists [].
  pose proof (proj1 (C30_catalog_of_file _ _ _ _ _ _ _ f u lang dom c ND H ctx id _) eq_refl) as A.
  destruct (lookup tag c ctx id) as [t o]. cbn [snd] in E. subst o. inversion A; subst; auto.
Qed.

Print Assumptions C30_catalog_of_file.
Print Assumptions C30_po_lookup.
Print Assumptions C30_mo_lookup.
Print Assumptions C30_po_text.
Print Assumptions C30_mo_file.
Print Assumptions C30_returned.
Print Assumptions C31_cldr_rule.
Print Assumptions C31_header_rule.
Print Assumptions C31_header_exactly.
Print Assumptions C31_asked_integer.
Print Assumptions C31_header_refuted.
Print Assumptions C31_bad_header.
Print Assumptions C32_gettext_panic.
Print Assumptions C32_gettext_refuted.
Print Assumptions C50_domain_refuted.
Print Assumptions C50_gettext_names_partial.
