(** Property theorems C32 - C34, C50, C51: JSON catalogs and decoders. *)
From Coq Require Import String Ascii List ZArith Bool Lia Permutation.
From Verif Require Import Base BaseProofs StrModel PoStrModel PoStrSpec PoFileModel PoFileSpec PoExamples PoParseProofs PoOutcomeProofs MoModel MoProofs F64Model
  Utf8Model NumModel CldrModel CldrBuiltin PopModel PopProofs LangModel LangSpec LangProofs GettextModel GettextSpec GettextProofs
  TheoremsPop TheoremsCldr TheoremsPoStr TheoremsPoFile TheoremsMo TheoremsGettext
  JsonModel JsonSpec JsonProofs JsonRoundProofs JsonHeapModel JsonHeapSpec JsonHeapProofs.
Import ListNotations.
Open Scope Z_scope.

Lemma new_operands_fin : forall a, fin (new_operands a).
Proof.
  assert (S : forall s, fin (new_operands_string s)).
  { intro s. unfold new_operands_string.
    assert (PI : forall x, fin (parse_int_err x)) by (intro x; unfold parse_int_err; destruct (parse_int x); split; discriminate).
    assert (PF : forall x, fin (parse_float x)).
    { intro x. unfold parse_float. destruct (read_float x) as [[[[? ?] ?] ?]|]; [|split; discriminate]. cbv zeta.
      destruct (if _ <=? _ then _ else _); split; discriminate. }
    assert (FO : forall x, fin (fraction_ops x)).
    { intro x. unfold fraction_ops. destruct (index_byte _ x); [|split; discriminate].
      destruct (skipn _ x) as [|y l]; cbv zeta; cbn [rbind].
      - destruct (trim_zeros []); cbn [rbind]; [split; discriminate|]. pose proof (PI (a :: l)) as [A B]. destruct (parse_int_err (a :: l)); cbn; split; congruence.
      - pose proof (PI (y :: l)) as [A B]. destruct (parse_int_err (y :: l)); cbn [rbind]; try (split; congruence).
        destruct (trim_zeros (y :: l)) as [|z k]; cbn [rbind]; [split; discriminate|].
        pose proof (PI (z :: k)) as [C D]. destruct (parse_int_err (z :: k)); cbn; split; congruence. }
    match goal with |- fin (rbind ?x _) => assert (X : fin x); [|destruct X as [X1 X2]; destruct x as [cr| | |]; cbn [rbind]; try (split; congruence)] end.
    - destruct (index_byte _ s); [|split; discriminate]. pose proof (PI (skipn (Datatypes.S n) s)) as [A B].
      destruct (parse_int_err _); cbn; split; congruence.
    - destruct (PF (snd cr)) as [A B]. destruct (parse_float (snd cr)) as [src| | |]; cbn [rbind]; try (split; congruence).
      destruct (FO (snd cr)) as [C D]. destruct (fraction_ops (snd cr)) as [[[[? ?] ?] ?]| | |]; cbn; split; congruence. }
  intros [z|k z|n d p|s|]; cbn [new_operands]; try apply S; split; discriminate.
Qed.
Lemma rs_evaluate_fin : forall r a, fin (rs_evaluate r a).
Proof.
  intros r a. unfold rs_evaluate. destruct (new_operands_fin a) as [A B]. destruct (new_operands a); cbn; split; congruence.
Qed.

Section T.
  Variable tag : Type.
  Notation new_json_with := (new_json_with tag).
  Notation j_lookup := (j_lookup tag).
  Notation j_lookup_plural := (j_lookup_plural tag).

  (** ** C33 *)
  (** Building fails exactly if some member is not acceptable; it never panics. *)
  Theorem C33_accepted : forall order lang dom rs l,
    ((exists c, new_json_with order lang dom rs l = Ok c) <-> Forall valid l) /\
    (new_json_with order lang dom rs l = Err <-> ~ Forall valid l).
  Proof.
    intros order lang dom rs l.
    assert (V : forallb validb l = true <-> Forall valid l).
    { rewrite forallb_forall, Forall_forall. split; intros H e I; apply valid_iff; auto. }
    unfold JsonModel.new_json_with.
    destruct (set_messages_valid tag order l (new_json tag lang dom rs)) as [(c & E & F)|[E F]]; rewrite E.
    - apply V in F. split; split; intro H; [exact F|eauto|discriminate|contradiction].
    - assert (N : ~ Forall valid l) by (intro H; apply V in H; congruence).
      split; split; intro H; [destruct H; discriminate|contradiction|exact N|reflexivity].
  Qed.
  (** Every lookup answers what the messages say. *)
  Theorem C33_lookup : forall order lang dom rs l c, wf_messages l -> every_category order ->
    new_json_with order lang dom rs l = Ok c -> forall ctx id,
    (forall r, j_lookup c ctx id = r <-> j_answer l (rs_categories rs) lang dom ctx id Other r) /\
    (forall n cat, rs_evaluate rs (to_carg n) = Ok cat ->
       exists r, j_lookup_plural c ctx id n = Ok r /\ j_answer l (rs_categories rs) lang dom ctx id cat r) /\
    (forall n, rs_evaluate rs (to_carg n) = Err -> j_lookup_plural c ctx id n = Ok (id, Some PluralError)).
  Proof.
    intros order lang dom rs l c WF EO H ctx id.
    pose proof (j_result_answer tag order lang dom rs l c WF EO H ctx id) as A.
    assert (R : jc_rules c = rs) by (destruct (set_messages_get tag _ _ _ _ H) as (_ & _ & R & _); exact R).
    split; [|split].
    - intro r. change (j_lookup c ctx id) with (j_result tag c ctx id Other). split; [intros <-; apply A|].
      intro B. eapply j_answer_fun; [apply WF|apply A|exact B].
    - intros n cat E. exists (j_result tag c ctx id cat). split; [|apply A]. unfold JsonModel.j_lookup_plural, j_result. rewrite R, E.
      destruct (j_translation tag c ctx id cat); reflexivity.
    - intros n E. unfold JsonModel.j_lookup_plural. rewrite R, E. reflexivity.
  Qed.
  (** The iteration orders do not matter. *)
  Theorem C33_order : forall order order' lang dom rs l l', wf_messages l -> every_category order -> every_category order' -> Permutation l l' ->
    match new_json_with order lang dom rs l, new_json_with order' lang dom rs l' with
    | Ok c, Ok c' => (forall ctx id, j_lookup c ctx id = j_lookup c' ctx id) /\
                     (forall ctx id n, j_lookup_plural c ctx id n = j_lookup_plural c' ctx id n)
    | Err, Err => True
    | _, _ => False
    end.
  Proof.
    intros order order' lang dom rs l l' WF EO EO' P.
    assert (WF' : wf_messages l').
    { destruct WF as [A B]. split; [eapply Permutation_NoDup; [apply Permutation_map; exact P|exact A]|eapply Permutation_Forall; eauto]. }
    destruct (C33_accepted order lang dom rs l) as [A1 A2], (C33_accepted order' lang dom rs l') as [B1 B2].
    assert (FV : Forall valid l <-> Forall valid l') by (split; apply Permutation_Forall; [exact P|now symmetry]).
    destruct (new_json_with order lang dom rs l) as [c| | |] eqn:E.
    - assert (V : Forall valid l') by (apply FV, A1; eauto). apply B1 in V as (c' & E'). rewrite E'.
      assert (Q : forall ctx id cat, j_result tag c ctx id cat = j_result tag c' ctx id cat).
      { intros ctx id cat. eapply j_answer_fun; [apply WF'| |apply (j_result_answer tag order' lang dom rs l' c' WF' EO' E')].
        eapply j_answer_perm; [exact P|]. apply (j_result_answer tag order lang dom rs l c WF EO E). }
      split; [intros; apply Q|]. intros ctx id n. unfold JsonModel.j_lookup_plural.
      destruct (set_messages_get tag _ _ _ _ E) as (_ & _ & R & _), (set_messages_get tag _ _ _ _ E') as (_ & _ & R' & _).
      rewrite R, R'. cbn [new_json jc_rules]. destruct (rs_evaluate rs (to_carg n)) as [cat| | |]; try reflexivity.
      specialize (Q ctx id cat). unfold j_result in Q. destruct (j_translation tag c ctx id cat), (j_translation tag c' ctx id cat); congruence.
    - assert (N : ~ Forall valid l') by (intro V; apply FV in V; exact (proj1 A2 eq_refl V)). apply B2 in N. now rewrite N.
    - destruct (set_messages_valid tag order l (new_json tag lang dom rs)) as [(x & X & _)|[X _]]; unfold JsonModel.new_json_with in E; congruence.
    - destruct (set_messages_valid tag order l (new_json tag lang dom rs)) as [(x & X & _)|[X _]]; unfold JsonModel.new_json_with in E; congruence.
  Qed.
  (** The messages of the catalog: one for each member, with the same comment
      and context, fitted to the categories. *)
  Theorem C33_categories : forall order lang dom rs l c, wf_messages l -> every_category order ->
    new_json_with order lang dom rs l = Ok c ->
    NoDup (map fst (j_messages tag c)) /\
    (forall k m', In (k, m') (j_messages tag c) -> exists m, In (k, Some m) l /\
       j_comment m' = j_comment m /\ j_context m' = j_context m /\ fitted (rs_categories rs) (tr_of m) (tr_of m')) /\
    (forall k m, In (k, Some m) l -> In k (map fst (j_messages tag c))).
  Proof.
    intros order lang dom rs l c WF EO H. destruct (j_messages_in tag order lang dom rs l c WF H) as [JM JN].
    split; [exact JN|]. split.
    - intros k m' I. apply JM in I as (m & I & ->). exists m. split; [exact I|]. split; [reflexivity|]. split; [reflexivity|].
      apply apply_fitted; [|exact EO]. destruct WF as [_ W]. rewrite Forall_forall in W. apply (W _ I). reflexivity.
    - intros k m I. apply in_map_iff. exists (k, stored order (rs_categories rs) m). split; [reflexivity|]. apply JM. eauto.
  Qed.
  (** In a language of the table the category of a number always has a text
      slot: a message with plural forms never lacks it. *)
  Theorem C33_slots : forall lg order lang dom rs l c k m' n cat, cldr_built_in lg = Some rs -> wf_messages l -> every_category order ->
    new_json_with order lang dom rs l = Ok c -> In (k, m') (j_messages tag c) ->
    rs_evaluate rs (to_carg n) = Ok cat -> singular (tr_of m') \/ has_cat (tr_of m') cat.
  Proof.
    intros lg order lang dom rs l c k m' n cat B WF EO H I E.
    destruct (C33_categories order lang dom rs l c WF EO H) as (_ & Q & _). destruct (Q _ _ I) as (m & J & _ & _ & F1 & F2).
    destruct (C10_category_of_language lg rs B) as (_ & _ & _ & C & _).
    assert (IC : In cat (rs_categories rs)).
    { unfold rs_evaluate in E. destruct (new_operands (to_carg n)); try discriminate. injection E as <-. apply C. }
    destruct WF as [_ W]. rewrite Forall_forall in W. pose proof (W _ J m eq_refl) as ND.
    destruct (singular_dec (tr_of m) ND) as [S|S].
    - left. intro d. pose proof (S d) as Sd. unfold has_cat in *. rewrite (F1 S). exact Sd.
    - right. destruct (F2 S cat) as [G _]. unfold has_cat. rewrite (G IC). eauto.
  Qed.

  (** ** C34 *)
  (** A message with an Other text. *)
  Theorem C34_message : forall perm m, (forall x, Permutation x (perm x)) -> NoDup (map fst (tr_of m)) -> has_cat (tr_of m) Other ->
    exists m', unmarshal_message perm (marshal_message m) = Ok m' /\
      j_comment m' = j_comment m /\ j_context m' = j_context m /\ forall c, cat_get (tr_of m') c = cat_get (tr_of m) c.
  Proof.
    intros perm m P ND O. destruct (message_round perm m P ND (or_introl O)) as (m' & U & (A & B & C) & _).
    exists m'. split; [exact U|]. split; [now rewrite <- A|]. split; [now rewrite <- B|]. intro c. rewrite <- C.
    cbn [writ tr_of j_tr]. unfold writ_tr. destruct (Nat.eqb_spec (length (tr_of m)) 0) as [Z|Z]; [|reflexivity].
    apply length_zero_iff_nil in Z. rewrite Z in O. destruct O as (v & V). discriminate.
  Qed.
  (** A catalog: all lookups are answered alike. *)
  Theorem C34_catalog : forall lg order order' perm fperm lang dom rs l c, cldr_built_in lg = Some rs -> wf_messages l -> l <> [] ->
    every_category order -> every_category order' -> (forall x, Permutation x (perm x)) -> (forall x, Permutation x (fperm x)) ->
    new_json_with order lang dom rs l = Ok c ->
    exists c', decode_json tag order' perm fperm lang dom rs (marshal_catalog tag c) = Ok (Some c') /\
      (forall ctx id, j_lookup c' ctx id = j_lookup c ctx id) /\
      (forall ctx id n, j_lookup_plural c' ctx id n = j_lookup_plural c ctx id n).
  Proof.
    intros lg order order' perm fperm lang dom rs l c B WF NE EO EO' P FP H.
    destruct (C10_category_of_language lg rs B) as (OC & _).
    destruct (catalog_round tag order order' perm fperm lang dom rs l c WF NE OC EO EO' P FP H) as (c' & D & Q & R' & R).
    exists c'. split; [exact D|]. split; [intros; apply Q|]. intros ctx id n. unfold JsonModel.j_lookup_plural. rewrite R, R'.
    destruct (rs_evaluate rs (to_carg n)) as [cat| | |]; try reflexivity.
    specialize (Q ctx id cat). unfold j_result in Q. destruct (j_translation tag c ctx id cat), (j_translation tag c' ctx id cat); congruence.
  Qed.
  (** The members are written in ascending order of their keys; the order in
      which the maps are iterated does not show. *)
  Theorem C34_written_sorted : forall order lang dom rs l c, wf_messages l -> new_json_with order lang dom rs l = Ok c ->
    exists ms, marshal_catalog tag c = JObj (map (fun km => (fst km, marshal_message (snd km))) ms) /\
      Permutation ms (j_messages tag c) /\ ordered (fun x y => bytes_lt (fst x) (fst y)) ms.
  Proof.
    intros order lang dom rs l c WF H. exists (sorted_keys (j_messages tag c)). split; [reflexivity|].
    split; [symmetry; apply PoSortProofs.sort_perm|]. apply (sort_keys_ordered _ (j_messages tag c)).
    apply (j_messages_in tag order lang dom rs l c WF H).
  Qed.
  Theorem C34_written_deterministic : forall order order' lang dom rs l l' c c', wf_messages l -> every_category order -> every_category order' ->
    Permutation l l' -> new_json_with order lang dom rs l = Ok c -> new_json_with order' lang dom rs l' = Ok c' ->
    marshal_catalog tag c = marshal_catalog tag c'.
  Proof. intros order order' lang dom rs l l' c c'. apply marshal_deterministic. Qed.

  (** ** C32 *)
  (** [h] is the memory when the catalog is made from the messages at the
      addresses of [l]; [h1] after that; [h2] after Messages().  The result
      has the messages of the catalog, all of its memory is new, and lookups
      only see memory allocated between [h] and [h1]: neither changes to what
      was handed in nor to what was returned matter. *)
  Theorem C32_json : forall order h lang dom rs l lv c, Forall2 (input_views h) l lv ->
    new_json_with order lang dom rs lv = Ok c ->
    exists h1 hc h2 out, h_new_json_with tag order h lang dom rs l = Ok (h1, hc) /\ extends h h1 /\
      h_messages tag h1 hc = Ok (h2, out) /\ extends h1 h2 /\
      Forall2 (views h2) out (j_messages tag c) /\ Forall (fun e => fresh_in h1 h2 (snd e)) out /\
      forall h3, same_between h h1 h2 h3 ->
        forall ctx key cat, h_translation tag h3 hc ctx key cat = Ok (j_translation tag c ctx key cat).
  Proof.
    intros order h lang dom rs l lv c IV H.
    pose proof (set_messages_shows tag order h l lv h (HCat lang dom rs []) (new_json tag lang dom rs) (extends_refl h)) as S.
    unfold JsonModel.new_json_with in H. rewrite H in S. destruct S as (h1 & hc & E & X & SH).
    { split; [reflexivity|]. split; [reflexivity|]. split; [reflexivity|]. constructor. }
    { exact IV. }
    destruct (messages_shows tag h h1 hc c SH) as (h2 & out & M & X2 & F).
    exists h1, hc, h2, out. split; [exact E|]. split; [exact X|]. split; [exact M|]. split; [exact X2|].
    split; [|split].
    - clear - F. induction F as [|[k a] [k' m] x y [A [B _]] F IH]; constructor; [split; auto|exact IH].
    - clear - F. induction F as [|[k a] [k' m] x y [A [_ B]] F IH]; constructor; [exact B|exact IH].
    - intros h3 SB. apply (translation_shows tag h h1 h3 hc c SH). destruct SB as [S1 S2].
      destruct X2 as [(y & Y) (z & Z)]. split.
      + intros a A. rewrite (S1 a A), Y, nth_error_app1 by lia. reflexivity.
      + intros p P. rewrite (S2 p P), Z, nth_error_app1 by lia. reflexivity.
  Qed.

  (** ** C50 *)
  (** Everything but the message id is named as asked. *)
  Theorem C50_json_names_partial : forall order lang dom rs l c ctx id e, wf_messages l -> every_category order ->
    new_json_with order lang dom rs l = Ok c -> snd (j_lookup c ctx id) = Some e ->
    exists id', (ctx = [] -> id' = id) /\
      (e = MissingContext lang dom ctx \/ e = MissingMessage lang dom ctx id' \/ e = MissingTranslation lang dom ctx id' 5).
  Proof.
    intros order lang dom rs l c ctx id e WF EO H E. exists (full_key ctx id). split; [intros ->; reflexivity|].
    destruct (C33_lookup order lang dom rs l c WF EO H ctx id) as (A & _). pose proof (proj1 (A (j_lookup c ctx id)) eq_refl) as A'. clear A.
    destruct (j_lookup c ctx id) as [t o]. cbn [snd] in E. subst o. inversion A'; subst; auto.
  Qed.

  (** ** C51 *)
  (** Values other than null: a catalog that answers every lookup, or an error. *)
  Theorem C51_json_partial : forall order perm fperm lang dom rs v, v <> JNull ->
    decode_json tag order perm fperm lang dom rs v = Err \/
    exists c, decode_json tag order perm fperm lang dom rs v = Ok (Some c) /\
      forall ctx id n, exists r, j_lookup_plural c ctx id n = Ok r.
  Proof.
    intros order perm fperm lang dom rs v NN.
    assert (FM : forall l, fin (str_members l)).
    { induction l as [|[k w] l IH]; cbn [str_members]; [split; discriminate|]. destruct IH as [A B].
      destruct (str_members l); cbn [rbind]; try (split; congruence). destruct w; split; discriminate. }
    assert (FU : forall w, fin (unmarshal_message perm w)).
    { intros []; cbn [unmarshal_message]; try (split; discriminate). destruct (FM l) as [A B]. destruct (str_members l); cbn; split; congruence. }
    assert (FS : forall l, fin (unmarshal_members perm l)).
    { induction l as [|[k w] l IH]; cbn [unmarshal_members]; [split; discriminate|]. destruct IH as [A B].
      match goal with |- fin (rbind ?x _) => assert (X : fin x) end.
      { destruct (FU w) as [C D]. destruct w; cbn [unmarshal_message] in *; try (split; discriminate).
        destruct (FM l0) as [E F]. destruct (str_members l0); cbn; split; congruence. }
      destruct X as [X1 X2]. match goal with |- fin (rbind ?x _) => destruct x; cbn [rbind]; try (split; congruence) end.
      destruct (unmarshal_members perm l); cbn; split; congruence. }
    assert (L : forall c : jcat tag, forall ctx id n, exists r, j_lookup_plural c ctx id n = Ok r).
    { intros c ctx id n. unfold JsonModel.j_lookup_plural. destruct (rs_evaluate_fin (jc_rules c) (to_carg n)) as [A B].
      destruct (rs_evaluate (jc_rules c) (to_carg n)); try congruence; [|eauto]. destruct (j_translation tag c ctx id a); eauto. }
    destruct v; cbn [decode_json]; try congruence; try (left; reflexivity).
    unfold unmarshal_catalog. destruct (FS l) as [A B]. destruct (unmarshal_members perm l) as [ms| | |]; cbn [rbind]; try congruence; [|now left].
    destruct (to_map ms) as [|x y]; [now left|].
    destruct (set_messages_valid tag order (fperm (x :: y)) (new_json tag lang dom rs)) as [(c & E & _)|[E _]]; rewrite E; cbn [rbind]; [right|now left].
    exists c. split; [reflexivity|]. apply L.
  Qed.
End T.

Section G.
  Variable tag : Type.
  Variable is_root : tag -> bool.
  Variable tag_string : tag -> bytes.
  Variable base : tag -> bytes * bool.
  Variable parent : tag -> tag.
  Variable fold : rune -> rune.
  Variable fuel : nat.
  Notation decode_po := (decode_po tag is_root tag_string base parent fold fuel).
  Notation decode_mo := (decode_mo tag is_root tag_string base parent fold fuel).
  Notation build := (build_catalog tag is_root tag_string base parent fold fuel).

  Lemma build_total : forall f u lang dom d, depth tag is_root parent lang d -> (d <= fuel)%nat ->
    build f lang dom u = Err \/ exists c, build f lang dom u = Ok c /\ forall ctx id n, exists r, lookup_plural tag c ctx id n = Ok r.
  Proof.
    intros f u lang dom d D L. rewrite build_cases. set (w := u || _ || _). clearbody w. destruct w.
    - destruct (cldr_function_spec tag is_root tag_string base parent fuel lang d D L) as (rs & E & _). rewrite E. cbn [rbind].
      right. eexists. split; [reflexivity|]. intros ctx id n. unfold lookup_plural. cbn [g_plural]. unfold cldr_plural_index.
      destruct (rs_evaluate_fin rs (to_carg n)) as [A B]. destruct (rs_evaluate rs (to_carg n)); cbn [rbind]; try congruence; [|eauto].
      destruct (get_translations _ _ _ _ _); eauto.
    - destruct (C05_parse_terminates (header_get fold (f_header f) (bs "Plural-Forms"))) as [A B].
      destruct (PopBuiltin.parse_rule _) as [r| | |]; cbn [rbind]; try congruence; [right|now left].
      eexists. split; [reflexivity|]. intros ctx id n. unfold lookup_plural. cbn [g_plural]. unfold rule_function.
      destruct (to_arg n); [|eauto]. destruct (get_translations _ _ _ _ _); eauto.
  Qed.
  Theorem C51_po_partial : forall u lang dom s d, (forall l, is_line s l -> ~ unclosed l) -> depth tag is_root parent lang d -> (d <= fuel)%nat ->
    decode_po u lang dom s = Err \/
    exists c, decode_po u lang dom s = Ok c /\ forall ctx id n, exists r, lookup_plural tag c ctx id n = Ok r.
  Proof.
    intros u lang dom s d U D L. unfold GettextModel.decode_po.
    pose proof (C22_no_panic (S (length s)) true s) as A. pose proof (C22_terminates_partial (S (length s)) true s U (Nat.lt_succ_diag_r _)) as B.
    destruct (parse_po_fuel (S (length s)) true s) as [f| | |]; cbn [rbind]; try congruence; [|now left]. eapply build_total; eassumption.
  Qed.
  Theorem C51_mo : forall u lang dom s d, depth tag is_root parent lang d -> (d <= fuel)%nat ->
    decode_mo u lang dom s = Err \/
    exists c, decode_mo u lang dom s = Ok c /\ forall ctx id n, exists r, lookup_plural tag c ctx id n = Ok r.
  Proof.
    intros u lang dom s d D L. unfold GettextModel.decode_mo.
    destruct (C29_no_panic s) as [(f & E)|E]; rewrite E; cbn [rbind]; [|now left]. eapply build_total; eassumption.
  Qed.
End G.

(** ** Examples *)
Definition pl_rules : rule_set := match cldr_built_in (bs "pl") with Some r => r | None => rs_ast end.
Definition some_cats : list category := [Other; Many; Zero; One; Few; Two].
Definition ex_messages : list (bytes * option jmsg) :=
  [(bs "app.name", Some (JMsg (bs "title") [] (Some [(Other, bs "Plik")])));
   (bs "file_menu", Some (JMsg [] (bs "menu") (Some [(Other, bs "pliku"); (One, bs "plik"); (Two, bs "x"); (Few, bs "pliki")])));
   (bs "file", Some (JMsg [] [] (Some [(One, bs "a"); (Other, [])])))].
Lemma ex_wf : wf_messages ex_messages.
Proof.
  split.
  - repeat constructor; cbn; intuition discriminate.
  - repeat constructor; intros m E; injection E as <-; repeat constructor; cbn; intuition discriminate.
Qed.
Lemma ex_every : every_category some_cats /\ every_category all_categories.
Proof. split; intros []; cbn; tauto. Qed.
Definition ex_catalog : jcat bytes :=
  match new_json_with bytes some_cats (bs "pl") (bs "app") pl_rules ex_messages with Ok c => c | _ => new_json bytes [] [] pl_rules end.
Example C33_example : cldr_built_in (bs "pl") = Some pl_rules /\
  new_json_with bytes some_cats (bs "pl") (bs "app") pl_rules ex_messages = Ok ex_catalog /\
  map (fun n => j_lookup_plural bytes ex_catalog (bs "menu") (bs "file") n) [NInt Kint 1; NInt Kuint8 22; NInt Kint 12; NFloat false (bs "15") 1] =
  [Ok (bs "plik", None); Ok (bs "pliki", None);
   Ok (bs "file", Some (MissingTranslation (bs "pl") (bs "app") (bs "menu") (bs "file_menu") 4)); Ok (bs "pliku", None)] /\
  map (fun k => j_lookup bytes ex_catalog (fst k) (snd k)) [([], bs "app.name"); ([], bs "file"); (bs "menu", bs "x"); (bs "m", bs "x")] =
  [(bs "Plik", None); (bs "file", Some (MissingTranslation (bs "pl") (bs "app") [] (bs "file") 5));
   (bs "x", Some (MissingMessage (bs "pl") (bs "app") (bs "menu") (bs "x_menu"))); (bs "x", Some (MissingContext (bs "pl") (bs "app") (bs "m")))].
Proof. vm_compute. auto. Qed.
Example C33_rejected :
  new_json_with bytes some_cats (bs "pl") (bs "app") pl_rules [(bs "a", Some (JMsg [] (bs "b") (Some [(Other, bs "c")])))] = Err /\
  new_json_with bytes some_cats (bs "pl") (bs "app") pl_rules [(bs "a", Some (JMsg [] [] (Some [(One, bs "c")])))] = Err.
Proof. split; reflexivity. Qed.
Example C34_example : exists c', decode_json bytes all_categories (@rev _) (@rev _) (bs "pl") (bs "app") pl_rules (marshal_catalog bytes ex_catalog) = Ok (Some c') /\
  j_lookup_plural bytes c' (bs "menu") (bs "file") (NInt Kint 1) = Ok (bs "plik", None) /\
  marshal_catalog bytes ex_catalog = JObj
   [(bs "app.name", JObj [(bs "comment", JStr (bs "title")); (bs "other", JStr (bs "Plik"))]);
    (bs "file", JObj [(bs "one", JStr (bs "a")); (bs "few", JStr []); (bs "many", JStr []); (bs "other", JStr [])]);
    (bs "file_menu", JObj [(bs "context", JStr (bs "menu")); (bs "one", JStr (bs "plik")); (bs "few", JStr (bs "pliki")); (bs "many", JStr []); (bs "other", JStr (bs "pliku"))])].
Proof.
  destruct (C34_catalog bytes (bs "pl") some_cats all_categories (@rev _) (@rev _) (bs "pl") (bs "app") pl_rules ex_messages ex_catalog) as (c' & D & _ & Q).
  - vm_compute. reflexivity.
  - exact ex_wf.
  - discriminate.
  - apply ex_every.
  - apply ex_every.
  - apply Permutation_rev.
  - apply Permutation_rev.
  - vm_compute. reflexivity.
  - exists c'. split; [exact D|]. rewrite Q. split; vm_compute; reflexivity.
Qed.
(** A lone text of another category is lost; so is nothing else (message_round). *)
Theorem C34_lone_category_refuted : exists m m', forall perm, unmarshal_message perm (marshal_message m) = Ok m' /\
  cat_get (tr_of m) One = Some (bs "a") /\ cat_get (tr_of m') One = None /\ cat_get (tr_of m') Other = Some [].
Proof. exists (JMsg [] [] (Some [(One, bs "a")])). eexists. intro perm. repeat split; reflexivity. Qed.
Theorem C34_lossless_message : forall perm m, (forall x, Permutation x (perm x)) -> NoDup (map fst (tr_of m)) ->
  (tr_of m <> [] /\ (j_comment m <> [] \/ j_context m <> [] \/ length (tr_of m) <> 1%nat)) ->
  exists m', unmarshal_message perm (marshal_message m) = Ok m' /\
    j_comment m' = j_comment m /\ j_context m' = j_context m /\ forall c, cat_get (tr_of m') c = cat_get (tr_of m) c.
Proof.
  intros perm m P ND [NE O]. destruct (message_round perm m P ND) as (m' & U & (A & B & C) & _); [unfold lossless; tauto|].
  exists m'. split; [exact U|]. split; [now rewrite <- A|]. split; [now rewrite <- B|]. intro c. rewrite <- C.
  cbn [writ tr_of j_tr]. unfold writ_tr. destruct (Nat.eqb_spec (length (tr_of m)) 0) as [Z|Z]; [|reflexivity].
  apply length_zero_iff_nil in Z. contradiction.
Qed.
Example C34_message_example : let m := JMsg (bs "c") (bs "x") (Some [(Other, bs "a"); (One, bs "b")]) in
  unmarshal_message (@rev _) (marshal_message m) = Ok (JMsg (bs "c") (bs "x") (Some [(Other, bs "a"); (One, bs "b")])).
Proof. reflexivity. Qed.
(** An empty catalog is written as {}, which is not read back. *)
Theorem C34_empty_refuted : forall tag order order' perm fperm lang dom rs, exists c, new_json_with tag order lang dom rs [] = Ok c /\
  decode_json tag order' perm fperm lang dom rs (marshal_catalog tag c) = Err.
Proof. intros. eexists. split; reflexivity. Qed.
(** Reading depends on the iteration order if names differ in letter case only. *)
Theorem C33_case_refuted : exists v perm perm' m m', (forall x, Permutation x (perm x)) /\ (forall x, Permutation x (perm' x)) /\
  unmarshal_message perm v = Ok m /\ unmarshal_message perm' v = Ok m' /\ cat_get (tr_of m) Other <> cat_get (tr_of m') Other.
Proof.
  exists (JObj [(bs "other", JStr (bs "a")); (bs "Other", JStr (bs "b"))]), (fun x => x), (@rev _). eexists _, _.
  split; [auto|]. split; [apply Permutation_rev|]. split; [reflexivity|]. split; [reflexivity|]. discriminate.
Qed.

(** C32: three messages in memory, the first two sharing their translations
    before the catalog is made. *)
Definition ex_heap : heap := Heap
  [MCell [] [] (Some 0%nat); MCell (bs "c") (bs "x") (Some 0%nat)] [[(Other, bs "a")]].
Definition ex_input : list (bytes * option nat) := [(bs "k", Some 0%nat); (bs "k_x", Some 1%nat)].
Definition ex_input_views : list (bytes * option jmsg) :=
  [(bs "k", Some (JMsg [] [] (Some [(Other, bs "a")]))); (bs "k_x", Some (JMsg (bs "c") (bs "x") (Some [(Other, bs "a")])))].
Example C32_example : Forall2 (input_views ex_heap) ex_input ex_input_views /\
  exists h1 hc h2 out, h_new_json_with bytes some_cats ex_heap (bs "pl") (bs "app") pl_rules ex_input = Ok (h1, hc) /\
    h_messages bytes h1 hc = Ok (h2, out) /\ out = [(bs "k", 4%nat); (bs "k_x", 5%nat)] /\ hc_map hc = [([], [(bs "k", 2%nat)]); (bs "x", [(bs "k_x", 3%nat)])].
Proof.
  split; [repeat constructor|]. eexists _, _, _, _. split; [reflexivity|]. split; [reflexivity|]. split; reflexivity.
Qed.

(** C50: the error names the key of the map, not the message asked for. *)
Theorem C50_json_id_refuted : exists ctx id id', id' <> id /\
  j_lookup bytes ex_catalog ctx id = (id, Some (MissingMessage (bs "pl") (bs "app") ctx id')).
Proof. exists (bs "menu"), (bs "x"), (bs "x_menu"). split; [discriminate|]. vm_compute. reflexivity. Qed.

(** C51: a file that consists of null gives no catalog and no error. *)
Theorem C51_json_null_refuted : forall tag order perm fperm lang dom rs, decode_json tag order perm fperm lang dom rs JNull = Ok None.
Proof. reflexivity. Qed.
Theorem C51_po_hang_refuted : exists s, (forall fuel, parse_po_fuel fuel true s = OutOfFuel) /\
  forall tag is_root tag_string base parent fold fuel u lang dom, decode_po tag is_root tag_string base parent fold fuel u lang dom s = OutOfFuel.
Proof. destruct C22_terminates_refuted as (s & H). exists s. split; [intro; apply H|]. intros. unfold decode_po. rewrite H. reflexivity. Qed.
Example C51_example : exists c, decode_json bytes all_categories (fun x => x) (fun x => x) (bs "pl") (bs "app") pl_rules
    (JObj [(bs "a", JStr (bs "b"))]) = Ok (Some c) /\ j_lookup bytes c [] (bs "a") = (bs "b", None).
Proof.
  eexists. split; [reflexivity|]. vm_compute. reflexivity.
Qed.

(** The category is named by its position in the order of the specification. *)
Theorem C50_category_number : forall c, 0 <= cat_num c /\ nth_error [Zero; One; Two; Few; Many; Other] (Z.to_nat (cat_num c)) = Some c.
Proof. intros []; split; (discriminate || reflexivity). Qed.

Print Assumptions C32_json.
Print Assumptions C33_accepted.
Print Assumptions C33_lookup.
Print Assumptions C33_order.
Print Assumptions C33_categories.
Print Assumptions C33_slots.
Print Assumptions C33_case_refuted.
Print Assumptions C34_message.
Print Assumptions C34_lossless_message.
Print Assumptions C34_catalog.
Print Assumptions C34_written_sorted.
Print Assumptions C34_written_deterministic.
Print Assumptions C34_lone_category_refuted.
Print Assumptions C34_empty_refuted.
Print Assumptions C50_json_names_partial.
Print Assumptions C50_json_id_refuted.
Print Assumptions C51_json_partial.
Print Assumptions C51_po_partial.
Print Assumptions C51_mo.
Print Assumptions C51_json_null_refuted.
Print Assumptions C51_po_hang_refuted.
Print Assumptions C50_category_number.
