(** Property theorems C65 and C66: the text of JSON catalog files. *)
From Coq Require Import String Ascii List ZArith Bool Lia Permutation.
From Verif Require Import Base BaseProofs PoStrModel PoStrSpec Utf8Model Utf8Proofs PoSortProofs NumModel CldrModel CldrBuiltin GettextModel JsonModel JsonSpec JsonProofs JsonRoundProofs
  TheoremsJson JTextModel JTextSpec JTextProofs JTextWriteProofs JFileSpec JFileProofs.
Import ListNotations.
Open Scope Z_scope.

(** ** C65 *)
(** The texts the reader accepts, and as what value: at most 10000 levels. *)
Theorem C65_read : forall s v, parse_json s = Ok v <-> document lenient v s /\ shallow v.
Proof. exact parse_json_iff. Qed.
(** JSON as it should be is read as the value it stands for. *)
Theorem C65_strict : forall s v, document strict v s -> shallow v -> parse_json s = Ok v.
Proof. intros s v D SH. apply parse_json_iff. split; [apply document_strict, D|exact SH]. Qed.
(** Everything else is an error; reading always ends. *)
Theorem C65_total : forall s, (exists v, parse_json s = Ok v) \/ parse_json s = Err /\ forall v, document lenient v s -> ~ shallow v.
Proof.
  intro s. destruct (parse_json_fin s) as [A B]. destruct (parse_json s) as [v| | |] eqn:E; try congruence; [eauto|]. right. split; [reflexivity|].
  intros v D SH. assert (P : parse_json s = Ok v) by (apply parse_json_iff; auto). congruence.
Qed.
(** A text stands for at most one value. *)
Theorem C65_unique : forall s v w, document lenient v s -> document lenient w s -> v = w.
Proof. exact document_unique. Qed.
(** Whatever the bytes of the file, the texts of the value are UTF-8. *)
Theorem C65_utf8 : forall s v, parse_json s = Ok v -> all_utf8 v.
Proof. intros s v H. apply parse_json_iff in H as [H _]. destruct H as [w v t w' _ J _]. now apply (proj1 read_utf8 v t). Qed.
(** JSON with more levels than that is not read: a value within [n] levels
    becomes one with more by writing it between brackets. *)
Theorem C65_deep_refuted : exists s v, document strict v s /\ parse_json s = Err.
Proof.
  assert (A : forall n, exists s v, jtext strict v s /\ ~ within n v).
  { induction n as [|n (s & v & J & W)].
    - exists (bs "[" ++ [] ++ bs "]"), (JArr []). split; [apply (jt_arr0 strict []); constructor|]. intro W. inversion W.
    - exists ("["%char :: ([] ++ s ++ []) ++ bs "]"), (JArr [v]). split.
      + apply jt_arr. apply (el_one strict [] v s []); [constructor|exact J|constructor].
      + intro X. inversion X as [| | | |k l I|]. subst. apply W, I. now left. }
  destruct (A (Z.to_nat 10000)) as (s & v & J & W). exists s, v.
  assert (D : document strict v s) by (rewrite <- (app_nil_r s); apply (doc strict [] v s []); [constructor|exact J|constructor]).
  split; [exact D|]. destruct (C65_total s) as [(w & E)|[E _]]; [|exact E]. apply parse_json_iff in E as [D' SH].
  elim W. rewrite (document_unique _ _ _ (document_strict _ _ D) D'). exact SH.
Qed.
(** The reader accepts text that is not JSON. *)
Theorem C65_strict_refuted : exists s v, parse_json s = Ok v /\ forall w, ~ document strict w s.
Proof.
  exists (QUOTE :: byte_of 255 :: [QUOTE]). eexists. split; [vm_compute; reflexivity|]. intros w D. apply document_utf8 in D. apply valid_sanitized in D. vm_compute in D. discriminate.
Qed.
(** The written text is JSON, UTF-8, ends with a line feed and stands for the
    members in order, with what is not UTF-8 replaced. *)
Theorem C65_written : forall tag (c : jcat tag), exists t, encode_json tag (Some c) = Ok (t ++ [LF]) /\
  document strict (clean (marshal_catalog tag c)) (t ++ [LF]) /\ valid_utf8 (t ++ [LF]) /\ parse_json (t ++ [LF]) = Ok (clean (marshal_catalog tag c)).
Proof.
  intros tag c. destruct (encode_json_text tag c) as (t & E & J). apply (proj1 laid_jtext) in J. exists t. split; [exact E|].
  assert (D : document strict (clean (marshal_catalog tag c)) (t ++ [LF])) by (apply (doc strict [] _ t [LF]); [constructor|exact J|constructor; [cbn; auto|constructor]]).
  split; [exact D|]. split; [eapply document_utf8; exact D|]. apply C65_strict; [exact D|]. apply (small_shallow 2 _ (le_n 2)), catalog_within.
Qed.
(** Its layout: a line for every member, two spaces for every level; quotes,
    controls and what is special in HTML are escaped. *)
Theorem C65_layout : forall tag (c : jcat tag), exists t, encode_json tag (Some c) = Ok (t ++ [LF]) /\ laid 0 (clean (marshal_catalog tag c)) t.
Proof. exact encode_json_text. Qed.
(** Writing a catalog and reading the file: all lookups are answered alike. *)
Theorem C65_roundtrip : forall tag lg order order' perm fperm lang dom rs l (c : jcat tag), cldr_built_in lg = Some rs -> wf_messages l -> utf8_messages l -> l <> [] ->
  every_category order -> every_category order' -> (forall x, Permutation x (perm x)) -> (forall x, Permutation x (fperm x)) ->
  new_json_with tag order lang dom rs l = Ok c ->
  exists t c', encode_json tag (Some c) = Ok t /\ decode_json_text tag order' perm fperm lang dom rs t = Ok (Some c') /\
    (forall ctx id, j_lookup tag c' ctx id = j_lookup tag c ctx id) /\
    (forall ctx id n, j_lookup_plural tag c' ctx id n = j_lookup_plural tag c ctx id n).
Proof.
  intros tag lg order order' perm fperm lang dom rs l c B WF U NE EO EO' P FP H.
  destruct (C34_catalog tag lg order order' perm fperm lang dom rs l c B WF NE EO EO' P FP H) as (c' & D & Q1 & Q2).
  destruct (C65_written tag c) as (t & E & _ & _ & R). exists (t ++ [LF]), c'. split; [exact E|]. split; [|auto].
  assert (A : all_utf8 (marshal_catalog tag c)).
  { destruct (C33_categories tag order lang dom rs l c WF EO H) as (_ & M & _).
    assert (X : forall k m, In (k, m) (sorted_keys (j_messages tag c)) -> valid_utf8 k /\ all_utf8 (marshal_message m)).
    { intros k m I. apply (Permutation_in _ (Permutation_sym (sort_perm _ _ _))) in I. destruct (M k m I) as (m0 & I0 & E1 & E2 & F). destruct (U _ _ I0) as [K V].
      destruct (V m0 eq_refl) as (V1 & V2 & V3). split; [exact K|]. apply marshal_message_utf8; [now rewrite E1|now rewrite E2|].
      eapply fitted_utf8; [|exact F|exact V3]. destruct WF as [_ W]. rewrite Forall_forall in W. now apply (W _ I0). }
    unfold marshal_catalog. constructor; apply Forall_forall; intros kv I; apply in_map_iff in I as ([k m] & <- & I); cbn [fst snd]; now apply X in I. }
  unfold decode_json_text. rewrite R, clean_utf8 by exact A. exact D.
Qed.

(** ** C66 *)
Section T.
  Variable tag : Type.
  Variables order : list category.
  Variable perm : list (bytes * bytes) -> list (bytes * bytes).
  Variable fperm : list (bytes * option jmsg) -> list (bytes * option jmsg).
  Variables (lang : tag) (dom : bytes) (rs : rule_set).
  Notation decode := (decode_json_text tag order perm fperm lang dom rs).

  (** The outcomes of decoding any bytes. *)
  Theorem C66_outcomes : forall s,
    (decode s = Ok None <-> document lenient JNull s) /\
    (forall c, decode s = Ok (Some c) -> exists l, document lenient (JObj l) s /\ l <> []) /\
    decode s <> Panic /\ decode s <> OutOfFuel.
  Proof.
    intro s. unfold decode_json_text.
    assert (NP : document lenient JNull s <-> parse_json s = Ok JNull) by (rewrite parse_json_iff; split; [intro X; split; [exact X|constructor]|tauto]). rewrite NP. clear NP. destruct (parse_json_fin s) as [A B]. destruct (parse_json s) as [v| | |] eqn:E; try congruence; cbn [rbind].
    2:{ split; [split; discriminate|]. split; [discriminate|]. split; discriminate. }
    destruct v as [| | | | |l]; try (split; [split; [discriminate|intro X; injection X; discriminate]|]; split; [discriminate|]; split; discriminate).
    - split; [split; reflexivity|]. split; [discriminate|]. split; discriminate.
    - cbn [decode_json]. unfold unmarshal_catalog. destruct (unmarshal_members_fin perm l) as [C D]. destruct (unmarshal_members perm l) as [ms| | |] eqn:U; try congruence; cbn [rbind].
      2:{ split; [split; discriminate|]. split; [discriminate|]. split; discriminate. }
      destruct (to_map ms) as [|x y] eqn:TM; cbn [rbind]; [split; [split; discriminate|]; split; [discriminate|]; split; discriminate|].
      destruct (set_messages_valid tag order (fperm (x :: y)) (new_json tag lang dom rs)) as [(c & Q & _)|[Q _]]; rewrite Q; cbn [rbind].
      + split; [split; discriminate|]. split; [|split; discriminate]. intros c' _. exists l. split; [apply (proj1 (parse_json_iff s _)); exact E|]. intros ->. injection U as <-. discriminate.
      + split; [split; discriminate|]. split; [discriminate|]. split; discriminate.
  Qed.

  Hypothesis perm_ok : forall x, Permutation x (perm x).
  Hypothesis fperm_ok : forall x, Permutation x (fperm x).
  Hypothesis order_ok : every_category order.

  (** A file with an object: it is accepted exactly if its messages are
      acceptable, and then every lookup answers what the members say. *)
  Theorem C66_file : forall s l, document lenient (JObj l) s -> Forall (fun kv => plain_names (snd kv)) l ->
    ((exists c, decode s = Ok (Some c)) <-> l <> [] /\ exists ms, file_messages l ms /\ Forall valid ms) /\
    (forall c, decode s = Ok (Some c) -> exists ms, file_messages l ms /\
      forall ctx id,
      (forall r, j_lookup tag c ctx id = r <-> j_answer ms (rs_categories rs) lang dom ctx id Other r) /\
      (forall n cat, rs_evaluate rs (to_carg n) = Ok cat ->
         exists r, j_lookup_plural tag c ctx id n = Ok r /\ j_answer ms (rs_categories rs) lang dom ctx id cat r) /\
      (forall n, rs_evaluate rs (to_carg n) = Err -> j_lookup_plural tag c ctx id n = Ok (id, Some PluralError))).
  Proof.
    intros s l D PN. destruct (Z.of_nat (nesting (JObj l)) <=? max_nesting) eqn:SD.
    2:{ assert (NS : ~ shallow (JObj l)) by (intro SH; apply shallow_iff in SH; congruence).
        assert (PE : parse_json s = Err) by (destruct (C65_total s) as [(w & E)|[E _]]; [apply parse_json_iff in E as [D' SH]; elim NS; now rewrite (document_unique _ _ _ D D')|exact E]).
        unfold decode_json_text. rewrite PE. cbn [rbind]. split; [|discriminate]. split; [intros (? & ?); discriminate|].
        intros (_ & ms & FM & _). elim NS. eapply file_shallow. exact FM. }
    apply shallow_iff in SD. assert (PD : parse_json s = Ok (JObj l)) by (apply parse_json_iff; auto). unfold decode_json_text. rewrite PD. cbn [rbind decode_json]. unfold unmarshal_catalog.
    assert (PV : forall ms, Forall valid (fperm ms) <-> Forall valid ms).
    { intro ms. split; apply Permutation_Forall; [symmetry|]; apply fperm_ok. }
    assert (WP : forall ms, wf_messages ms -> wf_messages (fperm ms)).
    { intros ms [A B]. split; [eapply Permutation_NoDup; [apply Permutation_map; apply fperm_ok|exact A]|eapply Permutation_Forall; [apply fperm_ok|exact B]]. }
    destruct (unmarshal_members perm l) as [ms| | |] eqn:U; cbn [rbind].
    2,3,4: split; [|discriminate]; split; [intros (? & ?); discriminate|]; intros (_ & ms & (_ & T & _) & _); destruct (unmarshal_members_total perm l T); congruence.
    pose proof (to_map_file perm l ms perm_ok PN U) as FM. destruct (file_nonempty l (to_map ms) FM) as [N1 N2].
    destruct (to_map ms) as [|x y] eqn:TM.
    { cbn [rbind]. split; [|discriminate]. split; [intros (? & ?); discriminate|]. intros [NE _]. now elim (NE (N1 eq_refl)). }
    rewrite <- TM in *.
    assert (X : forall c, (do c <- set_messages tag order (new_json tag lang dom rs) (fperm (to_map ms)); Ok (Some c)) = Ok (Some c) <->
                new_json_with tag order lang dom rs (fperm (to_map ms)) = Ok c).
    { intro c. unfold new_json_with. destruct (set_messages _ _ _ _); cbn [rbind]; split; congruence. }
    destruct (C33_accepted tag order lang dom rs (fperm (to_map ms))) as [ACC _]. split.
    - split.
      + intros (c & H). apply X in H. split; [intros ->; rewrite N2 in TM by reflexivity; discriminate|]. exists (to_map ms). split; [exact FM|].
        apply PV. apply ACC. eauto.
      + intros (_ & ms' & FM' & V). destruct (proj2 ACC) as (c & H); [apply PV; eapply file_valid; eassumption|]. exists c. now apply X.
    - intros c H. apply X in H. exists (to_map ms). split; [exact FM|]. intros ctx id.
      destruct (C33_lookup tag order lang dom rs (fperm (to_map ms)) c (WP _ (proj1 FM)) order_ok H ctx id) as (A & B & C).
      assert (Y : forall cat r, j_answer (fperm (to_map ms)) (rs_categories rs) lang dom ctx id cat r <-> j_answer (to_map ms) (rs_categories rs) lang dom ctx id cat r).
      { intros cat r. split; apply j_answer_perm; [symmetry|]; apply fperm_ok. }
      split; [intro r; rewrite A; apply Y|]. split; [|exact C]. intros n cat E. destruct (B n cat E) as (r & R1 & R2). exists r. split; [exact R1|now apply Y].
  Qed.
End T.

(** ** Examples *)
Notation ex_decode := (decode_json_text bytes all_categories (fun x => x) (fun x => x) (bs "pl") (bs "app") pl_rules).
(** two messages whose names are not UTF-8 get the same name in the file *)
Theorem C65_bytes_refuted : exists l c t c', wf_messages l /\ new_json_with bytes all_categories (bs "pl") (bs "app") pl_rules l = Ok c /\
  encode_json bytes (Some c) = Ok t /\ ex_decode t = Ok (Some c') /\
  exists id, j_lookup bytes c [] id = (bs "a", None) /\ snd (j_lookup bytes c' [] id) <> None.
Proof.
  exists [([byte_of 254], Some (JMsg [] [] (Some [(Other, bs "a")]))); ([byte_of 255], Some (JMsg [] [] (Some [(Other, bs "b")])))].
  eexists _, _, _. split.
  { split; [repeat constructor; cbn; intuition discriminate|]. repeat constructor; intros m E; injection E as <-; repeat constructor; cbn; intuition discriminate. }
  split; [vm_compute; reflexivity|]. split; [vm_compute; reflexivity|]. split; [vm_compute; reflexivity|]. exists [byte_of 254]. split; vm_compute; [reflexivity|discriminate].
Qed.
(** what is written for no catalog, and for one without messages, is not read *)
Theorem C65_empty_refuted : forall tag order order' perm fperm lang dom rs,
  (exists t, encode_json tag None = Ok t /\ decode_json_text tag order' perm fperm lang dom rs t = Err) /\
  exists c t, new_json_with tag order lang dom rs [] = Ok c /\ encode_json tag (Some c) = Ok t /\ decode_json_text tag order' perm fperm lang dom rs t = Err.
Proof. intros. split; [eexists; split; reflexivity|]. eexists _, _. split; [reflexivity|]. split; reflexivity. Qed.
(** one file, two answers: the names of a message differ in letter case only *)
Theorem C66_case_refuted : exists s perm perm' c c', (forall x, Permutation x (perm x)) /\ (forall x, Permutation x (perm' x)) /\
  decode_json_text bytes all_categories perm (fun x => x) (bs "pl") (bs "app") pl_rules s = Ok (Some c) /\
  decode_json_text bytes all_categories perm' (fun x => x) (bs "pl") (bs "app") pl_rules s = Ok (Some c') /\
  j_lookup bytes c [] (bs "x") <> j_lookup bytes c' [] (bs "x").
Proof.
  exists (bs "{""x"": {""other"": ""a"", ""Other"": ""b""}}"), (fun x => x), (@rev _). eexists _, _. split; [auto|]. split; [apply Permutation_rev|].
  split; [vm_compute; reflexivity|]. split; [vm_compute; reflexivity|]. vm_compute. discriminate.
Qed.
(** a file that is null gives neither catalog nor error *)
Theorem C66_null_refuted : exists s, ex_decode s = Ok None.
Proof. exists (bs "null"). reflexivity. Qed.

Definition ex_text : bytes := bs "{""app.name"" : ""Płyta 😀"",
 ""file_menu"": {""other"":""pliku"",""One"":""plik"",""context"":""menu"", ""x"":null}, ""old"":""a"", ""old"":""b""} ".
Example C65_example : exists l, parse_json ex_text = Ok (JObj l) /\ length l = 4%nat /\
  parse_json (bs "[1.5e-3, -0, true, {}]") = Ok (JArr [JNum (bs "1.5e-3"); JNum (bs "-0"); JBool true; JObj []]) /\
  map parse_json [bs "[1,]"; bs "01"; bs "{a:1}"; bs """a"; bs "1 2"; []; bs """\x"""; bs "tru"] = repeat Err 8.
Proof. eexists. vm_compute. repeat split; reflexivity. Qed.
Lemma ex_messages_utf8 : utf8_messages ex_messages.
Proof.
  intros k o I. assert (A : forall s, sanitized s = s -> valid_utf8 s) by (intros s H; rewrite <- H; apply sanitized_valid).
  cbn [ex_messages In] in I. destruct I as [I|[I|[I|[]]]]; injection I as <- <-; (split; [apply A; vm_compute; reflexivity|]); intros m M; injection M as <-; cbn [j_comment j_context];
    (split; [apply A; vm_compute; reflexivity|]); (split; [apply A; vm_compute; reflexivity|]); intros c v J; cbn [tr_of j_tr In] in J; decompose [or] J; try contradiction;
    match goal with X : (_, _) = (_, _) |- _ => injection X as <- <- end; apply A; vm_compute; reflexivity.
Qed.
Example C65_written_example : cldr_built_in (bs "pl") = Some pl_rules /\ wf_messages ex_messages /\ utf8_messages ex_messages /\ ex_messages <> [] /\
  new_json_with bytes some_cats (bs "pl") (bs "app") pl_rules ex_messages = Ok ex_catalog /\
  match encode_json bytes (Some ex_catalog) with Ok t => firstn 42 t | _ => [] end = bs "{
  ""app.name"": {
    ""comment"": ""title"",
".
Proof. split; [reflexivity|]. split; [exact ex_wf|]. split; [exact ex_messages_utf8|]. split; [discriminate|]. split; [reflexivity|]. vm_compute. reflexivity. Qed.
Example C66_example : exists l c, document lenient (JObj l) ex_text /\ Forall (fun kv => plain_names (snd kv)) l /\ ex_decode ex_text = Ok (Some c) /\
  j_lookup bytes c [] (bs "old") = (bs "b", None) /\ j_lookup_plural bytes c (bs "menu") (bs "file") (NInt Kint 1) = Ok (bs "plik", None).
Proof.
  eexists _, _. split; [apply (proj1 (C65_read ex_text _)); vm_compute; reflexivity|]. split.
  - repeat constructor. cbn. intros k k' A B. decompose [or] A; decompose [or] B; subst; try contradiction; vm_compute; intro; congruence || reflexivity.
  - split; [vm_compute; reflexivity|]. split; vm_compute; reflexivity.
Qed.
Example C66_refused : map ex_decode [bs "{}"; bs "[]"; bs "{""a"":1}"; bs "{""a"":null}"; bs "{"""":""b""}"; bs "{""a"":{""one"":""b""}}"; bs "{""a"":{""other"":""b"",""context"":""c""}}"; bs "{""a"":{""other"":[]}}"] = repeat Err 8.
Proof. vm_compute. reflexivity. Qed.

Print Assumptions C65_read.
Print Assumptions C65_strict.
Print Assumptions C65_total.
Print Assumptions C65_unique.
Print Assumptions C65_utf8.
Print Assumptions C65_deep_refuted.
Print Assumptions C65_strict_refuted.
Print Assumptions C65_written.
Print Assumptions C65_layout.
Print Assumptions C65_roundtrip.
Print Assumptions C65_bytes_refuted.
Print Assumptions C65_empty_refuted.
Print Assumptions C66_outcomes.
Print Assumptions C66_file.
Print Assumptions C66_case_refuted.
Print Assumptions C66_null_refuted.
