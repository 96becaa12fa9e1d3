(** Property theorems C21-C27, C49: PO files. *)
From Coq Require Import String Ascii List ZArith Bool Lia Permutation.
From Verif Require Import Base BaseProofs Utf8Model Utf8Proofs StrModel PoStrModel PoStrSpec PoStrProofs PoDecodeProofs
  PoFileModel PoFileSpec TrimProofs PoItemProofs PoSortProofs PoMergeProofs PoHeaderProofs PoParseProofs PoTotalProofs
  PoOutcomeProofs PoEncodeProofs PoRoundProofs PoExamples TheoremsPoStr.
Import ListNotations.
Open Scope Z_scope.

(** ** C21 *)
(** Writing and reading back gives the same messages in some order; comment
    texts may be wrapped differently if a width is given. *)
Theorem C21_round_trip_partial : forall o h ms, e_refs o = true -> e_empty_header o = true ->
  (forall h', h = Some h' -> writable_header (e_width o) h') -> Forall (writable_message (e_width o)) ms ->
  NoDup (map key ms) -> (ms <> [] \/ written_header o h <> None) ->
  exists s, encode_file o h ms = Ok s /\
    ((forall l, is_line s l -> Z.of_nat (length l) < 65536) ->
     exists f ms', parse_po s = Ok f /\ Permutation ms ms' /\
       Forall2 (same_message (e_width o)) ms' (f_messages f) /\
       match written_header o h with
       | None => f_header f = new_header
       | Some h => same_header (e_width o) h (f_header f)
       end).
Proof. exact file_round. Qed.

Example C21_example_hyps : forall w, writable_message w sample /\ writable_header w sample_header.
Proof.
  intro w. split.
  - unfold writable_message, sample. cbn [m_com m_ctx m_id m_pl m_str the_comment]. split; [|split; [discriminate|]].
    + unfold writable_comment. cbn [cm_tr cm_ex cm_refs cm_flags cm_pctx cm_pid]. split; [|split; [|split; [|split; [|split; reflexivity]]]].
      * right. left. exists [bs "one"; bs "two"; bs "three"]. apply (tw_cons (bs "one") SP); [solve_word|now left|].
        apply (tw_cons (bs "two") LF); [solve_word|now right|]. constructor. solve_word.
      * right. left. exists [bs "from"; bs "code"]. apply (tw_cons (bs "from") SP); [solve_word|now left|]. constructor. solve_word.
      * constructor; [|constructor; [|constructor]]; unfold writable_ref; cbn [r_path r_line r_col].
        -- split; [solve_word|]. split; [vm_compute; intuition discriminate|]. split; [reflexivity|]. right. unfold maxInt64. lia.
        -- split; [solve_word|]. split; [vm_compute; intuition discriminate|]. split; [reflexivity|]. now left.
      * constructor; [|constructor; [|constructor]]; (split; [solve_word|vm_compute; intuition discriminate]).
    + split; [solve_text|]. split; [solve_text|]. split; [solve_text|]. split.
      * constructor; [cbn [snd]; solve_text|]. constructor; [cbn [snd]; solve_text|constructor].
      * exists 2%nat. split; [cbn; apply perm_swap|]. split; [unfold maxInt64; lia|right; lia].
  - unfold writable_header, sample_header. cbn [h_com h_known h_unknown the_comment]. split; [|split; [reflexivity|split; [|split]]].
    + apply writable_empty.
    + cbn [app repeat]. repeat (constructor; [apply plain_ascii; [solve_clean|vm_compute; reflexivity]|]). constructor.
    + constructor; [|constructor]. cbn [fst snd]. split; [apply plain_ascii; [solve_clean|vm_compute; reflexivity]|]. split.
      * repeat (constructor; [reflexivity|]). constructor.
      * split; [vm_compute; intuition discriminate|]. split; [|apply plain_ascii; [solve_clean|vm_compute; reflexivity]].
        intros (n & I & C). unfold ci_eq in C.
        assert (X : Forall (fun n => map lower (bs "X-Custom") <> map lower n) header_names)
          by (repeat (constructor; [vm_compute; discriminate|]); constructor).
        rewrite Forall_forall in X. now apply (X n I).
    + constructor; [intros []|constructor].
Qed.
Example C21_example : encode_file (EncOpts 10 true true true) (Some sample_header) [sample] =
  Ok (text ["msgid """""; "msgstr """""; """Project-Id-Version: demo\n"""; """Report-Msgid-Bugs-To: \n"""; """POT-Creation-Date: \n""";
            """PO-Revision-Date: \n"""; """Last-Translator: \n"""; """Language-Team: \n"""; """Language: \n""";
            """Content-Type: \n"""; """Content-Transfer-Encoding: \n"""; """Plural-Forms: nplurals=2; plural=(n != 1);\n""";
            """X-Custom: a: b\n"""; ""; "# one two"; "# three"; "#. from code"; "#: a.go:12"; "#: b.go"; "#, fuzzy, go-format";
            "msgctxt ""menu"""; "msgid ""%d \""file\"""""; "msgid_plural ""%d files""";
            "msgstr[0] """""; """Datei\n"""]%string ++ bs """" ++ encode_all [8364] ++ bs """" ++ [LF] ++ text ["msgstr[1] ""Dateien"""]%string).
Proof. vm_compute. reflexivity. Qed.

(** What is lost: the previous message id, ... *)
Theorem C21_previous_id_refuted : exists m s f,
  writable_message 0 (Msg None (m_ctx m) (m_id m) (m_pl m) (m_str m)) /\ cm_pid (the_comment (m_com m)) = bs "old" /\
  encode_file default_opts None [m] = Ok s /\ parse_po s = Ok f /\
  Forall (fun m' => cm_pid (the_comment (m_com m')) = []) (f_messages f).
Proof.
  exists (Msg (Some (Com [] [] [] [] [] (bs "old"))) [] (bs "id") [] [(0, bs "text")]). eexists _, _.
  split; [|split; [reflexivity|split; [vm_compute; reflexivity|split; [vm_compute; reflexivity|repeat constructor]]]].
  unfold writable_message. cbn [m_com m_ctx m_id m_pl m_str the_comment]. split; [apply writable_empty|]. split; [discriminate|].
  split; [solve_text|]. split; [solve_text|]. split; [solve_text|]. split; [constructor; [cbn [snd]; solve_text|constructor]|].
  exists 1%nat. split; [reflexivity|]. split; [unfold maxInt64; lia|left; auto].
Qed.
(** ... the number of forms of a plural message with one form, ... *)
Theorem C21_one_form_refuted : exists m s f,
  m_str m = [(0, bs "text")] /\ m_pl m <> [] /\ encode_file default_opts None [m] = Ok s /\ parse_po s = Ok f /\
  map m_str (f_messages f) = [[(0, bs "text"); (1, [])]].
Proof.
  exists (Msg None [] (bs "id") (bs "ids") [(0, bs "text")]). eexists _, _. split; [reflexivity|]. split; [discriminate|].
  split; [vm_compute; reflexivity|]. split; [vm_compute; reflexivity|reflexivity].
Qed.
(** ... and the whole header, if one value contains a backslash. *)
Theorem C21_header_refuted : exists h m s f,
  h_known h = bs "demo" :: repeat [] 11 /\ h_unknown h = [(bs "X-Path", bs "C:\new")] /\
  encode_file default_opts (Some h) [m] = Ok s /\ parse_po s = Ok f /\ f_header f = new_header.
Proof.
  exists (Hdr None (bs "demo" :: repeat [] 11) [(bs "X-Path", bs "C:\new")]), (Msg None [] (bs "id") [] [(0, bs "text")]).
  eexists _, _. split; [reflexivity|]. split; [reflexivity|].
  split; [vm_compute; reflexivity|]. split; [vm_compute; reflexivity|reflexivity].
Qed.

(** ** C22 *)
Theorem C22_no_panic : forall fuel ign s, parse_po_fuel fuel ign s <> Panic.
Proof. exact parse_no_panic. Qed.
Theorem C22_terminates_partial : forall fuel ign s, (forall l, is_line s l -> ~ unclosed l) -> (length s < fuel)%nat ->
  parse_po_fuel fuel ign s <> OutOfFuel.
Proof. intros fuel ign s. apply parse_terminates. Qed.

Example C22_example : (forall l, is_line (text ["msgid ""a\\"""; "msgstr ""b"""]%string) l -> ~ unclosed l) /\
  exists f, parse_po (text ["msgid ""a\\"""; "msgstr ""b"""]%string) = Ok f /\ map m_id (f_messages f) = [bs "a\"].
Proof.
  split.
  - intros l L U. destruct (C18_hangs_exactly (text ["msgid ""a\\"""; "msgstr ""b"""]%string)) as [_ H].
    assert (X : exists l, is_line (text ["msgid ""a\\"""; "msgstr ""b"""]%string) l /\ unclosed l) by eauto.
    specialize (H X 100%nat). vm_compute in H. discriminate.
  - eexists. split; vm_compute; reflexivity.
Qed.
(** parser.go:236 with po_string.go:363-365: this line is never decoded. *)
Theorem C22_terminates_refuted : exists s, forall fuel ign, parse_po_fuel fuel ign s = OutOfFuel.
Proof.
  exists (bs "msgid ""abc\"""). intros fuel ign.
  assert (H : decode_po_fuel fuel (bs """abc\""") = OutOfFuel).
  { apply C18_hangs_exactly. exists (bs """abc\"""). split; [apply split_is_line; vm_compute; now left|].
    exists [], (bs "abc\"), []. repeat split; try (intros []; fail). exists (bs "abc"), 1%nat. repeat split.
    right. exists (bs "ab"), "c"%char. split; [reflexivity|discriminate]. }
  assert (T : scan_all ign TEof false (file_lines (bs "msgid ""abc\""")) = [(TId, bs "msgid ""abc\""")]) by (destruct ign; reflexivity).
  unfold parse_po_fuel. rewrite T. cbn [length parse_file parse_message is_comment parse_body message_step].
  unfold dec. change (from 6 (bs "msgid ""abc\""")) with (@Ok bytes (bs """abc\""")). cbn [rbind]. rewrite H. reflexivity.
Qed.

(** ** C23 *)
(** Entries separated by blank lines: nothing is lost, nothing is invented. *)
Theorem C23_entries_kept_partial : forall bl ls s f, layout bl ls -> text_of ls s -> parse_po s = Ok f ->
  f_messages f = messages_of bl.
Proof.
  intros bl ls s f L T H. unfold parse_po in H. rewrite (layout_file false bl ls s _ L T (Nat.lt_succ_diag_r _)) in H.
  apply outcome_messages in H. rewrite H. cbn [app]. apply seen_false.
Qed.
Example C23_example : layout [BMsg msg_a; BMsg msg_c] (map bs file_a) /\ text_of (map bs file_a) (text file_a) /\
  exists f, parse_po (text file_a) = Ok f /\ map m_id (f_messages f) = [bs "a"; bs "c"] /\
    map (fun m => cm_flags (the_comment (m_com m))) (f_messages f) = [[bs "fuzzy"]; []].
Proof.
  split; [apply layout_a|]. split; [apply text_lines; reflexivity|]. eexists. split; [vm_compute; reflexivity|]. split; reflexivity.
Qed.
(** parser.go:156-206: without a blank line in between, the second entry
    overwrites the first, ... *)
Theorem C23_adjacent_refuted : exists s f, is_line s (bs "msgid ""a""") /\ parse_po s = Ok f /\
  map m_id (f_messages f) = [bs "c"].
Proof.
  exists (text ["msgid ""a"""; "msgstr ""b"""; "msgid ""c"""; "msgstr ""d"""]%string). eexists.
  split; [apply split_is_line; vm_compute; now left|]. split; [vm_compute; reflexivity|reflexivity].
Qed.
(** ... the comment line that ends an entry is dropped: the next one is no
    longer fuzzy, ... *)
Theorem C23_fuzzy_refuted : exists s f, is_line s (bs "#, fuzzy") /\ parse_po s = Ok f /\
  map m_id (f_messages f) = [bs "a"; bs "c"] /\ Forall (fun m => cm_flags (the_comment (m_com m)) = []) (f_messages f).
Proof.
  exists (text ["msgid ""a"""; "msgstr ""b"""; "#, fuzzy"; "msgid ""c"""; "msgstr ""d"""]%string). eexists.
  split; [apply split_is_line; vm_compute; auto|]. split; [vm_compute; reflexivity|]. split; [reflexivity|repeat constructor].
Qed.
(** ... and a string without blank after the keyword is lost. *)
Theorem C23_no_blank_refuted : exists s f, is_line s (bs "msgstr""b""") /\ parse_po s = Ok f /\
  map m_str (f_messages f) = [[(0, [])]].
Proof.
  exists (text ["msgid ""a"""; "msgstr""b"""]%string). eexists.
  split; [apply split_is_line; vm_compute; auto|]. split; [vm_compute; reflexivity|reflexivity].
Qed.

(** ** C24 *)
Theorem C24_duplicates_rejected_partial : forall bl ls s, layout bl ls -> text_of ls s ->
  ~ NoDup (map key (messages_of bl)) -> parse_po s = Err.
Proof. intros bl ls s L T N. apply (file_rejected false bl ls s _ L T (Nat.lt_succ_diag_r _)). now left. Qed.
Theorem C24_unique_accepted : forall bl ls s, layout bl ls -> text_of ls s -> NoDup (map key (messages_of bl)) ->
  (length (headers_of bl) <= 1)%nat -> (messages_of bl <> [] \/ headers_of bl <> []) ->
  exists f, parse_po s = Ok f /\
    forall ctx id m, get_message (f_messages f) ctx id = Some m <-> In m (messages_of bl) /\ key m = (ctx, id).
Proof.
  intros bl ls s L T ND H NE. eexists. split; [exact (file_accepted false bl ls s _ L T (Nat.lt_succ_diag_r _) ND H NE)|].
  intros ctx id m. cbn [f_messages]. rewrite seen_false. now apply get_message_iff.
Qed.
Theorem C24_order_irrelevant : forall bl ls s f bl' ls' s' f', layout bl ls -> text_of ls s -> layout bl' ls' -> text_of ls' s' ->
  Permutation (messages_of bl) (messages_of bl') -> parse_po s = Ok f -> parse_po s' = Ok f' ->
  forall ctx id, get_message (f_messages f) ctx id = get_message (f_messages f') ctx id.
Proof.
  intros bl ls s f bl' ls' s' f' L T L' T' P H H' ctx id.
  assert (ND : forall bl ls s f, layout bl ls -> text_of ls s -> parse_po s = Ok f -> NoDup (map key (messages_of bl))).
  { clear. intros bl ls s f L T H.
    destruct (ListDec.NoDup_dec (fun a b : bytes * bytes => ltac:(decide equality; apply list_eq_dec, ascii_dec)) (map key (messages_of bl)))
      as [D|D]; [exact D|]. rewrite (C24_duplicates_rejected_partial bl ls s L T D) in H. discriminate. }
  pose proof (ND _ _ _ _ L T H) as D. pose proof (ND _ _ _ _ L' T' H') as D'.
  rewrite (C23_entries_kept_partial _ _ _ _ L T H), (C23_entries_kept_partial _ _ _ _ L' T' H').
  destruct (get_message (messages_of bl') ctx id) as [m|] eqn:G.
  - apply get_message_iff in G as [I K]; [|exact D']. apply get_message_iff; [exact D|]. split; [|exact K].
    now apply (Permutation_in _ (Permutation_sym P)).
  - destruct (get_message (messages_of bl) ctx id) as [m|] eqn:G'; [|reflexivity].
    apply get_message_iff in G' as [I K]; [|exact D]. rewrite <- G. symmetry. apply get_message_iff; [exact D'|].
    split; [now apply (Permutation_in _ P)|exact K].
Qed.
Example C24_example :
  (layout [BMsg msg_c; BMsg msg_c] (map bs file_dup) /\ text_of (map bs file_dup) (text file_dup) /\
   ~ NoDup (map key (messages_of [BMsg msg_c; BMsg msg_c]))) /\
  (layout [BMsg msg_a; BMsg msg_c] (map bs file_a) /\ layout [BMsg msg_c; BMsg msg_a] (map bs file_b) /\
   text_of (map bs file_a) (text file_a) /\ text_of (map bs file_b) (text file_b) /\
   (exists f, parse_po (text file_a) = Ok f) /\ exists f, parse_po (text file_b) = Ok f).
Proof.
  split.
  - split; [apply layout_dup|]. split; [apply text_lines; reflexivity|]. intro N. inversion N as [|? ? X _]. apply X. now left.
  - split; [apply layout_a|]. split; [apply layout_b|]. split; [apply text_lines; reflexivity|].
    split; [apply text_lines; reflexivity|]. split; eexists; vm_compute; reflexivity.
Qed.
(** Adjacent definitions of the same id are accepted. *)
Theorem C24_adjacent_refuted : exists s f, parse_po s = Ok f /\ map m_id (f_messages f) = [bs "a"] /\
  is_line s (bs "msgstr ""b""") /\ is_line s (bs "msgstr ""d""") /\
  s = text ["msgid ""a"""; "msgstr ""b"""; "msgid ""a"""; "msgstr ""d"""]%string.
Proof.
  eexists _, _. split; [|split; [|split; [|split; [|reflexivity]]]].
  - vm_compute. reflexivity.
  - reflexivity.
  - apply split_is_line. vm_compute. auto.
  - apply split_is_line. vm_compute. auto 10.
Qed.

(** ** C25 *)
(** The twelve known fields, whatever strings.EqualFold does; ... *)
Theorem C25_known_fields : forall fold kvs k, ascii_text k -> known_name k -> Forall (fun e => ascii_text (fst e)) kvs ->
  exists v, last_value kvs k v /\
    header_get fold (fold_left (fun h e => header_set h (fst e) (snd e)) kvs new_header) k = v.
Proof. exact set_all_known. Qed.
(** ... other fields if they are always set with the same spelling. *)
Theorem C25_fields_partial : forall fold kvs k, ascii_fold fold -> ascii_text k ->
  Forall (fun e => ascii_text (fst e)) kvs -> one_spelling (map fst kvs) ->
  exists v, last_value kvs k v /\
    header_get fold (fold_left (fun h e => header_set h (fst e) (snd e)) kvs new_header) k = v.
Proof. exact set_all_get. Qed.
Example C25_example :
  ascii_fold fold_ascii /\ known_name (bs "language") /\
  one_spelling (map fst [(bs "X-Foo", bs "1"); (bs "LANGUAGE", bs "de"); (bs "X-Foo", bs "2"); (bs "Language", bs "fr")]) /\
  last_value [(bs "X-Foo", bs "1"); (bs "LANGUAGE", bs "de"); (bs "X-Foo", bs "2"); (bs "Language", bs "fr")] (bs "x-foo") (bs "2").
Proof.
  split; [apply fold_ascii_ok|]. split; [|split].
  - exists (bs "Language"). split; [|reflexivity]. vm_compute. auto 20.
  - intros a b A B C N. cbn in A, B. destruct A as [<-|[<-|[<-|[<-|[]]]]]; destruct B as [<-|[<-|[<-|[<-|[]]]]];
      try reflexivity; try (vm_compute in C; discriminate C);
      exfalso; apply N; exists (bs "Language"); (split; [vm_compute; auto 20|reflexivity]).
  - apply (lv_some [(bs "X-Foo", bs "1"); (bs "LANGUAGE", bs "de")] _ (bs "X-Foo") (bs "2") [(bs "Language", bs "fr")]).
    + reflexivity.
    + constructor; [|constructor]. intro X. vm_compute in X. discriminate.
Qed.
(** file.go:150-154 and 189-193: with two spellings the value read depends on
    the iteration order of the map; this order gives the old value. *)
Theorem C25_spelling_refuted : exists kvs k, forall fold, ascii_fold fold ->
  last_value kvs k (bs "2") /\
  header_get fold (fold_left (fun h e => header_set h (fst e) (snd e)) kvs new_header) k = bs "1".
Proof.
  exists [(bs "X-Foo", bs "1"); (bs "x-foo", bs "2")], (bs "X-Foo"). intros fold F. split.
  - apply (lv_some [(bs "X-Foo", bs "1")] _ (bs "x-foo") (bs "2") []); [reflexivity|constructor].
  - unfold header_get.
    change (field_index header_names (bs "X-Foo")) with (@None nat).
    change (h_unknown (fold_left (fun h e => header_set h (fst e) (snd e)) [(bs "X-Foo", bs "1"); (bs "x-foo", bs "2")] new_header))
      with [(bs "X-Foo", bs "1"); (bs "x-foo", bs "2")].
    cbn [unknown_get]. rewrite (proj2 (fold_ci fold (bs "X-Foo") (bs "X-Foo") F ltac:(repeat constructor) ltac:(repeat constructor)) eq_refl).
    reflexivity.
Qed.

(** ** C26 *)
Theorem C26_flags : forall c o, let m := merge_comment c (Some o) in
  (forall f, In f (cm_flags m) <-> In f (cm_flags c) \/ In f (cm_flags o)) /\ NoDup (cm_flags m) /\
  ordered bytes_le (cm_flags m) /\ cm_flags (merge_comment m (Some o)) = cm_flags m.
Proof.
  intros c o m. split; [apply flags_union|]. split; [apply flags_nodup|]. split; [apply sort_bytes_ordered|apply flags_twice].
Qed.
Theorem C26_references_partial : forall c o, let m := merge_comment c (Some o) in
  (forall r, In r (cm_refs m) <-> In r (cm_refs c) \/ In r (cm_refs o)) /\ (NoDup (cm_refs c) -> NoDup (cm_refs m)) /\
  ordered ref_le (cm_refs m) /\ cm_refs (merge_comment m (Some o)) = cm_refs m.
Proof.
  intros c o m. split; [apply refs_union|]. split; [apply refs_nodup|]. split; [apply sort_refs_ordered|apply refs_twice].
Qed.
Theorem C26_self : forall c, let m := merge_comment c (Some c) in
  (NoDup (cm_flags c) -> Permutation (cm_flags m) (cm_flags c)) /\ Permutation (cm_refs m) (cm_refs c).
Proof.
  intros c m. split.
  - intro N. unfold m. rewrite (flags_self c N). apply Permutation_sym, sort_perm.
  - unfold m. rewrite refs_self. apply Permutation_sym, sort_perm.
Qed.
(** The texts: lines that are not empty and trimmed. *)
Theorem C26_texts_partial : forall c o a b x y, tlines a -> tlines b -> tlines x -> tlines y ->
  cm_tr c = lines_text a -> cm_tr o = lines_text b -> cm_ex c = lines_text x -> cm_ex o = lines_text y ->
  let m := merge_comment c (Some o) in
  (exists t, tlines t /\ cm_tr m = lines_text t /\ forall l, In l t <-> In l a \/ In l b) /\
  (exists t, tlines t /\ cm_ex m = lines_text t /\ forall l, In l t <-> In l x \/ In l y) /\
  cm_tr (merge_comment m (Some o)) = cm_tr m /\ cm_ex (merge_comment m (Some o)) = cm_ex m.
Proof.
  intros c o a b x y A B X Y EA EB EX EY m.
  assert (M : cm_tr m = lines_text (union_lines a b) /\ cm_ex m = lines_text (union_lines x y)).
  { unfold m. cbn [merge_comment sort_comment cm_tr cm_ex]. rewrite EA, EB, EX, EY. split; now apply merge_text_lines. }
  destruct M as [M1 M2]. split; [|split; [|split]].
  - exists (union_lines a b). split; [now apply union_tlines|]. split; [exact M1|apply merge_strings_spec].
  - exists (union_lines x y). split; [now apply union_tlines|]. split; [exact M2|apply merge_strings_spec].
  - cbn [merge_comment sort_comment cm_tr]. rewrite M1, EB. rewrite merge_text_lines by (auto using union_tlines).
    now rewrite union_again.
  - cbn [merge_comment sort_comment cm_ex]. rewrite M2, EY. rewrite merge_text_lines by (auto using union_tlines).
    now rewrite union_again.
Qed.
(** Merging with no comment changes nothing. *)
Theorem C26_nil : forall c, merge_comment c None = c.
Proof. reflexivity. Qed.
Example C26_example :
  let c := Com (lines_text [bs "one"; bs "two"]) [] [Ref (bs "b.go") 2 0] [bs "fuzzy"] [] [] in
  let o := Com (lines_text [bs "two"; bs "three"]) (lines_text [bs "x"]) [Ref (bs "b.go") 2 0; Ref (bs "a.go") 9 0] [bs "go-format"; bs "fuzzy"] [] [] in
  tlines [bs "one"; bs "two"] /\ tlines [bs "two"; bs "three"] /\ tlines [] /\ tlines [bs "x"] /\ NoDup (cm_refs c) /\
  merge_comment c (Some o) =
    Com (lines_text [bs "one"; bs "two"; bs "three"]) (bs "x") [Ref (bs "a.go") 9 0; Ref (bs "b.go") 2 0] [bs "fuzzy"; bs "go-format"] [] [].
Proof.
  intros c o.
  assert (L : forall l, forallb (fun x => negb (is_nil x)) l = true -> Forall clean l -> Forall (fun x => ~ In LF x) l -> NoDup l -> tlines l).
  { intros l A B C D. split; [exact D|]. rewrite Forall_forall in *. intros x I. rewrite forallb_forall in A.
    split; [|split; auto]. specialize (A x I). destruct x; discriminate. }
  assert (NL : forall s : bytes, existsb (Ascii.eqb LF) s = false -> ~ In LF s).
  { intros s E I. enough (existsb (Ascii.eqb LF) s = true) by congruence. apply existsb_exists. exists LF. auto using Ascii.eqb_refl. }
  split; [|split; [|split; [|split; [|split]]]].
  - apply L; [reflexivity|repeat (constructor; [solve_clean|]); constructor|repeat (constructor; [apply NL; reflexivity|]); constructor|].
    constructor; [intros [E|[]]; discriminate|constructor; [intros []|constructor]].
  - apply L; [reflexivity|repeat (constructor; [solve_clean|]); constructor|repeat (constructor; [apply NL; reflexivity|]); constructor|].
    constructor; [intros [E|[]]; discriminate|constructor; [intros []|constructor]].
  - split; constructor.
  - apply L; [reflexivity|constructor; [|constructor]|repeat (constructor; [apply NL; reflexivity|]); constructor|constructor; [intros []|constructor]].
    right. exists 120, [], 120, []. repeat split; reflexivity.
  - constructor; [intros []|constructor].
  - vm_compute. reflexivity.
Qed.
(** comment.go:91-99: references listed twice stay twice. *)
Theorem C26_references_refuted : exists c o, ~ NoDup (cm_refs (merge_comment c (Some o))).
Proof.
  exists (Com [] [] [Ref (bs "a") 1 0; Ref (bs "a") 1 0] [] [] []), (Com [] [] [] [] [] []).
  intro N. vm_compute in N. inversion N as [|? ? X _]. apply X. now left.
Qed.
(** comment.go:71-83: merging the same indented text twice adds a line. *)
Theorem C26_texts_refuted : exists c o, let m := merge_comment c (Some o) in
  cm_tr (merge_comment m (Some o)) <> cm_tr m /\ cm_tr m = bs "x".
Proof.
  exists (Com [] [] [] [] [] []), (Com (bs " x") [] [] [] [] []). split; [vm_compute; discriminate|reflexivity].
Qed.

(** ** C27 *)
(** The messages of a map in any order are written the same, if no message
    has references or if the smallest references of the messages differ. *)
Theorem C27_deterministic_partial : forall o h ms ms', Permutation ms ms' -> no_refs ms \/ distinct_refs ms ->
  encode_file o h ms = encode_file o h ms'.
Proof. intros o h ms ms' P H. unfold encode_file. now rewrite (sort_messages_perm ms ms' P H). Qed.
Theorem C27_order_partial : forall ms, (2 <= length ms)%nat ->
  (no_refs ms -> ordered key_lt (sort_messages ms)) /\
  (distinct_refs ms -> ordered (fun a b => exists r q, least_ref a r /\ least_ref b q /\ ref_lt r q) (sort_messages ms)) /\
  Permutation (map key ms) (map key (sort_messages ms)).
Proof.
  intros ms L. destruct (sort_messages_order ms L) as (A & B & C). split; [exact A|]. split; [exact B|].
  rewrite <- keys_sorted. now apply Permutation_map.
Qed.
Definition ref_msg (i : bytes) (rs : list reference) : message := Msg (Some (Com [] [] rs [] [] [])) [] i [] [(0, [])].
Example C27_example :
  no_refs [ref_msg (bs "b") []; ref_msg (bs "a") []] /\
  distinct_refs [ref_msg (bs "a") [Ref (bs "x.go") 9 0; Ref (bs "x.go") 7 0]; ref_msg (bs "b") [Ref (bs "x.go") 3 0]] /\
  map m_id (sort_messages [ref_msg (bs "a") [Ref (bs "x.go") 9 0; Ref (bs "x.go") 7 0]; ref_msg (bs "b") [Ref (bs "x.go") 3 0]])
    = [bs "b"; bs "a"].
Proof.
  split; [|split; [|reflexivity]].
  - split; [repeat constructor|]. constructor; [intros [E|[]]; discriminate|constructor; [intros []|constructor]].
  - exists [Ref (bs "x.go") 7 0; Ref (bs "x.go") 3 0]. split.
    + constructor; [|constructor; [|constructor]].
      * split; [right; now left|]. constructor; [|constructor; [now right|constructor]].
        left. right. split; [reflexivity|]. left. cbn. lia.
      * split; [now left|]. constructor; [now right|constructor].
    + constructor; [intros [E|[]]; discriminate|constructor; [intros []|constructor]].
Qed.
(** encoder.go:292-300: two messages with the same first reference tie. *)
Theorem C27_deterministic_refuted : exists ms ms', Permutation ms ms' /\ NoDup (map key ms) /\
  encode_file default_opts None ms <> encode_file default_opts None ms'.
Proof.
  exists [ref_msg (bs "a") [Ref (bs "x.go") 9 0]; ref_msg (bs "b") [Ref (bs "x.go") 9 0]],
    [ref_msg (bs "b") [Ref (bs "x.go") 9 0]; ref_msg (bs "a") [Ref (bs "x.go") 9 0]].
  split; [apply perm_swap|]. split.
  - constructor; [intros [E|[]]; discriminate|constructor; [intros []|constructor]].
  - vm_compute. discriminate.
Qed.
(** A message without references makes the order cyclic. *)
Theorem C27_transitive_refuted : exists a b c, msg_cmp a b < 0 /\ msg_cmp b c < 0 /\ msg_cmp c a < 0.
Proof.
  exists (ref_msg (bs "c") [Ref (bs "x.go") 1 0]), (ref_msg (bs "a") [Ref (bs "x.go") 2 0]), (ref_msg (bs "b") []).
  vm_compute. auto.
Qed.

(** ** C49 *)
(** Ignoring comments: the same outcome, messages and header, with flags. *)
Theorem C49_ignore_comments_partial : forall bl ls s fuel, layout bl ls -> text_of ls s -> (length s < fuel)%nat ->
  parse_po_fuel fuel true s =
  match parse_po_fuel fuel false s with
  | Ok f => Ok (PoFile (Hdr (option_map (seen_comment true) (h_com (f_header f))) (h_known (f_header f)) (h_unknown (f_header f)))
                       (map (seen_message true) (f_messages f)))
  | x => x
  end.
Proof.
  intros bl ls s fuel L T F. rewrite (layout_file true bl ls s fuel L T F), (layout_file false bl ls s fuel L T F).
  exact (outcome_seen bl None []).
Qed.
Example C49_example : layout [BMsg msg_a; BMsg msg_c] (map bs file_a) /\ text_of (map bs file_a) (text file_a) /\
  exists f, parse_po_fuel 100 true (text file_a) = Ok f /\
    map (fun m => (m_id m, cm_flags (the_comment (m_com m)))) (f_messages f) = [(bs "a", [bs "fuzzy"]); (bs "c", [])].
Proof.
  split; [apply layout_a|]. split; [apply text_lines; reflexivity|]. eexists. split; [vm_compute; reflexivity|reflexivity].
Qed.
(** A comment between two entries without blank lines keeps them apart only if
    it is not ignored. *)
Theorem C49_ignore_comments_refuted : exists s f f', parse_po_fuel 100 false s = Ok f /\ parse_po_fuel 100 true s = Ok f' /\
  map m_id (f_messages f) = [bs "a"; bs "c"] /\ map m_id (f_messages f') = [bs "c"].
Proof.
  exists (text ["msgid ""a"""; "msgstr ""b"""; "# note"; "msgid ""c"""; "msgstr ""d"""]%string). eexists _, _.
  split; [vm_compute; reflexivity|]. split; [vm_compute; reflexivity|]. split; reflexivity.
Qed.

Print Assumptions C21_round_trip_partial.
Print Assumptions C21_previous_id_refuted.
Print Assumptions C21_one_form_refuted.
Print Assumptions C21_header_refuted.
Print Assumptions C22_no_panic.
Print Assumptions C22_terminates_partial.
Print Assumptions C22_terminates_refuted.
Print Assumptions C23_entries_kept_partial.
Print Assumptions C23_adjacent_refuted.
Print Assumptions C23_fuzzy_refuted.
Print Assumptions C23_no_blank_refuted.
Print Assumptions C24_duplicates_rejected_partial.
Print Assumptions C24_unique_accepted.
Print Assumptions C24_order_irrelevant.
Print Assumptions C24_adjacent_refuted.
Print Assumptions C25_known_fields.
Print Assumptions C25_fields_partial.
Print Assumptions C25_spelling_refuted.
Print Assumptions C26_flags.
Print Assumptions C26_references_partial.
Print Assumptions C26_self.
Print Assumptions C26_texts_partial.
Print Assumptions C26_nil.
Print Assumptions C26_references_refuted.
Print Assumptions C26_texts_refuted.
Print Assumptions C27_deterministic_partial.
Print Assumptions C27_order_partial.
Print Assumptions C27_deterministic_refuted.
Print Assumptions C27_transitive_refuted.
Print Assumptions C49_ignore_comments_partial.
Print Assumptions C49_ignore_comments_refuted.
