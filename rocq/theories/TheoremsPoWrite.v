(** C21, C23: what of a PO file comes back with every option of the encoder
    and every order of the messages, and lines that are too long. *)
From Coq Require Import String Ascii List ZArith Bool Lia ZifyBool Permutation.
From Verif Require Import Base BaseProofs Utf8Model StrModel PoStrModel PoStrSpec PoStrProofs PoDecodeProofs PoFileModel PoFileSpec
  PoSortProofs PoMergeProofs PoItemProofs PoParseProofs PoOutcomeProofs PoRoundProofs PoExamples PoWriteSpec PoWriteProofs.
Import ListNotations.
Open Scope Z_scope.

(** ** C21 *)
(** Any options, messages in any order (any sort function or none). *)
Theorem C21_all_options_partial : forall o h ms,
  (forall h', h = Some h' -> can_write_header (e_width o) h') -> Forall (can_write_message (e_width o)) ms ->
  NoDup (map key ms) -> (ms <> [] \/ header_written o h) ->
  exists s, encode_ordered o h ms = Ok s /\
    ((forall l, is_line s l -> Z.of_nat (length l) < 65536) ->
     exists f, parse_po s = Ok f /\ Forall2 (kept_message (e_width o) (e_refs o)) ms (f_messages f) /\
       kept_header o h (f_header f)).
Proof. exact write_round. Qed.

(** The default sort function also sorts the references and flags. *)
Definition reordered (m m' : message) : Prop :=
  m_ctx m' = m_ctx m /\ m_id m' = m_id m /\ m_pl m' = m_pl m /\ m_str m' = m_str m /\
  cm_tr (the_comment (m_com m')) = cm_tr (the_comment (m_com m)) /\
  cm_ex (the_comment (m_com m')) = cm_ex (the_comment (m_com m)) /\
  Permutation (cm_refs (the_comment (m_com m))) (cm_refs (the_comment (m_com m'))) /\
  Permutation (cm_flags (the_comment (m_com m))) (cm_flags (the_comment (m_com m'))).
Lemma reordered_refl : forall m, reordered m m.
Proof. intro m. unfold reordered. repeat split; reflexivity. Qed.
Lemma sorted_reordered : forall m, reordered m (sort_msg_comment m).
Proof.
  intros [[c|] x i p s]; unfold reordered, sort_msg_comment, sort_comment; cbn [m_com m_ctx m_id m_pl m_str option_map the_comment cm_tr cm_ex cm_refs cm_flags];
    repeat split; try reflexivity; apply sort_perm.
Qed.
Lemma sort_messages_reordered : forall ms, exists ms' ms'', Permutation ms ms' /\ Forall2 reordered ms' ms'' /\ sort_messages ms = ms''.
Proof.
  intros ms. assert (S : forall l, exists ms', Permutation l ms' /\ Forall2 reordered ms' (sort msg_cmp (map sort_msg_comment l))).
  { intro l. pose proof (sort_perm _ msg_cmp (map sort_msg_comment l)) as P. apply Permutation_sym, Permutation_map_inv in P as (ms' & E & P).
    exists ms'. split; [exact P|]. rewrite E. clear. induction ms' as [|m l IH]; constructor; [apply sorted_reordered|exact IH]. }
  destruct ms as [|m [|n ms]].
  - exists [], []. auto.
  - exists [m], [m]. split; [reflexivity|]. split; [|reflexivity]. constructor; [apply reordered_refl|constructor].
  - destruct (S (m :: n :: ms)) as (ms' & P & F). exists ms', (sort msg_cmp (map sort_msg_comment (m :: n :: ms))). auto.
Qed.
Lemma reordered_ok : forall w m m', reordered m m' -> can_write_message w m -> can_write_message w m'.
Proof.
  intros w m m' (E1 & E2 & E3 & E4 & E5 & E6 & PR & PF) ((T & X & R & F) & H). unfold can_write_message. rewrite E1, E2, E3, E4.
  split; [|exact H]. split; [now rewrite E5|]. split; [now rewrite E6|].
  split; [exact (Permutation_Forall PR R)|exact (Permutation_Forall PF F)].
Qed.
Theorem C21_sorted_partial : forall o h ms,
  (forall h', h = Some h' -> can_write_header (e_width o) h') -> Forall (can_write_message (e_width o)) ms ->
  NoDup (map key ms) -> (ms <> [] \/ header_written o h) ->
  exists s, encode_file o h ms = Ok s /\
    ((forall l, is_line s l -> Z.of_nat (length l) < 65536) ->
     exists f ms' ms'', parse_po s = Ok f /\ Permutation ms ms' /\ Forall2 reordered ms' ms'' /\
       Forall2 (kept_message (e_width o) (e_refs o)) ms'' (f_messages f) /\ kept_header o h (f_header f)).
Proof.
  intros o h ms WH WM ND NE. destruct (sort_messages_reordered ms) as (ms' & ms'' & P & F & E). unfold encode_file. rewrite E.
  destruct (write_round o h ms'') as (s & ES & R).
  - exact WH.
  - apply (Permutation_Forall P) in WM. clear - WM F. induction F as [|a b l l' AB F IH]; constructor.
    + exact (reordered_ok _ _ _ AB (Forall_inv WM)).
    + exact (IH (Forall_inv_tail WM)).
  - apply (Permutation_NoDup (l := map key ms')); [|exact (Permutation_NoDup (Permutation_map key P) ND)].
    clear - F. replace (map key ms'') with (map key ms'); [reflexivity|].
    induction F as [|a b l l' (E1 & E2 & _) F IH]; [reflexivity|]. cbn [map]. unfold key at 1 3. now rewrite IH, E1, E2.
  - destruct NE as [NE|NE]; [left|now right]. intros ->. inversion F; subst. apply Permutation_sym, Permutation_nil in P. congruence.
  - exists s. split; [exact ES|]. intro SH. destruct (R SH) as (f & PF & X & HX). exists f, ms', ms''. auto.
Qed.

(** A message with a previous id, a reference with a column and one form of
    a plural; a header without values. *)
Definition lossy : message :=
  Msg (Some (Com (bs "note") [] [Ref (bs "a.go") 3 7; Ref (bs "b.go") 0 0] [bs "fuzzy"] (bs "old") (bs "older"))) [] (bs "id") (bs "ids") [(0, bs "text")].
Definition bare_header : header := Hdr (Some (Com (bs "title") [] [] [] [] [])) (repeat [] 12) [].
Example C21_options_hyps : forall w, can_write_message w lossy /\ can_write_header w bare_header /\
  NoDup (map key [lossy]) /\
  ~ header_written (EncOpts w true false true) (Some bare_header) /\ header_written (EncOpts w true true true) (Some bare_header).
Proof.
  intro w. assert (NO : forall P : bytes -> Prop, ~ P [] -> ~ Exists P (repeat [] 12)).
  { intros P N X. apply Exists_exists in X as (x & I & PX). apply repeat_spec in I. now subst. }
  assert (ONE : forall e s, word s -> comment_text e w s) by (intros e s W; right; left; exists [s]; now constructor).
  split; [|split; [|split; [|split]]].
  - unfold can_write_message, lossy. cbn [m_com m_ctx m_id m_pl m_str the_comment]. split; [|split; [discriminate|]].
    + unfold can_write_comment. cbn [cm_tr cm_ex cm_refs cm_flags]. split; [apply ONE; solve_word|]. split; [now left|]. split.
      * constructor; [|constructor; [|constructor]]; unfold can_write_ref; cbn [r_path r_line];
          (split; [solve_word|split; [vm_compute; intuition discriminate|unfold maxInt64; lia]]).
      * constructor; [|constructor]. split; [solve_word|vm_compute; intuition discriminate].
    + split; [solve_text|]. split; [solve_text|]. split; [solve_text|]. split; [constructor; [cbn [snd]; solve_text|constructor]|].
      exists 1%nat. split; [reflexivity|unfold maxInt64; lia].
  - unfold can_write_header, bare_header. cbn [h_com h_known h_unknown the_comment]. split; [|split; [reflexivity|split; [|split; constructor]]].
    + unfold can_write_comment. cbn [cm_tr cm_ex cm_refs cm_flags]. split; [apply ONE; solve_word|]. split; [now left|]. split; constructor.
    + cbn [repeat]. repeat (constructor; [apply plain_ascii; [solve_clean|vm_compute; reflexivity]|]). constructor.
  - constructor; [intros []|constructor].
  - intros (_ & h & E & [X|[X|X]]); injection E as <-; [discriminate|now apply (NO (fun v => v <> []))|inversion X].
  - split; [reflexivity|]. eexists. split; [reflexivity|now left].
Qed.
Example C21_options_example :
  encode_ordered (EncOpts (-1) true false true) (Some bare_header) [lossy] =
    Ok (text ["# title"; ""; "# note"; "#: a.go:3 b.go"; "#, fuzzy"; "msgid ""id"""; "msgid_plural ""ids"""; "msgstr[0] ""text"""; "msgstr[1] """""]%string) /\
  (exists f, parse_po (text ["# title"; ""; "# note"; "#: a.go:3 b.go"; "#, fuzzy"; "msgid ""id"""; "msgid_plural ""ids"""; "msgstr[0] ""text"""; "msgstr[1] """""]%string) = Ok f /\
    f_header f = new_header /\
    f_messages f = [Msg (Some (Com (bs "note") [] [Ref (bs "a.go") 3 0; Ref (bs "b.go") (-1) 0] [bs "fuzzy"] [] [])) [] (bs "id") (bs "ids") [(0, bs "text"); (1, [])]]) /\
  encode_ordered (EncOpts (-1) false true false) (Some bare_header) [lossy] =
    Ok (text ["# note"; "#, fuzzy"; "msgid ""id"""; "msgid_plural ""ids"""; "msgstr[0] ""text"""; "msgstr[1] """""]%string).
Proof. split; [vm_compute; reflexivity|]. split; [eexists; split; [vm_compute; reflexivity|split; reflexivity]|vm_compute; reflexivity]. Qed.

(** ** C23 *)
(** scanner.go:200-213: a line of 65536 bytes or more ends the
    file, without an error. *)
Lemma split_lf : forall s t, split_on LF (s ++ LF :: t) = split_on LF s ++ split_on LF t.
Proof.
  induction s as [|c s IH]; intro t; [reflexivity|]. cbn [app split_on]. destruct (Ascii.eqb c LF); [now rewrite IH|].
  rewrite IH. destruct (split_on LF s) as [|x xs] eqn:E; [|reflexivity].
  exfalso. destruct s as [|d s]; [discriminate|]. cbn [split_on] in E. destruct (Ascii.eqb d LF); [discriminate|]. destruct (split_on LF s); discriminate.
Qed.
Lemma cut_app : forall a l b, 65536 <= Z.of_nat (length l) -> cut_long (a ++ l :: b) = cut_long a.
Proof.
  induction a as [|x a IH]; intros l b H; cbn [app cut_long]; unfold too_long.
  - destruct (Z.leb_spec 65536 (Z.of_nat (length l))); [reflexivity|lia].
  - destruct (65536 <=? Z.of_nat (length x)); [reflexivity|]. now rewrite IH.
Qed.
Theorem C23_long_lines : forall fuel ign s l rest, ~ In LF l -> 65536 <= Z.of_nat (length l) ->
  parse_po_fuel fuel ign (s ++ LF :: l ++ LF :: rest) = parse_po_fuel fuel ign (s ++ [LF]).
Proof.
  intros fuel ign s l rest N H. unfold parse_po_fuel.
  assert (E : file_lines (s ++ LF :: l ++ LF :: rest) = file_lines (s ++ [LF])); [|now rewrite E].
  unfold file_lines. cbv zeta. rewrite !split_lf, (split_no_lf_end l) by exact N. cbn [app]. change (split_on LF []) with [@nil ascii].
  rewrite last_last, removelast_last. destruct (last (split_on LF s ++ l :: split_on LF rest) []) eqn:EL.
  - rewrite removelast_app by discriminate. destruct (split_on LF rest) as [|r rs] eqn:ER.
    + exfalso. rewrite last_last in EL. subst l. cbn in H. lia.
    + change (removelast (l :: r :: rs)) with (l :: removelast (r :: rs)). now apply cut_app.
  - now apply cut_app.
Qed.
Theorem C23_long_line_refuted : exists s f n, is_line s (bs "msgid """ ++ repeat "x"%char n ++ [QUOTE]) /\
  is_line s (bs "msgid ""z""") /\ parse_po s = Ok f /\ map m_id (f_messages f) = [bs "a"].
Proof.
  set (n := Z.to_nat 65536). set (l := bs "msgid """ ++ repeat "x"%char n ++ [QUOTE]).
  assert (L : 65536 <= Z.of_nat (length l)) by (unfold l; rewrite !app_length, repeat_length; unfold n; lia).
  assert (N : ~ In LF l).
  { unfold l. intro I. apply in_app_or in I as [I|I]; [vm_compute in I; intuition discriminate|].
    apply in_app_or in I as [I|I]; [apply repeat_spec in I; discriminate|]. destruct I as [I|[]]. discriminate. }
  set (s0 := text ["msgid ""a"""; "msgstr ""b"""]%string). set (r := text ["msgstr ""y"""; ""; "msgid ""z"""; "msgstr ""w"""]%string).
  exists (s0 ++ LF :: l ++ LF :: r). eexists _, n. fold l. split; [|split; [|split]].
  - apply split_is_line. rewrite split_lf, split_no_lf by exact N. apply in_or_app. right. now left.
  - apply split_is_line. rewrite split_lf, split_no_lf by exact N. apply in_or_app. right. right. vm_compute. auto.
  - unfold parse_po. rewrite C23_long_lines by assumption.
    assert (LA : layout [BMsg (Msg (Some (com_of [])) [] (bs "a") [] [(0, bs "b")])] (map bs ["msgid ""a"""; "msgstr ""b"""; ""]%string)).
    { apply (lay_cons _ [] [] (map bs ["msgid ""a"""; "msgstr ""b"""]%string) [] []); [constructor| |constructor|constructor; constructor].
      constructor. apply (entry_one [] [] (bs "a") (bs "b")); [constructor|discriminate|reflexivity|reflexivity]. }
    rewrite (layout_file false _ _ (s0 ++ [LF]) _ LA).
    + reflexivity.
    + exact (text_lines ["msgid ""a"""; "msgstr ""b"""; ""]%string eq_refl).
    + clearbody l. rewrite !app_length. cbn [length]. rewrite app_length. lia.
  - reflexivity.
Qed.

Print Assumptions C21_all_options_partial.
Print Assumptions C21_sorted_partial.
Print Assumptions C23_long_lines.
Print Assumptions C23_long_line_refuted.
