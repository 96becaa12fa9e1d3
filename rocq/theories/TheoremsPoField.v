(** C23, C24, C49: PO files whose entries give their fields in any order and
    any number of times. *)
From Coq Require Import String Ascii List ZArith Bool Lia Permutation.
From Verif Require Import Base BaseProofs PoFileModel PoFileSpec PoItemProofs PoParseProofs PoOutcomeProofs PoExamples
  PoStrSpec PoDecodeProofs PoTightSpec PoTightProofs PoFieldSpec PoFieldProofs.
Import ListNotations.
Open Scope Z_scope.

(** ** C23 *)
(** Each paragraph with an id becomes one message with the values given last:
    entries that are not set apart are read as one. *)
Theorem C23_paragraphs_partial : forall ps ls s f, paragraphs false ps ls -> text_of ls s -> parse_po s = Ok f ->
  entries_of ps (f_messages f).
Proof.
  intros ps ls s f L T H. unfold parse_po in H. rewrite (pars_file false ps ls s _ L T (Nat.lt_succ_diag_r _)) in H.
  apply result_messages in H. rewrite H. apply entries_par.
Qed.

(** Two entries in a row, the fields of the second in another order, and a
    third one after a comment line. *)
Definition file_p : list string :=
  ["# note"; "msgctxt ""c"""; "msgid ""a"""; "msgstr ""b"""; "msgstr[1] ""x"""; """y"""; "msgid ""e"""; """f"""; "msgstr[0] ""d""";
   "#, fuzzy"; "msgstr ""g"""; "msgid ""h"""]%string.
Definition par_1 : paragraph :=
  Par [ITrans (bs "note")] [FCtx (bs "c"); FId (bs "a"); FText (bs "b"); FForm 1 (bs "xy"); FId (bs "ef"); FForm 0 (bs "d")].
Definition par_2 : paragraph := Par [] [FText (bs "g"); FId (bs "h")].
Definition plain (s : bytes) : bool :=
  forallb (fun c => (bval c <? 128) && negb (bval c =? 10) && negb (bval c =? 34) && negb (bval c =? 92)) s.
Lemma field_more : forall kw s t, plain s = true -> plain t = true ->
  field kw [] [kw ++ SP :: QUOTE :: s ++ [QUOTE]; QUOTE :: t ++ [QUOTE]] (s ++ t).
Proof.
  intros kw s t S T. rewrite <- (app_nil_r t) at 2. change (t ++ []) with (concat [t]).
  assert (P : forall l, padded l l).
  { intro l. exists [], []. split; [constructor|]. split; [constructor|]. now rewrite app_nil_r. }
  apply (field_intro kw [] _ [] (QUOTE :: s ++ [QUOTE]) s [QUOTE :: t ++ [QUOTE]] [t]).
  - exact (P _).
  - constructor.
  - exists s. split; [reflexivity|now apply plain_body].
  - constructor; [|constructor]. exists (QUOTE :: t ++ [QUOTE]). split; [exists t; split; [reflexivity|now apply plain_body]|].
    exists []. split; [constructor|]. split; [reflexivity|exact (P _)].
Qed.
Lemma pars_p : paragraphs true [par_1; par_2] (map bs file_p).
Proof.
  apply (ps_cons true par_1 [par_2] [] (map bs (firstn 9 file_p)) (bs "#, fuzzy") (map bs ["msgstr ""g"""; "msgid ""h"""]%string)); [constructor| | |].
  - split; [left; discriminate|]. exists [bs "# note"], (map bs (firstn 8 (tl file_p))). split; [reflexivity|]. split.
    + apply (ils_cons _ [] [bs "# note"] []); [|constructor].
      apply (il_trans (bs "note") [] (bs "# note")); [discriminate|solve_clean|constructor|].
      exists [], []. split; [constructor|]. split; [constructor|reflexivity].
    + apply (fls_cons [] _ _ [bs "msgctxt ""c"""]); [constructor; exact (field_one (bs "msgctxt") [] (bs "c") eq_refl)|].
      apply (fls_cons _ _ _ [bs "msgid ""a"""]); [constructor; exact (field_one (bs "msgid") [] (bs "a") eq_refl)|].
      apply (fls_cons _ _ _ [bs "msgstr ""b"""]); [constructor; exact (field_one (bs "msgstr") [] (bs "b") eq_refl)|].
      apply (fls_cons _ _ _ [bs "msgstr[1] ""x"""; bs """y"""]).
      { constructor; [unfold maxInt64; lia|exact (field_more (bs "msgstr[1]") (bs "x") (bs "y") eq_refl eq_refl)|right; reflexivity]. }
      apply (fls_cons _ _ _ [bs "msgid ""e"""; bs """f"""]); [constructor; exact (field_more (bs "msgid") (bs "e") (bs "f") eq_refl eq_refl)|].
      apply (fls_cons _ _ _ [bs "msgstr[0] ""d"""] []); [|constructor].
      constructor; [unfold maxInt64; lia|exact (field_one (bs "msgstr[0]") [] (bs "d") eq_refl)|left; reflexivity].
  - right. split; [discriminate|]. exists (IFlags [bs "fuzzy"]). split; [exact I|].
    apply (flags_one (bs "fuzzy")). split; [solve_word|]. intro J. vm_compute in J.
    repeat (destruct J as [J|J]; [discriminate|]). exact J.
  - apply (ps_last true par_2 [] (map bs ["msgstr ""g"""; "msgid ""h"""]%string)); [constructor|].
    split; [right; discriminate|]. exists [], (map bs ["msgstr ""g"""; "msgid ""h"""]%string). split; [reflexivity|]. split; [constructor|].
    apply (fls_cons [] _ _ [bs "msgstr ""g"""]); [constructor; exact (field_one (bs "msgstr") [] (bs "g") eq_refl)|].
    apply (fls_cons _ _ _ [bs "msgid ""h"""] []); [constructor; exact (field_one (bs "msgid") [] (bs "h") eq_refl)|constructor].
Qed.
Lemma pars_weaker : forall ps ls, paragraphs true ps ls -> paragraphs false ps ls.
Proof.
  induction 1 as [pre F|p pre ls F PL|p ps pre ls w rest F PL SE L IH]; [now apply ps_nil|now apply ps_last|].
  apply ps_cons; try assumption. destruct SE as [P|(N & i & E & IL)]; [now left|]. right. split; [exact N|].
  exists i. split; [|exact IL]. destruct i; cbn in *; auto.
Qed.
Example C23_paragraphs_example : paragraphs false [par_1; par_2] (map bs file_p) /\ text_of (map bs file_p) (text file_p) /\
  exists f, parse_po (text file_p) = Ok f /\
    map (fun m => (m_ctx m, m_id m, m_str m)) (f_messages f) =
      [(bs "c", bs "ef", [(0, bs "d"); (1, bs "xy")]); ([], bs "h", [(0, bs "g")])].
Proof.
  split; [apply pars_weaker, pars_p|]. split; [apply text_lines; reflexivity|].
  eexists. split; [vm_compute; reflexivity|reflexivity].
Qed.
(** parser.go:198-203: a further line of a form goes to the form with the
    number of forms read so far, less one. *)
Theorem C23_form_lines_refuted : exists s f, parse_po s = Ok f /\ is_line s (bs """y""") /\
  s = text ["msgid ""a"""; "msgid_plural ""b"""; "msgstr[1] ""x"""; """y"""; "msgstr[0] ""d"""]%string /\
  map m_str (f_messages f) = [[(1, bs "x"); (0, bs "d")]].
Proof.
  eexists _, _. split; [|split; [|split; [reflexivity|]]].
  - vm_compute. reflexivity.
  - apply split_is_line. vm_compute. auto 10.
  - reflexivity.
Qed.

(** ** C24 *)
Theorem C24_paragraphs_rejected : forall ps ls s ms, paragraphs false ps ls -> text_of ls s -> entries_of ps ms ->
  ~ NoDup (map key ms) -> parse_po s = Err.
Proof.
  intros ps ls s ms L T E N. unfold parse_po. rewrite (pars_file false ps ls s _ L T (Nat.lt_succ_diag_r _)).
  apply result_dup; [constructor|]. cbn [map app]. now rewrite <- (entries_keys ps ms E).
Qed.
Theorem C24_paragraphs_accepted : forall ps ls s ms n, paragraphs false ps ls -> text_of ls s -> entries_of ps ms ->
  NoDup (map key ms) -> ms <> [] -> header_count ps n -> (n <= 1)%nat ->
  exists f, parse_po s = Ok f /\ entries_of ps (f_messages f) /\ NoDup (map key (f_messages f)).
Proof.
  intros ps ls s ms n L T E ND NE C N1. pose proof (pars_file false ps ls s _ L T (Nat.lt_succ_diag_r _)) as P.
  pose proof (entries_keys ps ms E) as K.
  destruct (result_ok (map (par_message false) ps) None []) as [f F].
  - cbn [map app]. now rewrite <- K.
  - rewrite (count_heads ps n C). cbn [given]. lia.
  - right. left. intro X. rewrite X in K. destruct ms; [congruence|discriminate].
  - exists f. unfold parse_po. rewrite P, F. split; [reflexivity|]. rewrite (result_messages _ _ _ _ F). cbn [app].
    split; [apply entries_par|now rewrite <- K].
Qed.
Definition file_pd : list string := ["msgstr ""g"""; "msgid ""a"""; "msgid ""h"""; ""; "msgstr ""g"""; "msgid ""h"""]%string.
Definition par_3 : paragraph := Par [] [FText (bs "g"); FId (bs "a"); FId (bs "h")].
Definition msg_h : message := Msg (Some (com_of [])) [] (bs "h") [] [(0, bs "g")].
Lemma says_2 : says par_2 msg_h.
Proof. exact (par_says par_2). Qed.
Lemma says_3 : says par_3 msg_h.
Proof. exact (par_says par_3). Qed.
Example C24_paragraphs_example :
  (paragraphs false [par_3; par_2] (map bs file_pd) /\ text_of (map bs file_pd) (text file_pd) /\
   entries_of [par_3; par_2] [msg_h; msg_h] /\ ~ NoDup (map key [msg_h; msg_h])) /\
  (exists ms, entries_of [par_1; par_2] ms /\ NoDup (map key ms) /\ ms <> [] /\ header_count [par_1; par_2] 0).
Proof.
  split.
  - split.
    { apply (ps_cons false par_3 [par_2] [] (map bs (firstn 3 file_pd)) [] (map bs ["msgstr ""g"""; "msgid ""h"""]%string)); [constructor| |left; constructor|].
      - split; [right; discriminate|]. exists [], (map bs (firstn 3 file_pd)). split; [reflexivity|]. split; [constructor|].
        apply (fls_cons [] _ _ [bs "msgstr ""g"""]); [constructor; exact (field_one (bs "msgstr") [] (bs "g") eq_refl)|].
        apply (fls_cons _ _ _ [bs "msgid ""a"""]); [constructor; exact (field_one (bs "msgid") [] (bs "a") eq_refl)|].
        apply (fls_cons _ _ _ [bs "msgid ""h"""] []); [constructor; exact (field_one (bs "msgid") [] (bs "h") eq_refl)|constructor].
      - apply (ps_last false par_2 [] (map bs ["msgstr ""g"""; "msgid ""h"""]%string)); [constructor|].
        split; [right; discriminate|]. exists [], (map bs ["msgstr ""g"""; "msgid ""h"""]%string). split; [reflexivity|]. split; [constructor|].
        apply (fls_cons [] _ _ [bs "msgstr ""g"""]); [constructor; exact (field_one (bs "msgstr") [] (bs "g") eq_refl)|].
        apply (fls_cons _ _ _ [bs "msgid ""h"""] []); [constructor; exact (field_one (bs "msgid") [] (bs "h") eq_refl)|constructor]. }
    split; [apply text_lines; reflexivity|]. split.
    + apply eo_keep; [exact says_3|discriminate|]. apply eo_keep; [exact says_2|discriminate|constructor].
    + intro N. inversion N as [|? ? X _]. apply X. now left.
  - exists [par_message false par_1; msg_h]. split; [|split; [|split; [discriminate|]]].
    + apply eo_keep; [apply par_says|discriminate|]. apply eo_keep; [exact says_2|discriminate|constructor].
    + constructor; [|constructor; [intros []|constructor]]. intros [E|[]]. discriminate.
    + apply (hc_id par_1 _ _ (bs "ef")); [|discriminate|].
      * exists [FCtx (bs "c"); FId (bs "a"); FText (bs "b"); FForm 1 (bs "xy")], (FId (bs "ef")), [FForm 0 (bs "d")].
        split; [reflexivity|]. split; [reflexivity|]. constructor; [reflexivity|constructor].
      * apply (hc_id par_2 _ _ (bs "h")); [|discriminate|constructor].
        exists [FText (bs "g")], (FId (bs "h")), []. split; [reflexivity|]. split; [reflexivity|constructor].
Qed.

(** ** C49 *)
Theorem C49_paragraphs_partial : forall ps ls s fuel, paragraphs true ps ls -> text_of ls s -> (length s < fuel)%nat ->
  parse_po_fuel fuel true s =
  match parse_po_fuel fuel false s with
  | Ok f => Ok (PoFile (Hdr (option_map (seen_comment true) (h_com (f_header f))) (h_known (f_header f)) (h_unknown (f_header f)))
                       (map (seen_message true) (f_messages f)))
  | x => x
  end.
Proof.
  intros ps ls s fuel L T F. rewrite (pars_file true ps ls s fuel L T F), (pars_file false ps ls s fuel (pars_weaker ps ls L) T F).
  rewrite (map_ext _ _ par_seen), <- map_map. exact (result_seen (map (par_message false) ps) None []).
Qed.
Example C49_paragraphs_example : paragraphs true [par_1; par_2] (map bs file_p) /\ text_of (map bs file_p) (text file_p).
Proof. split; [apply pars_p|apply text_lines; reflexivity]. Qed.

Print Assumptions C23_paragraphs_partial.
Print Assumptions C23_form_lines_refuted.
Print Assumptions C24_paragraphs_rejected.
Print Assumptions C24_paragraphs_accepted.
Print Assumptions C49_paragraphs_partial.
