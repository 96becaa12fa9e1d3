(** * C30: catalogs of PO files of any layout *)
From Coq Require Import String Ascii List ZArith Bool Lia.
From Verif Require Import Base BaseProofs StrModel PoStrModel PoStrSpec PoFileModel PoFileSpec PoFieldSpec PoLineSpec PoLineProofs PoHangProofs PoAnySpec PoAnyProofs PoComSpec PoComProofs.
From Verif Require Import Utf8Model NumModel GettextModel GettextSpec GettextProofs TheoremsGettext PoHeadSpec PoHeadProofs TheoremsPoAny TheoremsPoCom.
Import ListNotations.
Open Scope Z_scope.

Section Theorems.
  (** external parts, see GettextModel *)
  Variable tag : Type.
  Variable is_root : tag -> bool.
  Variable tag_string : tag -> bytes.
  Variable base : tag -> bytes * bool.
  Variable parent : tag -> tag.
  Variable fold : rune -> rune.
  Variable fuel : nat.
  (** From the text of a PO file of any layout to the answers. *)
  Theorem C30_any_text : forall s ms kvs u (lang : tag) dom c, any_po s ms kvs ->
    decode_po tag is_root tag_string base parent fold fuel u lang dom s = Ok c ->
    forall ctx id r, lookup tag c ctx id = r <-> answer ms lang [] ctx id 0 r.
  Proof.
    intros s ms kvs u lang dom c A H ctx id r. destruct (C30_po_lookup tag is_root tag_string base parent fold fuel u lang dom s c H) as (f & P & AN).
    destruct (any_po_read s ms kvs A) as (f' & P' & _ & AL & _). assert (E : f' = f) by congruence. subst f'.
    assert (AL' : Forall2 alike ms (f_messages f)).
    { clear - AL. induction AL as [|x y l l' (P & Q & R) AL IH]; constructor; [|exact IH]. split; [congruence|]. split; [intro; symmetry; apply Q|symmetry; exact R]. }
    rewrite AN. split; intro X; (eapply answer_alike; [exact is_root|exact tag_string|exact base|exact parent|exact fold| |exact X]; assumption).
  Qed.
End Theorems.

(** Which files are accepted: those whose lines are understood, whose entries
    differ, and that have an entry with id or a header.  Entries without id that
    have a translation and are not a header are passed over in front of the
    header, and not allowed behind it. *)
Theorem C83_accepted_exactly : forall fuel ign s rs es ms, reads_lines s rs -> (length s < fuel)%nat -> Forall (fun l => ~ unclosed l) rs ->
  any_file ign rs es -> file_says es ms -> heads_in_turn es ->
  ((exists f, parse_po_fuel fuel ign s = Ok f) <->
   understood ign Elsewhere rs /\ NoDup (map key ms) /\ exists o, header_says es o /\ (ms <> [] \/ o <> None)).
Proof. exact file_accepts_iff. Qed.
(** The fields of the header of an accepted file: the last value given for a
    field counts. *)
Theorem C83_header : forall fuel ign s f rs es, parse_po_fuel fuel ign s = Ok f -> reads_lines s rs -> any_file ign rs es -> heads_in_turn es ->
  exists o, header_says es o /\ (forall o', header_says es o' -> o' = o) /\
    forall fold k kvs, kvs = match o with Some l => l | None => [] end -> ascii_fold fold -> ascii_text k ->
      Forall (fun e => ascii_text (fst e)) kvs -> one_spelling (map fst kvs) -> last_value kvs k (header_get fold (f_header f) k).
Proof.
  intros fuel ign s f rs es E R A T. destruct (file_header fuel ign s f rs es E R A T) as (o & H & U & V). exists o. split; [exact H|]. split; [exact U|].
  intros fold k kvs -> AF AK AT OS. destruct o as [kvs|].
  - rewrite V. destruct (PoHeaderProofs.set_all_get fold kvs k AF AK AT OS) as (v & X & Q). rewrite <- Q in X. exact X.
  - rewrite V. destruct (PoHeaderProofs.set_all_get fold [] k AF AK AT OS) as (v & X & Q). rewrite <- Q in X. exact X.
Qed.

(** ** A file *)
(** The comment does not end the last entry, whose fields are the wrong way
    round. *)
Definition head_lines : list bytes :=
  [bs "msgid """""; bs "msgstr ""Language: fr\n"""; []; bs "#, fuzzy"; bs "msgid ""a"""; bs "msgstr ""b"""; []; bs "msgstr ""d"""; bs "#. x"; bs "msgid ""c""" ].
Definition head_entries : list entry :=
  [([FId []; FText (bs "Language: fr" ++ [LF])], [0; 0]%nat); ([FId (bs "a"); FText (bs "b")], [0; 0]%nat); ([FText (bs "d"); FId (bs "c")], [0; 0]%nat)].
Definition head_messages : list message :=
  [Msg (Some (com_of [IFlags [bs "fuzzy"]])) [] (bs "a") [] [(0, bs "b")]; Msg (Some (com_of [])) [] (bs "c") [] [(0, bs "d")]].
Ltac text_part k x b := change (trim_space _) with (k ++ x); constructor; part (@nil ascii) b (@nil ascii).
Lemma head_file : any_file true head_lines head_entries.
Proof.
  unfold head_lines, head_entries.
  apply (af_entry true (bs "msgid """"") [bs "msgstr ""Language: fr\n"""] [bs "msgstr ""Language: fr\n"""] (skipn 2 head_lines)); [field_line|apply lo_field; [field_line|apply lo_nil]|split; [now left|not_passed]| |].
  { apply (an_cons (bs "msgid """"") FId (bs """""") [] [] [] [bs "msgstr ""Language: fr\n"""]); [keyword_part (bs "msgid ") (bs """""") (@nil ascii) (@nil ascii)|vm_compute; reflexivity|constructor|].
    apply (an_cons (bs "msgstr ""Language: fr\n""") FText (bs """Language: fr\n""") (bs "Language: fr" ++ [LF]) [] [] []); [|vm_compute; reflexivity|constructor|constructor].
    change (trim_space _) with (bs "msgstr" ++ SP :: bs """Language: fr\n"""). constructor. part (bs " ") (bs "Language: fr\n") (@nil ascii). }
  apply af_quiet; [now left|]. apply af_quiet; [right; exists (bs ", fuzzy"); reflexivity|].
  apply (af_entry true (bs "msgid ""a""") [bs "msgstr ""b"""] [bs "msgstr ""b"""] (skipn 6 head_lines)); [field_line|apply lo_field; [field_line|apply lo_nil]|split; [now left|not_passed]| |].
  { apply (an_cons (bs "msgid ""a""") FId (bs """a""") (bs "a") [] [] [bs "msgstr ""b"""]); [keyword_part (bs "msgid ") (bs """a""") (@nil ascii) (bs "a")|vm_compute; reflexivity|constructor|].
    apply (an_cons (bs "msgstr ""b""") FText (bs """b""") (bs "b") [] [] []); [|vm_compute; reflexivity|constructor|constructor].
    change (trim_space _) with (bs "msgstr" ++ SP :: bs """b"""). constructor. part (bs " ") (bs "b") (@nil ascii). }
  apply af_quiet; [now left|].
  apply (af_entry true (bs "msgstr ""d""") [bs "#. x"; bs "msgid ""c"""] [bs "msgid ""c"""] []); [field_line| |exact I| |apply af_nil].
  { apply lo_passed; [|apply lo_field; [field_line|apply lo_nil]]. right. split; [reflexivity|]. right. exists "."%char, (bs " x"). split; [reflexivity|discriminate]. }
  apply (an_cons (bs "msgstr ""d""") FText (bs """d""") (bs "d") [] [] [bs "msgid ""c"""]); [|vm_compute; reflexivity|constructor|].
  { change (trim_space _) with (bs "msgstr" ++ SP :: bs """d"""). constructor. part (bs " ") (bs "d") (@nil ascii). }
  apply (an_cons (bs "msgid ""c""") FId (bs """c""") (bs "c") [] [] []); [keyword_part (bs "msgid ") (bs """c""") (@nil ascii) (bs "c")|vm_compute; reflexivity|constructor|constructor].
Qed.
Lemma head_comments : any_comments true [] head_lines [[]; [IFlags [bs "fuzzy"]]; []].
Proof.
  unfold head_lines.
  apply (ac_entry true [] (bs "msgid """"") [bs "msgstr ""Language: fr\n"""] [bs "msgstr ""Language: fr\n"""] (skipn 2 head_lines)); [field_line|apply lo_field; [field_line|apply lo_nil]|split; [now left|not_passed]|].
  eapply ac_comment with (i := IFlags [bs "fuzzy"]); [not_passed| |].
  { apply (ls_flags _ (bs " fuzzy")). change (trim_space _) with (bs "fuzzy"). apply fw_last. split; [apply word_ascii; [discriminate|reflexivity]|vm_compute; intuition discriminate]. }
  apply (ac_entry true _ (bs "msgid ""a""") [bs "msgstr ""b"""] [bs "msgstr ""b"""] (skipn 6 head_lines)); [field_line|apply lo_field; [field_line|apply lo_nil]|split; [now left|not_passed]|].
  apply (ac_entry true [] (bs "msgstr ""d""") [bs "#. x"; bs "msgid ""c"""] [bs "msgid ""c"""] []); [field_line| |exact I|constructor].
  apply lo_passed; [|apply lo_field; [field_line|apply lo_nil]]. right. split; [reflexivity|]. right. exists "."%char, (bs " x"). split; [reflexivity|discriminate].
Qed.
Lemma one_form : forall v fs i x, last_value_of (form_of 0) fs v -> Forall (fun f => match f with FForm _ _ => False | _ => True end) fs ->
  (In (i, x) [(0, v)] <-> last_value_of (form_of i) fs x).
Proof.
  intros v fs i x L F. split.
  - intros [E|[]]. injection E as <- <-. exact L.
  - intros L'. destruct (Z.eq_dec i 0) as [->|N].
    + left. f_equal. eapply PoFieldProofs.last_or_none_unique; [left; exact L|left; exact L'].
    + exfalso. destruct L' as (a & f & b & -> & Q & _). apply Forall_app in F as [_ F]. apply Forall_inv in F. destruct f; try discriminate Q; [|destruct F].
      cbn [form_of] in Q. destruct (Z.eq_dec i 0); [contradiction|discriminate].
Qed.
Lemma head_says : header_says head_entries (Some [(bs "Language", bs "fr")]).
Proof.
  apply (hs_head _ _ (bs "Language: fr" ++ [LF])).
  - split; [left; exists [], (FId []), [FText (bs "Language: fr" ++ [LF])]; repeat split; repeat constructor|]. split; [discriminate|].
    left. exists [FId []], (FText (bs "Language: fr" ++ [LF])), []. repeat split. constructor.
  - exists [bs "Language: fr"; []]. split.
    + apply (cut_more (bs "Language: fr") [] [[]]); [vm_compute; intuition discriminate|]. constructor. intros [].
    + apply (lf_field (bs "Language") (bs " fr") [[]] []); [vm_compute; intuition discriminate|]. apply lf_blank; [intros []|reflexivity|constructor].
  - eapply hd_id with (v := bs "a"); [exists [], (FId (bs "a")), [FText (bs "b")]; repeat split; repeat constructor|discriminate|].
    eapply hd_id with (v := bs "c"); [exists [FText (bs "d")], (FId (bs "c")), []; repeat split; constructor|discriminate|constructor].
Qed.
(** A header that has a line without colon is passed over, and the next one
    counts. *)
Example C83_header_example : header_says (([FText (bs "Language fr")], [0]%nat) :: head_entries) (Some [(bs "Language", bs "fr")]).
Proof.
  apply hs_bad with (v := bs "Language fr"); [| |exact head_says].
  - split; [right; split; [reflexivity|repeat constructor]|]. split; [discriminate|]. left. exists [], (FText (bs "Language fr")), []. repeat split. constructor.
  - intro kvs. revert kvs. apply (value_none _ new_header). vm_compute. reflexivity.
Qed.
Example C30_any_example : any_po (with_ends head_lines) head_messages [(bs "Language", bs "fr")].
Proof.
  exists head_lines, head_entries, [[]; [IFlags [bs "fuzzy"]]; []], (Some [(bs "Language", bs "fr")]). split; [apply reads_file_lines; vm_compute; reflexivity|].
  split; [apply (scan_understood true _ TEof false); [discriminate|]; vm_compute; repeat constructor; try discriminate; eexists; reflexivity|].
  split.
  { assert (X : Forall (fun l => ~ In LF l /\ dec 100 l <> OutOfFuel) head_lines).
    { unfold head_lines. repeat (constructor; [split; [vm_compute; intuition discriminate|vm_compute; discriminate]|]). constructor. }
    revert X. apply Forall_impl. intros l [N D] U. apply D. now apply unclosed_hang. }
  split; [exact head_file|]. split; [exact head_comments|]. split; [|split; [|split; [|split; [exact head_says|split; [left; discriminate|reflexivity]]]]].
  - apply fc_skip; [left; exists [], (FId []), [FText (bs "Language: fr" ++ [LF])]; repeat split; repeat constructor|].
    apply fc_keep; [|discriminate|reflexivity|].
    { assert (L : last_value_of (form_of 0) [FId (bs "a"); FText (bs "b")] (bs "b")) by (exists [FId (bs "a")], (FText (bs "b")), []; repeat split; constructor).
      split; [right; split; [reflexivity|repeat constructor]|]. split; [left; exists [], (FId (bs "a")), [FText (bs "b")]; repeat split; repeat constructor|].
      split; [right; split; [reflexivity|repeat constructor]|]. split; [split; discriminate|]. intros _. split; [repeat constructor; intros []|].
      intros i x. apply one_form; [exact L|repeat constructor]. }
    apply fc_keep; [|discriminate|reflexivity|constructor].
    assert (L : last_value_of (form_of 0) [FText (bs "d"); FId (bs "c")] (bs "d")) by (exists [], (FText (bs "d")), [FId (bs "c")]; repeat split; repeat constructor).
    split; [right; split; [reflexivity|repeat constructor]|]. split; [left; exists [FText (bs "d")], (FId (bs "c")), []; repeat split; constructor|].
    split; [right; split; [reflexivity|repeat constructor]|]. split; [split; discriminate|]. intros _. split; [repeat constructor; intros []|].
    intros i x. apply one_form; [exact L|repeat constructor].
  - cbn. constructor; [intros [E|[]]; discriminate E|]. constructor; [intros []|constructor].
  - repeat constructor.
Qed.

Print Assumptions C30_any_text.
Print Assumptions C83_accepted_exactly.
Print Assumptions C83_header.
