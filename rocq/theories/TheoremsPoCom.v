(** * C23: the comments of PO files of any layout *)
From Coq Require Import String Ascii List ZArith Bool Lia.
From Verif Require Import Base BaseProofs StrModel PoStrModel PoStrSpec PoFileModel PoFileSpec PoFieldSpec PoLineSpec PoLineProofs PoAnySpec PoAnyProofs PoComSpec PoComProofs.
Import ListNotations.
Open Scope Z_scope.

(** Every message has the comment that stands directly before its entry, but
    for a line that ended the entry before. *)
Theorem C23_any_comments : forall fuel ign s f rs es cs, parse_po_fuel fuel ign s = Ok f -> reads_lines s rs -> any_file ign rs es -> any_comments ign [] rs cs ->
  file_comments es cs (f_messages f).
Proof. exact file_comments_of. Qed.
(** Every file has such comments if there are no previous texts, and only
    references and flags in the usual form. *)
Theorem C23_comments_exist_partial : forall ign rs, Forall (fun l => ordinary (trim_space l)) rs -> exists cs, any_comments ign [] rs cs.
Proof. intros ign rs F. exact (comments_exist ign (length rs) rs [] (le_n _) F). Qed.

(** ** A file *)
Definition com_lines : list bytes :=
  [bs "# a"; bs "#"; bs "#.b"; bs "#: x.go:3 y"; bs "#, fuzzy,, c-format,"; bs "#| msgid ""o"""; bs "#:"; bs "#| ""p"""; bs "msgid ""i"""; bs "msgstr ""t""";
   bs "#, lost"; bs "#, kept"; bs "msgid ""j"""; []; bs "#, dropped"; []; bs "msgid ""k""" ].
Definition com_items : list (list citem) :=
  [[ITrans (bs "a"); ITrans []; IExtr (bs "b"); IRefs [Ref (bs "x.go") 3 0; Ref (bs "y") (-1) 0]; IFlags [bs "fuzzy"; bs "c-format"]; IPrevId (bs "o"); IPrevId (bs "p")];
   [IFlags [bs "kept"]]; []].
Ltac not_passed := let H := fresh in intro H; apply (passed_scans _ TEof) in H as [H _]; vm_compute in H; discriminate H.
Ltac field_line := split; [discriminate|]; let y := fresh in let Y := fresh in intros [y Y]; discriminate Y.
Example C23_comments_example : any_comments false [] com_lines com_items.
Proof.
  unfold com_lines, com_items.
  eapply ac_comment with (i := ITrans (bs "a")); [not_passed| |].
  { apply (ls_trans [] (bs " a")). intros c r E. injection E as <- <-. cbn [In]. intuition discriminate. }
  eapply ac_comment with (i := ITrans []); [not_passed|apply (ls_trans _ []); discriminate|].
  eapply ac_comment with (i := IExtr (bs "b")); [not_passed|apply (ls_extr _ (bs "b"))|].
  eapply ac_comment with (i := IRefs [Ref (bs "x.go") 3 0; Ref (bs "y") (-1) 0]); [not_passed| |].
  { apply (ls_refs _ (bs " x.go:3 y")). change (trim_space _) with (bs "x.go:3" ++ SP :: bs "y"). constructor; [|constructor].
    - split; [apply word_ascii; [discriminate|reflexivity]|]. split; [vm_compute; intuition discriminate|]. split; [reflexivity|]. right. exists (bs "3").
      split; [discriminate|]. split; [repeat constructor|]. split; [reflexivity|]. split; [vm_compute; discriminate|reflexivity].
    - split; [apply word_ascii; [discriminate|reflexivity]|]. split; [vm_compute; intuition discriminate|]. split; [reflexivity|]. now left. }
  eapply ac_comment with (i := IFlags [bs "fuzzy"; bs "c-format"]); [not_passed| |].
  { apply (ls_flags _ (bs " fuzzy,, c-format,")). change (trim_space _) with (bs "fuzzy" ++ ","%char :: ","%char :: SP :: (bs "c-format" ++ ","%char :: [])).
    apply fw_word; [split; [apply word_ascii; [discriminate|reflexivity]|vm_compute; intuition discriminate]|now right; right|].
    apply fw_sep; [now right; right|]. apply fw_sep; [now left|]. apply fw_word; [split; [apply word_ascii; [discriminate|reflexivity]|vm_compute; intuition discriminate]|now right; right|constructor]. }
  eapply ac_comment with (i := IPrevId (bs "o")); [not_passed| |].
  { apply (ls_pid _ (bs " ") (bs " ""o""") (bs "#| msgid") (bs " ""o""")); [discriminate|repeat constructor|reflexivity|reflexivity|]. right. split; [discriminate|vm_compute; reflexivity]. }
  apply ac_passed; [left; cbn; auto|].
  eapply ac_comment with (i := IPrevId (bs "p")); [not_passed| |].
  { eapply (ls_more_id _ _ _ (bs " ""p""")); [reflexivity| |vm_compute; reflexivity]. exists (bs " "), (bs """p"""). split; [discriminate|]. split; [repeat constructor|].
    split; [|reflexivity]. exists [], (bs "p"), []. split; [reflexivity|]. split; [constructor|]. split; [constructor|]. vm_compute. intuition discriminate. }
  cbn [app].
  apply (ac_entry false _ (bs "msgid ""i""") [bs "msgstr ""t"""] [bs "msgstr ""t"""] (skipn 10 com_lines)); [field_line|apply lo_field; [field_line|apply lo_nil]| |].
  { split; [right; exists (bs ", lost"); reflexivity|not_passed]. }
  eapply ac_comment with (i := IFlags [bs "kept"]); [not_passed| |].
  { apply (ls_flags _ (bs " kept")). change (trim_space _) with (bs "kept"). apply fw_last. split; [apply word_ascii; [discriminate|reflexivity]|vm_compute; intuition discriminate]. }
  cbn [app]. apply (ac_entry false _ (bs "msgid ""j""") [] [] (skipn 13 com_lines)); [field_line|apply lo_nil|split; [now left|not_passed]|].
  eapply ac_comment with (i := IFlags [bs "dropped"]); [not_passed| |].
  { apply (ls_flags _ (bs " dropped")). change (trim_space _) with (bs "dropped"). apply fw_last. split; [apply word_ascii; [discriminate|reflexivity]|vm_compute; intuition discriminate]. }
  apply ac_blank; [reflexivity|]. apply (ac_entry false _ (bs "msgid ""k""") [] [] []); [field_line|apply lo_nil|exact I|constructor].
Qed.
Example C23_comments_parsed : exists f es, parse_po (with_ends com_lines) = Ok f /\ reads_lines (with_ends com_lines) com_lines /\ any_file false com_lines es /\
  map (fun m => (m_id m, option_map cm_flags (m_com m))) (f_messages f) =
    [(bs "i", Some [bs "fuzzy"; bs "c-format"]); (bs "j", Some [bs "kept"]); (bs "k", Some [])].
Proof.
  assert (R : reads_lines (with_ends com_lines) com_lines) by (apply reads_file_lines; vm_compute; reflexivity).
  assert (P : exists f, parse_po (with_ends com_lines) = Ok f /\ map (fun m => (m_id m, option_map cm_flags (m_com m))) (f_messages f) =
    [(bs "i", Some [bs "fuzzy"; bs "c-format"]); (bs "j", Some [bs "kept"]); (bs "k", Some [])]) by (eexists; split; [vm_compute; reflexivity|reflexivity]).
  destruct P as (f & E & M). destruct (file_any _ _ _ _ _ E R) as [es A]. exists f, es. auto.
Qed.
Example C23_ordinary_example : Forall (fun l => ordinary (trim_space l)) [bs "# a"; bs "#."; bs "#, x"; bs "msgid ""#""" ].
Proof.
  repeat apply Forall_cons; try apply Forall_nil; intros y Y; vm_compute in Y; try discriminate Y; injection Y as <-; try exact I.
  exists [bs "x"]. apply fw_last. split; [apply word_ascii; [discriminate|reflexivity]|vm_compute; intuition discriminate].
Qed.

Print Assumptions C23_any_comments.
Print Assumptions C23_comments_exist_partial.
