(** * C23, C24, C83: PO files of any layout *)
From Coq Require Import String Ascii List ZArith Bool Lia.
From Verif Require Import Base BaseProofs StrModel PoStrModel PoStrSpec PoFileModel PoFileSpec PoExamples PoFieldSpec PoLineSpec PoLineProofs PoHangSpec PoHangProofs PoAnySpec PoAnyProofs.
Import ListNotations.
Open Scope Z_scope.

(** Every accepted file consists of entries of any layout, *)
Theorem C23_any_file : forall fuel ign s f rs, parse_po_fuel fuel ign s = Ok f -> reads_lines s rs -> exists es, any_file ign rs es.
Proof. exact file_any. Qed.
(** and its messages are what the entries with an id say, in that order: the
    values given last.  Of forms whose further lines come out of turn only the
    values of the forms are left open. *)
Theorem C23_any_messages_partial : forall fuel ign s f rs es, parse_po_fuel fuel ign s = Ok f -> reads_lines s rs -> any_file ign rs es ->
  file_says es (f_messages f) /\ NoDup (map key (f_messages f)).
Proof. exact file_messages. Qed.
(** A file with two entries of the same context and id is not accepted. *)
Theorem C24_any_rejected : forall fuel ign s rs es ms, reads_lines s rs -> any_file ign rs es -> file_says es ms -> ~ NoDup (map key ms) ->
  (forall f, parse_po_fuel fuel ign s <> Ok f) /\
  ((length s < fuel)%nat -> ~ (exists a l c, rs = a ++ l :: c /\ stops ign a l) -> parse_po_fuel fuel ign s = Err).
Proof.
  intros fuel ign s rs es ms R A F D. pose proof (file_rejects fuel ign s rs es ms R A F D) as N. split; [exact N|]. intros L H.
  pose proof (PoTotalProofs.parse_no_panic fuel ign s) as P. destruct (parse_po_fuel fuel ign s) as [f| | |] eqn:E; [|reflexivity|congruence|].
  - exfalso. now apply (N f).
  - exfalso. apply H. exact (hangs_only fuel ign s rs R L E).
Qed.
(** Lines that are understood and closed make up entries, *)
Theorem C83_entries : forall ign s rs, reads_lines s rs -> understood ign Elsewhere rs -> Forall (fun l => ~ unclosed l) rs ->
  exists es, any_file ign rs es.
Proof. intros ign s rs R U N. exact (file_exists (S (length s)) ign s rs R (Nat.lt_succ_diag_r _) U N). Qed.
(** and the file is accepted if the entries differ, one has an id and at most
    one is a header. *)
Theorem C83_accepted : forall fuel ign s rs es ms n, reads_lines s rs -> (length s < fuel)%nat -> understood ign Elsewhere rs -> Forall (fun l => ~ unclosed l) rs ->
  any_file ign rs es -> file_says es ms -> NoDup (map key ms) -> ms <> [] -> heads es n -> (n <= 1)%nat ->
  exists f, parse_po_fuel fuel ign s = Ok f /\ file_says es (f_messages f).
Proof.
  intros fuel ign s rs es ms n R L U N A F D NE H H1. destruct (file_accepts fuel ign s rs es ms n R L U N A F D NE H H1) as [f E]. exists f.
  split; [exact E|]. exact (proj1 (file_messages fuel ign s f rs es E R A)).
Qed.

(** ** A file *)
(** Two entries in a row make up one, without blank the text is lost, and the
    comment without text does not end the second message. *)
Definition any_lines : list bytes :=
  [bs "#, fuzzy"; bs "msgid ""x"""; bs "  msgid   ""a"""; bs """b"""; bs "msgstr""c"""; bs "#  d"; bs "msgctxt ""e"""; bs "#."; bs "msgid ""f"""; bs "msgstr [1] ""g"""; bs """h""" ].
Definition any_entries : list entry :=
  [([FId (bs "x"); FId (bs "ab"); FText []], [0; 1; 0]%nat); ([FCtx (bs "e"); FId (bs "f"); FForm 1 (bs "gh")], [0; 0; 1]%nat)].
Ltac part w b w' := exists w, b, w'; split; [reflexivity|]; split; [repeat constructor|]; split; [repeat constructor|]; vm_compute; intuition discriminate.
Ltac keyword_part k x w b := change (trim_space _) with (k ++ x); constructor; part w b (@nil ascii).
Example C23_any_example : any_file false any_lines any_entries.
Proof.
  unfold any_lines, any_entries. apply af_quiet; [right; exists (bs ", fuzzy"); reflexivity|].
  apply (af_entry false (bs "msgid ""x""") [bs "  msgid   ""a"""; bs """b"""; bs "msgstr""c"""] [bs "  msgid   ""a"""; bs """b"""; bs "msgstr""c"""]
    (bs "#  d" :: skipn 6 any_lines)).
  - split; [discriminate|]. intros [y Y]. discriminate Y.
  - repeat (apply lo_field; [split; [discriminate|intros [y Y]; discriminate Y]|]). apply lo_nil.
  - split; [right; exists (bs "  d"); reflexivity|]. intros [H|[H _]]; [|discriminate H]. vm_compute in H. intuition discriminate.
  - apply (an_cons (bs "msgid ""x""") FId (bs """x""") (bs "x") [] [] [bs "  msgid   ""a"""; bs """b"""; bs "msgstr""c"""]); [keyword_part (bs "msgid ") (bs """x""") (@nil ascii) (bs "x")|vm_compute; reflexivity|constructor|].
    apply (an_cons (bs "  msgid   ""a""") FId (bs "  ""a""") (bs "a") [bs """b"""] [bs "b"] [bs "msgstr""c"""]); [keyword_part (bs "msgid ") (bs "  ""a""") (bs "  ") (bs "a")|vm_compute; reflexivity| |].
    + constructor; [|constructor]. split; [|vm_compute; reflexivity]. exists (bs "b"). split; [reflexivity|]. vm_compute. intuition discriminate.
    + apply (an_cons (bs "msgstr""c""") FText (bs "c""") [] [] [] []); [|vm_compute; reflexivity|constructor|constructor].
      change (trim_space _) with (bs "msgstr" ++ QUOTE :: bs "c"""). constructor. part (@nil ascii) (bs "c") (@nil ascii).
  - apply af_quiet; [right; exists (bs "  d"); reflexivity|].
    apply (af_entry false (bs "msgctxt ""e""") (skipn 7 any_lines) [bs "msgid ""f"""; bs "msgstr [1] ""g"""; bs """h"""] []).
    + split; [discriminate|]. intros [y Y]. discriminate Y.
    + apply lo_passed; [left; now left|]. repeat (apply lo_field; [split; [discriminate|intros [y Y]; discriminate Y]|]). apply lo_nil.
    + exact I.
    + apply (an_cons (bs "msgctxt ""e""") FCtx (bs """e""") (bs "e") [] [] [bs "msgid ""f"""; bs "msgstr [1] ""g"""; bs """h"""]); [keyword_part (bs "msgctxt ") (bs """e""") (@nil ascii) (bs "e")|vm_compute; reflexivity|constructor|].
      apply (an_cons (bs "msgid ""f""") FId (bs """f""") (bs "f") [] [] [bs "msgstr [1] ""g"""; bs """h"""]); [keyword_part (bs "msgid ") (bs """f""") (@nil ascii) (bs "f")|vm_compute; reflexivity|constructor|].
      apply (an_cons (bs "msgstr [1] ""g""") (FForm 1) (bs " ""g""") (bs "g") [bs """h"""] [bs "h"] []); [|vm_compute; reflexivity| |constructor].
      * change 1 with (dec_val (bs "1")). change (trim_space _) with (bs "msgstr [1]" ++ bs " ""g""").
        apply (ky_form (bs " ") (bs "1") (bs " ""g""")); [repeat constructor|split; [discriminate|repeat constructor]|vm_compute; discriminate| |reflexivity|reflexivity].
        part (bs " ") (bs "g") (@nil ascii).
      * constructor; [|constructor]. split; [|vm_compute; reflexivity]. exists (bs "h"). split; [reflexivity|]. vm_compute. intuition discriminate.
    + apply af_nil.
Qed.
Example C23_any_parsed : exists f, parse_po (with_ends any_lines) = Ok f /\ reads_lines (with_ends any_lines) any_lines /\
  map (fun m => (m_ctx m, m_id m, m_str m)) (f_messages f) = [([], bs "ab", [(0, [])]); (bs "e", bs "f", [(1, bs "g"); (0, bs "h")])].
Proof.
  eexists. split; [vm_compute; reflexivity|]. split; [apply reads_file_lines; vm_compute; reflexivity|reflexivity].
Qed.
(** Here the forms are in turn: *)
Example C23_in_turn : in_turn [] [FId (bs "a"); FForm 0 (bs "xy"); FForm 1 (bs "z"); FForm 5 (bs "w")] [3; 2; 1; 0]%nat /\
  ~ in_turn [] [FForm 1 (bs "gh")] [1]%nat.
Proof. split; [cbn; intuition lia|cbn; intuition lia]. Qed.
(** This file is one of those that are accepted: *)
Example C83_accepted_example : reads_lines (with_ends any_lines) any_lines /\ understood false Elsewhere any_lines /\ Forall (fun l => ~ unclosed l) any_lines /\ heads any_entries 0 /\ exists ms, file_says any_entries ms /\ NoDup (map key ms) /\ ms <> [].
Proof.
  assert (R : reads_lines (with_ends any_lines) any_lines) by (apply reads_file_lines; vm_compute; reflexivity). split; [exact R|].
  split; [apply (scan_understood false _ TEof false); [discriminate|]; vm_compute; repeat constructor; try discriminate; eexists; reflexivity|].
  split; [|split].
  - assert (X : Forall (fun l => ~ In LF l /\ dec 100 l <> OutOfFuel) any_lines).
    { unfold any_lines. repeat (constructor; [split; [vm_compute; intuition discriminate|vm_compute; discriminate]|]). constructor. }
    revert X. apply Forall_impl. intros l [N D] U. apply D. now apply unclosed_hang.
  - unfold any_entries. eapply hd_id with (v := bs "ab"); [|discriminate|].
    + exists [FId (bs "x")], (FId (bs "ab")), [FText []]. repeat split. repeat constructor.
    + eapply hd_id with (v := bs "f"); [|discriminate|constructor]. exists [FCtx (bs "e")], (FId (bs "f")), [FForm 1 (bs "gh")]. repeat split. repeat constructor.
  - destruct C23_any_parsed as (f & E & _ & M). exists (f_messages f). destruct (C23_any_messages_partial _ _ _ _ _ _ E R C23_any_example) as [F D].
    split; [exact F|]. split; [exact D|]. destruct (f_messages f); discriminate.
Qed.
(** ... and this one has an entry twice: *)
Definition twice_lines : list bytes := [bs "msgid ""a"""; []; bs "msgid ""b"""; bs "msgid ""a"""].
Example C24_any_example : exists es ms, any_file false twice_lines es /\ reads_lines (with_ends twice_lines) twice_lines /\ file_says es ms /\ ~ NoDup (map key ms).
Proof.
  exists [([FId (bs "a")], [0%nat]); ([FId (bs "b"); FId (bs "a")], [0; 0]%nat)], [set_id new_message (bs "a"); set_id new_message (bs "a")].
  split; [|split; [apply reads_file_lines; vm_compute; reflexivity|split]].
  - apply (af_entry false (bs "msgid ""a""") [] [] [[]; bs "msgid ""b"""; bs "msgid ""a"""]).
    + split; [discriminate|]. intros [y Y]. discriminate Y.
    + apply lo_nil.
    + split; [now left|]. intro P. apply (passed_scans false TWs) in P as [_ P]. now apply P.
    + apply (an_cons (bs "msgid ""a""") FId (bs """a""") (bs "a") [] [] []); [keyword_part (bs "msgid ") (bs """a""") (@nil ascii) (bs "a")|vm_compute; reflexivity|constructor|constructor].
    + apply af_quiet; [now left|]. apply (af_entry false (bs "msgid ""b""") [bs "msgid ""a"""] [bs "msgid ""a"""] []).
      * split; [discriminate|]. intros [y Y]. discriminate Y.
      * apply lo_field; [split; [discriminate|intros [y Y]; discriminate Y]|apply lo_nil].
      * exact I.
      * apply (an_cons (bs "msgid ""b""") FId (bs """b""") (bs "b") [] [] [bs "msgid ""a"""]); [keyword_part (bs "msgid ") (bs """b""") (@nil ascii) (bs "b")|vm_compute; reflexivity|constructor|].
        apply (an_cons (bs "msgid ""a""") FId (bs """a""") (bs "a") [] [] []); [keyword_part (bs "msgid ") (bs """a""") (@nil ascii) (bs "a")|vm_compute; reflexivity|constructor|constructor].
      * apply af_nil.
  - assert (S : forall fs, indices fs = [] -> Forall (fun f => ctx_of f = None /\ plural_of f = None /\ forall i, form_of i f = None) fs ->
      last_value_of id_of fs (bs "a") -> forall ks, entry_says (fs, ks) (set_id new_message (bs "a"))).
    { intros fs IX N L ks. rewrite Forall_forall in N. split; [right; split; [reflexivity|apply Forall_forall; intros f J; now apply N]|].
      split; [now left|]. split; [right; split; [reflexivity|apply Forall_forall; intros f J; now apply N]|]. split; [cbn [fst]; now rewrite IX|]. intros _.
      split; [constructor|]. intros i v. split; [intros []|]. cbn [fst]. intros (a & f & b & EQ & Q & _). exfalso.
      destruct (N f) as (_ & _ & X); [rewrite EQ; apply in_or_app; right; now left|]. rewrite X in Q. discriminate. }
    repeat (apply fs_keep; [apply S; [reflexivity|repeat constructor|]|discriminate|]); [| |apply fs_nil].
    + exists [], (FId (bs "a")), []. repeat split. constructor.
    + exists [FId (bs "b")], (FId (bs "a")), []. repeat split. constructor.
  - intro N. inversion N as [|x l NI _]. apply NI. now left.
Qed.

Print Assumptions C23_any_file.
Print Assumptions C23_any_messages_partial.
Print Assumptions C24_any_rejected.
Print Assumptions C83_entries.
Print Assumptions C83_accepted.
