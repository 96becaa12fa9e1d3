(** * C22: the files on which the PO parser hangs, exactly *)
From Coq Require Import String Ascii List ZArith Bool Lia.
From Verif Require Import Base BaseProofs StrModel PoStrModel PoStrSpec PoFileModel PoExamples PoLineSpec PoLineProofs PoHangSpec PoHangProofs.
Import ListNotations.
Open Scope Z_scope.

(** The parser hangs on a file exactly if it comes to a line that it decodes and
    whose string is not closed.  The lines before that line are then fine, and
    what follows it does not matter. *)
Theorem C22_hangs_exactly : forall ign s rs, reads_lines s rs ->
  ((forall fuel, parse_po_fuel fuel ign s = OutOfFuel) <-> exists a l c, rs = a ++ l :: c /\ stops ign a l).
Proof.
  intros ign s rs R. split.
  - intro H. apply (hangs_only (S (length s)) ign s rs R (Nat.lt_succ_diag_r _) (H _)).
  - intros (a & l & c & E & H). exact (hangs_if ign s rs a l c R E H).
Qed.
(** Otherwise the result is there after as many steps as the file has bytes. *)
Theorem C22_ends_exactly : forall ign s rs fuel, reads_lines s rs -> (length s < fuel)%nat ->
  ((parse_po_fuel fuel ign s = Err \/ exists f, parse_po_fuel fuel ign s = Ok f) <-> ~ exists a l c, rs = a ++ l :: c /\ stops ign a l).
Proof.
  intros ign s rs fuel R L. split.
  - intros H (a & l & c & E & S). rewrite (hangs_if ign s rs a l c R E S) in H. destruct H as [H|[f H]]; discriminate H.
  - intro N. pose proof (PoTotalProofs.parse_no_panic fuel ign s) as P.
    destruct (parse_po_fuel fuel ign s) as [f| | |] eqn:E; [eauto|now left|congruence|].
    exfalso. apply N. exact (hangs_only fuel ign s rs R L E).
Qed.

(** The second entry of this file is never decoded, *)
Definition hang_lines : list bytes := [bs "msgid ""a"""; bs "msgstr ""b"""; []; bs "#, fuzzy"; bs "msgid ""c\"""].
Ltac same_lines := apply reads_file_lines; vm_compute; reflexivity.
Example C22_hangs : forall fuel ign, parse_po_fuel fuel ign (with_ends hang_lines) = OutOfFuel.
Proof.
  intros fuel ign. apply (C22_hangs_exactly ign (with_ends hang_lines) hang_lines); [same_lines|].
  exists [bs "msgid ""a"""; bs "msgstr ""b"""; []; bs "#, fuzzy"], (bs "msgid ""c\"""), []. split; [reflexivity|].
  split; [|split].
  - apply (scan_understood ign _ TEof false); [discriminate|]. destruct ign; vm_compute; repeat constructor; discriminate.
  - destruct (parse_po_fuel 100 ign (with_ends [bs "msgid ""a"""; bs "msgstr ""b"""; []; bs "#, fuzzy"])) as [f| | |] eqn:E; [|destruct ign; vm_compute in E; discriminate..].
    exists [], (with_ends [bs "msgid ""a"""; bs "msgstr ""b"""; []; bs "#, fuzzy"]), f, 100%nat. split; [same_lines|exact E].
  - left. exists (bs """c\"""). split.
    + change (trim_space (bs "msgid ""c\""")) with (bs "msgid " ++ bs """c\"""). apply so_id. exists [], (bs "c\"), [].
      split; [reflexivity|]. split; [constructor|]. split; [constructor|]. vm_compute. intuition discriminate.
    + exists [], (bs "c\"), []. repeat split; try (intros []; fail). exists (bs "c"), 1%nat. repeat split.
      right. exists [], "c"%char. split; [reflexivity|discriminate].
Qed.
(** but a previous text directly behind a message is not looked at, and nothing
    is looked at behind an error. *)
Example C22_lost : exists f, parse_po (with_ends [bs "msgid ""a"""; bs "msgstr ""b"""; bs "#| msgid ""c\"""; bs "msgid ""d"""]) = Ok f /\
  map m_id (f_messages f) = [bs "a"; bs "d"].
Proof. eexists. split; vm_compute; reflexivity. Qed.
Example C22_behind_error : parse_po (with_ends [bs "msgid ""a"""; []; bs "msgid ""a"""; []; bs "msgid ""c\"""]) = Err.
Proof. vm_compute. reflexivity. Qed.
Example C22_behind_blank : forall fuel, parse_po_fuel fuel false (with_ends [bs "msgid ""a"""; []; bs "#| msgid ""c\"""]) = OutOfFuel.
Proof.
  intros fuel. apply (C22_hangs_exactly false _ [bs "msgid ""a"""; []; bs "#| msgid ""c\"""]); [same_lines|].
  exists [bs "msgid ""a"""; []], (bs "#| msgid ""c\"""), []. split; [reflexivity|]. split; [|split].
  - apply (scan_understood false _ TEof false); [discriminate|]. vm_compute; repeat constructor; discriminate.
  - destruct (parse_po_fuel 100 false (with_ends [bs "msgid ""a"""; []])) as [f| | |] eqn:E; [|vm_compute in E; discriminate..].
    exists [], (with_ends [bs "msgid ""a"""; []]), f, 100%nat. split; [same_lines|exact E].
  - right. split; [reflexivity|]. split; [|split].
    + left. exists [SP], (bs " ""c\"""). split; [discriminate|]. split; [constructor; [now left|constructor]|]. right. reflexivity.
    + exists (bs "#| msgid "), (bs "c\"), []. repeat split; try (intros []; fail); try (vm_compute; intuition discriminate). exists (bs "c"), 1%nat. repeat split.
      right. exists [], "c"%char. split; [reflexivity|discriminate].
    + change [bs "msgid ""a"""; []] with ([bs "msgid ""a"""] ++ [[]]). rewrite behind_snoc. intros [[F _]|[P _]]; [now apply F|].
      apply (passed_scans false TWs) in P as [_ P]. now apply P.
Qed.

Print Assumptions C22_hangs_exactly.
Print Assumptions C22_ends_exactly.
