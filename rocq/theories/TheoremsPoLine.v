(** * C83: a PO file is only accepted if each of its lines is understood *)
From Coq Require Import String Ascii List ZArith Bool Lia.
From Verif Require Import Base BaseProofs StrModel PoStrModel PoStrSpec PoFileModel PoTotalProofs TheoremsPoStr PoExamples PoLineSpec PoLineProofs.
Import ListNotations.
Open Scope Z_scope.

(** Every text has lines that are read, and no two readings differ. *)
Theorem C83_lines : forall s, exists rs, reads_lines s rs /\ forall rs', reads_lines s rs' -> rs' = rs.
Proof.
  intro s. exists (file_lines s). split; [now apply reads_file_lines|]. intros rs' H. now apply reads_file_lines in H.
Qed.
(** A file that is accepted has no line that is not understood, *)
Theorem C83_understood : forall fuel ign s f rs, parse_po_fuel fuel ign s = Ok f -> reads_lines s rs -> understood ign Elsewhere rs.
Proof. intros fuel ign s f rs H R. apply reads_file_lines in R. subst rs. eapply parse_po_understood. exact H. Qed.
(** a file with one is an error; the parser may hang instead, but only at a
    string that is not closed (C22). *)
Theorem C83_refused : forall fuel ign s rs, (forall l, is_line s l -> ~ unclosed l) -> (length s < fuel)%nat ->
  reads_lines s rs -> ~ understood ign Elsewhere rs -> parse_po_fuel fuel ign s = Err.
Proof.
  intros fuel ign s rs U L R N. apply reads_file_lines in R. subst rs.
  pose proof (parse_no_panic fuel ign s) as P. pose proof (parse_terminates fuel ign s U L) as T.
  destruct (parse_po_fuel fuel ign s) as [f| | |] eqn:E; [exfalso; apply N; eapply parse_po_understood; exact E|reflexivity|congruence|congruence].
Qed.
(** Conversely one entry is accepted if its lines are: comments, then lines
    with keywords and strings, among them a msgid with a text. *)
Theorem C83_one_entry : forall fuel ign s cs fs, (forall l, is_line s l -> ~ unclosed l) -> (length s < fuel)%nat ->
  reads_lines s (cs ++ fs) -> understood ign Elsewhere (cs ++ fs) -> Forall comment_start cs -> Forall field_start fs ->
  (exists l x, In l fs /\ trim_space l = bs "msgid " ++ x /\ string_part x) ->
  (forall l x, In l fs -> trim_space l = bs "msgid " ++ x -> string_part x -> decode_po_fuel fuel x <> Ok []) ->
  exists f m, parse_po_fuel fuel ign s = Ok f /\ f_messages f = [m].
Proof.
  intros fuel ign s cs fs U L R UN C F I ID. apply reads_file_lines in R. now apply (one_entry fuel ign s cs fs).
Qed.
(** What stands behind a line of 65536 bytes or more is not looked at. *)
Theorem C83_cut : forall fuel ign a l rest, ~ In LF l -> 65536 <= Z.of_nat (length l) ->
  parse_po_fuel fuel ign (a ++ LF :: l ++ LF :: rest) = parse_po_fuel fuel ign (a ++ [LF]).
Proof. intros fuel ign a l rest N L. unfold parse_po_fuel. now rewrite file_lines_cut. Qed.

(** ** Examples *)
Definition line_file : bytes := text ["# hint"; ""; "#, fuzzy"; "msgid ""a"""; """b"""; "msgstr [1]""c"""]%string.
Definition odd_file : bytes := text ["msgid ""a"""; "msgstr ""b"""; "  ""c"" d"]%string.
Lemma place_case : forall p, exists k, place_of k = p.
Proof. intros [| |]; [now exists TId|now exists TPrevId|now exists TEof]. Qed.
Example C83_example :
  (exists f, parse_po line_file = Ok f /\ map m_id (f_messages f) = [bs "ab"]) /\
  reads_lines line_file (map bs ["# hint"; ""; "#, fuzzy"; "msgid ""a"""; """b"""; "msgstr [1]""c"""]%string) /\
  reads_lines odd_file (map bs ["msgid ""a"""; "msgstr ""b"""; "  ""c"" d"]%string) /\
  ~ understood false Elsewhere (map bs ["msgid ""a"""; "msgstr ""b"""; "  ""c"" d"]%string) /\
  (forall l, is_line odd_file l -> ~ unclosed l) /\ parse_po odd_file = Err.
Proof.
  split; [eexists; split; vm_compute; reflexivity|]. split; [apply reads_file_lines; reflexivity|]. split; [apply reads_file_lines; reflexivity|].
  split.
  { intro U. apply (scan_understood false _ TEof false) in U; [|discriminate].
    apply Forall_inv_tail, Forall_inv_tail, Forall_inv in U. now apply (bad_fail (bs """c"" d")) in U. }
  split; [|vm_compute; reflexivity].
  intros l L U. destruct (C18_hangs_exactly odd_file) as [_ H]. assert (X : exists l, is_line odd_file l /\ unclosed l) by eauto.
  specialize (H X 100%nat). vm_compute in H. discriminate.
Qed.
Definition entry_file : bytes := text ["#: a.go:3"; "#| msgid ""old"""; "msgctxt ""x"""; "msgid ""a"""; """b"""; "msgstr ""c"""]%string.
Definition entry_comments : list bytes := map bs ["#: a.go:3"; "#| msgid ""old"""]%string.
Definition entry_fields : list bytes := map bs ["msgctxt ""x"""; "msgid ""a"""; """b"""; "msgstr ""c"""]%string.
Lemma part_one : forall b : bytes, ~ In LF b -> string_part (QUOTE :: b ++ [QUOTE]).
Proof. intros b H. exists [], b, []. split; [reflexivity|]. split; [constructor|]. split; [constructor|exact H]. Qed.
Example C83_one_entry_example :
  (forall l, is_line entry_file l -> ~ unclosed l) /\ reads_lines entry_file (entry_comments ++ entry_fields) /\
  understood false Elsewhere (entry_comments ++ entry_fields) /\ Forall comment_start entry_comments /\ Forall field_start entry_fields /\
  (exists l x, In l entry_fields /\ trim_space l = bs "msgid " ++ x /\ string_part x) /\
  (forall fuel l x, (3 < fuel)%nat -> In l entry_fields -> trim_space l = bs "msgid " ++ x -> string_part x -> decode_po_fuel fuel x <> Ok []).
Proof.
  split.
  { intros l L U. destruct (C18_hangs_exactly entry_file) as [_ H]. assert (X : exists l, is_line entry_file l /\ unclosed l) by eauto.
    specialize (H X 200%nat). vm_compute in H. discriminate. }
  split; [apply reads_file_lines; reflexivity|]. split.
  { apply (scan_understood false _ TEof false); [discriminate|]. vm_compute. repeat constructor; try discriminate; intro H; discriminate H. }
  split; [repeat constructor; eexists; vm_compute; reflexivity|]. split.
  { repeat constructor; try (intros H; vm_compute in H; discriminate H); intros [y H]; vm_compute in H; discriminate H. }
  split; [exists (bs "msgid ""a"""), (bs """a"""); split; [vm_compute; tauto|split; [reflexivity|apply (part_one (bs "a")); intros [H|[]]; discriminate]]|].
  intros fuel l x F I E _. cbn [entry_fields map In] in I. repeat destruct I as [<-|I]; try (vm_compute in E; discriminate E); [|destruct I].
  assert (x = bs """a""") as -> by (apply (app_inv_head (bs "msgid ")); rewrite <- E; reflexivity).
  destruct fuel as [|[|fuel]]; [lia..|]. vm_compute. discriminate.
Qed.

(** scanner.go:208-213: a line that is not understood behind a long one. *)
Theorem C83_long_refuted : exists s ls f, lines_of s ls /\ parse_po s = Ok f /\ ~ understood false Elsewhere ls.
Proof.
  set (long := repeat "#"%char (Z.to_nat 65536)).
  assert (NL : ~ In LF long) by (intro I; apply repeat_spec in I; discriminate).
  assert (LL : 65536 <= Z.of_nat (length long)) by (unfold long; rewrite repeat_length, Z2Nat.id by lia; lia).
  clearbody long.
  set (a := bs "msgid ""a""" ++ LF :: bs "msgstr ""b""").
  assert (P : exists f, parse_po (a ++ LF :: long ++ LF :: bs "oops") = Ok f).
  { unfold parse_po. rewrite C83_cut by assumption.
    destruct (C83_one_entry (S (length (a ++ LF :: long ++ LF :: bs "oops"))) false (a ++ [LF]) [] (map bs ["msgid ""a"""; "msgstr ""b"""]%string)) as (f & m & E & _).
    - intros l L U. destruct (C18_hangs_exactly (a ++ [LF])) as [_ H]. assert (X : exists l, is_line (a ++ [LF]) l /\ unclosed l) by eauto.
      specialize (H X 100%nat). vm_compute in H. discriminate.
    - rewrite !app_length. cbn [length]. lia.
    - apply reads_file_lines. reflexivity.
    - apply (scan_understood false _ TEof false); [discriminate|]. vm_compute. repeat constructor; try discriminate; intro H; discriminate H.
    - constructor.
    - repeat constructor; try (intros H; vm_compute in H; discriminate H); intros [y H]; vm_compute in H; discriminate H.
    - exists (bs "msgid ""a"""), (bs """a"""). split; [vm_compute; tauto|]. split; [reflexivity|]. apply (part_one (bs "a")). intros [H|[]]; discriminate.
    - intros l x I E _. cbn [map In] in I. repeat destruct I as [<-|I]; try (vm_compute in E; discriminate E); [|destruct I].
      assert (x = bs """a""") as -> by (apply (app_inv_head (bs "msgid ")); rewrite <- E; reflexivity).
      unfold a. cbn [app length]. vm_compute. discriminate.
    - eauto. }
  destruct P as [f P]. exists (a ++ LF :: long ++ LF :: bs "oops"), [bs "msgid ""a"""; bs "msgstr ""b"""; long; bs "oops"], f. split.
  { split; [constructor; [|constructor; [|constructor; [exact NL|constructor; [|constructor]]]]; intro I; cbn in I; repeat (destruct I as [I|I]; [discriminate|]); exact I|].
    right. exists [bs "msgid ""a"""; bs "msgstr ""b"""; long], (bs "oops"). split; [reflexivity|]. split; [discriminate|].
    cbn [with_ends]. unfold a. repeat (rewrite <- !app_assoc; cbn [app]). reflexivity. }
  split; [exact P|]. intro U. apply understood_tail in U as [p U]. apply understood_tail in U as [p1 U]. apply understood_tail in U as [p2 U].
  destruct (place_case p2) as [k K]. rewrite <- K in U. assert (U' : Forall good (scan_all false k false [bs "oops"])) by (apply scan_understood; [discriminate|exact U]).
  apply Forall_inv in U'. change (scan_message k (bs "oops")) with TFail in U'. now apply (bad_fail (bs "oops")) in U'.
Qed.

Print Assumptions C83_lines.
Print Assumptions C83_understood.
Print Assumptions C83_refused.
Print Assumptions C83_one_entry.
Print Assumptions C83_cut.
Print Assumptions C83_long_refuted.
