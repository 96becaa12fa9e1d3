(** C23, C24, C49: PO files whose entries are set apart by comment lines. *)
From Coq Require Import String Ascii List ZArith Bool Lia Permutation.
From Verif Require Import Base BaseProofs PoFileModel PoFileSpec PoItemProofs PoParseProofs PoOutcomeProofs PoExamples
  PoTightSpec PoTightProofs.
Import ListNotations.
Open Scope Z_scope.

(** Blank lines may be missing where an entry starts with a comment line. *)
Lemma layouts_are_tight : forall ign bl ls, layout bl ls -> tight ign bl ls.
Proof. exact layout_tight. Qed.
Lemma tight_weaker : forall bl ls, tight true bl ls -> tight false bl ls.
Proof.
  induction 1 as [pre F|b pre ls F B|b bl pre ls w rest F B P L IH|b bl pre ls i l rest F HT B E IL L IH];
    [now apply ti_nil|now apply ti_last|now apply ti_blank|]. apply ti_comment with (i := i); try assumption.
  destruct i; cbn in *; auto.
Qed.

(** ** C23 *)
Theorem C23_comment_lines_partial : forall bl ls s f, tight false bl ls -> text_of ls s -> parse_po s = Ok f ->
  f_messages f = messages_of bl.
Proof.
  intros bl ls s f L T H. unfold parse_po in H. rewrite (tight_file false bl ls s _ L T (Nat.lt_succ_diag_r _)) in H.
  apply outcome_messages in H. rewrite H. cbn [app]. rewrite <- (map_id (messages_of bl)) at 2. apply map_ext. exact seen_false1.
Qed.

(** ** C24 *)
Theorem C24_comment_lines_rejected : forall bl ls s, tight false bl ls -> text_of ls s ->
  ~ NoDup (map key (messages_of bl)) -> parse_po s = Err.
Proof. intros bl ls s L T N. apply (tight_rejected false bl ls s _ L T (Nat.lt_succ_diag_r _)). now left. Qed.
Theorem C24_comment_lines_accepted : forall bl ls s, tight false bl ls -> text_of ls s -> NoDup (map key (messages_of bl)) ->
  (length (headers_of bl) <= 1)%nat -> (messages_of bl <> [] \/ headers_of bl <> []) ->
  exists f, parse_po s = Ok f /\
    forall ctx id m, get_message (f_messages f) ctx id = Some m <-> In m (messages_of bl) /\ key m = (ctx, id).
Proof.
  intros bl ls s L T ND H NE. eexists. split; [exact (tight_accepted false bl ls s _ L T (Nat.lt_succ_diag_r _) ND H NE)|].
  intros ctx id m. cbn [f_messages].
  replace (map (seen_message false) (messages_of bl)) with (messages_of bl).
  2: { rewrite <- (map_id (messages_of bl)) at 1. apply map_ext. intro x. symmetry. apply seen_false1. }
  now apply get_message_iff.
Qed.

(** ** C49 *)
Theorem C49_flag_lines_partial : forall bl ls s fuel, tight true bl ls -> text_of ls s -> (length s < fuel)%nat ->
  parse_po_fuel fuel true s =
  match parse_po_fuel fuel false s with
  | Ok f => Ok (PoFile (Hdr (option_map (seen_comment true) (h_com (f_header f))) (h_known (f_header f)) (h_unknown (f_header f)))
                       (map (seen_message true) (f_messages f)))
  | x => x
  end.
Proof.
  intros bl ls s fuel L T F. rewrite (tight_file true bl ls s fuel L T F), (tight_file false bl ls s fuel (tight_weaker bl ls L) T F).
  exact (outcome_seen bl None []).
Qed.

(** A file without any blank line: the line of flags that starts the second
    entry keeps the two apart, and is lost. *)
Definition file_t : list string := ["msgid ""a"""; "msgstr ""b"""; "#, fuzzy"; "msgid ""c"""; "msgstr ""d"""]%string.
Definition msg_ac : message := Msg (Some (com_of [])) [] (bs "a") [] [(0, bs "b")].
Lemma tight_t : tight true [BMsg msg_ac; BMsg msg_c] (map bs file_t).
Proof.
  apply (ti_comment true (BMsg msg_ac) [BMsg msg_c] [] (map bs ["msgid ""a"""; "msgstr ""b"""]%string) (IFlags [bs "fuzzy"])
           (bs "#, fuzzy") (map bs ["msgid ""c"""; "msgstr ""d"""]%string)); [constructor|exact I| |exact I| |].
  - constructor. apply (entry_one [] [] (bs "a") (bs "b")); [constructor|discriminate|reflexivity|reflexivity].
  - apply (flags_one (bs "fuzzy")). split; [solve_word|]. intro J. vm_compute in J.
    repeat (destruct J as [J|J]; [discriminate|]). exact J.
  - apply (ti_last true (BMsg msg_c) []); [constructor|constructor; apply entry_c].
Qed.
Example tight_example : tight false [BMsg msg_ac; BMsg msg_c] (map bs file_t) /\ text_of (map bs file_t) (text file_t) /\
  NoDup (map key (messages_of [BMsg msg_ac; BMsg msg_c])) /\
  (exists f, parse_po (text file_t) = Ok f /\ map m_id (f_messages f) = [bs "a"; bs "c"]) /\
  (exists f, parse_po_fuel 100 true (text file_t) = Ok f /\ map m_id (f_messages f) = [bs "a"; bs "c"]).
Proof.
  split; [apply tight_weaker, tight_t|]. split; [apply text_lines; reflexivity|]. split; [|split; eexists; split; [vm_compute; reflexivity|reflexivity|vm_compute; reflexivity|reflexivity]].
  cbn. constructor; [|constructor; [intros []|constructor]]. intros [E|[]]. discriminate.
Qed.
(** The same id twice. *)
Definition file_td : list string := ["msgid ""c"""; "msgstr ""d"""; "#, fuzzy"; "msgid ""c"""; "msgstr ""d"""]%string.
Example tight_twice : tight false [BMsg msg_c; BMsg msg_c] (map bs file_td) /\ text_of (map bs file_td) (text file_td) /\
  ~ NoDup (map key (messages_of [BMsg msg_c; BMsg msg_c])).
Proof.
  split; [|split; [apply text_lines; reflexivity|]].
  - apply (ti_comment false (BMsg msg_c) [BMsg msg_c] [] (map bs ["msgid ""c"""; "msgstr ""d"""]%string) (IFlags [bs "fuzzy"])
           (bs "#, fuzzy") (map bs ["msgid ""c"""; "msgstr ""d"""]%string)); [constructor|exact I| |exact I| |].
    + constructor. apply entry_c.
    + apply (flags_one (bs "fuzzy")). split; [solve_word|]. intro J. vm_compute in J.
      repeat (destruct J as [J|J]; [discriminate|]). exact J.
    + apply (ti_last false (BMsg msg_c) []); [constructor|constructor; apply entry_c].
  - intro N. inversion N as [|? ? X _]. apply X. now left.
Qed.

Print Assumptions C23_comment_lines_partial.
Print Assumptions C24_comment_lines_rejected.
Print Assumptions C24_comment_lines_accepted.
Print Assumptions C49_flag_lines_partial.
