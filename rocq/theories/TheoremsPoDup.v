(** C85: the lines that the errors for a duplicate entry and for a second
    header name. *)
From Coq Require Import String Ascii List ZArith Bool Lia.
From Verif Require Import Base StrModel PoStrModel PoFileModel PoFileSpec PoStateModel PoStateSpec PoLineSpec PoFieldSpec PoAnySpec PoHangSpec PoHeadSpec PoDupSpec PoExamples.
From Verif Require PoAgainProofs PoLineProofs PoFieldProofs PoAnyProofs PoHeadProofs PoDupProofs.
Import ListNotations.
Open Scope Z_scope.

Lemma lines_cut : forall s rs a b, reads_lines s rs -> rs = a ++ b -> Forall (fun l => ~ In LF l) a /\ file_lines s = rs.
Proof.
  intros s rs a b R ->. pose proof (PoAnyProofs.lines_no_lf _ _ R) as N. apply Forall_app in N as [N _].
  apply PoLineProofs.reads_file_lines in R. auto.
Qed.
(** The error for an entry that is there already: [a] are the lines up to its
    end, no entry before it is there twice.  The error names the last line that
    was read, see [noticed]. *)
Theorem C85_duplicate : forall p fuel s rs id n p', used p -> reads_lines s rs -> p_parse fuel p s = OErr (EDup id n) p' ->
  exists a b es e ms c j t, rs = a ++ b /\ any_file (p_ign p) a (es ++ [e]) /\ behind_field (p_ign p) a /\
    file_says es ms /\ NoDup (map key ms) /\ last_or_none ctx_of (fst e) c /\ last_or_none id_of (fst e) id /\ id <> [] /\ In (c, id) (map key ms) /\
    noticed (p_ign p) b j t /\ n = Z.of_nat (length a) + j.
Proof.
  intros p fuel s rs id n p' U R E. apply PoDupProofs.p_parse_dup in E; [|now apply PoAgainProofs.used_n].
  destruct E as (D & h & ms & m & t & RU & <- & NI & EX & a & b & j & A & <- & G & NO & ->).
  pose proof R as R'. apply PoLineProofs.reads_file_lines in R'. subst rs. destruct (lines_cut _ _ a b R A) as [NL _].
  destruct (PoDupProofs.entries_of_run _ _ _ _ _ _ NL G RU) as (es & e & l & AF & B & S & Se & -> & ND & _).
  exists a, b, es, e, (PoFieldProofs.with_id l), (m_ctx m), j, t. split; [exact A|]. split; [exact AF|]. split; [exact B|].
  split; [now apply PoAnyProofs.says_with_id|]. split; [exact ND|]. split; [apply Se|]. split; [apply Se|]. split; [exact NI|].
  split; [apply PoDupProofs.key_exists in EX; exact EX|]. auto.
Qed.
(** Likewise the error for a second header, which has the text of that line,
    too: it is about an entry without id but with a translation behind a header. *)
Theorem C85_second_header : forall p fuel s rs n t p', used p -> reads_lines s rs -> p_parse fuel p s = OErr (EHeader n t) p' ->
  exists a b es e j, rs = a ++ b /\ any_file (p_ign p) a (es ++ [e]) /\ behind_field (p_ign p) a /\
    last_or_none id_of (fst e) [] /\ indices (fst e) <> [] /\
    (heads_in_turn es -> exists e0 v kvs, In e0 es /\ headlike e0 v /\ header_value v kvs) /\
    noticed (p_ign p) b j t /\ n = Z.of_nat (length a) + j.
Proof.
  intros p fuel s rs n t p' U R E. apply PoDupProofs.p_parse_dup in E; [|now apply PoAgainProofs.used_n].
  destruct E as (D & h & ms & m & RU & ID & NS & a & b & j & A & <- & G & NO & ->).
  pose proof R as R'. apply PoLineProofs.reads_file_lines in R'. subst rs. destruct (lines_cut _ _ a b R A) as [NL _].
  destruct (PoDupProofs.entries_of_run _ _ _ _ _ _ NL G RU) as (es & e & l & AF & B & S & Se & -> & _ & HR).
  exists a, b, es, e, j. split; [exact A|]. split; [exact AF|]. split; [exact B|]. pose proof Se as (_ & SI & _ & SN & _). rewrite ID in SI.
  split; [exact SI|]. split; [intro Z; apply NS, SN, Z|]. split; [|auto].
  intro T. destruct (HR ltac:(discriminate)) as (m0 & IM & I0 & S0 & PH).
  assert (IE : exists e0, In e0 es /\ entry_says e0 m0).
  { clear - S IM. induction S as [|x y es l SX _ IH]; [destruct IM|]. destruct IM as [->|IM]; [exists x; split; [now left|exact SX]|].
    destruct (IH IM) as (e0 & I1 & I2). exists e0. split; [now right|exact I2]. }
  destruct IE as (e0 & IE & SE). pose proof SE as (_ & SI0 & _ & SN0 & _). rewrite I0 in SI0.
  destruct (PoHeadProofs.last_exists (form_of 0) (fst e0)) as [v LV].
  assert (T0 : in_turn [] (fst e0) (snd e0)) by (unfold heads_in_turn in T; rewrite Forall_forall in T; now apply T).
  pose proof (PoHeadProofs.head_text e0 m0 v SE T0 LV) as TV.
  unfold parse_header in PH. rewrite TV in PH. destruct (header_lines new_header (split_on LF v)) as [h0|] eqn:HL; [|congruence].
  destruct (PoHeadProofs.fields_exist _ _ _ HL) as [kvs F]. exists e0, v, kvs. split; [exact IE|].
  split; [split; [exact SI0|split; [intro Z; apply S0, SN0, Z|exact LV]]|]. exists (split_on LF v). split; [apply PoHeadProofs.cut_split|exact F].
Qed.

(** ** Files *)
(** The entry is followed by a blank line and another entry; by the end of the
    file; by a comment. *)
Definition dup_next : bytes := text ["msgid ""a"""; "msgstr ""b"""; ""; "msgid ""a"""; "msgstr ""c"""; ""; " "; "msgid ""d"""; "oops"]%string.
Definition dup_last : bytes := text ["msgid ""a"""; "msgstr ""b"""; ""; "msgid ""a"""; "msgstr ""c"""; "#."]%string.
Definition dup_blank : bytes := text ["msgid ""a"""; "msgstr ""b"""; ""; "msgid ""a"""; "msgstr ""c"""; ""]%string.
Definition head_comment : bytes := text ["msgid """""; "msgstr ""A: b"""; ""; "msgid """""; "msgstr ""A: c"""; "#."; " # hint"; "oops"]%string.
Definition error_of (s : bytes) : seen := seen_of (p_parse (S (length s)) (new_parser []) s).
Example C85_entries_example :
  error_of dup_next = SError (EDup (bs "a") 8) /\ error_of dup_last = SError (EDup (bs "a") 6) /\ error_of dup_blank = SError (EDup (bs "a") 6) /\
  error_of head_comment = SError (EHeader 7 (bs " # hint")) /\
  noticed false (map bs [""; " "; "msgid ""d"""; "oops"]%string) 3 (bs "msgid ""d""") /\ noticed false [bs " # hint"; bs "oops"] 1 (bs " # hint").
Proof.
  do 4 (split; [vm_compute; reflexivity|]). split.
  - apply (no_next false [bs ""; bs " "] (bs "msgid ""d""")); [discriminate|repeat constructor|vm_compute; discriminate].
  - constructor; [eexists; vm_compute; reflexivity|]. intros [I|[I _]]; [|discriminate I]. vm_compute in I. repeat destruct I as [I|I]; try discriminate I. destruct I.
Qed.
Example C85_hypotheses_met :
  used (new_parser []) /\ (exists p', p_parse (S (length dup_next)) (new_parser []) dup_next = OErr (EDup (bs "a") 8) p') /\
  (exists p', p_parse (S (length head_comment)) (new_parser []) head_comment = OErr (EHeader 7 (bs " # hint")) p') /\
  exists rs, reads_lines dup_next rs.
Proof.
  split; [constructor|]. split; [eexists; vm_compute; reflexivity|]. split; [eexists; vm_compute; reflexivity|].
  exists (file_lines dup_next). now apply PoLineProofs.reads_file_lines.
Qed.

Print Assumptions C85_duplicate.
Print Assumptions C85_second_header.
