(** * C23, C30, C83: the translations of entries of any layout *)
From Coq Require Import String Ascii List ZArith Bool Lia.
From Verif Require Import Base BaseProofs StrModel PoStrModel PoStrSpec PoFileModel PoFileSpec PoExamples PoFieldSpec PoLineSpec PoLineProofs PoHangSpec PoHangProofs PoAnySpec PoAnyProofs Utf8Model NumModel GettextModel GettextSpec GettextProofs TheoremsGettext PoComSpec PoHeadSpec PoFormSpec PoFormProofs TheoremsPoAny.
Import ListNotations.
Open Scope Z_scope.

(** The lines of every accepted file make up entries, and its messages are
    exactly what the lines of the entries with an id say, in that order; their
    translations also if the further lines of a form come out of turn. *)
Theorem C23_any_forms : forall fuel ign s f rs, parse_po_fuel fuel ign s = Ok f -> reads_lines s rs ->
  (exists es, entry_lines ign rs es) /\ forall es, entry_lines ign rs es -> lines_say es (f_messages f).
Proof. exact file_forms. Qed.
(** Which files are accepted, without a condition on their forms: if every line
    is closed, those whose lines are understood, whose entries differ, and that
    have an entry with id or a header. *)
Theorem C83_lines_exactly : forall fuel ign s rs es, reads_lines s rs -> (length s < fuel)%nat -> Forall (fun l => ~ unclosed l) rs -> entry_lines ign rs es ->
  ((exists f, parse_po_fuel fuel ign s = Ok f) <->
   understood ign Elsewhere rs /\ exists ms o, lines_say es ms /\ NoDup (map key ms) /\ lines_head es o /\ (ms <> [] \/ o <> None)).
Proof. exact lines_accepted. Qed.
(** ... and the fields of their header. *)
Theorem C83_lines_header : forall fuel ign s f rs es, parse_po_fuel fuel ign s = Ok f -> reads_lines s rs -> entry_lines ign rs es ->
  exists o, lines_head es o /\ (forall o', lines_head es o' -> o' = o) /\
    forall fold k kvs, kvs = match o with Some l => l | None => [] end -> ascii_fold fold -> ascii_text k ->
      Forall (fun e => ascii_text (fst e)) kvs -> one_spelling (map fst kvs) -> last_value kvs k (header_get fold (f_header f) k).
Proof.
  intros fuel ign s f rs es E R A. destruct (lines_header fuel ign s f rs es E R A) as (o & H & U & V). exists o. split; [exact H|]. split; [exact U|].
  intros fold k kvs -> AF AK AT OS. destruct o as [kvs|].
  - rewrite V. destruct (PoHeaderProofs.set_all_get fold kvs k AF AK AT OS) as (v & X & Q). rewrite <- Q in X. exact X.
  - rewrite V. destruct (PoHeaderProofs.set_all_get fold [] k AF AK AT OS) as (v & X & Q). rewrite <- Q in X. exact X.
Qed.

(** The answers of a catalog of any PO file with closed lines and comments that
    have a meaning (PoComSpec): *)
Section Theorems.
  (** external parts, see GettextModel *)
  Variable tag : Type.
  Variable is_root : tag -> bool.
  Variable tag_string : tag -> bytes.
  Variable base : tag -> bytes * bool.
  Variable parent : tag -> tag.
  Variable fold : rune -> rune.
  Variable fuel : nat.
  Theorem C30_every_text : forall s ms kvs u (lang : tag) dom c, every_po s ms kvs ->
    decode_po tag is_root tag_string base parent fold fuel u lang dom s = Ok c ->
    forall ctx id r, lookup tag c ctx id = r <-> answer ms lang [] ctx id 0 r.
  Proof.
    intros s ms kvs u lang dom c A H ctx id r. destruct (C30_po_lookup tag is_root tag_string base parent fold fuel u lang dom s c H) as (f & P & AN).
    destruct (every_po_read s ms kvs A) as (f' & P' & _ & AL & _). assert (E : f' = f) by congruence. subst f'.
    assert (AL' : Forall2 alike ms (f_messages f)).
    { clear - AL. induction AL as [|x y l l' (P & Q & R) AL IH]; constructor; [|exact IH]. split; [congruence|]. split; [intro; symmetry; apply Q|symmetry; exact R]. }
    rewrite AN. split; intro X; (eapply answer_alike; [exact is_root|exact tag_string|exact base|exact parent|exact fold| |exact X]; assumption).
  Qed.
End Theorems.
(** Every such file that is accepted is one of these. *)
Theorem C30_every_file : forall s f rs cs, parse_po_fuel (S (length s)) true s = Ok f -> reads_lines s rs -> Forall (fun l => ~ unclosed l) rs ->
  any_comments true [] rs cs -> exists kvs, every_po s (f_messages f) kvs.
Proof. exact every_po_all. Qed.

(** In the file of C23_any_example a further line of form 1 is added to form 0: *)
Definition form_lines : list bytes := [bs "msgctxt ""e"""; bs "msgid ""f"""; bs "msgstr [1] ""g"""; bs """h"""].
Example C23_forms_example : exists e1 g, entry_lines false any_lines [e1; form_lines] /\ forms_after InOther no_forms form_lines g /\
  g 1 = Some (bs "g") /\ g 0 = Some (bs "h") /\ g 2 = None.
Proof.
  exists [bs "msgid ""x"""; bs "  msgid   ""a"""; bs """b"""; bs "msgstr""c"""], (given (given no_forms 1 (bs "g")) 0 (bs "h")).
  split; [|split; [|repeat split]].
  - unfold any_lines. apply el_quiet; [right; exists (bs ", fuzzy"); reflexivity|].
    apply (el_entry false (bs "msgid ""x""") [bs "  msgid   ""a"""; bs """b"""; bs "msgstr""c"""] [bs "  msgid   ""a"""; bs """b"""; bs "msgstr""c"""]
      (bs "#  d" :: skipn 6 any_lines)).
    + split; [discriminate|]. intros [y Y]. discriminate Y.
    + repeat (apply lo_field; [split; [discriminate|intros [y Y]; discriminate Y]|]). apply lo_nil.
    + split; [right; exists (bs "  d"); reflexivity|]. intros [H|[H _]]; [|discriminate H]. vm_compute in H. intuition discriminate.
    + apply el_quiet; [right; exists (bs "  d"); reflexivity|].
      apply (el_entry false (bs "msgctxt ""e""") (skipn 7 any_lines) [bs "msgid ""f"""; bs "msgstr [1] ""g"""; bs """h"""] []).
      * split; [discriminate|]. intros [y Y]. discriminate Y.
      * apply lo_passed; [left; now left|]. repeat (apply lo_field; [split; [discriminate|intros [y Y]; discriminate Y]|]). apply lo_nil.
      * exact I.
      * apply el_nil.
  - unfold form_lines. apply (fa_other _ _ _ FCtx (bs """e""")); [now left|keyword_part (bs "msgctxt ") (bs """e""") (@nil ascii) (bs "e")|].
    apply (fa_other _ _ _ FId (bs """f""")); [right; now left|keyword_part (bs "msgid ") (bs """f""") (@nil ascii) (bs "f")|].
    apply (fa_form _ _ _ 1 (bs " ""g""") (bs "g")); [|vm_compute; reflexivity|].
    + change 1 with (dec_val (bs "1")). change (trim_space _) with (bs "msgstr [1]" ++ bs " ""g""").
      apply (ky_form (bs " ") (bs "1") (bs " ""g""")); [repeat constructor|split; [discriminate|repeat constructor]|vm_compute; discriminate| |reflexivity|reflexivity].
      part (bs " ") (bs "g") (@nil ascii).
    + apply (fa_more_form _ _ (bs "h") 1).
      * exists (bs "h"). split; [reflexivity|]. vm_compute. intuition discriminate.
      * vm_compute. reflexivity.
      * exists [1]. split; [constructor; [intros []|constructor]|]. split; [reflexivity|]. intro i. unfold given, no_forms.
        destruct (Z.eq_dec i 1) as [->|D]; cbn [In]; [split; [discriminate|now left]|split; [intros [E|[]]; congruence|congruence]].
      * change (bs "h") with (so_far (given no_forms 1 (bs "g")) (1 - 1) ++ bs "h") at 2. apply fa_nil.
Qed.
(** The file is accepted (C23_any_parsed), with these translations. *)
Example C23_forms_parsed : exists f es, parse_po (with_ends any_lines) = Ok f /\ reads_lines (with_ends any_lines) any_lines /\
  entry_lines false any_lines es /\ lines_say es (f_messages f).
Proof.
  destruct C23_any_parsed as (f & E & R & _). destruct (C23_any_forms _ _ _ _ _ E R) as [[es A] S]. exists f, es. auto.
Qed.
(** A header whose text is a further line of form 1: *)
Definition odd_head : list bytes := [bs "msgid """""; bs "msgstr[1] ""x"""; bs """Language: fr\n""" ].
Definition odd_text : bytes := bs "Language: fr" ++ [LF].
Lemma odd_form : keyed (trim_space (bs "msgstr[1] ""x""")) (FForm 1) (bs """x""").
Proof.
  change 1 with (dec_val (bs "1")). change (trim_space _) with (bs "msgstr[1] " ++ bs """x""").
  apply (ky_form [] (bs "1") (bs " ""x""")); [constructor|split; [discriminate|repeat constructor]|vm_compute; discriminate| |reflexivity|reflexivity].
  part (bs " ") (bs "x") (@nil ascii).
Qed.
Lemma odd_string : string_line (trim_space (bs """Language: fr\n""")).
Proof. exists (bs "Language: fr\n"). split; [reflexivity|]. vm_compute. intuition discriminate. Qed.
Lemma odd_fields : any_fields odd_head [FId []; FForm 1 (bs "x" ++ odd_text)] [0; 1]%nat.
Proof.
  apply (an_cons (bs "msgid """"") FId (bs """""") [] [] [] [bs "msgstr[1] ""x"""; bs """Language: fr\n"""]); [keyword_part (bs "msgid ") (bs """""") (@nil ascii) (@nil ascii)|vm_compute; reflexivity|constructor|].
  apply (an_cons (bs "msgstr[1] ""x""") (FForm 1) (bs """x""") (bs "x") [bs """Language: fr\n"""] [odd_text] []); [exact odd_form|vm_compute; reflexivity| |constructor].
  constructor; [split; [exact odd_string|vm_compute; reflexivity]|constructor].
Qed.
Lemma odd_forms : forms_after InOther no_forms odd_head (given (given no_forms 1 (bs "x")) 0 odd_text).
Proof.
  unfold odd_head. apply (fa_other _ _ _ FId (bs """""")); [right; now left|keyword_part (bs "msgid ") (bs """""") (@nil ascii) (@nil ascii)|].
  apply (fa_form _ _ _ 1 (bs """x""") (bs "x")); [exact odd_form|vm_compute; reflexivity|].
  apply (fa_more_form _ _ odd_text 1); [exact odd_string|vm_compute; reflexivity| |apply fa_nil].
  exists [1]. split; [constructor; [intros []|constructor]|]. split; [reflexivity|]. intro i. unfold given, no_forms.
  destruct (Z.eq_dec i 1) as [->|D]; cbn [In]; [split; [discriminate|now left]|split; [intros [E|[]]; congruence|congruence]].
Qed.
Lemma odd_value : header_value odd_text [(bs "Language", bs "fr")].
Proof.
  exists [bs "Language: fr"; []]. split.
  - apply (cut_more (bs "Language: fr") []); [vm_compute; intuition discriminate|]. apply cut_last. intros [].
  - change (bs "fr") with (trim_space (bs " fr")). change (bs "Language") with (trim_space (bs "Language")).
    apply (lf_field (bs "Language") (bs " fr")); [vm_compute; intuition discriminate|]. apply lf_blank; [intros []|reflexivity|constructor].
Qed.
Example C83_lines_example : exists f es, parse_po (with_ends odd_head) = Ok f /\ reads_lines (with_ends odd_head) odd_head /\
  entry_lines false odd_head es /\ Forall (fun l => ~ unclosed l) odd_head /\ lines_head es (Some [(bs "Language", bs "fr")]) /\
  header_get (fun r => r) (f_header f) (bs "Language") = bs "fr".
Proof.
  assert (P : exists f, parse_po (with_ends odd_head) = Ok f /\ header_get (fun r => r) (f_header f) (bs "Language") = bs "fr") by (eexists; split; vm_compute; reflexivity).
  destruct P as (f & P & HG). assert (R : reads_lines (with_ends odd_head) odd_head) by (apply reads_file_lines; vm_compute; reflexivity).
  assert (EL : entry_lines false odd_head [odd_head]).
  { unfold odd_head. apply (el_entry false (bs "msgid """"") [bs "msgstr[1] ""x"""; bs """Language: fr\n"""] [bs "msgstr[1] ""x"""; bs """Language: fr\n"""] []).
    - split; [discriminate|]. intros [y Y]. discriminate Y.
    - repeat (apply lo_field; [split; [discriminate|intros [y Y]; discriminate Y]|]). apply lo_nil.
    - exact I.
    - apply el_nil. }
  exists f, [odd_head]. split; [exact P|]. split; [exact R|]. split; [exact EL|]. split.
  { assert (X : Forall (fun l => ~ In LF l /\ dec 100 l <> OutOfFuel) odd_head).
    { unfold odd_head. repeat (constructor; [split; [vm_compute; intuition discriminate|vm_compute; discriminate]|]). constructor. }
    revert X. apply Forall_impl. intros l [N D] U. apply D. now apply unclosed_hang. }
  split; [|exact HG]. destruct (C83_lines_header _ _ _ _ _ _ P R EL) as (o & H & _ & V).
  assert (K : forall m, line_says odd_head m -> m_id m = [] /\ m_str m <> [] /\ text_of m odd_text).
  { intros m (_ & SE & (_ & _ & F)). specialize (SE _ _ odd_fields). destruct SE as (_ & ID & _). cbn [fst] in ID.
    assert (IN : In (0, odd_text) (m_str m)) by (apply (F _ odd_forms); reflexivity).
    split; [|split; [intro E; rewrite E in IN; destruct IN|left; exact IN]].
    eapply PoFieldProofs.last_or_none_unique; [exact ID|]. left. exists [], (FId []), [FForm 1 (bs "x" ++ odd_text)]. repeat split. repeat constructor. }
  assert (TX : forall m v, line_says odd_head m -> text_of m v -> v = odd_text).
  { intros m v S T. destruct (K m S) as (_ & _ & T'). destruct S as (_ & _ & (ND & _)). rewrite <- (text_at m v ND T). now apply text_at. }
  inversion H as [|fl es o' (m & S & PL) H'|fl m v es o' S I0 NS T B H'|fl m v kvs es S I0 NS T B F]; subst.
  - destruct (K m S) as (I0 & NS & _). destruct PL; contradiction.
  - rewrite (TX m v S T) in B. exfalso. exact (B _ odd_value).
  - rewrite (TX m v S T) in B. rewrite (PoHeadProofs.value_fun _ _ _ odd_value B). exact H.
Qed.
(** ... and it is a file as the decoders read them: *)
Example C30_every_example : exists f kvs, parse_po_fuel (S (length (with_ends odd_head))) true (with_ends odd_head) = Ok f /\ every_po (with_ends odd_head) (f_messages f) kvs.
Proof.
  assert (P : exists f, parse_po_fuel (S (length (with_ends odd_head))) true (with_ends odd_head) = Ok f) by (eexists; vm_compute; reflexivity). destruct P as [f P].
  destruct C83_lines_example as (_ & _ & _ & R & _ & N & _).
  assert (AC : any_comments true [] odd_head [[]]).
  { unfold odd_head. apply (ac_entry true [] (bs "msgid """"") [bs "msgstr[1] ""x"""; bs """Language: fr\n"""] [bs "msgstr[1] ""x"""; bs """Language: fr\n"""] []).
    - split; [discriminate|]. intros [y Y]. discriminate Y.
    - repeat (apply lo_field; [split; [discriminate|intros [y Y]; discriminate Y]|]). apply lo_nil.
    - exact I.
    - apply ac_nil. }
  destruct (C30_every_file _ _ _ _ P R N AC) as [kvs E]. exists f, kvs. auto.
Qed.

Print Assumptions C23_any_forms.
Print Assumptions C30_every_text.
Print Assumptions C30_every_file.
Print Assumptions C83_lines_exactly.
Print Assumptions C83_lines_header.
