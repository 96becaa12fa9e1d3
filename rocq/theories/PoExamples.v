(** Concrete PO files used in the examples beside the theorems. *)
From Coq Require Import String Ascii List ZArith Bool Lia ZifyBool Permutation.
From Verif Require Import Base BaseProofs Utf8Model Utf8Proofs StrModel PoStrModel PoStrSpec PoStrProofs
  PoFileModel PoFileSpec TrimProofs PoItemProofs.
Import ListNotations.
Open Scope Z_scope.

Definition text (l : list string) : bytes := concat (map (fun s => bs s ++ [LF]) l).

Lemma word_text : forall s, s <> [] -> Forall (fun c => solid c = true) s -> word s.
Proof.
  intros s N F. destruct s as [|a s]; [congruence|]. clear N. revert a F.
  induction s as [|b s IH]; intros a F; [apply word_solid; now apply Forall_inv in F|].
  change (a :: b :: s) with ([a] ++ b :: s). apply word_app; [apply word_solid; now apply Forall_inv in F|].
  apply IH. now apply Forall_inv_tail in F.
Qed.
Ltac solve_word := apply word_text; [discriminate|repeat (constructor; [reflexivity|]); constructor].
Lemma writable_runes : forall rs s, s = encode_all rs -> forallb scalar rs = true ->
  existsb bad_rune (runes s) = false -> writable_text s.
Proof.
  intros rs s -> F B. split.
  - exists rs. split; [|reflexivity]. apply Forall_forall. now rewrite forallb_forall in F.
  - intro U. apply (bad_runes_bytes (length (encode_all rs)) _ (le_n _)) in U. congruence.
Qed.
Ltac solve_text := match goal with |- writable_text ?s => apply (writable_runes (runes s)); vm_compute; reflexivity end.

Definition sample : message :=
  Msg (Some (Com (bs "one two" ++ [LF] ++ bs "three") (bs "from code") [Ref (bs "a.go") 12 0; Ref (bs "b.go") (-1) 0]
        [bs "fuzzy"; bs "go-format"] [] []))
      (bs "menu") (bs "%d ""file""") (bs "%d files") [(1, bs "Dateien"); (0, bs "Datei" ++ [LF] ++ encode_all [8364])].
Definition sample_header : header :=
  Hdr None ([bs "demo"] ++ repeat [] 9 ++ [bs "nplurals=2; plural=(n != 1);"; []]) [(bs "X-Custom", bs "a: b")].
Lemma plain_ascii : forall s, clean s -> forallb (fun c => (bval c <? 128) && negb (bval c =? 10) && negb (bval c =? 34) && negb (bval c =? 92)) s = true -> plain_text s.
Proof.
  intros s C F. split; [exact C|]. exists (map bval s). rewrite forallb_forall in F. split.
  - clear C. induction s as [|c s IH]; [reflexivity|]. unfold encode_all in *. cbn [map concat].
    rewrite encode_byte by (specialize (F c (or_introl eq_refl)); lia). cbn [app]. rewrite <- IH; [reflexivity|].
    intros d D. apply F. now right.
  - apply Forall_map, Forall_forall. intros c I. apply F in I. split; [apply solid_scalar; lia|lia].
Qed.
Lemma writable_empty : forall w, writable_comment w (Com [] [] [] [] [] []).
Proof. intro w. split; [now left|]. split; [now left|]. split; [constructor|]. split; [constructor|]. split; reflexivity. Qed.
Ltac solve_clean := match goal with
  | |- clean [] => now left
  | |- clean ?s => let a := eval vm_compute in (hd NUL s) in let z := eval vm_compute in (last s NUL) in
       let t := eval vm_compute in (removelast (tl s)) in
       change (clean (a :: t ++ [z])); apply clean_ascii; vm_compute; reflexivity end.


(** ** Layouts *)
Lemma plain_body : forall s, forallb (fun c => (bval c <? 128) && negb (bval c =? 10) && negb (bval c =? 34) && negb (bval c =? 92)) s = true -> po_body s s.
Proof.
  induction s as [|c s IH]; intro F; [constructor|]. cbn [forallb] in F. apply andb_prop in F as [C F].
  pose proof (encode_byte c ltac:(lia)) as E. change (c :: s) with ([c] ++ s). rewrite <- E.
  apply pb_rune; [apply solid_scalar; lia|lia|lia|lia|now apply IH].
Qed.
Lemma field_one : forall kw cont s, forallb (fun c => (bval c <? 128) && negb (bval c =? 10) && negb (bval c =? 34) && negb (bval c =? 92)) s = true ->
  field kw cont [kw ++ SP :: QUOTE :: s ++ [QUOTE]] s.
Proof.
  intros kw cont s F. rewrite <- (app_nil_r s) at 2. change (s ++ []) with (s ++ concat (@nil bytes)).
  apply (field_intro kw cont _ [] (QUOTE :: s ++ [QUOTE]) s [] []).
  - exists [], []. split; [constructor|]. split; [constructor|]. now rewrite app_nil_r.
  - constructor.
  - exists s. split; [reflexivity|now apply plain_body].
  - constructor.
Qed.
Lemma trans_one : forall s, forallb (fun c => (bval c <? 128) && negb (bval c =? 10) && negb (bval c =? 34) && negb (bval c =? 92)) s = true ->
  trans_lines [bs "msgstr" ++ SP :: QUOTE :: s ++ [QUOTE]] [] [(0, s)].
Proof. intros s F. constructor. now apply field_one. Qed.
Lemma flags_one : forall f, flag f -> item_lines (IFlags [f]) [bs "#, " ++ f].
Proof.
  intros f F. apply (il_flags [f] f [] (bs "#, " ++ f)); [now constructor|constructor|].
  exists [], []. split; [constructor|]. split; [constructor|]. now rewrite app_nil_r.
Qed.
Lemma entry_one : forall is il i s, items_lines is il -> i <> [] ->
  forallb (fun c => (bval c <? 128) && negb (bval c =? 10) && negb (bval c =? 34) && negb (bval c =? 92)) i = true ->
  forallb (fun c => (bval c <? 128) && negb (bval c =? 10) && negb (bval c =? 34) && negb (bval c =? 92)) s = true ->
  entry_lines (Msg (Some (com_of is)) [] i [] [(0, s)])
    (il ++ [] ++ [bs "msgid" ++ SP :: QUOTE :: i ++ [QUOTE]] ++ [bs "msgstr" ++ SP :: QUOTE :: s ++ [QUOTE]]).
Proof. intros is il i s I N F G. apply el_intro; [exact I|constructor|now apply field_one|now apply trans_one|exact N]. Qed.

(** a fuzzy message and a message without comment *)
Definition file_a : list string := ["#, fuzzy"; "msgid ""a"""; "msgstr ""b"""; ""; "msgid ""c"""; "msgstr ""d"""]%string.
Definition msg_a : message := Msg (Some (com_of [IFlags [bs "fuzzy"]])) [] (bs "a") [] [(0, bs "b")].
Definition msg_c : message := Msg (Some (com_of [])) [] (bs "c") [] [(0, bs "d")].
Lemma entry_a : entry_lines msg_a (map bs ["#, fuzzy"; "msgid ""a"""; "msgstr ""b"""]%string).
Proof.
  apply (entry_one [IFlags [bs "fuzzy"]] [bs "#, fuzzy"] (bs "a") (bs "b")); [|discriminate|reflexivity|reflexivity].
  apply (ils_cons _ [] [bs "#, fuzzy"] []); [|constructor]. apply (flags_one (bs "fuzzy")).
  split; [solve_word|]. intro I. vm_compute in I. repeat (destruct I as [I|I]; [discriminate|]). exact I.
Qed.
Lemma entry_c : entry_lines msg_c (map bs ["msgid ""c"""; "msgstr ""d"""]%string).
Proof. apply (entry_one [] [] (bs "c") (bs "d")); [constructor|discriminate|reflexivity|reflexivity]. Qed.
Lemma layout_a : layout [BMsg msg_a; BMsg msg_c] (map bs file_a).
Proof.
  apply (lay_cons (BMsg msg_a) [BMsg msg_c] [] (map bs ["#, fuzzy"; "msgid ""a"""; "msgstr ""b"""]%string) [] (map bs ["msgid ""c"""; "msgstr ""d"""]%string));
    [constructor|constructor; apply entry_a|constructor|].
  apply (lay_last (BMsg msg_c) []); [constructor|constructor; apply entry_c].
Qed.
Lemma text_lines : forall l, forallb (fun s => negb (existsb (Ascii.eqb LF) (bs s)) && (Z.of_nat (length (bs s)) <? 65536)) l = true ->
  text_of (map bs l) (text l).
Proof.
  intros l F. split; [|left; unfold text; now rewrite map_map]. apply Forall_map, Forall_forall. intros s I.
  rewrite forallb_forall in F. apply F in I. apply andb_prop in I as [A B]. split; [|lia].
  intro J. apply negb_true_iff in A. enough (existsb (Ascii.eqb LF) (bs s) = true) by congruence.
  apply existsb_exists. exists LF. split; [exact J|reflexivity].
Qed.
(** the same messages the other way round *)
Definition file_b : list string := [""; "msgid ""c"""; "msgstr ""d"""; " "; ""; "#, fuzzy"; "msgid ""a"""; "msgstr ""b"""]%string.
Lemma layout_b : layout [BMsg msg_c; BMsg msg_a] (map bs file_b).
Proof.
  apply (lay_cons (BMsg msg_c) [BMsg msg_a] [[]] (map bs ["msgid ""c"""; "msgstr ""d"""]%string) [SP] (map bs [""; "#, fuzzy"; "msgid ""a"""; "msgstr ""b"""]%string));
    [constructor; constructor|constructor; apply entry_c|constructor; [now left|constructor]|].
  apply (lay_last (BMsg msg_a) [[]]); [constructor; constructor|constructor; apply entry_a].
Qed.
(** a message twice *)
Definition file_dup : list string := ["msgid ""c"""; "msgstr ""d"""; ""; "msgid ""c"""; "msgstr ""d"""]%string.
Lemma layout_dup : layout [BMsg msg_c; BMsg msg_c] (map bs file_dup).
Proof.
  apply (lay_cons (BMsg msg_c) [BMsg msg_c] [] (map bs ["msgid ""c"""; "msgstr ""d"""]%string) [] (map bs ["msgid ""c"""; "msgstr ""d"""]%string));
    [constructor|constructor; apply entry_c|constructor|].
  apply (lay_last (BMsg msg_c) []); [constructor|constructor; apply entry_c].
Qed.
(** ASCII folding *)
Definition fold_ascii (r : rune) : rune := if (65 <=? r) && (r <=? 90) then r + 32 else r.
Lemma fold_ascii_ok : ascii_fold fold_ascii.
Proof.
  intros a b A B.
  assert (X : forallb (fun i => forallb (fun j =>
     Bool.eqb (fold_ascii (Z.of_nat i) =? fold_ascii (Z.of_nat j)) (Ascii.eqb (lower (ascii_of_nat i)) (lower (ascii_of_nat j))))
     (seq 0 128)) (seq 0 128) = true) by (vm_compute; reflexivity).
  rewrite forallb_forall in X.
  assert (R : forall c, bval c < 128 -> In (nat_of_ascii c) (seq 0 128) /\ Z.of_nat (nat_of_ascii c) = bval c).
  { intros c C. split; [apply in_seq|]; unfold bval in *; rewrite <- ?nat_N_Z in *; unfold nat_of_ascii in *; lia. }
  destruct (R a A) as [Ia Ea]. destruct (R b B) as [Ib Eb]. specialize (X _ Ia). rewrite forallb_forall in X. specialize (X _ Ib).
  rewrite Ea, Eb, !ascii_nat_embedding in X. apply eqb_prop in X.
  split; intro E.
  - apply Z.eqb_eq in E. rewrite E in X. symmetry in X. now apply Ascii.eqb_eq.
  - apply Ascii.eqb_eq in E. rewrite E in X. now apply Z.eqb_eq.
Qed.
