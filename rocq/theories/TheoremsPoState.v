(** C84, C85: a PO parser that is used again; the lines that errors name. *)
From Coq Require Import String Ascii List ZArith Bool Lia.
From Verif Require Import Base StrModel PoStrModel PoFileModel PoStateModel PoStateSpec PoStateProofs PoAgainProofs PoLineSpec PoExamples.
From Verif Require PoLineProofs PoErrProofs.
Import ListNotations.
Open Scope Z_scope.

(** ** C84 *)
(** A parser that was used gives what a new one with the same setting gives:
    the same file or the same error. *)
Theorem C84_again : forall p fuel s mem, used p ->
  seen_of (p_parse fuel p s) = seen_of (p_parse fuel (set_ignore (new_parser mem) (p_ign p)) s).
Proof. intros p fuel s mem U. apply p_parse_like; [now apply used_n|reflexivity|reflexivity]. Qed.
(** The parser that takes one token after another and puts tokens back gives
    what the parser of PoFileModel gives for the list of all tokens. *)
Theorem C84_tokens : forall p fuel s, used p ->
  match parse_po_fuel fuel (p_ign p) s with
  | Ok f => seen_of (p_parse fuel p s) = SFile f
  | Err => exists e, seen_of (p_parse fuel p s) = SError e
  | Panic => seen_of (p_parse fuel p s) = SPanic
  | OutOfFuel => seen_of (p_parse fuel p s) = SHangs
  end.
Proof.
  intros p fuel s U. pose proof (p_parse_spec fuel p s (used_n p U)) as S.
  destruct (parse_po_fuel fuel (p_ign p) s) as [f| | |]; cbn [fsim] in S.
  - destruct S as (p1 & -> & _ & E). cbn [seen_of]; unfold look. rewrite E. destruct f. reflexivity.
  - destruct S as (e & p1 & -> & _). exists e. reflexivity.
  - now rewrite S.
  - now rewrite S.
Qed.
(** SetIgnoreComments holds for the next call. *)
Theorem C84_setting : forall p ign fuel s f, used p -> parse_po_fuel fuel ign s = Ok f ->
  seen_of (p_parse fuel (set_ignore p ign) s) = SFile f.
Proof.
  intros p ign fuel s f U E. pose proof (C84_tokens (set_ignore p ign) fuel s (used_set p ign U)) as T.
  cbn [set_ignore p_ign] in T. now rewrite E in T.
Qed.
(** Files returned earlier keep their messages; a new file has a new map. *)
Theorem C84_kept : forall p fuel s p', used p -> leaves (p_parse fuel p s) p' ->
  (forall h a, (exists i, a = Some i /\ (i < length (p_mem p))%nat) -> look h a p' = look h a p) /\
  (forall h a, p_parse fuel p s = OGot (h, a) p' -> a = Some (length (p_mem p))) /\ p_ign p' = p_ign p.
Proof.
  intros p fuel s p' U L. pose proof (p_parse_spec fuel p s (used_n p U)) as S.
  assert (K : after (p_ign p) (p_mem p) p' /\ forall h a, p_parse fuel p s = OGot (h, a) p' -> a = Some (length (p_mem p))).
  { destruct L as [[f L]|[e L]]; rewrite L in *; destruct (parse_po_fuel fuel (p_ign p) s); cbn [fsim] in S; try discriminate S.
    - destruct S as (p1 & E & A & _). injection E as -> ->. split; [exact A|]. intros h' a' E. injection E as _ <-. reflexivity.
    - destruct S as (e & p1 & E & _). discriminate E.
    - destruct S as (p1 & E & _). discriminate E.
    - destruct S as (e' & p1 & E & A). injection E as _ ->. split; [exact A|]. intros h' a' E. discriminate E. }
  destruct K as [(_ & I & ms & M) K]. split; [|auto]. intros h a (i & -> & LT). unfold look. rewrite M. now rewrite app_nth1.
Qed.

(** ** C85 *)
(** An error for a line names the first line that is not understood, by its
    number and as it is. *)
Theorem C85_line : forall p fuel s rs n l p', used p -> reads_lines s rs -> p_parse fuel p s = OErr (EPos n l) p' ->
  exists a c, rs = a ++ l :: c /\ n = Z.of_nat (length a) + 1 /\
    understood (p_ign p) Elsewhere a /\ ~ understood (p_ign p) Elsewhere (a ++ [l]).
Proof.
  intros p fuel s rs n l p' U R E. apply PoLineProofs.reads_file_lines in R. subst rs.
  pose proof (PoErrProofs.p_parse_at fuel p s (used_n p U)) as X. rewrite E in X. destruct X as (a & c & A & N & G & B).
  exists a, c. split; [exact A|]. split; [lia|].
  split; [apply (PoLineProofs.scan_understood (p_ign p) a TEof false); [discriminate|exact G]|].
  intros H. apply B. apply (PoLineProofs.scan_understood (p_ign p) (a ++ [l]) TEof false); [discriminate|exact H].
Qed.
(** So does the error for the index of a form. *)
Theorem C85_index : forall p fuel s rs n p', used p -> reads_lines s rs -> p_parse fuel p s = OErr (EIndex n) p' ->
  exists a l c, rs = a ++ l :: c /\ n = Z.of_nat (length a) + 1 /\
    understood (p_ign p) Elsewhere a /\ ~ understood (p_ign p) Elsewhere (a ++ [l]).
Proof.
  intros p fuel s rs n p' U R E. apply PoLineProofs.reads_file_lines in R. subst rs.
  pose proof (PoErrProofs.p_parse_at fuel p s (used_n p U)) as X. rewrite E in X. destruct X as (l & a & c & A & N & G & B).
  exists a, l, c. split; [exact A|]. split; [lia|].
  split; [apply (PoLineProofs.scan_understood (p_ign p) a TEof false); [discriminate|exact G]|].
  intros H. apply B. apply (PoLineProofs.scan_understood (p_ign p) (a ++ [l]) TEof false); [discriminate|exact H].
Qed.
(** The error for an entry that is there already names a line that may belong
    to the entry behind it; so does the one for a second header. *)
Definition dup_file : bytes := text ["msgid ""a"""; "msgstr ""b"""; ""; "msgid ""a"""; "msgstr ""c"""; ""; "msgid ""d"""; "msgstr ""e"""]%string.
Definition head_file : bytes := text ["msgid """""; "msgstr ""A: b"""; ""; "msgid """""; "msgstr ""A: c"""; ""; "# hint"; "msgid ""d"""; "msgstr ""e"""]%string.
Definition after_error (s : bytes) : seen := seen_of (p_parse (S (length s)) (new_parser []) s).
Theorem C85_entries_refuted :
  (exists s rs n, reads_lines s rs /\ after_error s = SError (EDup (bs "a") n) /\ nth_error rs (Z.to_nat (n - 1)) = Some (bs "msgid ""d""")) /\
  (exists s rs n, reads_lines s rs /\ after_error s = SError (EHeader n (bs "# hint")) /\ nth_error rs (Z.to_nat (n - 1)) = Some (bs "# hint")).
Proof.
  split; [exists dup_file, (file_lines dup_file), 7|exists head_file, (file_lines head_file), 7];
    (split; [now apply PoLineProofs.reads_file_lines|]); split; vm_compute; reflexivity.
Qed.

(** ** Examples *)
Definition good_file : bytes := text ["# hint"; "msgid ""a"""; "msgstr ""b"""]%string.
Definition bad_file : bytes := text ["# hint"; ""; "msgid ""a"""; "msgstr ""b"""; "  oops "; "msgid ""c"""]%string.
Definition huge_file : bytes := text ["msgid ""a"""; "msgstr[99999999999999999999] ""b"""]%string.
Definition left_by (o : out (header * option nat)) : parser :=
  match o with OGot _ p => p | OErr _ p => p | _ => new_parser [] end.
(** used for a file, then for a bad one *)
Definition p_once : parser := left_by (p_parse (S (length good_file)) (new_parser []) good_file).
Definition p_twice : parser := left_by (p_parse (S (length bad_file)) p_once bad_file).
Lemma used_twice : used p_once /\ used p_twice.
Proof.
  assert (A : used p_once).
  { eapply used_parse; [apply (used_new [])|]. left. eexists. unfold p_once.
    instantiate (2 := good_file). instantiate (2 := S (length good_file)). vm_compute. reflexivity. }
  split; [exact A|]. eapply used_parse; [exact A|]. right. eexists. unfold p_twice.
  instantiate (2 := bad_file). instantiate (2 := S (length bad_file)). vm_compute. reflexivity.
Qed.
Example C84_example :
  used p_twice /\ length (p_mem p_twice) = 2%nat /\
  seen_of (p_parse (S (length good_file)) p_twice good_file) = seen_of (p_parse (S (length good_file)) (new_parser []) good_file) /\
  map m_id (f_messages (look new_header (Some 0%nat) (left_by (p_parse (S (length good_file)) p_twice good_file)))) = [bs "a"].
Proof. split; [apply used_twice|]. split; [vm_compute; reflexivity|]. split; vm_compute; reflexivity. Qed.
Example C85_example : after_error bad_file = SError (EPos 5 (bs "  oops ")) /\ after_error huge_file = SError (EIndex 2).
Proof. split; vm_compute; reflexivity. Qed.

Print Assumptions C84_again.
Print Assumptions C84_tokens.
Print Assumptions C84_setting.
Print Assumptions C84_kept.
Print Assumptions C85_line.
Print Assumptions C85_index.
Print Assumptions C85_entries_refuted.
