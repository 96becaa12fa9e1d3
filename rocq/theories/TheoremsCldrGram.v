(** C14, C15: the texts of plural rules that are accepted, that are never read
    to their end, and that cannot be evaluated, exactly. *)
From Coq Require Import String Ascii List ZArith QArith Bool Lia.
From Verif Require Import Base Utf8Model StrModel NumModel CldrModel CldrSpec CldrEvalProofs CldrOperandProofs CldrBuiltinProofs CldrParseProofs CldrTextProofs CldrGramSpec CldrGramProofs CldrHangProofs TheoremsCldr.
Import ListNotations.
Open Scope Z_scope.

(** A text is accepted, as some rule, exactly if its words read as the tokens
    of that rule. *)
Theorem C14_grammar : forall s r,
  (exists fuel, parse_rule fuel s = Ok r) <->
  exists ws ts, words (segs s) ws /\ lexed ws ts /\ rule_of ts (cr_root r) (cr_samples r).
Proof.
  intros s r. split.
  - intros (fuel & H). exact (rule_sound fuel s r H).
  - intros (ws & ts & W & L & R). destruct (rule_complete s ws ts _ _ W L R) as (F & H). exists F. rewrite H by lia. now destruct r.
Qed.
(** The grammar is not ambiguous. *)
Theorem C14_one_reading : forall s ws ts root l ws' ts' root' l',
  words (segs s) ws -> lexed ws ts -> rule_of ts root l ->
  words (segs s) ws' -> lexed ws' ts' -> rule_of ts' root' l' -> root = root' /\ l = l'.
Proof.
  intros s ws ts root l ws' ts' root' l' W L R W' L' R'. destruct (rule_complete s ws ts _ _ W L R) as (F & H). destruct (rule_complete s ws' ts' _ _ W' L' R') as (F' & H').
  specialize (H (Nat.max F F') ltac:(lia)). specialize (H' (Nat.max F F') ltac:(lia)). rewrite H in H'. now injection H' as -> ->.
Qed.
Example C14_grammar_example :
  parse_rule 9 (bs "n mod 010=0") = Err /\
  parse_rule 9 (bs ", v = 0 and,i  Mod 010 != 1 3 .. 5 ... @INTEGER 2 9.8~10.1, 1c6 . ~") = Err /\
  exists ws ts, words (segs (bs ", v = 0 and,i  Mod 010 != 1 3 .. 5 ... @INTEGER 2 9.8~10.1, 1c6 .")) ws /\ lexed ws ts /\
    rule_of ts (Some (CAnd (CRel false (CExpr (bs "v") None) [RVal 0]) (CRel true (CExpr (bs "i") (Some 10)) [RVal 1; RRange 3 5])))
      [bs "2"; bs "9.8"; bs "9.9"; bs "10.0"; bs "10.1"; bs "1c6"].
Proof.
  split; [vm_compute; reflexivity|]. split; [vm_compute; reflexivity|].
  apply (proj1 (C14_grammar _ (CRule (Some (CAnd (CRel false (CExpr (bs "v") None) [RVal 0]) (CRel true (CExpr (bs "i") (Some 10)) [RVal 1; RRange 3 5])))
      [bs "2"; bs "9.8"; bs "9.9"; bs "10.0"; bs "10.1"; bs "1c6"]))).
  exists 9%nat. vm_compute. reflexivity.
Qed.

(** A text that reads as a condition, with or without samples, is accepted and
    evaluates to the meaning of the condition. *)
Theorem C14_condition : forall s ws ts rest c l, words (segs s) ws -> lexed ws (ts ++ rest) ->
  cond_reads ts c -> is_or c -> cond_small c -> rest_of rest l ->
  exists F, forall fuel, (F <= fuel)%nat -> exists r, parse_rule fuel s = Ok r /\ cr_samples r = l /\
    forall o, small_ops o -> clear_of_integers (oN o) -> exists b, eval_rule r o = Ok b /\ (b = true <-> holds c (to_uops o)).
Proof.
  intros s ws ts rest c l W L C I S R. pose proof (or_node _ _ C I S) as O.
  assert (RO : rule_of (ts ++ rest) (Some (node_of c)) l) by (destruct R; [rewrite app_nil_r; now constructor|now constructor]).
  destruct (rule_complete _ _ _ _ _ W L RO) as (F & H). exists F. intros fuel LF. exists (CRule (Some (node_of c)) l). split; [now apply H|]. split; [reflexivity|].
  intros o SO CL. now apply eval_holds.
Qed.
(** And nothing else is: what is accepted has no condition, an operand in
    capitals, or the meaning of the condition it reads as. *)
Theorem C14_nothing_else : forall fuel s r, parse_rule fuel s = Ok r ->
  exists ws ts rest, words (segs s) ws /\ lexed ws (ts ++ rest) /\ rest_of rest (cr_samples r) /\
    ((ts = [] /\ cr_root r = None) \/ (exists w, In (TOper w) ts /\ capital w) \/
     exists c, is_or c /\ cond_reads ts c /\
       (cond_small c -> forall o, small_ops o -> clear_of_integers (oN o) -> exists b, eval_rule r o = Ok b /\ (b = true <-> holds c (to_uops o)))).
Proof.
  intros fuel s [root sm] H. apply rule_sound in H as (ws & ts & W & L & R). cbn [cr_root cr_samples] in *.
  assert (X : forall us n l, or_of us n -> (exists w, In (TOper w) us /\ capital w) \/
     exists c, is_or c /\ cond_reads us c /\ (cond_small c -> forall o, small_ops o -> clear_of_integers (oN o) -> exists b, eval_rule (CRule (Some n) l) o = Ok b /\ (b = true <-> holds c (to_uops o)))).
  { intros us n l O. destruct (plain_dec us) as [P|P]; [|now left]. right. destruct (or_back _ _ O P) as (c & I & C & E). exists c. split; [exact I|]. split; [exact C|].
    intros S o SO CL. rewrite <- (E S). now apply eval_holds. }
  destruct R as [ts n O|ts n sts l O SO|sts l SO].
  - exists ws, ts, []. rewrite app_nil_r. split; [exact W|]. split; [exact L|]. split; [constructor|]. right. destruct (X _ _ [] O) as [P|(c & A & B & C)]; [now left|right; eauto].
  - exists ws, ts, (TMark :: sts). split; [exact W|]. split; [exact L|]. split; [now constructor|]. right. destruct (X _ _ l O) as [P|(c & A & B & C)]; [now left|right; eauto].
  - exists ws, [], (TMark :: sts). split; [exact W|]. split; [exact L|]. split; [now constructor|]. now left.
Qed.
(** Commas and white space of every kind, spaced ranges, omission marks in the
    middle and leading zeros make no difference. *)
Example C14_condition_example : exists ws ts rest c, words (segs (bs "v = 0,and i mod 0100 != ... 11 .. 14 99 or n = 7 @decimal 1.")) ws /\ lexed ws (ts ++ rest) /\
  cond_reads ts c /\ is_or c /\ cond_small c /\ rest_of rest [bs "1."] /\ c = cond_ex.
Proof.
  exists (generate_tokens (bs "v = 0,and i mod 0100 != ... 11 .. 14 99 or n = 7 @decimal 1.")).
  exists [TOper (bs "v"); TRel false; TVal (bs "0"); TAnd; TOper (bs "i"); TRem; TVal (bs "0100"); TRel true; TRange (bs "11") (bs "14"); TVal (bs "99"); TOr; TOper (bs "n"); TRel false; TVal (bs "7")].
  exists [TMark; TSample (bs "1.")], cond_ex. split; [now apply tokens_words|].
  assert (D : forall s, forallb is_digit s = true -> s <> [] -> digits s) by (intros s H N; split; [exact N|now apply all_digits_b]).
  split.
  { change (generate_tokens _) with (map bs ["v"; "="; "0"; "and"; "i"; "mod"; "0100"; "!="; "..."; "11"; ".."; "14"; "99"; "or"; "n"; "="; "7"; "@decimal"; "1."]%string). cbn [map app].
    assert (K : forall w, cased w w) by (induction w; constructor; auto).
    apply lx_keyword; [apply (kw_oper _ Ov), K|]. apply lx_keyword; [constructor|]. apply lx_number; [apply nu_val, D; [reflexivity|discriminate]|].
    apply lx_keyword; [apply kw_and, K|]. apply lx_keyword; [apply (kw_oper _ Oi), K|]. apply lx_keyword; [apply kw_rem; right; apply K|]. apply lx_number; [apply nu_val, D; [reflexivity|discriminate]|].
    apply lx_keyword; [constructor|]. apply lx_filler; [right; left; reflexivity|].
    apply lx_joined; [discriminate|now left|apply (nu_range (bs "11") (bs "14")); [apply D; [reflexivity|discriminate]|apply D; [reflexivity|discriminate]|discriminate]|].
    apply lx_number; [apply nu_val, D; [reflexivity|discriminate]|]. apply lx_keyword; [apply kw_or, K|]. apply lx_keyword; [apply (kw_oper _ On), K|]. apply lx_keyword; [constructor|].
    apply lx_number; [apply nu_val, D; [reflexivity|discriminate]|]. apply lx_keyword; [apply kw_mark; right; apply K|].
    apply lx_number; [|constructor]. apply nu_sample.
    - apply (sw_plain (bs "1") (bs ".")); [split; [apply D; [reflexivity|discriminate]|right; discriminate]|]. right. exists []. split; [constructor|reflexivity].
    - intros [_ X]. apply all_digits_b in X. discriminate. }
  split.
  { apply (cr_or [_; _; _; _; _; _; _; _; _; _] (And _ _) [_; _; _] (Rel _ _ _)); [apply (cr_and [_; _; _] (Rel _ _ _) [_; _; _; _; _; _] (Rel _ _ _))|].
    - apply (cr_rel [_] _ false [_]); [apply (xr_oper Ov)|discriminate|]. constructor; [apply (er_val (bs "0"))|constructor].
    - apply (cr_rel [_; _; _] _ true [_; _]); [apply (xr_mod Oi (bs "0100"))|discriminate|]. constructor; [apply (er_range (bs "11") (bs "14"))|]. constructor; [apply (er_val (bs "99"))|constructor].
    - apply (cr_rel [_] _ false [_]); [apply (xr_oper On)|discriminate|]. constructor; [apply (er_val (bs "7"))|constructor]. }
  split; [cbn; repeat split; discriminate|]. split; [apply C14_example|]. split; [|reflexivity]. repeat constructor.
Qed.

(** ** C15.  Parsing does not end exactly for these texts. *)
Theorem C15_hangs_exactly : forall s, (forall fuel, parse_rule fuel s = OutOfFuel) <-> exists ws, words (segs s) ws /\ stuck ws.
Proof. intro s. split; [exact (hang_sound s)|]. intros (ws & W & S). exact (hang_complete s ws W S). Qed.
Example C15_hangs_example : exists ws, words (segs (bs "n = 1 @integer 1~2, 0.9 ~ 1.10 what follows")) ws /\ stuck ws.
Proof.
  exists (generate_tokens (bs "n = 1 @integer 1~2, 0.9 ~ 1.10 what follows")). split; [now apply tokens_words|].
  assert (P : parse_rule 9 (bs "n = 1 @integer 1~2") = Ok (CRule (Some (CRel false (CExpr (bs "n") None) [RVal 1])) [bs "1"; bs "2"])) by (vm_compute; reflexivity).
  destruct (proj1 (C14_grammar _ _) (ex_intro _ 9%nat P)) as (ws & ts & W & L & R). cbn [cr_root cr_samples] in R.
  apply tokens_words in W. subst ws.
  exists (generate_tokens (bs "n = 1 @integer 1~2")), (map bs ["0.9"; "~"; "1.10"; "what"; "follows"]%string), ts, (Some (CRel false (CExpr (bs "n") None) [RVal 1])), [bs "1"; bs "2"].
  exists (Num false (bs "0") (Some (bs "9")) None), (Num false (bs "1") (Some (bs "10")) None).
  split; [vm_compute; reflexivity|]. split; [exact L|]. split; [exact R|].
  split; [inversion R; subst; apply in_or_app; right; now left|].
  split; [|intros [D _]; discriminate D].
  cbn [map]. apply nr_joined; [discriminate|now right|]. apply (nu_samples (Num false (bs "0") (Some (bs "9")) None) (Num false (bs "1") (Some (bs "10")) None)).
  - split; [split; [discriminate|]; split; repeat constructor|]; split; [reflexivity|split; [reflexivity|left; reflexivity]].
  - split; [split; [discriminate|]; split; repeat constructor|]; split; [reflexivity|split; [reflexivity|right; discriminate]].
Qed.
(** Any other text ends in a rule or in an error, always the same. *)
Theorem C15_ends : forall s, ~ (exists ws, words (segs s) ws /\ stuck ws) ->
  exists fuel, (exists r, forall more, (fuel <= more)%nat -> parse_rule more s = Ok r) \/ (forall more, (fuel <= more)%nat -> parse_rule more s = Err).
Proof.
  intros s N. destruct (parse_or s) as [(f & H)|H]; [|elim N; now apply C15_hangs_exactly]. exists f.
  pose proof (fun g L => parse_mono f g s L H) as M. pose proof (C15_parse_no_panic f s) as NP.
  destruct (parse_rule f s) as [r| | |]; try congruence; [left; exists r|right]; intros g L; now rewrite M.
Qed.
Example C15_ends_example : ~ (exists ws, words (segs (bs "n = 1 @integer 1~2, 9.0 ~ 10.0 what follows")) ws /\ stuck ws).
Proof. intro S. pose proof (proj2 (C15_hangs_exactly _) S 12%nat) as H. vm_compute in H. discriminate H. Qed.

(** Evaluating a rule: what goes wrong first decides; if nothing does, there is
    an answer.  Without ranges up to the largest int64 only faulty rules go
    wrong, for every number. *)
Theorem C15_eval_outcome : forall r n o, cr_root r = Some n ->
  (eval_rule r o = Panic <-> trouble o n Panics) /\ (eval_rule r o = OutOfFuel <-> trouble o n Hangs) /\
  ((exists b, eval_rule r o = Ok b) <-> forall k, ~ trouble o n k) /\ eval_rule r o <> Err.
Proof.
  intros r n o E. unfold eval_rule. rewrite E. destruct (eval_outcome n o) as (P & H & B & [T|[T|T]]).
  - rewrite (P T). repeat split; try congruence; try (now intros (b & X)); [intro X; rewrite (H X) in P; now specialize (P T)|intro N; now elim (N Panics)].
  - rewrite (H T). repeat split; try congruence; try (now intros (b & X)); [intro X; rewrite (P X) in H; now specialize (H T)|intro N; now elim (N Hangs)].
  - destruct (B T) as (b & ->). repeat split; try congruence; try (intro X; now elim (T _ X)); [intros _; exact T|intros _; eauto].
Qed.
(** both kinds: the left side decides *)
Example C15_eval_outcome_example : exists r n, parse_rule 3 (bs "n = 5..9223372036854775807 and V = 3") = Ok r /\ cr_root r = Some n /\
  trouble (Ops (11 # 2) 5 1 1 5 5 0) n Hangs /\ trouble (Ops (9 # 2) 4 1 1 5 5 0) n Panics.
Proof.
  eexists _, _. split; [vm_compute; reflexivity|]. split; [reflexivity|]. split.
  - left. exists (11 # 2)%Q, (RRange 5 9223372036854775807). split; [reflexivity|]. split; [now left|]. exists 5. split; [reflexivity|]. split; [vm_compute; discriminate|]. split; [vm_compute; discriminate|].
    intros z _. apply Qnot_le_lt. intro X. apply (proj2 (Qle_bool_iff _ _)) in X. pose proof (clear_half (f64_of_int z)) as C. unfold F64Model.float_equal in C. congruence.
  - right. split; [|constructor; intros []; discriminate].
    intros [] T; [inversion T as [? ? ? C|? ? ? C|?|?]; [now apply (C On)|discriminate C]|].
    destruct T as (q & el & E & [<-|[]] & a & A & L & _). injection A as <-. injection E as <-. vm_compute in L. now apply L.
Qed.
(** Evaluating an accepted rule panics exactly if it is faulty. *)
Theorem C15_eval_exactly : forall r n o, cr_root r = Some n -> below_max n ->
  (faulty n -> eval_rule r o = Panic) /\ (~ faulty n -> exists b, eval_rule r o = Ok b).
Proof. intros r n o E B. unfold eval_rule. rewrite E. now apply eval_exact. Qed.
Example C15_eval_exactly_example : exists r n, parse_rule 3 (bs "n = 2 and n mod 0 = 1 or V = 3") = Ok r /\ cr_root r = Some n /\ below_max n /\ faulty n.
Proof.
  eexists _, _. split; [vm_compute; reflexivity|]. split; [reflexivity|]. split; [cbn; repeat (split || constructor)|].
  constructor. right. apply fa_capital. intros []; discriminate.
Qed.
(** A range up to the largest int64 that contains the number, which is no
    integer, is never left. *)
Theorem C15_eval_hang_refuted : exists s r o, parse_rule 3 s = Ok r /\ eval_rule r o = OutOfFuel.
Proof.
  exists (bs "n = 5..9223372036854775807"), (CRule (Some (CRel false (CExpr (bs "n") None) [RRange 5 9223372036854775807])) []), (Ops (11 # 2) 5 1 1 5 5 0).
  split; [vm_compute; reflexivity|]. assert (L : forall n v, range_loop (11 # 2) v n = false) by (apply range_loop_misses; exact clear_half).
  unfold eval_rule. cbn [cr_root eval_cnode]. change (eval_expr _ _) with (Ok (Some (11 # 2))). cbn [rbind list_matches]. unfold elem_matches, in_range1. rewrite L. vm_compute. reflexivity.
Qed.

Print Assumptions C14_grammar.
Print Assumptions C14_one_reading.
Print Assumptions C14_condition.
Print Assumptions C14_nothing_else.
Print Assumptions C15_hangs_exactly.
Print Assumptions C15_ends.
Print Assumptions C15_eval_outcome.
Print Assumptions C15_eval_exactly.
Print Assumptions C15_eval_hang_refuted.
