(** Property theorems C01-C08: gettext plural rules. *)
From Coq Require Import String Ascii List ZArith Bool Lia.
From Verif Require Import Base BaseProofs PopModel PopBuiltin PopSpec PopScanProofs
  PopProofs PopComplete PopBuiltinProofs PopCompile PopSameSpec PopSameProofs NumModel NumProofs
  LangModel LangSpec LangProofs.
Import ListNotations.
Open Scope Z_scope.

(** ** C01.  Every header in the recognition table denotes, under the C
    grammar and semantics of PopSpec, the function and number of forms of the
    built-in it is mapped to. *)
Theorem C01_builtin_means_header : forall t r, In (t, r) raw_table ->
  exists e, header_text (bs t) (r_nplurals r) e /\
    forall n, csem e n = Some (r_form r n).
Proof. exact raw_means. Qed.

(** The same for the header documented above each language rule, and every
    language rule has one. *)
Theorem C01_language_rule_documented : forall ks r, In (ks, r) lang_table ->
  exists t e, In (t, r) doc_table /\ header_text (bs t) (r_nplurals r) e /\
    forall n, csem e n = Some (r_form r n).
Proof.
  intros ks r H. destruct (lang_documented ks r H) as [t D].
  destruct (doc_means t r D) as [e E]. exists t, e. tauto.
Qed.

Example C01_example : rule_be = snd (nth 10 raw_table (""%string, rule_bm)) /\
  map (r_form rule_be) [1; 2; 5; 11; 21; 22; 112; -21] = [0; 1; 2; 2; 0; 1; 2; 2].
Proof. split; vm_compute; reflexivity. Qed.

(** ** C02 *)
Theorem C02_builtin_index_in_range : forall r,
  (exists k, built_in_raw k = Some r) \/ (exists l, built_in_lang l = Some r) ->
  forall n, 0 <= r_form r n < r_nplurals r.
Proof.
  intros r H. apply range_rules. apply in_or_app. destruct H as [[k H]|[l H]].
  - left. destruct (lookup_raw_in _ _ _ H) as [t [_ I]].
    apply (in_map snd _ _ I).
  - right. unfold built_in_lang in H. revert H. generalize lang_table.
    induction l0 as [|[ks r'] tb IH]; simpl; [discriminate|].
    destruct (existsb _ ks); [intro E; injection E as <-; now left|right; auto].
Qed.

Example C02_example : exists r, built_in_lang (bs "ar") = Some r /\ r_nplurals r = 6 /\
  r_form r 111 = 4.
Proof. eexists. split; [vm_compute; reflexivity|]. split; reflexivity. Qed.

(** ** C03.  Whatever the parser accepts is a header of the C grammar, and the
    resulting tree computes its C value.  [clean]: the text contains neither
    NUL (which the scanner takes for the end of input) nor '_' (which it
    accepts inside numbers). *)
Theorem C03_parse_sound : forall s f, clean s -> parse_forms s = Ok f ->
  exists ls np e, lays ls s /\ header ls np e /\
    (nums_fit ls -> f_nplurals f = np /\
      forall n v, conds01 e n -> csem e n = Some v -> eval_node (f_root f) n = v).
Proof.
  intros s f C P. destruct (parse_sound s f C P) as [ls [np [e [L [H R]]]]].
  exists ls, np, e. split; [assumption|]. split; [assumption|].
  intro F. destruct (R F) as [N Re]. split; [assumption|]. now apply rep_eval.
Qed.

(** the syntactic condition of the property statement suffices *)
Theorem C03_logical_conditions : forall e n, logical_conds e = true -> conds01 e n.
Proof. exact logical_conds_01. Qed.

(** and the condition cannot be dropped: `n%10 ? 1 : 0` deviates from C *)
Theorem C03_nonlogical_refuted : exists s f np e n v,
  parse_forms s = Ok f /\ header_text s np e /\ csem e n = Some v /\
  eval_node (f_root f) n <> v.
Proof.
  destruct (witness_header (bs "nplurals=2; plural=n%10 ? 1 : 0;")
    (Forms 2 (NCond (NBin BRem NOp (NVal 10)) (NVal 1) (NVal 0)))) as [e [H C]];
    [vm_compute; reflexivity | vm_compute; reflexivity |].
  exists (bs "nplurals=2; plural=n%10 ? 1 : 0;"),
    (Forms 2 (NCond (NBin BRem NOp (NVal 10)) (NVal 1) (NVal 0))), 2, e, 5, 1.
  split; [vm_compute; reflexivity|]. split; [exact H|]. split; [|vm_compute; discriminate].
  destruct (ceq_sem _ _ C 5) as [S _]. rewrite <- S. vm_compute. reflexivity.
Qed.

(** ** C04.  Every header of the grammar, in every layout, is accepted with its
    number of forms and its C value; for clean texts nothing else is. *)
Theorem C04_parse_complete : forall t np e, header_text t np e ->
  exists f, parse_forms t = Ok f /\ f_nplurals f = np /\
    forall n v, conds01 e n -> csem e n = Some v -> eval_node (f_root f) n = v.
Proof.
  intros t np e H. destruct (parse_complete t np e H) as [f [P [N R]]].
  exists f. split; [assumption|]. split; [assumption|]. now apply rep_eval.
Qed.

Theorem C04_accepts_exactly : forall t, clean t ->
  ((exists f, parse_forms t = Ok f) <-> exists ls np e, lays ls t /\ header ls np e).
Proof.
  intros t C. split.
  - intros [f P]. destruct (parse_sound t f C P) as [ls [np [e [L [H _]]]]]. eauto.
  - intros [ls [np [e [L H]]]]. destruct (parse_accepts t ls np e L H) as [f [P _]]. eauto.
Qed.

(** the meaning of a text is unique up to regrouping && and || chains, hence
    its C value is unique *)
Theorem C04_unambiguous : forall t np e np' e', header_text t np e -> header_text t np' e' ->
  np = np' /\ forall n, csem e n = csem e' n.
Proof.
  intros t np e np' e' H H'. destruct (header_text_unique _ _ _ _ _ H H') as [N C].
  split; [assumption|]. intro n. apply (ceq_sem _ _ C).
Qed.

Example C04_example : exists f,
  parse_forms (bs "nplurals=3; plural=(n%10==1 && n%100!=11 ? 0 : n%10>=2 && n%10<=4 && (n%100<10 || n%100>=20) ? 1 : 2);")
  = Ok f /\ f_nplurals f = 3 /\ map (eval_node (f_root f)) [1; 3; 13; 25] = [0; 1; 2; 2].
Proof. eexists. split; [vm_compute; reflexivity|]. split; vm_compute; reflexivity. Qed.
Example C04_rejects : parse_forms (bs "nplurals=2; plural=n%10%2;") = Err /\
  parse_forms (bs "nplurals=2; plural=!n;") = Err /\
  parse_forms (bs "nplurals=2; plural=n+1;") = Err.
Proof. repeat split; vm_compute; reflexivity. Qed.

(** ** C05 *)
Theorem C05_parse_terminates : forall s, parse_rule s <> OutOfFuel /\ parse_rule s <> Panic.
Proof.
  intro s. destruct (parse_forms_fin s) as [H1 H2]. unfold parse_rule.
  destruct (parse_forms s); simpl; try tauto; try (split; discriminate).
  destruct (built_in_raw _); split; discriminate.
Qed.

(** ** C06 *)
(** Recognition preserves meaning for [plain] expressions. *)
Theorem C06_recognition_partial : forall t np e, header_text t np e -> plain e = true ->
  exists r, parse_rule t = Ok r /\ r_nplurals r = np /\
    forall n v, conds01 e n -> csem e n = Some v -> r_form r n = v.
Proof. exact recognition. Qed.

(** For a header that is mapped to a built-in the result is the C value even
    when conditions are not 0/1-valued. *)
Theorem C06_all_documented_headers_recognised : forall t r, In (t, r) doc_table ->
  exists r', parse_rule (bs t) = Ok r' /\ r_nplurals r' = r_nplurals r /\
    forall n, r_form r' n = r_form r n.
Proof.
  intros t r H. pose proof (proj1 (Forall_forall _ _) doc_rows _ H) as [f [P [C [N E]]]].
  cbn [fst snd] in *.
  unfold parse_rule. rewrite P. cbn [rbind].
  destruct (built_in_raw (compile_forms f)) as [r'|] eqn:B.
  - exists r'. split; [reflexivity|].
    assert (Pl : forallb (fun p => match parse_forms (bs (fst p)) with
       | Ok f => plain (cx (f_root f)) | _ => false end) doc_table = true)
      by (vm_compute; reflexivity).
    rewrite forallb_forall in Pl. specialize (Pl _ H). cbn [fst] in Pl. rewrite P in Pl.
    destruct (checked_header _ _ P C) as [e [He [Ce S]]].
    assert (Pe : plain e = true) by (destruct (ceq_plain _ _ Ce); congruence).
    destruct (recognition _ _ _ He Pe) as [r'' [P'' [N'' R'']]].
    unfold parse_rule in P''. rewrite P in P''. cbn [rbind] in P''. rewrite B in P''.
    injection P'' as <-. split; [congruence|]. intro n. rewrite <- E. apply R''; [|apply S].
    destruct (ceq_sem _ _ Ce n) as [_ Cn]. apply Cn. apply logical_conds_01.
    unfold checked in C. repeat (apply andb_true_iff in C as [C ?]). assumption.
  - eexists. split; [reflexivity|]. simpl. split; [assumption|exact E].
Qed.

(** In general it does not: the printed key drops parentheses. *)
Definition collision : string :=
  "nplurals=3; plural=n == 1 ? 0 : (n == 0 || n != (1 && n % 100 >= 1) && n % 100 <= 19) ? 1 : 2;".
Theorem C06_recognition_refuted : exists s r np e n v,
  parse_rule s = Ok r /\ header_text s np e /\ logical_conds e = true /\
  csem e n = Some v /\ r_form r n <> v.
Proof.
  set (a := NCond (NBin BEq NOp (NVal 1)) (NVal 0)
    (NCond (NBin BOr (NBin BEq NOp (NVal 0))
       (NBin BAnd (NBin BNe NOp (NBin BAnd (NVal 1) (NBin BGe (NBin BRem NOp (NVal 100)) (NVal 1))))
          (NBin BLe (NBin BRem NOp (NVal 100)) (NVal 19)))) (NVal 1) (NVal 2))).
  destruct (witness_header (bs collision) (Forms 3 a)) as [e [H C]];
    [vm_compute; reflexivity | vm_compute; reflexivity |].
  exists (bs collision), rule_ro, 3, e, 100, 1.
  split; [vm_compute; reflexivity|]. split; [exact H|].
  split; [|split; [|vm_compute; discriminate]].
  - destruct (ceq_logical _ _ C) as [_ L]. rewrite <- L. reflexivity.
  - destruct (ceq_sem _ _ C 100) as [S _]. rewrite <- S. vm_compute. reflexivity.
Qed.

(** For every header: the right number of forms, and the right form unless the
    header is taken for one of the recognition table with the same symbols that
    only has its parentheses elsewhere; then the form is that one's. *)
Theorem C06_exactly : forall t np e, header_text t np e ->
  exists r, parse_rule t = Ok r /\ r_nplurals r = np /\
    ((forall n v, conds01 e n -> csem e n = Some v -> r_form r n = v) \/
     exists k e', In (k, r) raw_table /\ header_text (bs k) np e' /\ symbols e' = symbols e /\
       forall n, csem e' n = Some (r_form r n)).
Proof. exact recognised_symbols. Qed.
Example C06_exactly_example : exists np e, header_text (bs collision) np e /\ plain e = false.
Proof.
  set (a := NCond (NBin BEq NOp (NVal 1)) (NVal 0)
    (NCond (NBin BOr (NBin BEq NOp (NVal 0))
       (NBin BAnd (NBin BNe NOp (NBin BAnd (NVal 1) (NBin BGe (NBin BRem NOp (NVal 100)) (NVal 1))))
          (NBin BLe (NBin BRem NOp (NVal 100)) (NVal 19)))) (NVal 1) (NVal 2))).
  destruct (witness_header (bs collision) (Forms 3 a)) as [e [H C]]; [vm_compute; reflexivity | vm_compute; reflexivity |].
  exists 3, e. split; [exact H|]. destruct (ceq_plain _ _ C) as [<- _]. reflexivity.
Qed.

(** ** C07 *)
(** Exact up to 2^53, for every integer kind, either sign. *)
Theorem C07_integer_argument_partial : forall r k z, Z.abs z <= 2 ^ 53 ->
  evaluate r (AInt k z) = r_form r (Z.abs z).
Proof. exact evaluate_int_exact. Qed.

Theorem C07_sign_irrelevant : forall r k k' z,
  evaluate r (AInt k z) = evaluate r (AInt k' (- z)).
Proof. exact evaluate_sign. Qed.

(** Finite floats select the form of the nearest integer, ties to even. *)
Theorem C07_float_nearest : forall r num den, 0 < den -> Z.abs num < 2 ^ 62 * den ->
  exists m, evaluate r (AFloat num den) = r_form r m /\
    2 * Z.abs (Z.abs num - m * den) <= den /\
    (2 * Z.abs (Z.abs num - m * den) = den -> Z.even m = true).
Proof.
  intros r num den Hd Hn. exists (div_even (Z.abs num) den).
  pose proof (div_even_near (Z.abs num) den ltac:(lia) Hd) as N.
  pose proof (div_even_nonneg (Z.abs num) den ltac:(lia) Hd) as P.
  split; [|split; [assumption|now apply div_even_tie; [lia|]]].
  unfold evaluate, abs_round, f64_to_int64.
  replace (_ && _) with true; [reflexivity|]. symmetry.
  unfold minInt64, maxInt64. apply andb_true_iff. split; [lia|].
  assert (div_even (Z.abs num) den * den < (2 ^ 62 + 1) * den) by lia.
  assert (div_even (Z.abs num) den < 2 ^ 62 + 1) by nia. lia.
Qed.

(** Every integer beyond: the form of the nearest integer with 53 significant
    bits, ties to even; of -2^63 if that integer exceeds an int64. *)
Theorem C07_integer_exactly : forall r k z e, 0 <= e -> 2 ^ (52 + e) <= Z.abs z < 2 ^ (53 + e) ->
  exists m, evaluate r (AInt k z) = r_form r (if m * 2 ^ e <? 2 ^ 63 then m * 2 ^ e else - 2 ^ 63) /\
    2 * Z.abs (Z.abs z - m * 2 ^ e) <= 2 ^ e /\
    (2 * Z.abs (Z.abs z - m * 2 ^ e) = 2 ^ e -> Z.even m = true).
Proof.
  intros r k z e E B. exists (div_even (Z.abs z) (2 ^ e)).
  assert (P : 0 < 2 ^ e) by (apply Z.pow_pos_nonneg; lia).
  pose proof (div_even_near (Z.abs z) (2 ^ e) ltac:(lia) P) as N.
  pose proof (div_even_nonneg (Z.abs z) (2 ^ e) ltac:(lia) P) as Q.
  split; [|split; [exact N|now apply div_even_tie; [lia|]]].
  unfold evaluate, abs_round. rewrite f64_of_int_abs.
  assert (L : Z.log2 (Z.abs z) = 52 + e) by (apply Z.log2_unique; [lia|replace (Z.succ (52 + e)) with (53 + e) by lia; exact B]).
  assert (F : f64_of_nat (Z.abs z) = div_even (Z.abs z) (2 ^ e) * 2 ^ e).
  { unfold f64_of_nat. destruct (Z.abs z <? 9007199254740992) eqn:X.
    - assert (e = 0) as ->.
      { destruct (Z.eq_dec e 0) as [|NE]; [assumption|]. assert (2 ^ 53 <= 2 ^ (52 + e)) by (apply Z.pow_le_mono_r; lia).
        change (2 ^ 53) with 9007199254740992 in H. lia. }
      change (2 ^ 0) with 1 in *. lia.
    - cbv zeta. rewrite L. replace (52 + e - 52) with e by lia. reflexivity. }
  rewrite F, Z.abs_eq by nia. unfold f64_to_int64, minInt64, maxInt64. change (2 ^ 63) with 9223372036854775808.
  set (x := div_even (Z.abs z) (2 ^ e) * 2 ^ e) in *. assert (0 <= x) by (unfold x; nia). clearbody x. f_equal.
  destruct ((-9223372036854775808 <=? x) && (x <=? 9223372036854775807)) eqn:A; destruct (x <? 9223372036854775808) eqn:C; lia.
Qed.
Example C07_integer_exactly_example : 2 ^ (52 + 11) <= Z.abs (2 ^ 64 - 1) < 2 ^ (53 + 11) /\ kmin Kuint64 <= 2 ^ 64 - 1 <= kmax Kuint64 /\
  2 ^ (52 + 1) <= Z.abs (- 9007199254741001) < 2 ^ (53 + 1).
Proof. vm_compute. repeat split; discriminate. Qed.
(** And every float. *)
Theorem C07_float_exactly : forall r num den, 0 < den ->
  exists m, evaluate r (AFloat num den) = r_form r (if m <? 2 ^ 63 then m else - 2 ^ 63) /\
    2 * Z.abs (Z.abs num - m * den) <= den /\
    (2 * Z.abs (Z.abs num - m * den) = den -> Z.even m = true).
Proof.
  intros r num den Hd. exists (div_even (Z.abs num) den).
  pose proof (div_even_near (Z.abs num) den ltac:(lia) Hd) as N.
  pose proof (div_even_nonneg (Z.abs num) den ltac:(lia) Hd) as P.
  split; [|split; [assumption|now apply div_even_tie; [lia|]]].
  unfold evaluate, abs_round, f64_to_int64, minInt64, maxInt64. change (2 ^ 63) with 9223372036854775808.
  set (x := div_even (Z.abs num) den) in *. clearbody x. f_equal.
  destruct ((-9223372036854775808 <=? x) && (x <=? 9223372036854775807)) eqn:A; destruct (x <? 9223372036854775808) eqn:C; lia.
Qed.

(** Beyond 2^53 the wrong form can be chosen: 9007199254741001 in Russian. *)
Theorem C07_integer_argument_refuted : exists r l k z,
  built_in_lang l = Some r /\ kmin k <= z <= kmax k /\
  evaluate r (AInt k z) <> r_form r (Z.abs z).
Proof.
  exists rule_be, (bs "ru"), Kint64, 9007199254741001.
  split; [vm_compute; reflexivity|]. split; [vm_compute; split; discriminate|].
  vm_compute. discriminate.
Qed.

(** ** C08 *)
Theorem C08_nearest_rule : forall (tag : Type) is_root tag_string base parent,
  forall d t, depth tag is_root parent t d -> forall fuel, (d <= fuel)%nat ->
  (exists r,
     for_language tag is_root tag_string base parent rule built_in_lang fuel t
       = Ok (Some r, true) /\
     nearest tag tag_string base parent rule built_in_lang t d r) \/
  (for_language tag is_root tag_string base parent rule built_in_lang fuel t
     = Ok (Some rule_af, false) /\
   nothing tag tag_string base parent rule built_in_lang t d).
Proof.
  intros tag is_root tag_string base parent d t D fuel F.
  exact (for_language_spec tag is_root tag_string base parent rule built_in_lang d t D fuel F).
Qed.

(** tags as strings whose parent drops the first letter: one chain without and
    one with an entry in the table *)
Example C08_example :
  let par (s : bytes) := match s with [] => [] | _ :: s' => s' end in
  let root (s : bytes) := match s with [] => true | _ => false end in
  for_language bytes root (fun s => s) (fun s => (s, false)) par rule built_in_lang 3 (bs "qxx")
    = Ok (Some rule_af, false) /\
  for_language bytes root (fun s => s) (fun s => (s, false)) par rule built_in_lang 4 (bs "qqru")
    = Ok (Some rule_be, true).
Proof. split; vm_compute; reflexivity. Qed.

Print Assumptions C01_builtin_means_header.
Print Assumptions C01_language_rule_documented.
Print Assumptions C02_builtin_index_in_range.
Print Assumptions C03_parse_sound.
Print Assumptions C03_logical_conditions.
Print Assumptions C03_nonlogical_refuted.
Print Assumptions C04_parse_complete.
Print Assumptions C04_accepts_exactly.
Print Assumptions C04_unambiguous.
Print Assumptions C05_parse_terminates.
Print Assumptions C06_recognition_partial.
Print Assumptions C06_all_documented_headers_recognised.
Print Assumptions C06_exactly.
Print Assumptions C06_recognition_refuted.
Print Assumptions C07_integer_argument_partial.
Print Assumptions C07_sign_irrelevant.
Print Assumptions C07_float_nearest.
Print Assumptions C07_integer_exactly.
Print Assumptions C07_float_exactly.
Print Assumptions C07_integer_argument_refuted.
Print Assumptions C08_nearest_rule.
