(** Property theorems C09-C15: CLDR plural rules. *)
From Coq Require Import String Ascii List ZArith QArith Qround Qabs Bool Lia ZifyBool Permutation.
From Verif Require Import Base BaseProofs Utf8Model Utf8Proofs StrModel PopModel NumModel NumProofs F64Model
  F64Proofs ReModel ReProofs CldrModel CldrBuiltin CldrSpec CldrRules CldrEvalProofs CldrOperandProofs
  CldrBuiltinProofs CldrParseProofs CldrSampleProofs CldrTotalProofs CldrTextProofs.
Import ListNotations.
Open Scope Z_scope.

(** ** C09.  Each row of the built-in table has a row of rules, written as in
    the CLDR data; [clear_of_integers]: n is an integer or more than 10^-6 away
    from every integer. *)
Theorem C09_builtin_is_rule_text : forall ls r, In (ls, r) cldr_table ->
  exists rs, In (ls, rs) cldr_rules /\
    Forall (fun x => snd (fst x) = cond_text (snd x)) rs /\
    forall o, nonneg_ops o -> clear_of_integers (oN o) ->
      chosen (row_rules rs) (to_uops o) (rs_form r o) /\
      forall c, chosen (row_rules rs) (to_uops o) c -> c = rs_form r o.
Proof.
  intros ls r I1. pose proof rows_ok as F.
  assert (G : forall (a : list (list bytes * rule_set)) b, Forall2 row_ok a b -> In (ls, r) a ->
    exists y, In y b /\ row_ok (ls, r) y).
  { clear. intros a b F. induction F as [|x y a b H F IH]; intro I1; [destruct I1|].
    destruct I1 as [E|I1]; [subst; exists y; split; [left; reflexivity|exact H]|].
    destruct (IH I1) as (z & I2 & H2). exists z. split; [right; exact I2|exact H2]. }
  destruct (G _ _ F I1) as ([ls' rs] & I2 & (E & H)). cbn [fst snd] in *. subst ls'.
  exists rs. split; [exact I2|]. split.
  { apply Forall_forall. intros [[c t] cd] I3. cbn [fst snd].
    exact (proj1 (row_text ls rs c t cd I2 I3)). }
  intros o N C. rewrite (H o N C).
  pose proof (chooseb_spec (row_rules rs) (to_uops o) (row_mods ls rs I2)) as CH.
  split; [exact CH|]. intros c D. exact (chosen_unique _ _ _ _ D CH).
Qed.

Lemma nonneg_of_numeral : forall x o w t q,
  o = Ops q (f64_trunc (nm_neg x) q) (Z.of_nat (nm_v x)) w (nm_scaled x mod p10 (nm_v x)) t (Z.of_nat (nm_e x)) ->
  nm_neg x = false -> (0 <= q)%Q -> Qfloor q <= maxInt64 ->
  without_zeros (Z.of_nat (nm_v x)) (nm_scaled x mod p10 (nm_v x)) w t ->
  nonneg_ops o /\ oI o = Qfloor q.
Proof.
  intros x o w t q E NG Q L (W1 & W2 & W3). subst o. unfold nonneg_ops. cbn [oI oV oW oF oT oC].
  rewrite NG. unfold f64_trunc.
  assert (FP : 0 <= Qfloor q) by (change 0 with (Qfloor 0); apply Qfloor_resp_le; exact Q).
  assert (TR : f64_to_int64 (Qfloor q) = Qfloor q).
  { unfold f64_to_int64, minInt64. destruct ((-9223372036854775808 <=? Qfloor q) && (Qfloor q <=? maxInt64)) eqn:X;
      [reflexivity|]. lia. }
  rewrite TR.
  pose proof (Z.mod_pos_bound (nm_scaled x) (p10 (nm_v x)) (p10_pos _)).
  assert (0 <= t).
  { pose proof (Z.pow_pos_nonneg 10 (Z.of_nat (nm_v x) - w) ltac:(lia) ltac:(lia)). nia. }
  split; [|reflexivity]. repeat split; lia.
Qed.

Lemma div_small : forall s d, 0 <= s < ten15 -> 0 < d -> s / d <= maxInt64.
Proof.
  intros s d S D. assert (s / d <= s) by (apply Z.div_le_upper_bound; nia).
  unfold ten15, maxInt64 in *. lia.
Qed.

(** For decimal numerals of up to 15 digits, at most five of them after the
    point: the category is the one the rules give for the operands of the
    standard. *)
Theorem C09_builtin_numeral_partial : forall l r x, cldr_built_in l = Some r ->
  nm_ok x -> nm_neg x = false -> nm_scaled x < 1000000000000000 -> (nm_v x <= 5)%nat ->
  Z.of_nat (nm_e x) <= maxInt64 ->
  exists ls rs c, In l ls /\ In (ls, rs) cldr_rules /\
    rs_evaluate r (CString (nm_text x)) = Ok c /\
    forall u, operands_of x u -> chosen (row_rules rs) u c.
Proof.
  intros l r x B OK NG SC V E.
  assert (R : exists ls, In l ls /\ In (ls, r) cldr_table).
  { unfold cldr_built_in in B. revert B. generalize cldr_table. clear.
    induction l0 as [|[ls r'] tb IH]; cbn [cldr_find]; [discriminate|].
    destruct (existsb (beq l) ls) eqn:X.
    - intro H. injection H as <-. apply existsb_exists in X. destruct X as (y & I & Q).
      apply beq_eq in Q. subst y. exists ls. split; [exact I|left; reflexivity].
    - intro H. destruct (IH H) as (ls' & I & J). exists ls'. split; [exact I|right; exact J]. }
  destruct R as (ls & I1 & I2). destruct (C09_builtin_is_rule_text ls r I2) as (rs & I3 & _ & CH).
  assert (S0 : 0 <= nm_scaled x).
  { unfold nm_scaled, nm_digits. destruct OK as (_ & D & F). apply all_digits_b in D.
    assert (FD : forallb is_digit (nm_fdigits x) = true).
    { unfold nm_fdigits. destruct (nm_fp x); [|reflexivity]. apply all_digits_b. tauto. }
    pose proof (dec_val_bound (nm_ip x ++ nm_fdigits x) ltac:(rewrite forallb_app, D, FD; reflexivity)).
    pose proof (p10_pos (nm_e x - length (nm_fdigits x))). nia. }
  destruct (round_value (nm_scaled x) (nm_v x)) as (q & RQ & Q0 & FL & IV & CL);
    [unfold ten15; lia|lia|].
  assert (M1 : nm_scaled x mod p10 (nm_v x) <= maxInt64).
  { pose proof (Z.mod_le (nm_scaled x) (p10 (nm_v x)) S0 (p10_pos _)). unfold maxInt64. lia. }
  destruct (operands_numeral x q OK E M1 RQ) as (w & t & O & W).
  pose proof (div_small (nm_scaled x) (p10 (nm_v x)) ltac:(unfold ten15; lia) (p10_pos _)) as DS.
  destruct (nonneg_of_numeral x _ w t q eq_refl NG Q0 ltac:(rewrite FL; exact DS) W) as [NN OI].
  set (o := Ops q _ _ w _ t _) in *.
  exists ls, rs, (rs_form r o). split; [exact I1|]. split; [exact I3|]. split.
  { unfold rs_evaluate, new_operands. rewrite O. reflexivity. }
  intros u (U1 & U2 & U3 & U4 & U5 & U6).
  destruct (CH o NN (CL V)) as [C1 _].
  pose proof (chooseb_spec (row_rules rs) (to_uops o) (row_mods ls rs I3)) as C2.
  rewrite (chosen_unique _ _ _ _ C1 C2).
  assert (WT : uw u = w /\ ut u = t).
  { rewrite U3, U4 in U5. destruct U5 as (A1 & A2 & A3). destruct W as (B1 & B2 & B3).
    assert (UNQ : forall V f w t w' t', 0 <= w <= V -> 0 <= w' <= V ->
       f = t * 10 ^ (V - w) -> f = t' * 10 ^ (V - w') -> (w = 0 \/ t mod 10 <> 0) -> (w' = 0 \/ t' mod 10 <> 0) ->
       w <= w').
    { clear. intros V f w t w' t' H1 H2 E1 E2 N1 N2.
      destruct (Z_lt_le_dec w' w) as [L|]; [|assumption]. exfalso. destruct N1 as [N1|N1]; [lia|].
      apply N1. replace (V - w') with ((V - w) + (w - w')) in E2 by lia.
      rewrite Z.pow_add_r in E2 by lia. rewrite E1 in E2.
      assert (P : 0 < 10 ^ (V - w)) by (apply Z.pow_pos_nonneg; lia).
      assert (T : t = t' * 10 ^ (w - w')) by nia. rewrite T.
      replace (w - w') with (1 + (w - w' - 1)) by lia. rewrite Z.pow_add_r by lia.
      change (10 ^ 1) with 10. replace (t' * (10 * 10 ^ (w - w' - 1))) with (t' * 10 ^ (w - w' - 1) * 10) by ring.
      apply Z.mod_mul. lia. }
    assert (uw u = w).
    { apply Z.le_antisymm; [apply (UNQ _ _ (uw u) (ut u) w t A1 B1 A2 B2 A3 B3)|
                            apply (UNQ _ _ w t (uw u) (ut u) B1 A1 B2 A2 B3 A3)]. }
    split; [assumption|]. rewrite H in A2.
    assert (P : 0 < 10 ^ (Z.of_nat (nm_v x) - w)) by (apply Z.pow_pos_nonneg; lia). nia. }
  destruct WT as [WU TU].
  rewrite (chooseb_view (row_rules rs) (to_uops o) u).
  - apply chooseb_spec. exact (row_mods ls rs I3).
  - cbn [to_uops un]. unfold o. cbn [oN]. rewrite IV. apply iview_comp. symmetry. exact U1.
  - cbn [to_uops ui]. rewrite OI, FL, U2. unfold nm_value. unfold Qfloor.
    rewrite Z2Pos.id by apply p10_pos. reflexivity.
  - cbn [to_uops uv]. unfold o. cbn [oV]. congruence.
  - cbn [to_uops uw]. unfold o. cbn [oW]. congruence.
  - cbn [to_uops uf]. unfold o. cbn [oF]. congruence.
  - cbn [to_uops ut]. unfold o. cbn [oT]. congruence.
  - cbn [to_uops uc]. unfold o. cbn [oC]. congruence.
Qed.

Example C09_example : exists r, cldr_built_in (bs "pl") = Some r /\
  map (fun s => rs_evaluate r (CString s)) [bs "1"; bs "22"; bs "12"; bs "1.5"; bs "1.0"; bs "112"] =
  [Ok One; Ok Few; Ok Many; Ok Other; Ok Other; Ok Many].
Proof. eexists. split; [vm_compute; reflexivity|]. vm_compute. reflexivity. Qed.

(** The comparison has a tolerance: 1.0000001 counts as 1 in Scottish Gaelic. *)
Definition num_near_one : numeral := Num false (bs "1") (Some (bs "0000001")) None.
Theorem C09_tolerance_refuted : exists l r rs x c u,
  cldr_built_in l = Some r /\ In ([l], rs) cldr_rules /\ nm_ok x /\ nm_neg x = false /\
  operands_of x u /\ rs_evaluate r (CString (nm_text x)) = Ok c /\ ~ chosen (row_rules rs) u c.
Proof.
  set (u := UOps (10000001 # 10000000) 1 7 7 1 1 0).
  assert (IN : exists rs, In ([bs "gd"], rs) cldr_rules /\ chooseb (row_rules rs) u = Other).
  { eexists. split; [do 27 right; left; reflexivity|vm_compute; reflexivity]. }
  destruct IN as (rs & IN & CB).
  exists (bs "gd"), rs_gd, rs, num_near_one, One, u.
  split; [vm_compute; reflexivity|]. split; [exact IN|].
  split; [split; [discriminate|]; split; [repeat constructor|split; [discriminate|repeat constructor]]|].
  split; [reflexivity|]. split.
  - unfold operands_of, u. cbn [un ui uv uw uf ut uc].
    split; [reflexivity|]. split; [reflexivity|]. split; [reflexivity|]. split; [reflexivity|].
    split; [|reflexivity]. unfold without_zeros. split; [lia|]. split; [reflexivity|right; discriminate].
  - split; [vm_compute; reflexivity|].
    intro H. pose proof (chosen_unique _ _ _ _ H (chooseb_spec _ u (row_mods _ _ IN))) as E.
    rewrite CB in E. discriminate.
Qed.

(** ** C10 *)
Lemma cat_form_spec : forall cs i c, NoDup cs -> In c cs ->
  exists j, cat_form cs i c = Some (i + j)%nat /\ nth_error cs j = Some c.
Proof.
  assert (NONE : forall cs i c, ~ In c cs -> cat_form cs i c = None).
  { induction cs as [|k cs IH]; intros i c N; [reflexivity|]. cbn [cat_form].
    rewrite IH by (intro H; apply N; right; exact H).
    destruct (cat_eqb k c) eqn:E; [|reflexivity]. exfalso. apply N. left. destruct k, c; congruence || discriminate. }
  induction cs as [|k cs IH]; intros i c ND I; [destruct I|]. inversion ND as [|? ? NI ND']; subst.
  cbn [cat_form]. destruct I as [E|I].
  - subst k. rewrite NONE by exact NI. destruct (cat_eqb c c) eqn:X; [|destruct c; discriminate].
    exists 0%nat. rewrite Nat.add_0_r. split; reflexivity.
  - destruct (IH (S i) c ND' I) as (j & E & N). rewrite E. exists (S j). split; [f_equal; lia|exact N].
Qed.

Lemma ascending_nodup : forall l, ascending l -> NoDup l.
Proof.
  assert (LT : forall l a, ascending (a :: l) -> forall x, In x l -> cat_rank a < cat_rank x).
  { induction l as [|b l IH]; intros a A x I; [destruct I|]. destruct A as [A1 A2].
    destruct I as [E|I]; [subst; exact A1|]. specialize (IH b A2 x I). lia. }
  induction l as [|a l IH]; intro A; [constructor|]. constructor.
  - intro I. specialize (LT l a A a I). lia.
  - apply IH. destruct l; [exact I|exact (proj2 A)].
Qed.

Ltac in_cats :=
  repeat match goal with |- context [if ?c then _ else _] => destruct c end; cbn [In]; tauto.

Lemma rows_categories : Forall (fun x => In Other (rs_categories (snd x)) /\ ascending (rs_categories (snd x)) /\
  forall o, In (rs_form (snd x) o) (rs_categories (snd x))) cldr_table.
Proof.
  unfold cldr_table.
  repeat (apply Forall_cons; [cbn [snd]; split; [cbn; tauto|split; [cbn; lia|
    intro o; unfold
    rs_bm, rs_af, rs_ak, rs_am, rs_ast, rs_ceb, rs_da, rs_ff, rs_is, rs_mk, rs_si, rs_tzm, rs_blo,
    rs_bs, rs_ca, rs_es, rs_fr, rs_he, rs_iu, rs_lag, rs_lv, rs_mo, rs_pt, rs_shi, rs_be, rs_cs,
    rs_dsb, rs_gd, rs_lt, rs_pl, rs_ru, rs_sl, rs_br, rs_ga, rs_gv, rs_mt, rs_ar, rs_cy, rs_kw;
    cbn [rs_form rs_categories]; in_cats]]|]).
  apply Forall_nil.
Qed.

Theorem C10_category_of_language : forall l r, cldr_built_in l = Some r ->
  In Other (rs_categories r) /\ NoDup (rs_categories r) /\ ascending (rs_categories r) /\
  (forall o, In (rs_form r o) (rs_categories r)) /\
  (forall a c, rs_evaluate r a = Ok c ->
     exists i, cldr_plural_index r a = Ok i /\ (i < length (rs_categories r))%nat /\
       nth_error (rs_categories r) i = Some c).
Proof.
  intros l r B.
  assert (I : exists ls, In (ls, r) cldr_table).
  { unfold cldr_built_in in B. revert B. generalize cldr_table. clear.
    induction l0 as [|[ls r'] tb IH]; cbn [cldr_find]; [discriminate|].
    destruct (existsb (beq l) ls); intro H; [injection H as <-; exists ls; left; reflexivity|].
    destruct (IH H) as (ls' & J). exists ls'. right. exact J. }
  destruct I as (ls & I). pose proof rows_categories as F. rewrite Forall_forall in F.
  specialize (F (ls, r) I). cbn [snd] in F. destruct F as (F1 & F2 & F3).
  pose proof (ascending_nodup _ F2) as ND.
  split; [exact F1|]. split; [exact ND|]. split; [exact F2|]. split; [exact F3|].
  intros a c E. unfold cldr_plural_index. rewrite E. cbn [rbind].
  assert (IC : In c (rs_categories r)).
  { unfold rs_evaluate in E. destruct (new_operands a); cbn [rbind] in E; try discriminate.
    injection E as <-. apply F3. }
  destruct (cat_form_spec (rs_categories r) 0 c ND IC) as (j & CF & NT). rewrite CF. cbn [Nat.add].
  exists j. split; [reflexivity|]. split; [|exact NT]. apply nth_error_Some. congruence.
Qed.

Example C10_example : exists r, cldr_built_in (bs "cy") = Some r /\
  rs_categories r = [Zero; One; Two; Few; Many; Other] /\
  map (fun z => cldr_plural_index r (CInt z)) [0; 3; 6; 7] = [Ok 0%nat; Ok 3%nat; Ok 4%nat; Ok 5%nat].
Proof. eexists. split; [vm_compute; reflexivity|]. split; vm_compute; reflexivity. Qed.

(** The same for a rule set parsed from texts. *)
Theorem C10_parsed_category : forall fuel raw cats rules o c,
  parse_rules fuel raw = Ok (cats, rules) -> form_rules rules o = Ok c ->
  In c cats /\ In Other cats.
Proof.
  intros fuel raw cats rules o c P F. unfold parse_rules in P.
  destruct (parse_all fuel raw) as [rs| | |] eqn:PA; cbn [rbind] in P; try discriminate.
  cbv zeta in P. injection P as <- <-.
  assert (M : map fst rs = map fst raw).
  { pose proof (parse_all_in _ _ _ PA) as A. clear - A. induction A as [|x y raw rs [E _] A IH]; [reflexivity|].
    cbn [map]. rewrite E, IH. reflexivity. }
  assert (OT : In Other (if existsb (cat_eqb Other) (map fst raw) then map fst raw else map fst raw ++ [Other])).
  { destruct (existsb (cat_eqb Other) (map fst raw)) eqn:X.
    - apply existsb_exists in X. destruct X as (y & I & E). destruct y; try discriminate. exact I.
    - apply in_app_iff. right. left. reflexivity. }
  split; [|exact OT].
  destruct (form_rules_in rs o c F) as [I|E]; [|rewrite E; exact OT]. rewrite M in I.
  destruct (existsb (cat_eqb Other) (map fst raw)); [exact I|]. apply in_app_iff. left. exact I.
Qed.

(** ** C11.  Numerals of up to 15 significant digits and 300 places. *)
Theorem C11_operands_partial : forall x, nm_ok x -> nm_neg x = false ->
  nm_scaled x < 1000000000000000 -> (nm_v x <= 300)%nat -> Z.of_nat (nm_e x) <= maxInt64 ->
  exists o, new_operands_string (nm_text x) = Ok o /\
    operands_of x (UOps (nm_value x) (oI o) (oV o) (oW o) (oF o) (oT o) (oC o)) /\
    (forall z, (oN o == inject_Z z)%Q <-> (nm_value x == inject_Z z)%Q) /\
    (9007199254740992 * Qabs (oN o - nm_value x) <= nm_value x)%Q.
Proof.
  intros x OK NG SC V E.
  assert (S0 : 0 <= nm_scaled x).
  { unfold nm_scaled, nm_digits. destruct OK as (_ & D & F). apply all_digits_b in D.
    assert (FD : forallb is_digit (nm_fdigits x) = true).
    { unfold nm_fdigits. destruct (nm_fp x); [|reflexivity]. apply all_digits_b. tauto. }
    pose proof (dec_val_bound (nm_ip x ++ nm_fdigits x) ltac:(rewrite forallb_app, D, FD; reflexivity)).
    pose proof (p10_pos (nm_e x - length (nm_fdigits x))). nia. }
  destruct (round_value (nm_scaled x) (nm_v x)) as (q & RQ & Q0 & FL & IV & _);
    [unfold ten15; lia|lia|].
  assert (M1 : nm_scaled x mod p10 (nm_v x) <= maxInt64).
  { pose proof (Z.mod_le (nm_scaled x) (p10 (nm_v x)) S0 (p10_pos _)). unfold maxInt64. lia. }
  destruct (operands_numeral x q OK E M1 RQ) as (w & t & O & W).
  pose proof (div_small (nm_scaled x) (p10 (nm_v x)) ltac:(unfold ten15; lia) (p10_pos _)) as DS.
  destruct (nonneg_of_numeral x _ w t q eq_refl NG Q0 ltac:(rewrite FL; exact DS) W) as [NN OI].
  eexists. split; [exact O|]. split.
  { unfold operands_of. cbn [un ui uv uw uf ut uc oI oV oW oF oT oC] in *.
    split; [reflexivity|]. split.
    { rewrite OI, FL. unfold nm_value, Qfloor. rewrite Z2Pos.id by apply p10_pos. reflexivity. }
    split; [reflexivity|]. split; [reflexivity|]. split; [exact W|reflexivity]. }
  cbn [oN]. fold (nm_value x) in IV. split.
  { intro z. rewrite <- !iview_some, IV. reflexivity. }
  pose proof (p10_pos (nm_v x)) as PP.
  unfold nm_value. destruct (Z.eq_dec (nm_scaled x) 0) as [Z0|NZ].
  - rewrite Z0 in *. assert (QZ : (q == 0)%Q).
    { apply (iview_some q 0). rewrite IV. apply iview_some. unfold nm_value. rewrite Z0. reflexivity. }
    rewrite QZ. vm_compute. discriminate.
  - destruct (f64_round_error (nm_scaled x) (p10 (nm_v x)) q ltac:(lia) PP) as [_ ER]; [|exact RQ|].
    { transitivity (-(1000)); [lia|]. apply floor_log2_ge; try lia.
      assert (p10 (nm_v x) <= 10 ^ 300) by (unfold p10; apply Z.pow_le_mono_r; lia).
      assert (10 ^ 300 < 2 ^ 1000) by (vm_compute; reflexivity).
      assert (2 ^ 1000 <= nm_scaled x * 2 ^ 1000).
      { rewrite <- (Z.mul_1_l (2 ^ 1000)) at 1. apply Z.mul_le_mono_nonneg_r; [apply Z.pow_nonneg; lia|lia]. }
      eapply Z.le_lt_trans; [eassumption|]. eapply Z.lt_le_trans; eassumption. }
    set (d := p10 (nm_v x)) in *. set (n := nm_scaled x) in *. clearbody d n. clear - ER PP.
    destruct q as [a b]. cbn [Qnum Qden] in *.
    unfold Qle, Qmult, Qabs, Qminus, Qplus, Qopp. cbn [Qnum Qden].
    rewrite !Pos2Z.inj_mul, Z2Pos.id by exact PP. cbn [Qnum Qden].
    replace (a * d + - n * Z.pos b) with (a * d - n * Z.pos b) by ring.
    rewrite Z.mul_1_l. nia.
Qed.

Example C11_example : exists o, new_operands_string (nm_text (Num false (bs "1") (Some (bs "2305")) (Some 1%nat))) = Ok o /\
  oI o = 12 /\ oV o = 3 /\ oW o = 3 /\ oF o = 305 /\ oT o = 305 /\ oC o = 1 /\
  exists o2, new_operands_string (bs "1.230") = Ok o2 /\
  oI o2 = 1 /\ oV o2 = 3 /\ oW o2 = 2 /\ oF o2 = 230 /\ oT o2 = 23 /\ oC o2 = 0.
Proof.
  eexists. split; [vm_compute; reflexivity|]. do 6 (split; [reflexivity|]).
  eexists. split; [vm_compute; reflexivity|]. repeat (split; [reflexivity|]). reflexivity.
Qed.

(** With more digits the integer part is taken from the rounded value; a sign
    stays on the integer operand; fractions beyond int64 are errors. *)
Theorem C11_long_refuted : exists x o, nm_ok x /\ nm_neg x = false /\
  new_operands_string (nm_text x) = Ok o /\ oI o <> Qfloor (nm_value x).
Proof.
  exists (Num false (bs "0") (Some (bs "99999999999999999")) None). eexists.
  split; [split; [discriminate|]; split; [repeat constructor|split; [discriminate|repeat constructor]]|].
  split; [reflexivity|]. split; [vm_compute; reflexivity|]. vm_compute. discriminate.
Qed.
Theorem C11_negative_refuted : exists x o, nm_ok x /\
  new_operands_string (nm_text x) = Ok o /\ oI o <> Qfloor (nm_value x).
Proof.
  exists (Num true (bs "1") None None). eexists.
  split; [split; [discriminate|]; split; [repeat constructor|exact I]|].
  split; [vm_compute; reflexivity|]. vm_compute. discriminate.
Qed.
Theorem C11_long_fraction_refuted : exists x, nm_ok x /\ nm_neg x = false /\
  new_operands_string (nm_text x) = Err.
Proof.
  exists (Num false (bs "1") (Some (bs "99999999999999999999")) None).
  split; [split; [discriminate|]; split; [repeat constructor|split; [discriminate|repeat constructor]]|].
  split; [reflexivity|]. vm_compute. reflexivity.
Qed.

(** ** C12 *)
Definition same_ops (a b : ops) : Prop :=
  (oN a == oN b)%Q /\ oI a = oI b /\ oV a = oV b /\ oW a = oW b /\ oF a = oF b /\ oT a = oT b /\ oC a = oC b.

(** int and int64: sign does not matter. *)
Theorem C12_int_sign : forall z, minInt64 < z <= maxInt64 ->
  new_operands (CInt z) = new_operands (CInt (- z)) /\
  exists o, new_operands (CInt z) = Ok o /\ oI o = Z.abs z.
Proof.
  intros z B. unfold new_operands, new_operands_int. unfold minInt64, maxInt64 in *.
  assert (A : (if (z <? 0) && negb (z =? -9223372036854775808) then - z else z) = Z.abs z).
  { destruct ((z <? 0) && negb (z =? -9223372036854775808)) eqn:X; lia. }
  assert (A2 : (if (- z <? 0) && negb (- z =? -9223372036854775808) then - - z else - z) = Z.abs z).
  { destruct ((- z <? 0) && negb (- z =? -9223372036854775808)) eqn:X; lia. }
  rewrite A, A2. split; [reflexivity|]. eexists. split; reflexivity.
Qed.

(** Non-negative integers: every type up to 10^6, strings up to 2^53. *)
Theorem C12_types_partial : forall k z, 0 <= z < 1000000 ->
  exists o1 o2 o3, new_operands (CInt z) = Ok o1 /\ new_operands (CKind k z) = Ok o2 /\
    new_operands (CString (utoa z)) = Ok o3 /\ same_ops o1 o2 /\ same_ops o1 o3.
Proof.
  intros k z B. destruct (int_string z ltac:(lia)) as (q & S & Q).
  assert (F : f64_of_int z = z) by (apply f64_of_int_small; unfold two53; lia).
  assert (N : new_operands (CInt z) = Ok (Ops (inject_Z z) z 0 0 0 0 0)).
  { unfold new_operands, new_operands_int. destruct ((z <? 0) && negb (z =? minInt64)) eqn:X; [lia|].
    cbv zeta. rewrite F. reflexivity. }
  exists (Ops (inject_Z z) z 0 0 0 0 0), (Ops q z 0 0 0 0 0), (Ops q z 0 0 0 0 0).
  split; [exact N|]. split.
  { unfold new_operands. rewrite F. cbv zeta. destruct (z <? 0) eqn:X; [lia|].
    rewrite fmt_v_int by lia. exact S. }
  split; [exact S|]. unfold same_ops. cbn [oN oI oV oW oF oT oC].
  split; (split; [symmetry; exact Q|repeat split]).
Qed.
Theorem C12_string_int : forall z, 0 <= z <= 9007199254740992 ->
  exists o1 o3, new_operands (CInt z) = Ok o1 /\ new_operands (CString (utoa z)) = Ok o3 /\ same_ops o1 o3.
Proof.
  intros z B. destruct (int_string z ltac:(lia)) as (q & S & Q).
  assert (F : f64_of_int z = z) by (apply f64_of_int_small; unfold two53; lia).
  exists (Ops (inject_Z z) z 0 0 0 0 0), (Ops q z 0 0 0 0 0). split.
  { unfold new_operands, new_operands_int. destruct ((z <? 0) && negb (z =? minInt64)) eqn:X; [lia|].
    cbv zeta. rewrite F. reflexivity. }
  split; [exact S|]. split; [symmetry; exact Q|repeat split].
Qed.

Example C12_example : exists o, new_operands (CKind Kuint8 21) = Ok o /\ oI o = 21 /\
  exists o', new_operands (CInt (-21)) = Ok o' /\ oI o' = 21.
Proof.
  eexists. split; [vm_compute; reflexivity|]. split; [reflexivity|].
  eexists. split; [vm_compute; reflexivity|]. reflexivity.
Qed.

(** A negative int32 keeps its sign in the integer operand; a uint32 from 10^6
    on is formatted with an exponent and refused. *)
Theorem C12_negative_refuted : exists z o1 o2, kmin Kint32 <= z <= kmax Kint32 /\
  new_operands (CInt z) = Ok o1 /\ new_operands (CKind Kint32 z) = Ok o2 /\ oI o1 <> oI o2.
Proof.
  exists (-1). eexists. eexists. split; [vm_compute; split; discriminate|].
  split; [vm_compute; reflexivity|]. split; [vm_compute; reflexivity|]. discriminate.
Qed.
Theorem C12_large_refuted : exists z o, kmin Kuint32 <= z <= kmax Kuint32 /\
  new_operands (CInt z) = Ok o /\ new_operands (CKind Kuint32 z) = Err.
Proof.
  exists 1234567. eexists. split; [vm_compute; split; discriminate|].
  split; vm_compute; reflexivity.
Qed.

(** ** C13.  [raw'] is the rule map in another iteration order. *)
Theorem C13_order_independent : forall fuel raw raw' cats rules o, Permutation raw raw' ->
  parse_rules fuel raw = Ok (cats, rules) ->
  (forall e, In e rules -> exists b, eval_rule (snd e) o = Ok b) ->
  (forall e e', In e rules -> In e' rules -> eval_rule (snd e) o = Ok true ->
     eval_rule (snd e') o = Ok true -> fst e = fst e') ->
  exists cats' rules', parse_rules fuel raw' = Ok (cats', rules') /\
    (forall c, In c cats <-> In c cats') /\
    form_rules rules o = form_rules rules' o.
Proof.
  intros fuel raw raw' cats rules o PM P V U. unfold parse_rules in *.
  destruct (parse_all fuel raw) as [rs| | |] eqn:PA; cbn [rbind] in P; try discriminate.
  cbv zeta in P. injection P as <- <-.
  destruct (parse_all_perm fuel raw raw' PM rs PA) as (rs' & PA' & PR). rewrite PA'. cbn [rbind]. cbv zeta.
  eexists; eexists. split; [reflexivity|].
  pose proof (Permutation_map fst PM) as PC.
  split.
  - intro c.
    assert (EX : existsb (cat_eqb Other) (map fst raw) = existsb (cat_eqb Other) (map fst raw')).
    { apply eq_true_iff_eq. rewrite !existsb_exists. split; intros (y & I & E); exists y; (split; [|exact E]).
      - eapply Permutation_in; eauto.
      - eapply Permutation_in; [apply Permutation_sym; exact PC|exact I]. }
    rewrite <- EX. destruct (existsb (cat_eqb Other) (map fst raw)); rewrite ?in_app_iff;
      (split; intro I; [|]); try (destruct I as [I|I]; [left|right; exact I]);
      first [eapply Permutation_in; [exact PC|exact I]|eapply Permutation_in; [apply Permutation_sym; exact PC|exact I]].
  - apply form_rules_perm; assumption.
Qed.

Example C13_example : exists cats rules o,
  parse_rules 5 [(One, bs "i = 1 and v = 0"); (Few, bs "i = 2..4 and v = 0")] = Ok (cats, rules) /\
  new_operands (CInt 3) = Ok o /\ form_rules rules o = Ok Few /\ form_rules (rev rules) o = Ok Few /\
  cats = [One; Few; Other].
Proof.
  eexists; eexists; eexists. split; [vm_compute; reflexivity|]. split; [vm_compute; reflexivity|].
  split; [vm_compute; reflexivity|]. split; vm_compute; reflexivity.
Qed.

(** What any order can give: the category of a rule that holds, Other if none
    does, a panic if a rule panics; and each of these for some order. *)
Theorem C13_possible : forall rules o,
  (forall c, (exists rules', Permutation rules rules' /\ form_rules rules' o = Ok c) <->
     (exists r, In (c, r) rules /\ eval_rule r o = Ok true) \/
     (c = Other /\ forall e, In e rules -> eval_rule (snd e) o = Ok false)) /\
  ((exists rules', Permutation rules rules' /\ form_rules rules' o = Panic) <->
     exists e, In e rules /\ eval_rule (snd e) o = Panic).
Proof.
  intros rules o.
  assert (G : forall rs, match form_rules rs o with
     | Ok c => (exists r, In (c, r) rs /\ eval_rule r o = Ok true) \/ (c = Other /\ forall e, In e rs -> eval_rule (snd e) o = Ok false)
     | Panic => exists e, In e rs /\ eval_rule (snd e) o = Panic
     | _ => True end).
  { induction rs as [|[c r] rs IH]; cbn [form_rules].
    - right. split; [reflexivity|]. intros e [].
    - destruct (eval_rule r o) as [[|]| | |] eqn:E; cbn [rbind]; try exact I.
      + left. exists r. split; [left; reflexivity|exact E].
      + destruct (form_rules rs o) as [c'| | |]; try exact I.
        * destruct IH as [(r' & I & T)|[-> N]]; [left; exists r'; split; [right; exact I|exact T]|right].
          split; [reflexivity|]. intros e [<-|I]; [exact E|exact (N e I)].
        * destruct IH as (e & I & P). exists e. split; [right; exact I|exact P].
      + exists (c, r). split; [left; reflexivity|exact E]. }
  assert (FIRST : forall e, In e rules -> exists rs, Permutation rules (e :: rs)).
  { intros e I. apply in_split in I as (a & b & ->). exists (a ++ b). apply Permutation_sym, Permutation_middle. }
  split; [intro c|]; split.
  - intros (rs & PM & F). specialize (G rs). rewrite F in G. destruct G as [(r & I & T)|[-> N]].
    + left. exists r. split; [|exact T]. eapply Permutation_in; [apply Permutation_sym; exact PM|exact I].
    + right. split; [reflexivity|]. intros e I. apply N. eapply Permutation_in; [exact PM|exact I].
  - intros [(r & I & T)|[-> N]].
    + destruct (FIRST _ I) as (rs & PM). exists ((c, r) :: rs). split; [exact PM|]. cbn [form_rules]. now rewrite T.
    + exists rules. split; [apply Permutation_refl|]. clear G FIRST. induction rules as [|[c r] rs IH]; [reflexivity|].
      cbn [form_rules]. pose proof (N (c, r) (or_introl eq_refl)) as E. cbn [snd] in E. rewrite E. cbn [rbind].
      apply IH. intros e I. apply N. right. exact I.
  - intros (rs & PM & F). specialize (G rs). rewrite F in G. destruct G as (e & I & P). exists e. split; [|exact P].
    eapply Permutation_in; [apply Permutation_sym; exact PM|exact I].
  - intros ([c r] & I & P). destruct (FIRST _ I) as (rs & PM). exists ((c, r) :: rs). split; [exact PM|].
    cbn [form_rules]. cbn [snd] in P. now rewrite P.
Qed.

(** A rule with samples only matches everything, so the order decides. *)
Theorem C13_order_refuted : exists raw raw' o cats rules cats' rules', Permutation raw raw' /\
  parse_rules 20 raw = Ok (cats, rules) /\ parse_rules 20 raw' = Ok (cats', rules') /\
  form_rules rules o <> form_rules rules' o.
Proof.
  exists [(One, bs "n = 1"); (Other, bs "@integer 0, 2~16")],
         [(Other, bs "@integer 0, 2~16"); (One, bs "n = 1")], (new_operands_int 1).
  do 4 eexists. split; [apply perm_swap|]. split; [vm_compute; reflexivity|]. split; [vm_compute; reflexivity|].
  vm_compute. discriminate.
Qed.

(** ** C14.  Every condition, written with its tokens separated by white space
    or commas, optionally followed by samples, is accepted and evaluates to
    its meaning. *)
Lemma small_int64 : forall c, cond_small c -> cond_int64 c.
Proof.
  induction c as [neg e l|a IHa b IHb|a IHa b IHb]; cbn [cond_small cond_int64]; [|tauto|tauto].
  intros [M F]. unfold small, maxInt64 in *. split; [destruct (x_mod e); [lia|exact I]|].
  eapply Forall_impl; [|exact F]. intros [v|a b] H; cbn [elem_small elem_int64] in *; unfold small, maxInt64 in *; lia.
Qed.

Lemma eval_holds : forall c sm o, cond_small c -> small_ops o -> clear_of_integers (oN o) ->
  exists b, eval_rule (CRule (Some (node_of c)) sm) o = Ok b /\ (b = true <-> holds c (to_uops o)).
Proof.
  intros c sm o S SO CL. exists (holdsb c (to_uops o)). split.
  - unfold eval_rule. cbn [cr_root]. apply eval_cnode_view; assumption.
  - symmetry. apply holdsb_spec. apply cond_small_mods. exact S.
Qed.

Theorem C14_rule_accepted_partial : forall c ts sts s, is_or c -> cond_small c ->
  cond_toks c ts -> sample_toks sts -> spaced (ts ++ sts) s ->
  exists F, forall fuel, (F <= fuel)%nat -> exists r, parse_rule fuel s = Ok r /\
    forall o, small_ops o -> clear_of_integers (oN o) ->
      exists b, eval_rule r o = Ok b /\ (b = true <-> holds c (to_uops o)).
Proof.
  intros c ts sts s O S T SM SP.
  destruct (parse_rule_full c ts sts s O T SM SP (small_int64 c S)) as (F & H). exists F.
  intros fuel L. destruct (H fuel L) as (sm & E). exists (CRule (Some (node_of c)) sm). split; [exact E|].
  intros o SO CL. apply eval_holds; assumption.
Qed.

(** In particular for the usual spelling, as in the CLDR data. *)
Theorem C14_cldr_spelling : forall c fuel, is_or c -> cond_small c -> cond_print c ->
  exists r, parse_rule fuel (cond_text c) = Ok r /\
    forall o, small_ops o -> clear_of_integers (oN o) ->
      exists b, eval_rule r o = Ok b /\ (b = true <-> holds c (to_uops o)).
Proof.
  intros c fuel O S P. destruct (cond_text_toks c P) as (ts & T & SP).
  exists (CRule (Some (node_of c)) []). split.
  - exact (parse_rule_ok c ts (cond_text c) fuel O T SP (small_int64 c S)).
  - intros o SO CL. apply eval_holds; assumption.
Qed.

Definition cond_ex : cond :=
  Or (And (Rel false (Expr Ov None) [Val 0]) (Rel true (Expr Oi (Some 100)) [Range 11 14; Val 99]))
     (Rel false (Expr On None) [Val 7]).
Example C14_example : cond_text cond_ex = bs "v = 0 and i % 100 != 11..14,99 or n = 7" /\
  is_or cond_ex /\ cond_small cond_ex /\ cond_print cond_ex /\
  exists r, parse_rule 3 (bs "v = 0 and i mod 100 != 11..14 , 99 or n = 7 @integer 7, 107~109, ...") = Ok r /\
    map (fun z => eval_rule r (new_operands_int z)) [5; 12; 99; 107] = [Ok true; Ok false; Ok false; Ok true].
Proof.
  split; [vm_compute; reflexivity|].
  split; [cbn; split; [split; discriminate|discriminate]|].
  split; [apply cond_smallb_ok; reflexivity|].
  split; [cbn; repeat split; (discriminate || lia || (repeat constructor; cbn; lia))|].
  eexists. split; [vm_compute; reflexivity|]. vm_compute. reflexivity.
Qed.

(** White space is needed around operators, and ranges cannot end in 0. *)
Theorem C14_spaces_refuted : parse_rule 5 (bs "n=1") = Err /\
  parse_rule 5 (bs "n % 10=1") = Err.
Proof. split; vm_compute; reflexivity. Qed.
Theorem C14_zero_range_refuted : exists c, is_or c /\ cond_small c /\ parse_rule 5 (cond_text c) = Err.
Proof.
  exists (Rel false (Expr On None) [Range 0 0]). split; [discriminate|].
  split; [apply cond_smallb_ok; reflexivity|]. vm_compute. reflexivity.
Qed.

(** ** C15 *)
Theorem C15_parse_no_panic : forall fuel s, parse_rule fuel s <> Panic.
Proof. exact parse_rule_no_panic. Qed.

(** Without sample ranges parsing ends; the fuel is only used by them. *)
Theorem C15_parse_terminates_partial : forall fuel s, ~ In "~"%char s -> parse_rule fuel s <> OutOfFuel.
Proof. exact parse_rule_terminates. Qed.

(** A sample range ends exactly if it ascends and both ends have the same
    number of places; it then lists the numbers in between. *)
Theorem C15_sample_range : forall x y, sample_num x -> sample_num y ->
  ((exists fuel l, parse_sample_range fuel (nm_text x ++ "~"%char :: nm_text y) = Ok l) <->
   (same_places x y /\ nm_digits x <= nm_digits y)) /\
  (same_places x y -> nm_digits x <= nm_digits y ->
   exists zs, steps_from x y zs /\
     forall fuel, (Z.to_nat (nm_digits y - nm_digits x) < fuel)%nat ->
     parse_sample_range fuel (nm_text x ++ "~"%char :: nm_text y) = Ok (map nm_text zs)).
Proof.
  intros x y SX SY. unfold parse_sample_range. rewrite split_sample by assumption.
  assert (UP : same_places x y -> nm_digits x <= nm_digits y ->
   exists zs, steps_from x y zs /\
     forall fuel, (Z.to_nat (nm_digits y - nm_digits x) < fuel)%nat ->
     sample_loop fuel (nm_text x) (nm_text y) = Ok (map nm_text zs)).
  { intros SP L. set (n := Z.to_nat (nm_digits y - nm_digits x)).
    destruct (sample_loop_up n x y (S n) SX SY SP ltac:(lia) ltac:(lia)) as (zs & E & F & M).
    exists zs. split; [split; assumption|]. intros fuel G. apply (sample_loop_mono (S n)); [exact E|lia]. }
  split; [|exact UP]. split.
  - intros (fuel & l & H). exact (sample_loop_ok_inv fuel x y l SX SY H).
  - intros [SP L]. destruct (UP SP L) as (zs & _ & H).
    exists (S (Z.to_nat (nm_digits y - nm_digits x))). eexists. apply H. lia.
Qed.

Example C15_sample_example :
  parse_sample_range 10 (bs "0.8~1.1") = Ok [bs "0.8"; bs "0.9"; bs "1.0"; bs "1.1"] /\
  sample_num (Num false (bs "0") (Some (bs "8")) None) /\ sample_num (Num false (bs "1") (Some (bs "1")) None).
Proof.
  split; [vm_compute; reflexivity|].
  split; (split; [split; [discriminate|]; split; repeat constructor|]);
    (split; [reflexivity|split; [reflexivity|]]); [left; reflexivity|right; discriminate].
Qed.

Theorem C15_parse_hang_refuted : exists s, forall fuel, parse_rule fuel s = OutOfFuel.
Proof.
  exists (bs "n = 1 @integer 5~3"). intro fuel.
  set (x := Num false (bs "5") None None). set (y := Num false (bs "3") None None).
  assert (SX : sample_num x) by (split; [split; [discriminate|]; split; [constructor; [reflexivity|constructor]|constructor]|]; split; [reflexivity|split; [reflexivity|right; discriminate]]).
  assert (SY : sample_num y) by (split; [split; [discriminate|]; split; [constructor; [reflexivity|constructor]|constructor]|]; split; [reflexivity|split; [reflexivity|right; discriminate]]).
  assert (H : sample_loop fuel (bs "5") (bs "3") = OutOfFuel).
  { change (bs "5") with (nm_text x). change (bs "3") with (nm_text y).
    destruct (sample_loop_never_err fuel (nm_text x) (nm_text y)) as [A B].
    destruct (sample_loop fuel (nm_text x) (nm_text y)) as [l| | |] eqn:E; try congruence.
    destruct (sample_loop_ok_inv fuel x y l SX SY E) as [_ L]. vm_compute in L. exfalso. apply L. reflexivity. }
  assert (G : parse_rule fuel (bs "n = 1 @integer 5~3") =
    (do l <- (do rs <- sample_loop fuel (bs "5") (bs "3") ; Ok (rs ++ [])) ;
     Ok (CRule (Some (CRel false (CExpr (bs "n") None) [RVal 1])) l))).
  { vm_compute. reflexivity. }
  rewrite G, H. reflexivity.
Qed.

(** Evaluation: rules in lower-case ASCII, without modulus 0 and without an
    upper end of 2^63-1. *)
Fixpoint node_bounds (n : cnode) : Prop :=
  match n with
  | CRel _ e l => ce_mod e <> Some 0 /\
      Forall (fun x => match x with RRange _ b => b <> maxInt64 | RVal _ => True end) l
  | CAnd a b | COr a b => node_bounds a /\ node_bounds b
  end.
Lemma safe_of : forall n, node_ops operand_lit n -> node_bounds n -> node_safe n.
Proof.
  induction n as [neg e l|a IHa b IHb|a IHa b IHb]; cbn [node_ops node_bounds node_safe]; tauto.
Qed.
Theorem C15_eval_total_partial : forall fuel s r, lower_text s -> parse_rule fuel s = Ok r ->
  match cr_root r with Some n => node_bounds n | None => True end ->
  forall o, exists b, eval_rule r o = Ok b.
Proof.
  intros fuel s r L P B o. pose proof (parse_rule_operands fuel s r L P) as N. unfold eval_rule.
  destruct (cr_root r) as [n|]; [|eauto]. apply eval_safe. apply safe_of; assumption.
Qed.
Example C15_eval_example : exists r, lower_text (bs "n % 10 = 2..4") /\
  parse_rule 3 (bs "n % 10 = 2..4") = Ok r /\
  match cr_root r with Some n => node_bounds n | None => True end.
Proof.
  eexists. split; [repeat constructor|]. split; [vm_compute; reflexivity|].
  cbn. split; [discriminate|]. repeat constructor. discriminate.
Qed.
Theorem C15_operand_panic_refuted : exists s r, parse_rule 3 s = Ok r /\ forall o, eval_rule r o = Panic.
Proof.
  exists (bs "N = 1"). eexists. split; [vm_compute; reflexivity|]. intro o. reflexivity.
Qed.
Theorem C15_modulus_panic_refuted : exists s r, lower_text s /\ parse_rule 3 s = Ok r /\
  forall o, eval_rule r o = Panic.
Proof.
  exists (bs "i % 0 = 1"). eexists. split; [repeat constructor|]. split; [vm_compute; reflexivity|].
  intro o. reflexivity.
Qed.

Print Assumptions C09_builtin_is_rule_text.
Print Assumptions C09_builtin_numeral_partial.
Print Assumptions C09_tolerance_refuted.
Print Assumptions C10_category_of_language.
Print Assumptions C10_parsed_category.
Print Assumptions C11_operands_partial.
Print Assumptions C11_long_refuted.
Print Assumptions C11_negative_refuted.
Print Assumptions C11_long_fraction_refuted.
Print Assumptions C12_int_sign.
Print Assumptions C12_types_partial.
Print Assumptions C12_string_int.
Print Assumptions C12_negative_refuted.
Print Assumptions C12_large_refuted.
Print Assumptions C13_order_independent.
Print Assumptions C13_possible.
Print Assumptions C13_order_refuted.
Print Assumptions C14_rule_accepted_partial.
Print Assumptions C14_cldr_spelling.
Print Assumptions C14_spaces_refuted.
Print Assumptions C14_zero_range_refuted.
Print Assumptions C15_parse_no_panic.
Print Assumptions C15_parse_terminates_partial.
Print Assumptions C15_sample_range.
Print Assumptions C15_parse_hang_refuted.
Print Assumptions C15_eval_total_partial.
Print Assumptions C15_operand_panic_refuted.
Print Assumptions C15_modulus_panic_refuted.
