From Coq Require Import String Ascii List ZArith QArith Qabs Qround Bool Lia ZifyBool.
From Verif Require Import Base BaseProofs NumModel F64Model F64Proofs CldrModel CldrSpec FloatTextProofs CldrKindProofs CldrOperandProofs CldrAllProofs CldrFloatSpec NearSpec NearProofs.
Import ListNotations.
Open Scope Z_scope.

Definition full (neg : bool) (ds : bytes) (dp : Z) : numeral :=
  if dp <=? 0 then Num neg (bs "0") (Some (repeat "0"%char (Z.to_nat (- dp)) ++ ds)) None
  else if dp <? Z.of_nat (length ds) then Num neg (firstn (Z.to_nat dp) ds) (Some (skipn (Z.to_nat dp) ds)) None
  else Num neg (ds ++ repeat "0"%char (Z.to_nat (dp - Z.of_nat (length ds)))) None None.

Lemma zeros_digits : forall n, all_digits (repeat "0"%char n).
Proof. induction n; constructor; auto. Qed.
Lemma all_app : forall a b, all_digits a -> all_digits b -> all_digits (a ++ b).
Proof. intros. now apply Forall_app. Qed.
Lemma digits_firstn : forall n a, all_digits a -> all_digits (firstn n a) /\ all_digits (skipn n a).
Proof. intros n a D. rewrite <- (firstn_skipn n a) in D. now apply Forall_app in D. Qed.

Lemma full_ok : forall neg ds dp, all_digits ds -> ds <> [] -> nm_ok (full neg ds dp).
Proof.
  intros neg ds dp D N. unfold full. destruct (dp <=? 0) eqn:A; [|destruct (dp <? Z.of_nat (length ds)) eqn:B]; unfold nm_ok; cbn [nm_ip nm_fp].
  - split; [discriminate|]. split; [repeat constructor|]. split; [|apply all_app; [apply zeros_digits|exact D]]. intro X. apply app_eq_nil in X. tauto.
  - destruct (digits_firstn (Z.to_nat dp) ds D) as [D1 D2]. split.
    + intro X. apply (f_equal (@length _)) in X. rewrite firstn_length in X. cbn [length] in X. lia.
    + split; [exact D1|]. split; [|exact D2]. intro X. apply (f_equal (@length _)) in X. rewrite skipn_length in X. cbn [length] in X. lia.
  - split; [intro X; apply app_eq_nil in X; tauto|]. split; [|exact I]. apply all_app; [exact D|apply zeros_digits].
Qed.
Lemma full_text : forall neg ds dp, ds <> [] -> -4 < dp <= 6 -> fmt_v neg ds dp = nm_text (full neg ds dp).
Proof.
  intros neg [|d ds] dp N M; [congruence|]. unfold fmt_v. cbv zeta. replace ((dp - 1 <? -4) || (6 <=? dp - 1)) with false by lia.
  unfold full. destruct (dp <=? 0) eqn:A; [|destruct (dp <? Z.of_nat (length (d :: ds))) eqn:B]; unfold nm_text; cbn [nm_neg nm_ip nm_fp nm_exp]; rewrite ?app_nil_r; f_equal.
  - replace (0 <? dp) with false by lia. replace (dp <? Z.of_nat (length (d :: ds))) with true by (cbn [length]; lia).
    replace (Z.to_nat dp) with 0%nat by lia. reflexivity.
  - replace (0 <? dp) with true by lia. replace (Z.to_nat (dp - Z.of_nat (length (d :: ds)))) with 0%nat by lia. replace (Z.to_nat (- dp)) with 0%nat by lia.
    cbn [repeat app]. now rewrite ?app_nil_r.
  - replace (0 <? dp) with true by lia. rewrite firstn_all2 by lia. now rewrite ?app_nil_r.
Qed.
Lemma dec_zeros : forall n ds, all_digits ds -> dec_val (repeat "0"%char n ++ ds) = dec_val ds.
Proof.
  intros n ds D. rewrite dec_val_app by now apply all_digits_b. rewrite <- (app_nil_l (repeat _ _)), dec_val_zeros. change (dec_val []) with 0. lia.
Qed.
Lemma full_numbers : forall neg ds dp, all_digits ds -> Z.of_nat (nm_v (full neg ds dp)) = behind ds dp /\ nm_e (full neg ds dp) = 0%nat /\ nm_neg (full neg ds dp) = neg /\
  nm_scaled (full neg ds dp) = dec_val ds * 10 ^ Z.max 0 (dp - Z.of_nat (length ds)).
Proof.
  intros neg ds dp D. unfold full. destruct (dp <=? 0) eqn:A; [|destruct (dp <? Z.of_nat (length ds)) eqn:B];
    unfold nm_v, nm_scaled, nm_digits, nm_fdigits, nm_e, behind; cbn [nm_ip nm_fp nm_exp nm_neg].
  - rewrite app_length, repeat_length. repeat split; [lia|].
    rewrite Z.max_l by lia. change (p10 (0 - _)) with 1. change (bs "0" ++ repeat "0"%char (Z.to_nat (- dp)) ++ ds) with (repeat "0"%char (S (Z.to_nat (- dp))) ++ ds). rewrite dec_zeros by exact D. reflexivity.
  - rewrite skipn_length. repeat split; [lia|]. rewrite firstn_skipn. rewrite Z.max_l by lia. reflexivity.
  - repeat split; [cbn [length]; lia|]. rewrite app_nil_r, dec_val_zeros. rewrite Z.max_r by lia. rewrite Z2Nat.id by lia. cbn [length]. change (p10 (0 - 0)) with 1. lia.
Qed.
Lemma full_value : forall neg ds dp, all_digits ds -> nm_value (full neg ds dp) = float_value ds dp.
Proof.
  intros neg ds dp D. destruct (full_numbers neg ds dp D) as (V & _ & _ & S). unfold nm_value, float_value, p10. rewrite S, V. unfold behind. cbv zeta.
  destruct (0 <=? dp - Z.of_nat (length ds)) eqn:C.
  - rewrite Z.max_r by lia. rewrite Z.max_l by lia. reflexivity.
  - rewrite Z.max_l by lia. rewrite Z.max_r by lia. rewrite Z.mul_1_r. do 2 f_equal. f_equal. lia.
Qed.

Lemma last_digit : forall r d, all_digits (r ++ [d]) -> d <> "0"%char -> dec_val (r ++ [d]) mod 10 <> 0.
Proof.
  intros r d D N. apply Forall_app in D as [_ D]. inversion D as [|? ? X _]; subst. rewrite dec_val_app by (cbn; now rewrite X). change (10 ^ Z.of_nat (length [d])) with 10.
  change (dec_val [d]) with (0 * 10 + digit_val d). rewrite Z.add_comm, Z_mod_plus_full, Z.mul_0_l, Z.add_0_l. pose proof (digit_val_range d X) as R. rewrite Z.mod_small by lia.
  intro Z0. apply N. clear - X Z0. destruct d as [[] [] [] [] [] [] [] []]; vm_compute in X, Z0; try discriminate X; try discriminate Z0; reflexivity.
Qed.
Lemma no_zeros : forall v f w t, without_zeros v f w t -> (v = 0 /\ f = 0) \/ f mod 10 <> 0 -> w = v /\ t = f.
Proof.
  intros v f w t ((W0 & W1) & F & _) H. destruct (Z.eq_dec w v) as [->|N].
  - split; [reflexivity|]. rewrite Z.sub_diag in F. lia.
  - exfalso. destruct H as [[-> _]|H]; [lia|]. apply H. rewrite F. replace (v - w) with (1 + (v - w - 1)) by lia. rewrite Z.pow_add_r by lia. change (10 ^ 1) with 10.
    rewrite (Z.mul_comm 10), Z.mul_assoc. apply Z_mod_mult.
Qed.
Lemma p10n : forall k, 0 <= k -> p10 (Z.to_nat k) = 10 ^ k.
Proof. intros k K. unfold p10. now rewrite Z2Nat.id. Qed.

Lemma full_fraction : forall neg ds dp, all_digits ds ->
  nm_scaled (full neg ds dp) mod p10 (nm_v (full neg ds dp)) = fraction ds dp.
Proof.
  intros neg ds dp D. destruct (full_numbers neg ds dp D) as (V & _ & _ & S). unfold p10, fraction. rewrite V, S.
  destruct (behind ds dp =? 0) eqn:B.
  - apply Z.eqb_eq in B. rewrite B. apply Z.mod_1_r.
  - unfold behind in *. rewrite Z.max_l by lia. now rewrite Z.mul_1_r.
Qed.
Lemma fraction_small : forall ds dp, significant ds -> 0 <= fraction ds dp <= maxInt64 /\ (behind ds dp = 0 /\ fraction ds dp = 0 \/ fraction ds dp mod 10 <> 0).
Proof.
  intros ds dp (D & L & _ & (r & d & E & N)). unfold fraction. destruct (behind ds dp =? 0) eqn:B; [split; [unfold maxInt64; lia|left; lia]|].
  assert (BP : 0 < behind ds dp) by (unfold behind in *; lia). pose proof (dec_val_bound ds (proj1 (all_digits_b ds) D)) as DB.
  assert (P : 10 ^ Z.of_nat (length ds) <= 10 ^ 17) by (apply Z.pow_le_mono_r; lia). change (10 ^ 17) with 100000000000000000 in P.
  assert (M : 0 < 10 ^ behind ds dp) by (apply Z.pow_pos_nonneg; lia). split.
  - pose proof (Z.mod_pos_bound (dec_val ds) _ M). pose proof (Z.mod_le (dec_val ds) _ (proj1 DB) M). unfold maxInt64. lia.
  - right. replace (10 ^ behind ds dp) with (10 * 10 ^ (behind ds dp - 1)).
    + assert (0 < 10 ^ (behind ds dp - 1)) by (apply Z.pow_pos_nonneg; lia). rewrite Z.rem_mul_r by lia.
      rewrite (Z.mul_comm 10 (_ mod _)), Z_mod_plus_full, Z.mod_mod by lia. rewrite E. apply last_digit; [now rewrite <- E|exact N].
    + rewrite <- Z.pow_succ_r by lia. f_equal. lia.
Qed.

Lemma medium_ops : forall neg ds dp, significant ds -> medium dp -> exists o, new_operands (CFloat neg ds dp) = Ok o /\
  oV o = behind ds dp /\ oW o = behind ds dp /\ oF o = fraction ds dp /\ oT o = fraction ds dp /\ oC o = 0 /\ float_near neg (float_value ds dp) (oN o) (oI o).
Proof.
  intros neg ds dp S M. pose proof S as (D & L & (d0 & r0 & E0 & N0) & _). assert (NE : ds <> []) by (rewrite E0; discriminate).
  pose proof (full_ok neg ds dp D NE) as OK. destruct (full_numbers neg ds dp D) as (V & EX & NG & SC). pose proof (full_value neg ds dp D) as FV.
  pose proof (full_fraction neg ds dp D) as FF. destruct (fraction_small ds dp S) as [FS FZ].
  assert (LIM : (nm_value (full neg ds dp) < inject_Z float_limit)%Q).
  { apply value_limit. rewrite SC. pose proof (dec_val_bound ds (proj1 (all_digits_b ds) D)) as DB. unfold medium in M.
    assert (P : 10 ^ Z.of_nat (length ds) <= 10 ^ 17) by (apply Z.pow_le_mono_r; lia).
    assert (Q : 10 ^ Z.max 0 (dp - Z.of_nat (length ds)) <= 10 ^ 6) by (apply Z.pow_le_mono_r; lia).
    assert (Q0 : 0 < 10 ^ Z.max 0 (dp - Z.of_nat (length ds))) by (apply Z.pow_pos_nonneg; lia).
    pose proof (p10_pos (nm_v (full neg ds dp))) as PP. assert (FL : 10 ^ 23 <= float_limit) by (vm_compute; discriminate).
    change (10 ^ 23) with (10 ^ 17 * 10 ^ 6) in FL. set (a := 10 ^ 17) in *. set (b := 10 ^ 6) in *. set (c := 10 ^ Z.max 0 _) in *. set (e := float_limit) in *. set (p := p10 _) in *.
    clearbody a b c e p. assert (dec_val ds * c < a * b) by nia. nia. }
  destruct (numeral_good (full neg ds dp) OK) as (q & w & t & O & W & Q0 & R); [rewrite EX; unfold maxInt64; lia|rewrite FF; lia|exact LIM|].
  rewrite FF, V, EX, NG in *. destruct (no_zeros _ _ _ _ W FZ) as [-> ->].
  eexists. split; [cbn [new_operands]; rewrite full_text by (try exact NE; exact M); exact O|]. cbn [oN oI oV oW oF oT oC]. do 5 (split; [lia|]). split; [|now apply trunc_any].
  rewrite <- FV. apply round_nearest; [now apply scaled_nonneg|apply p10_pos|exact R].
Qed.

Lemma exp_ops : forall neg ds dp, significant ds -> ~ medium dp -> (float_value ds dp < inject_Z (2 ^ 1024 - 2 ^ 970))%Q ->
  (length ds = 1%nat -> exists o, new_operands (CFloat neg ds dp) = Ok o /\
     oV o = 0 /\ oW o = 0 /\ oF o = 0 /\ oT o = 0 /\ oC o = 0 /\ float_near neg (float_value ds dp) (oN o) (oI o)) /\
  (length ds <> 1%nat -> new_operands (CFloat neg ds dp) = Err).
Proof.
  intros neg ds dp (D & _ & (d & r & E & N) & _) M L. subst ds. inversion D as [|? ? DD DR]; subst. split; intro LN.
  - destruct r; [|discriminate LN]. cbn [new_operands]. unfold medium in M.
    assert (T : fmt_v neg [d] dp = sgn neg ++ d :: fmt_exp (dp - 1)).
    { unfold fmt_v. cbv zeta. replace ((dp - 1 <? -4) || (6 <=? dp - 1)) with true by lia. reflexivity. }
    rewrite T. pose proof (digit_val_range d DD) as DV.
    assert (FVE : float_value [d] dp = if 0 <=? dp - 1 then Qmake (digit_val d * 10 ^ (dp - 1)) (Z.to_pos 1) else Qmake (digit_val d) (Z.to_pos (10 ^ (- (dp - 1))))).
    { unfold float_value. cbv zeta. change (Z.of_nat (length [d])) with 1. change (dec_val [d]) with (0 * 10 + digit_val d). rewrite Z.mul_0_l, Z.add_0_l. destruct (0 <=? dp - 1); reflexivity. }
    assert (G : forall n m, 0 <= n -> 0 < m -> float_value [d] dp = Qmake n (Z.to_pos m) ->
      (if 0 <=? dp - 1 then f64_round (digit_val d * 10 ^ (dp - 1)) 1 else f64_round (digit_val d) (10 ^ (- (dp - 1)))) = f64_round n m ->
      exists o, new_operands_string (sgn neg ++ d :: fmt_exp (dp - 1)) = Ok o /\ oV o = 0 /\ oW o = 0 /\ oF o = 0 /\ oT o = 0 /\ oC o = 0 /\ float_near neg (float_value [d] dp) (oN o) (oI o)).
    { intros n m N0 M0 FE RE. rewrite FE in L.
      assert (LT : n < m * float_limit).
      { unfold Qlt, inject_Z in L. cbn [Qnum Qden] in L. rewrite Z2Pos.id in L by exact M0. rewrite Z.mul_1_r in L. rewrite Z.mul_comm. exact L. }
      destruct (round_defined n m N0 M0 LT) as (q & R). rewrite R in RE. eexists. split; [exact (exp_one neg d (dp - 1) q DD RE)|]. cbn [oN oI oV oW oF oT oC]. do 5 (split; [reflexivity|]).
      pose proof (f64_round_nonneg _ _ _ N0 M0 R) as Q0. assert (QP : (0 <= q)%Q) by (unfold Qle; cbn [Qnum Qden]; lia).
      split; [|now apply trunc_any]. rewrite FE. apply round_nearest; assumption. }
    destruct (0 <=? dp - 1) eqn:X.
    + assert (0 < 10 ^ (dp - 1)) by (apply Z.pow_pos_nonneg; lia). apply (G (digit_val d * 10 ^ (dp - 1)) 1); [nia|lia|exact FVE|reflexivity].
    + assert (0 < 10 ^ (- (dp - 1))) by (apply Z.pow_pos_nonneg; lia). apply (G (digit_val d) (10 ^ (- (dp - 1)))); [lia|lia|exact FVE|reflexivity].
  - cbn [new_operands]. unfold medium in M. unfold fmt_v. cbv zeta. replace ((dp - 1 <? -4) || (6 <=? dp - 1)) with true by lia.
    destruct r as [|r0 r]; [now elim LN|]. apply (exp_many neg d (r0 :: r) (dp - 1) DD); [now apply all_digits_b|discriminate].
Qed.
Lemma zero_ops : forall neg dp, new_operands (CFloat neg [] dp) = Ok (Ops 0 0 0 0 0 0 0).
Proof. intros [] dp; reflexivity. Qed.
