(** Operands of the integer kinds that go through float64 and its text. *)
From Coq Require Import String Ascii List ZArith QArith Qround Bool Lia ZifyBool.
From Verif Require Import Base BaseProofs StrModel NumModel F64Model F64Proofs CldrModel CldrSpec CldrEvalProofs CldrOperandProofs CldrTextProofs ShortProofs CldrKindSpec.
Import ListNotations.
Open Scope Z_scope.

(** *** Decimal text with a sign *)
Lemma trunc_int : forall neg q z, 0 <= z <= 9007199254740992 -> (q == inject_Z z)%Q -> f64_trunc neg q = if neg then - z else z.
Proof.
  intros neg q z B Q. assert (F : Qfloor q = z) by (rewrite Q; apply Qfloor_Z). unfold f64_trunc. cbv zeta. rewrite F. clear F Q. unfold f64_to_int64, minInt64, maxInt64.
  destruct neg; match goal with |- (if ?c then _ else _) = _ => destruct c eqn:X; [reflexivity|lia] end.
Qed.
Lemma sign_string : forall neg z, 0 <= z <= 9007199254740992 ->
  exists q, new_operands_string (sgn neg ++ utoa z) = Ok (Ops q (if neg then - z else z) 0 0 0 0 0) /\ (q == inject_Z z)%Q.
Proof.
  intros neg z B. destruct (utoa_spec z ltac:(lia)) as (N & D & V).
  set (x := Num neg (utoa z) None None).
  destruct (f64_round_exact z 1 B ltac:(lia)) as (q & R & Q). rewrite Z.mul_1_r in R.
  assert (SC : nm_scaled x = z).
  { unfold nm_scaled, nm_digits, nm_fdigits, nm_e, x. cbn [nm_ip nm_fp nm_exp]. rewrite app_nil_r, V.
    change (p10 (0 - length (@nil ascii))) with 1. lia. }
  destruct (operands_numeral x q) as (w & t & O & W).
  - split; [exact N|]. split; [apply all_digits_b; exact D|exact I].
  - cbn. unfold maxInt64. lia.
  - rewrite SC. change (p10 (nm_v x)) with 1. rewrite Z.mod_1_r. unfold maxInt64. lia.
  - rewrite SC. exact R.
  - rewrite SC in *. change (p10 (nm_v x)) with 1 in *. rewrite Z.mod_1_r in *.
    change (Z.of_nat (nm_v x)) with 0 in *. change (Z.of_nat (nm_e x)) with 0 in *.
    change (nm_neg x) with neg in *.
    assert (TX : nm_text x = sgn neg ++ utoa z).
    { unfold nm_text, x. cbn [nm_neg nm_ip nm_fp nm_exp]. rewrite !app_nil_r. reflexivity. }
    rewrite TX in O. destruct W as (W1 & W2 & W3). assert (w = 0) by lia. subst w.
    assert (t = 0) by (rewrite Z.sub_0_r in W2; change (10 ^ 0) with 1 in W2; lia). subst t.
    exists q. split; [|exact Q]. now rewrite O, (trunc_int neg q z B Q).
Qed.

(** *** Text with an exponent *)
Lemma fmt_v_sign : forall neg digs dp, fmt_v neg digs dp = sgn neg ++ fmt_v false digs dp.
Proof. intros [] digs dp; reflexivity. Qed.
Definition exp_zero (x : Z) : bytes := if Z.abs x <? 10 then bs "0" else [].
Lemma exp_digits : forall x, forallb is_digit (exp_zero x ++ utoa (Z.abs x)) = true /\ exp_zero x ++ utoa (Z.abs x) <> [] /\ dec_val (exp_zero x ++ utoa (Z.abs x)) = Z.abs x.
Proof.
  intro x. destruct (utoa_spec (Z.abs x) ltac:(lia)) as (N & D & V). unfold exp_zero. destruct (Z.abs x <? 10).
  - split; [cbn [app forallb bs]; exact D|]. split; [discriminate|]. rewrite dec_val_app by exact D. rewrite V. change (dec_val (bs "0")) with 0. lia.
  - rewrite app_nil_l. auto.
Qed.
Lemma exp_shape : forall x, fmt_exp x = "e"%char :: sgn (x <? 0) ++ (if x <? 0 then [] else bs "+") ++ exp_zero x ++ utoa (Z.abs x).
Proof. intro x. unfold fmt_exp, sgn, exp_zero. destruct (x <? 0); reflexivity. Qed.
Lemma exp_no : forall c x, is_digit c = false -> Ascii.eqb "e" c = false -> Ascii.eqb "-" c = false -> Ascii.eqb "+" c = false ->
  forallb (fun x => negb (Ascii.eqb x c)) (fmt_exp x) = true.
Proof.
  intros c x D E M P. rewrite exp_shape. cbn [forallb]. rewrite E. cbn [negb andb]. destruct (exp_digits x) as (DD & _).
  apply forallb_app_true; [now apply sgn_no|]. apply forallb_app_true; [|now apply digits_no].
  destruct (x <? 0); [reflexivity|]. cbn [bs list_ascii_of_string forallb]. now rewrite P.
Qed.
Lemma read_exp : forall neg d x, is_digit d = true -> read_float (sgn neg ++ d :: fmt_exp x) = Some (neg, [d], [], x).
Proof.
  intros neg d x D. unfold read_float.
  assert (T : take_sign (sgn neg ++ d :: fmt_exp x) = (neg, d :: fmt_exp x)).
  { destruct neg; [reflexivity|]. cbn [sgn app take_sign]. rewrite (digit_neq d "-" D eq_refl), (digit_neq d "+" D eq_refl). reflexivity. }
  rewrite T. cbn [take_digits]. rewrite D. rewrite exp_shape. cbn [take_digits]. change (is_digit "e") with false. cbn [Ascii.eqb Bool.eqb app].
  change (Ascii.eqb "e" ".") with false. cbn [app].
  change (Ascii.eqb (lower "e") "e") with true. cbn [app]. destruct (exp_digits x) as (DD & DN & DV). set (ds := exp_zero x ++ utoa (Z.abs x)) in *.
  assert (TS : take_sign (sgn (x <? 0) ++ (if x <? 0 then [] else bs "+") ++ ds) = (x <? 0, ds)) by (destruct (x <? 0); reflexivity).
  rewrite TS. pose proof (take_digits_app ds [] DD I) as TD. rewrite app_nil_r in TD. rewrite TD.
  destruct ds as [|c ds]; [congruence|]. rewrite DV. destruct (x <? 0) eqn:S; do 2 f_equal; lia.
Qed.
(** one digit with an exponent is read, as an integer without fraction *)
Lemma exp_one : forall neg d x q, is_digit d = true ->
  (if 0 <=? x then f64_round (digit_val d * 10 ^ x) 1 else f64_round (digit_val d) (10 ^ (- x))) = Some q ->
  new_operands_string (sgn neg ++ d :: fmt_exp x) = Ok (Ops q (f64_trunc neg q) 0 0 0 0 0).
Proof.
  intros neg d x q D R. unfold new_operands_string.
  assert (NO : forall c, is_digit c = false -> Ascii.eqb "e" c = false -> Ascii.eqb "-" c = false -> Ascii.eqb "+" c = false -> index_byte c (sgn neg ++ d :: fmt_exp x) = None).
  { intros c A B C E. apply index_byte_none. apply forallb_app_true; [now apply sgn_no|]. cbn [forallb]. rewrite (digit_neq d c D A). cbn [negb andb]. now apply exp_no. }
  rewrite (NO "c"%char) by reflexivity. cbn [rbind fst snd]. unfold parse_float. rewrite read_exp by exact D. cbn [app length]. change (Z.of_nat 0) with 0. rewrite Z.sub_0_r.
  change (dec_val [d]) with (0 * 10 + digit_val d). rewrite Z.mul_0_l, Z.add_0_l. cbv zeta. rewrite R. cbn [rbind].
  unfold fraction_ops. rewrite (NO "."%char) by reflexivity. reflexivity.
Qed.
Lemma parse_float_ok : forall s, parse_float s <> Panic /\ parse_float s <> OutOfFuel.
Proof. intro s. unfold parse_float. destruct (read_float s) as [[[[? ?] ?] ?]|]; [|split; discriminate]. cbv zeta. match goal with |- match ?x with _ => _ end <> _ /\ _ => destruct x end; split; discriminate. Qed.
Lemma uint_bad : forall a b n, forallb is_digit a = true -> parse_uint_loop (a ++ "e"%char :: b) n = PSyntax \/ parse_uint_loop (a ++ "e"%char :: b) n = PRange maxUint64.
Proof.
  induction a as [|c a IH]; intros b n D; [now left|]. cbn [forallb] in D. apply andb_true_iff in D as [D1 D2]. cbn [app parse_uint_loop]. rewrite D1.
  destruct (maxUint64 <? n * 10 + digit_val c); [now right|now apply IH].
Qed.
Lemma parse_int_bad : forall a b, forallb is_digit a = true -> a <> [] -> parse_int_err (a ++ "e"%char :: b) = Err.
Proof.
  intros [|c a] b D N; [congruence|]. pose proof (uint_bad (c :: a) b 0 D) as U. cbn [forallb] in D. apply andb_true_iff in D as [D1 D2].
  unfold parse_int_err, parse_int. cbn [app]. rewrite (digit_neq c "-" D1 eq_refl), (digit_neq c "+" D1 eq_refl). cbn [orb]. unfold parse_uint. cbn [app] in U.
  destruct U as [-> | ->]; reflexivity.
Qed.
(** several digits with an exponent are refused *)
Lemma exp_many : forall neg d ds x, is_digit d = true -> forallb is_digit ds = true -> ds <> [] ->
  new_operands_string (sgn neg ++ d :: "."%char :: ds ++ fmt_exp x) = Err.
Proof.
  intros neg d ds x D DS N. unfold new_operands_string.
  assert (NC : index_byte "c" (sgn neg ++ d :: "."%char :: ds ++ fmt_exp x) = None).
  { apply index_byte_none. apply forallb_app_true; [now apply sgn_no|]. cbn [forallb]. rewrite (digit_neq d "c" D eq_refl). cbn [negb andb].
    change (negb (Ascii.eqb "." "c")) with true. cbn [andb]. apply forallb_app_true; [now apply digits_no|now apply exp_no]. }
  rewrite NC. cbn [rbind fst snd].
  assert (F : fraction_ops (sgn neg ++ d :: "."%char :: ds ++ fmt_exp x) = Err).
  { unfold fraction_ops. replace (sgn neg ++ d :: "."%char :: ds ++ fmt_exp x) with ((sgn neg ++ [d]) ++ "."%char :: ds ++ fmt_exp x) by now rewrite <- app_assoc.
    rewrite index_byte_skip by (apply forallb_app_true; [now apply sgn_no|cbn [forallb]; now rewrite (digit_neq d "." D eq_refl)]).
    cbn [index_byte]. change (Ascii.eqb "." ".") with true. cbn [option_map]. rewrite Nat.add_0_r.
    replace (skipn (S (length (sgn neg ++ [d]))) ((sgn neg ++ [d]) ++ "."%char :: ds ++ fmt_exp x)) with (ds ++ fmt_exp x).
    - rewrite exp_shape. rewrite parse_int_bad by assumption. destruct ds; [congruence|reflexivity].
    - replace (S (length (sgn neg ++ [d]))) with (length ((sgn neg ++ [d]) ++ ["."%char])) by (rewrite app_length; cbn [length]; lia).
      replace ((sgn neg ++ [d]) ++ "."%char :: ds ++ fmt_exp x) with (((sgn neg ++ [d]) ++ ["."%char]) ++ ds ++ fmt_exp x) by now rewrite <- app_assoc.
      now rewrite skipn_app, skipn_all, Nat.sub_diag. }
  destruct (parse_float_ok (sgn neg ++ d :: "."%char :: ds ++ fmt_exp x)) as [P1 P2]. destruct (parse_float (sgn neg ++ d :: "."%char :: ds ++ fmt_exp x)); try congruence; cbn [rbind];
    [now rewrite F|reflexivity].
Qed.

(** *** The digits of a large integer *)
Lemma large_digits : forall z, 1000000 <= z -> exists d ds n, utoa z = (d :: ds) ++ repeat "0"%char n /\ trim_zeros (utoa z) = d :: ds /\ is_digit d = true /\ forallb is_digit ds = true /\
  (ds = [] \/ exists a c, ds = a ++ [c] /\ c <> "0"%char) /\ (7 <= length (utoa z))%nat /\ 1 <= digit_val d.
Proof.
  intros z B. destruct (utoa_spec z ltac:(lia)) as (N & D & V). destruct (trim_zeros_spec (utoa z)) as (n & E & C).
  destruct (trim_zeros (utoa z)) as [|d ds] eqn:T.
  - exfalso. rewrite E in V. cbn [app] in V. rewrite <- (app_nil_l (repeat _ _)), dec_val_zeros in V. change (dec_val []) with 0 in V. lia.
  - exists d, ds, n. split; [exact E|]. split; [reflexivity|]. pose proof D as D0. rewrite E in D. rewrite forallb_app in D. apply andb_true_iff in D as [D _]. cbn [forallb] in D. apply andb_true_iff in D as [D1 D2].
    split; [exact D1|]. split; [exact D2|]. split.
    { destruct C as [C|(a & c & C & NC)]; [discriminate|]. destruct a as [|a0 a]; [injection C as _ ->; now left|]. injection C as _ ->. right. now exists a, c. }
    pose proof (dec_val_bound (utoa z) D0) as BD. rewrite V in BD. split.
    + destruct (Nat.le_gt_cases 7 (length (utoa z))) as [|G]; [assumption|]. assert (10 ^ Z.of_nat (length (utoa z)) <= 10 ^ 6) by (apply Z.pow_le_mono_r; lia). change (10 ^ 6) with 1000000 in H. lia.
    + pose proof (utoa_lead z ltac:(lia)) as LD. rewrite E in LD. cbn [app no_leading_zero] in LD. pose proof (digit_val_range d D1). assert (digit_val d <> 0); [|lia]. intro Z0. apply LD. clear - D1 Z0. revert D1 Z0. destruct d as [[] [] [] [] [] [] [] []]; intros; (discriminate || reflexivity).
Qed.

(** *** What an integer kind gives *)
Lemma kind_text : forall k z, Z.abs z <= 9007199254740992 -> new_operands (CKind k z) = new_operands_string (sgn (z <? 0) ++ fmt_v false (int_digits (Z.abs z)) (int_dp (Z.abs z))).
Proof.
  intros k z B. unfold new_operands. assert (F : f64_of_int z = z).
  { unfold f64_of_int. unfold f64_of_nat. destruct (z <? 0) eqn:E; [destruct (- z <? 9007199254740992) eqn:L|destruct (z <? 9007199254740992) eqn:L]; try lia.
    - assert (z = -9007199254740992) by lia. subst z. reflexivity.
    - assert (z = 9007199254740992) by lia. subst z. reflexivity. }
  rewrite F. cbv zeta. rewrite fmt_v_sign. unfold int_digits, int_dp. now rewrite Z.abs_involutive.
Qed.
Lemma kind_short : forall k z, Z.abs z <= 9007199254740992 -> short_number z ->
  exists q, new_operands (CKind k z) = Ok (Ops q z 0 0 0 0 0) /\ (q == inject_Z (Z.abs z))%Q.
Proof.
  intros k z B S. rewrite kind_text by exact B.
  assert (SG : (if z <? 0 then - Z.abs z else Z.abs z) = z) by (destruct (z <? 0) eqn:E; lia).
  destruct (Z_lt_ge_dec (Z.abs z) 1000000) as [L|G].
  - rewrite fmt_v_int by lia. destruct (sign_string (z <? 0) (Z.abs z) ltac:(lia)) as (q & E & Q). exists q. rewrite SG in E. now split.
  - destruct S as [S|(d0 & m & D & M & E)]; [lia|].
    destruct (large_digits (Z.abs z) ltac:(lia)) as (d & ds & n & U & T & DD & DDS & TR & LEN & DV). set (w := Z.abs z) in *.
    assert (V : w = dec_val (d :: ds) * 10 ^ Z.of_nat n) by (destruct (utoa_spec w ltac:(lia)) as (_ & _ & V); rewrite <- V at 1; rewrite U; apply dec_val_zeros).
    assert (DS : ds = []).
    { destruct TR as [TR|(a & c & -> & NC)]; [exact TR|]. exfalso.
      (* the last digit is not 0 *)
      set (x := dec_val (d :: a)) in *. change (d :: a ++ [c]) with ((d :: a) ++ [c]) in V. rewrite dec_val_snoc in V.
      rewrite forallb_app in DDS. apply andb_true_iff in DDS as [DA DC]. cbn [forallb] in DC. rewrite andb_true_r in DC. pose proof (digit_val_range c DC) as CR.
      assert (CN : digit_val c <> 0) by (intro Z0; apply NC; clear - DC Z0; revert DC Z0; destruct c as [[] [] [] [] [] [] [] []]; intros; (discriminate || reflexivity)).
      assert (XP : 1 <= x). { unfold x. change (d :: a) with ([d] ++ a). rewrite dec_val_app by exact DA. change (dec_val [d]) with (0 * 10 + digit_val d). pose proof (dec_val_bound a DA). assert (0 < 10 ^ Z.of_nat (length a)) by (apply Z.pow_pos_nonneg; lia). nia. }
      fold x in V. set (c' := digit_val c) in *. clearbody x c'. clear - V E CR CN XP D M.
      rewrite E in V. assert (C : m <= Z.of_nat n \/ Z.of_nat n < m) by lia. destruct C as [C|C].
      - assert (P : 10 ^ Z.of_nat n = 10 ^ (Z.of_nat n - m) * 10 ^ m) by (rewrite <- Z.pow_add_r by lia; f_equal; lia). assert (0 < 10 ^ m) by (apply Z.pow_pos_nonneg; lia). assert (0 < 10 ^ (Z.of_nat n - m)) by (apply Z.pow_pos_nonneg; lia). nia.
      - assert (P : 10 ^ m = 10 * 10 ^ (m - Z.of_nat n - 1) * 10 ^ Z.of_nat n) by (rewrite <- (Z.pow_1_r 10) at 2; rewrite <- !Z.pow_add_r by lia; f_equal; lia).
        assert (0 < 10 ^ Z.of_nat n) by (apply Z.pow_pos_nonneg; lia). set (p := 10 ^ (m - Z.of_nat n - 1)) in *. clearbody p.
        assert (d0 * (10 * p) = x * 10 + c') by nia. assert (c' = 10 * (d0 * p - x)) by nia. lia. }
    subst ds. unfold fmt_v, int_digits, int_dp. assert (AW : Z.abs w = w) by (unfold w; apply Z.abs_involutive). rewrite AW, shortest_small, T by lia.
    destruct ((Z.of_nat (length (utoa w)) - 1 <? -4) || (6 <=? Z.of_nat (length (utoa w)) - 1)) eqn:X; [|lia]. cbn [app]. cbv zeta.
    assert (LN : Z.of_nat (length (utoa w)) - 1 = Z.of_nat n) by (rewrite U, app_length, repeat_length; cbn [length]; lia). rewrite LN.
    change (dec_val [d]) with (0 * 10 + digit_val d) in V. rewrite Z.mul_0_l, Z.add_0_l in V.
    destruct (f64_round_exact w 1 ltac:(lia) ltac:(lia)) as (q & R & Q). rewrite Z.mul_1_r in R.
    exists q. split; [|exact Q]. rewrite (exp_one (z <? 0) d (Z.of_nat n) q DD).
    + rewrite (trunc_int (z <? 0) q w ltac:(lia) Q), SG. reflexivity.
    + destruct (0 <=? Z.of_nat n) eqn:X0; [|lia]. now rewrite <- V.
Qed.
Lemma kind_long : forall k z, Z.abs z <= 9007199254740992 -> ~ short_number z -> new_operands (CKind k z) = Err.
Proof.
  intros k z B S. rewrite kind_text by exact B. unfold short_number in S.
  assert (G : 1000000 <= Z.abs z) by (destruct (Z_lt_ge_dec (Z.abs z) 1000000); [elim S; now left|lia]).
  destruct (large_digits (Z.abs z) G) as (d & ds & n & U & T & DD & DDS & TR & LEN & DV). set (w := Z.abs z) in *.
  assert (DS : ds <> []).
  { intros ->. apply S. right. exists (digit_val d), (Z.of_nat n). pose proof (digit_val_range d DD). split; [lia|]. split; [lia|].
    destruct (utoa_spec w ltac:(lia)) as (_ & _ & V). rewrite <- V, U, dec_val_zeros. change (dec_val [d]) with (0 * 10 + digit_val d). now rewrite Z.mul_0_l, Z.add_0_l. }
  unfold fmt_v, int_digits, int_dp. assert (AW : Z.abs w = w) by (unfold w; apply Z.abs_involutive). rewrite AW, shortest_small, T by lia.
  destruct ((Z.of_nat (length (utoa w)) - 1 <? -4) || (6 <=? Z.of_nat (length (utoa w)) - 1)) eqn:X; [|lia]. cbn [app]. cbv zeta.
  destruct ds as [|d1 ds]; [congruence|]. cbn [app]. exact (exp_many (z <? 0) d (d1 :: ds) _ DD DDS DS).
Qed.
Lemma string_any : forall z, Z.abs z <= 9007199254740992 -> exists q, new_operands (CString (itoa z)) = Ok (Ops q z 0 0 0 0 0) /\ (q == inject_Z (Z.abs z))%Q.
Proof.
  intros z B. destruct (sign_string (z <? 0) (Z.abs z) ltac:(lia)) as (q & E & Q). exists q. split; [|exact Q]. cbn [new_operands]. unfold itoa.
  destruct (z <? 0) eqn:N.
  - replace (Z.abs z) with (- z) in E by lia. rewrite Z.opp_involutive in E. exact E.
  - replace (Z.abs z) with z in E by lia. exact E.
Qed.
