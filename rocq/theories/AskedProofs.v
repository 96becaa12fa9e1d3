From Coq Require Import List ZArith QArith Qabs Qpower Bool Lia Lqa ZifyBool.
From Verif Require Import Base BaseProofs NumModel NumProofs F64Model F64Proofs FltProofs FloatTextProofs PopModel GettextModel CldrSpec CldrOperandProofs CldrFloatSpec NearSpec NearProofs AskedSpec.
Import ListNotations.
Open Scope Z_scope.

Lemma nearest_even_unique : forall v m k, nearest_even v m -> nearest_even v k -> m = k.
Proof.
  intros v m k [A E] [B F]. destruct (Z.eq_dec m k) as [|N]; [assumption|exfalso].
  assert (T : (Qabs (inject_Z m - inject_Z k) <= Qabs (v - inject_Z m) + Qabs (v - inject_Z k))%Q).
  { setoid_replace (inject_Z m - inject_Z k)%Q with ((v - inject_Z k) + - (v - inject_Z m))%Q by ring.
    eapply Qle_trans; [apply Qabs_triangle|]. rewrite Qabs_opp. rewrite Qplus_comm. apply Qle_refl. }
  assert (D : (inject_Z (Z.abs (m - k)) <= Qabs (v - inject_Z m) + Qabs (v - inject_Z k))%Q).
  { unfold Qminus in T at 1. rewrite <- inject_Z_opp, <- inject_Z_plus in T. replace (m + - k) with (m - k) in T by ring. exact T. }
  assert (O : Z.abs (m - k) = 1).
  { assert ((inject_Z (Z.abs (m - k)) <= inject_Z 1)%Q) by (change (inject_Z 1) with 1%Q; lra). rewrite <- Zle_Qle in H. lia. }
  rewrite O in D. change (inject_Z 1) with 1%Q in D.
  assert (EM : Z.even m = true) by (apply E; lra). assert (EK : Z.even k = true) by (apply F; lra).
  apply Z.even_spec in EM, EK. destruct EM as [x ->], EK as [y ->]. lia.
Qed.
Lemma asked_unique : forall n a b, asked n a -> asked n b -> a = b.
Proof.
  intros n a b (f & m & NF & NE & ->) (g & k & NG & NK & ->). pose proof (nearest_unique _ _ _ NF NG) as E.
  assert (NE' : nearest_even g m).
  { destruct NE as [A B]. split; [now rewrite <- E|intro H; apply B; now rewrite E]. }
  now rewrite (nearest_even_unique _ _ _ NE' NK).
Qed.

Lemma div_even_nearest : forall n d, 0 <= n -> 0 < d -> nearest_even (n # Z.to_pos d) (div_even n d).
Proof.
  intros n d N D. pose proof (Z.div_mod n d ltac:(lia)) as DM. pose proof (Z.mod_pos_bound n d D) as B.
  assert (G : forall m, 2 * Z.abs (n - m * d) <= d -> (2 * Z.abs (n - m * d) = d -> Z.even m = true) -> nearest_even (n # Z.to_pos d) m).
  { intros m A E. assert (Q : (Qabs ((n # Z.to_pos d) - inject_Z m) == Z.abs (n - m * d) # Z.to_pos d)%Q).
    { unfold Qabs, Qminus, Qplus, Qopp, inject_Z, Qeq. cbn [Qnum Qden]. rewrite Pos.mul_1_r, Z.mul_1_r, Z2Pos.id by exact D. f_equal. f_equal. ring. }
    unfold nearest_even. split.
    - rewrite Q. unfold Qle, Qmult. cbn [Qnum Qden]. rewrite Pos.mul_1_l, Z2Pos.id by exact D. lia.
    - rewrite Q. unfold Qeq, Qmult. cbn [Qnum Qden]. rewrite Pos.mul_1_l, Z2Pos.id by exact D. intro H. apply E. lia. }
  unfold div_even. set (q := n / d) in *. set (r := n mod d) in *. clearbody q r.
  assert (X0 : n - q * d = r) by nia. assert (X1 : n - (q + 1) * d = r - d) by nia.
  destruct (2 * r <? d) eqn:C1; [|destruct (d <? 2 * r) eqn:C2; [|destruct (Z.even q) eqn:C3]]; apply G; rewrite ?X0, ?X1; try lia.
  intros _. rewrite Z.even_add, C3. reflexivity.
Qed.

Lemma round_integer : forall z, 0 <= z < float_limit -> exists q, f64_round z 1 = Some q /\ (q == inject_Z (f64_of_nat z))%Q.
Proof.
  intros z B. destruct (round_defined z 1) as (q & R); [lia|lia|lia|]. exists q. split; [exact R|].
  destruct (Z.eq_dec z 0) as [->|NZ]; [vm_compute in R; injection R as <-; reflexivity|].
  rewrite (f64_round_sig z 1 q ltac:(lia) R).
  assert (L : floor_log2 z 1 = Z.log2 z).
  { unfold floor_log2. change (Z.log2 1) with 0. rewrite Z.sub_0_r. pose proof (Z.log2_nonneg z). pose proof (Z.log2_spec z ltac:(lia)).
    cbv zeta. replace (0 <=? Z.log2 z) with true by lia. replace (1 * 2 ^ Z.log2 z <=? z) with true by lia. reflexivity. }
  rewrite L. pose proof (Z.log2_nonneg z) as L0. rewrite (Z.max_l (Z.log2 z - 52)) by lia. unfold f64_of_nat, sig, dyadic.
  destruct (0 <=? Z.log2 z - 52) eqn:C.
  - assert (Z53 : 2 ^ 52 <= z) by (apply Z.log2_le_pow2; lia). rewrite Z.mul_1_l. destruct (z <? 9007199254740992) eqn:S; [|reflexivity].
    assert (E : Z.log2 z = 52) by (apply Z.log2_unique; [lia|split; [exact Z53|change (2 ^ Z.succ 52) with 9007199254740992; lia]]).
    rewrite E. change (2 ^ (52 - 52)) with 1. unfold div_even. rewrite Z.div_1_r, Z.mod_1_r. cbn [Z.mul Z.ltb Z.compare]. now rewrite Z.mul_1_r.
  - assert (S : z < 2 ^ 52) by (apply Z.log2_lt_pow2; lia). change (2 ^ 52) with 4503599627370496 in S. replace (z <? 9007199254740992) with true by lia.
    unfold div_even. rewrite Z.div_1_r, Z.mod_1_r. cbn [Z.mul Z.ltb Z.compare].
    assert (P : 0 < 2 ^ (- (Z.log2 z - 52))) by (apply Z.pow_pos_nonneg; lia).
    unfold Qeq, inject_Z. cbn [Qnum Qden]. rewrite Z2Pos.id by exact P. ring.
Qed.

Lemma f64_of_nat_nonneg : forall z, 0 <= z -> 0 <= f64_of_nat z.
Proof.
  intros z Z0. unfold f64_of_nat. destruct (z <? _); [exact Z0|]. cbv zeta.
  assert (P : 0 <= 2 ^ (Z.log2 z - 52)) by (apply Z.pow_nonneg; lia). assert (D : 0 <= div_even z (2 ^ (Z.log2 z - 52))); [|nia].
  assert (0 <= z / 2 ^ (Z.log2 z - 52)).
  { destruct (Z.eq_dec (2 ^ (Z.log2 z - 52)) 0) as [->|]; [rewrite Zdiv_0_r; lia|apply Z.div_pos; lia]. }
  unfold div_even. repeat match goal with |- context [if ?b then _ else _] => destruct b end; lia.
Qed.

Lemma nearest_self : forall m, nearest_even (inject_Z m) m.
Proof.
  intro m. assert (E : (inject_Z m - inject_Z m == 0)%Q) by ring. unfold nearest_even. rewrite E. split; [discriminate|]. intro H. discriminate H.
Qed.
Lemma nearest_even_ext : forall v w m, (v == w)%Q -> nearest_even v m -> nearest_even w m.
Proof. intros v w m E [A B]. split; [now rewrite <- E|]. intro H. apply B. now rewrite E. Qed.

Lemma wrapped : forall m, 0 <= m -> f64_to_int64 m = if m <? 2 ^ 63 then m else - 2 ^ 63.
Proof.
  intros m M. unfold f64_to_int64, minInt64, maxInt64. change (2 ^ 63) with 9223372036854775808.
  destruct (m <? 9223372036854775808) eqn:C; [replace (_ && _) with true by lia|replace (_ && _) with false by lia]; reflexivity.
Qed.

Lemma kinds_limit : forall k z, kmin k <= z <= kmax k -> Z.abs z < float_limit.
Proof.
  intros k z B. apply Z.lt_le_trans with (2 ^ 64); [|vm_compute; discriminate]. change (2 ^ 64) with 18446744073709551616.
  destruct k; unfold kmin, kmax, maxInt64, minInt64, maxUint64 in B; lia.
Qed.

Lemma rule_asked : forall n, holdable n -> exists a, asked n a /\ forall r, exists g, to_arg n = Some g /\ evaluate r g = r_form r a.
Proof.
  intros [k z|neg ds dp|] H; cbn [holdable] in H.
  - pose proof (kinds_limit k z H) as L. destruct (round_integer (Z.abs z)) as (q & R & E); [lia|].
    pose proof (f64_of_nat_nonneg (Z.abs z) ltac:(lia)) as P.
    exists (f64_to_int64 (f64_of_nat (Z.abs z))). split.
    + exists q, (f64_of_nat (Z.abs z)). split; [|split; [|now apply wrapped]].
      * pose proof (round_nearest (Z.abs z) 1 q ltac:(lia) ltac:(lia) R) as N. exact N.
      * apply (nearest_even_ext (inject_Z (f64_of_nat (Z.abs z)))); [now symmetry|apply nearest_self].
    + intro r. eexists. split; [reflexivity|]. unfold evaluate, abs_round. rewrite f64_of_int_abs, (Z.abs_eq (f64_of_nat _)) by exact P. reflexivity.
  - destruct H as [D L]. set (x := dp - Z.of_nat (length ds)) in *. assert (DV : 0 <= dec_val ds) by (apply (dec_val_bound ds (proj1 (all_digits_b ds) D))).
    assert (G : exists n d, 0 <= n /\ 0 < d /\ float_value ds dp = (n # Z.to_pos d) /\ 
      (if x <? 0 then f64_round (dec_val ds) (10 ^ (- x)) else f64_round (dec_val ds * 10 ^ x) 1) = f64_round n d).
    { unfold float_value. fold x. cbv zeta. destruct (x <? 0) eqn:C.
      - replace (0 <=? x) with false by lia. exists (dec_val ds), (10 ^ (- x)). repeat split; try lia.
      - replace (0 <=? x) with true by lia. exists (dec_val ds * 10 ^ x), 1. repeat split; try lia. }
    destruct G as (n & d & N0 & D0 & FE & RE). rewrite FE in L.
    assert (LT : n < d * float_limit).
    { unfold Qlt, inject_Z in L. cbn [Qnum Qden] in L. rewrite Z2Pos.id in L by exact D0. rewrite Z.mul_1_r in L. rewrite Z.mul_comm. exact L. }
    destruct (round_defined n d N0 D0 LT) as (q & R). rewrite R in RE. pose proof (f64_round_nonneg _ _ _ N0 D0 R) as Q0.
    pose proof (div_even_nearest (Qnum q) (Zpos (Qden q)) Q0 ltac:(lia)) as DE. cbn [Z.to_pos] in DE.
    assert (P : 0 <= div_even (Qnum q) (Zpos (Qden q))).
    { assert (0 <= Qnum q / Zpos (Qden q)) by (apply Z.div_pos; lia). unfold div_even. repeat match goal with |- context [if ?b then _ else _] => destruct b end; lia. }
    exists (f64_to_int64 (div_even (Qnum q) (Zpos (Qden q)))). split.
    + exists q, (div_even (Qnum q) (Zpos (Qden q))). split; [|split; [destruct q; exact DE|now apply wrapped]].
      cbn [magnitude]. rewrite FE. now apply round_nearest.
    + intro r. cbn [to_arg]. fold x. rewrite RE. eexists. split; [reflexivity|]. unfold evaluate, abs_round.
      replace (Z.abs (if neg then - Qnum q else Qnum q)) with (Qnum q) by (destruct neg; lia). reflexivity.
  - contradiction.
Qed.
Lemma asked_total : forall n, holdable n -> exists a, asked n a.
Proof. intros n H. destruct (rule_asked n H) as (a & A & _). eauto. Qed.
Lemma asked_rule : forall r n a, holdable n -> asked n a -> rule_function r n = Ok (r_form r a).
Proof.
  intros r n a H A. destruct (rule_asked n H) as (b & B & E). rewrite (asked_unique n a b A B). destruct (E r) as (g & T & V).
  unfold rule_function. now rewrite T, V.
Qed.
Lemma asked_small : forall k z a, kmin k <= z <= kmax k -> Z.abs z <= 2 ^ 53 -> asked (NInt k z) a <-> a = Z.abs z.
Proof.
  intros k z a K B. change (2 ^ 53) with 9007199254740992 in B.
  assert (A : asked (NInt k z) (Z.abs z)).
  { destruct (round_integer (Z.abs z)) as (q & R & E); [pose proof (kinds_limit k z K); lia|]. rewrite f64_of_nat_small in E by lia.
    exists q, (Z.abs z). split; [exact (round_nearest (Z.abs z) 1 q ltac:(lia) ltac:(lia) R)|]. split; [apply (nearest_even_ext (inject_Z (Z.abs z))); [now symmetry|apply nearest_self]|].
    change (2 ^ 63) with 9223372036854775808. now replace (Z.abs z <? _) with true by lia. }
  split; [|intros ->; exact A]. intro H. exact (asked_unique _ _ _ H A).
Qed.
