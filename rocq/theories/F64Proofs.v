(** Rounding to float64: relative error, exactness on integers, and the
    decimal text functions. *)
From Coq Require Import String Ascii List ZArith QArith Qround Qabs Bool Lia.
From Verif Require Import Base BaseProofs PopModel NumModel NumProofs F64Model.
Import ListNotations.
Open Scope Z_scope.

Lemma floor_log2_spec : forall n d, 0 < n -> 0 < d ->
  let l := floor_log2 n d in
  (0 <= l -> d * 2 ^ l <= n) /\ (l < 0 -> d <= n * 2 ^ (- l)).
Proof.
  intros n d N D. unfold floor_log2.
  pose proof (Z.log2_spec n N) as [N1 N2]. pose proof (Z.log2_spec d D) as [D1 D2].
  pose proof (Z.log2_nonneg n). pose proof (Z.log2_nonneg d).
  set (l := Z.log2 n - Z.log2 d).
  destruct (if 0 <=? l then d * 2 ^ l <=? n else d <=? n * 2 ^ (- l)) eqn:E; cbv zeta.
  - destruct (0 <=? l) eqn:L; split; intro; lia.
  - (* l - 1 always works: d < 2^(ld+1), 2^ln <= n *)
    rewrite Z.pow_succ_r in D2 by lia.
    split; intro H1.
    + assert (2 ^ Z.log2 n = 2 ^ (l - 1) * (2 * 2 ^ Z.log2 d)).
      { rewrite <- Z.pow_succ_r, <- Z.pow_add_r by lia. f_equal. unfold l. lia. }
      assert (0 < 2 ^ (l - 1)) by (apply Z.pow_pos_nonneg; lia). nia.
    + assert (2 ^ Z.log2 n * 2 ^ (- (l - 1)) = 2 * 2 ^ Z.log2 d).
      { rewrite <- Z.pow_succ_r, <- Z.pow_add_r by lia. f_equal. unfold l. lia. }
      assert (0 < 2 ^ (- (l - 1))) by (apply Z.pow_pos_nonneg; lia). nia.
Qed.

Lemma floor_log2_le : forall n d k, 0 < n -> 0 < d -> 0 <= k -> n < d * 2 ^ k -> floor_log2 n d < k.
Proof.
  intros n d k N D K H. destruct (Z_lt_le_dec (floor_log2 n d) k) as [|G]; [assumption|].
  destruct (floor_log2_spec n d N D) as [A _]. specialize (A ltac:(lia)).
  assert (2 ^ k <= 2 ^ floor_log2 n d) by (apply Z.pow_le_mono_r; lia). nia.
Qed.

Lemma floor_log2_ge : forall n d k, 0 < n -> 0 < d -> 0 <= k -> d < n * 2 ^ k -> - k <= floor_log2 n d.
Proof.
  intros n d k N D K H. unfold floor_log2.
  pose proof (Z.log2_spec n N) as [N1 N2]. pose proof (Z.log2_spec d D) as [D1 D2].
  pose proof (Z.log2_nonneg n). pose proof (Z.log2_nonneg d).
  set (l := Z.log2 n - Z.log2 d).
  assert (L : - k - 1 < l).
  { unfold l. assert (2 ^ Z.log2 d < 2 ^ (Z.succ (Z.log2 n) + k)).
    { rewrite Z.pow_add_r by lia. assert (0 < 2 ^ k) by (apply Z.pow_pos_nonneg; lia). nia. }
    apply Z.pow_lt_mono_r_iff in H2; lia. }
  destruct (if 0 <=? l then d * 2 ^ l <=? n else d <=? n * 2 ^ (- l)) eqn:E; [lia|].
  destruct (Z.eq_dec l (- k)) as [EQ|]; [|lia].
  exfalso. destruct (0 <=? l) eqn:LL.
  - assert (l = 0) by lia. assert (k = 0) by lia. rewrite H2 in E. subst k. rewrite Z.pow_0_r in *. lia.
  - rewrite EQ in E. replace (- - k) with k in E by lia. lia.
Qed.

Lemma pow2_pos : forall e, 0 <= e -> Zpos (Z.to_pos (2 ^ e)) = 2 ^ e.
Proof. intros e H. rewrite Z2Pos.id; [reflexivity|]. apply Z.pow_pos_nonneg; lia. Qed.

(** Relative error of at most 2^-53 for normal numbers. *)
Lemma f64_round_error : forall n d q, 0 < n -> 0 < d -> -1022 <= floor_log2 n d ->
  f64_round n d = Some q ->
  0 < Qnum q /\
  9007199254740992 * Z.abs (Qnum q * d - n * Zpos (Qden q)) <= n * Zpos (Qden q).
Proof.
  intros n d q N D L H. unfold f64_round in H.
  destruct (n =? 0) eqn:E0; [lia|].
  destruct (floor_log2_spec n d N D) as [A B].
  set (l := floor_log2 n d) in *.
  rewrite Z.max_l in H by lia.
  set (e := l - 52) in *.
  assert (P52 : 2 ^ 52 = 4503599627370496) by reflexivity.
  assert (G : 9007199254740992 * Z.abs (Qnum q * d - n * Zpos (Qden q)) <= n * Zpos (Qden q)).
  { unfold dyadic in H. destruct (0 <=? e) eqn:EE.
    - destruct (_ || _) in H; [discriminate|]. inversion H; subst q. cbn [Qnum Qden inject_Z].
      assert (PE : 0 < 2 ^ e) by (apply Z.pow_pos_nonneg; lia).
      pose proof (div_even_near n (d * 2 ^ e) ltac:(lia) ltac:(nia)) as NE.
      assert (d * 2 ^ e * 4503599627370496 <= n).
      { specialize (A ltac:(lia)). rewrite <- P52, <- Z.mul_assoc, <- Z.pow_add_r by lia.
        replace (e + 52) with l by (unfold e; lia). exact A. }
      rewrite Z.mul_1_r. set (m := div_even n (d * 2 ^ e)) in *.
      replace (m * 2 ^ e * d - n) with (- (n - m * (d * 2 ^ e))) by ring.
      rewrite Z.abs_opp. set (w := Z.abs _) in *. set (y := d * 2 ^ e) in *. clearbody w y. lia.
    - destruct (_ || _) in H; [discriminate|]. inversion H; subst q. cbn [Qnum Qden].
      rewrite pow2_pos by lia.
      assert (PE : 0 < 2 ^ (- e)) by (apply Z.pow_pos_nonneg; lia).
      pose proof (div_even_near (n * 2 ^ (- e)) d ltac:(nia) D) as NE.
      assert (d * 4503599627370496 <= n * 2 ^ (- e)).
      { rewrite <- P52. destruct (Z_lt_le_dec l 0).
        - specialize (B ltac:(lia)).
          replace (2 ^ (- e)) with (2 ^ (- l) * 2 ^ 52)
            by (rewrite <- Z.pow_add_r by lia; f_equal; unfold e; lia).
          nia.
        - specialize (A ltac:(lia)).
          replace (2 ^ 52) with (2 ^ l * 2 ^ (- e))
            by (rewrite <- Z.pow_add_r by lia; f_equal; unfold e; lia).
          nia. }
      set (m := div_even (n * 2 ^ (- e)) d) in *.
      replace (m * d - n * 2 ^ (- e)) with (- (n * 2 ^ (- e) - m * d)) by ring.
      rewrite Z.abs_opp. set (w := Z.abs _) in *. set (y := n * 2 ^ (- e)) in *. clearbody w y. lia. }
  split; [|exact G].
  assert (0 < n * Zpos (Qden q)) by lia. nia.
Qed.

Lemma div_even_mul : forall k b, 0 < b -> div_even (k * b) b = k.
Proof.
  intros k b B. unfold div_even. rewrite Z.div_mul, Z.mod_mul by lia.
  destruct (2 * 0 <? b) eqn:E; [reflexivity|lia].
Qed.

(** Integers up to 2^53 are exact. *)
Lemma f64_round_exact : forall z d, 0 <= z <= 9007199254740992 -> 0 < d ->
  exists q, f64_round (z * d) d = Some q /\ (q == inject_Z z)%Q.
Proof.
  intros z d Z0 D. unfold f64_round. destruct (z * d =? 0) eqn:E0.
  - exists (inject_Z 0). split; [reflexivity|]. assert (z = 0) by nia. subst. reflexivity.
  - assert (ZP : 0 < z) by nia. assert (N : 0 < z * d) by nia.
    destruct (floor_log2_spec (z * d) d N D) as [A B].
    assert (U : floor_log2 (z * d) d < 54).
    { apply floor_log2_le; try lia. change (2 ^ 54) with 18014398509481984. nia. }
    assert (L : 0 <= floor_log2 (z * d) d).
    { pose proof (floor_log2_ge (z * d) d 0 N D ltac:(lia)) as G.
      destruct (Z.eq_dec z 1) as [E1|E1].
      - subst z. unfold floor_log2. rewrite Z.mul_1_l, Z.sub_diag.
        destruct (if 0 <=? 0 then d * 2 ^ 0 <=? d else d <=? d * 2 ^ (- 0)) eqn:E; [lia|].
        simpl in E. lia.
      - rewrite Z.pow_0_r in G. apply G. nia. }
    set (l := floor_log2 (z * d) d) in *. specialize (A L).
    rewrite Z.max_l by lia.
    destruct ((971 <? l - 52) || _) eqn:OV.
    { exfalso. apply orb_true_iff in OV. destruct OV as [O|O]; [lia|].
      apply andb_true_iff in O. lia. }
    eexists. split; [reflexivity|].
    unfold dyadic. destruct (0 <=? l - 52) eqn:EE.
    + assert (H : l - 52 = 0 \/ l - 52 = 1) by lia. destruct H as [H|H]; rewrite H.
      * rewrite Z.pow_0_r, !Z.mul_1_r, div_even_mul by lia. reflexivity.
      * assert (l = 53) by lia. rewrite H0 in A. change (2 ^ 53) with 9007199254740992 in A.
        assert (z = 9007199254740992) by nia. subst z.
        change (2 ^ 1) with 2.
        replace (9007199254740992 * d) with (4503599627370496 * (d * 2)) by ring.
        rewrite div_even_mul by lia. reflexivity.
    + replace (z * d * 2 ^ (- (l - 52))) with (z * 2 ^ (- (l - 52)) * d) by ring.
      rewrite div_even_mul by lia.
      unfold Qeq, inject_Z; cbn [Qnum Qden]. rewrite pow2_pos by lia. ring.
Qed.

(** No overflow below 2^1000. *)
Lemma f64_round_defined : forall n d, 0 <= n -> 0 < d -> n < d * 2 ^ 1000 ->
  exists q, f64_round n d = Some q.
Proof.
  intros n d N D H. unfold f64_round. destruct (n =? 0) eqn:E; [eexists; reflexivity|].
  pose proof (floor_log2_le n d 1000 ltac:(lia) D ltac:(lia) H) as L.
  set (e := Z.max (floor_log2 n d - 52) (-1074)) in *.
  assert (e < 971) by lia.
  destruct ((971 <? e) || _) eqn:O; [|eexists; reflexivity].
  exfalso. apply orb_true_iff in O. destruct O as [O|O]; [lia|].
  apply andb_true_iff in O. lia.
Qed.

Lemma f64_round_nonneg : forall n d q, 0 <= n -> 0 < d -> f64_round n d = Some q -> 0 <= Qnum q.
Proof.
  intros n d q N D H. unfold f64_round in H. destruct (n =? 0) eqn:E0.
  - inversion H. simpl. lia.
  - set (e := Z.max (floor_log2 n d - 52) (-1074)) in *.
    destruct ((971 <? e) || _) in H; [discriminate|]. inversion H. unfold dyadic.
    destruct (0 <=? e) eqn:E; simpl.
    + assert (0 < 2 ^ e) by (apply Z.pow_pos_nonneg; lia).
      pose proof (div_even_nonneg n (d * 2 ^ e) N ltac:(nia)). nia.
    + assert (0 < 2 ^ (- e)) by (apply Z.pow_pos_nonneg; lia).
      apply div_even_nonneg; nia.
Qed.
