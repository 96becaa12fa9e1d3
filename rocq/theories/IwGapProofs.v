(** Lemmas about numbers shown as a part of a googol. *)
From Coq Require Import String Ascii List ZArith QArith Qround Qabs Bool Lia Lqa.
From Verif Require Import Base BaseProofs PopModel NumModel F64Model F64Proofs FltModel FltProofs CalModel HumModel HumFdProofs HumTimeProofs HumNumProofs IwModel IwSpec IwProofs
  NearSpec NearProofs ShortNearProofs.
Import ListNotations.
Open Scope Z_scope.

Lemma frnd_near : forall q, (0 <= q)%Q -> (q <= inject_Z (2 ^ 900))%Q -> nearest_float q (frnd q).
Proof.
  intros [n d] P B. assert (N : 0 <= n) by (unfold Qle in P; cbn [Qnum Qden] in P; lia). unfold frnd. cbn [Qnum Qden].
  rewrite Z.abs_eq by lia. replace (n <? 0) with false by lia.
  assert (E : exists r, f64_round n (Zpos d) = Some r).
  { destruct (Z.eq_dec n 0) as [->|NZ]; [eexists; reflexivity|]. apply round_small; try lia.
    unfold Qle, inject_Z in B. cbn [Qnum Qden] in B. lia. }
  destruct E as (r & E). rewrite E. exact (round_nearest n (Zpos d) r N eq_refl E).
Qed.
Lemma sub_swap : forall x : Q, (x - inject_Z 1)%Q = (- (inject_Z 1 - x))%Q.
Proof.
  intros [n d]. unfold Qminus, Qplus, Qopp, inject_Z. cbn [Qnum Qden]. rewrite Pos.mul_1_r, Pos.mul_1_l. f_equal. lia.
Qed.

(** The value from which on rounding reaches s, for s = 1 and s = 2. *)
Lemma reach : forall y s h, float64 (s - 2 * h) -> float64 s -> is_f64 (s - 2 * h) -> (0 < h)%Q -> (0 <= y)%Q -> (y <= s)%Q -> (s <= inject_Z (2 ^ 900))%Q -> (0 <= s - h)%Q ->
  (frnd (s - h) == s)%Q ->
  ((s <= frnd y)%Q <-> (s - h <= y)%Q).
Proof.
  intros y s h F FS F' H Y U B SH T. assert (L : (y <= inject_Z (2 ^ 900))%Q) by lra. pose proof (frnd_near y Y L) as N. split; intro A.
  - apply Qnot_lt_le. intro G. destruct (Qlt_le_dec y (s - 2 * h)) as [K|K].
    + assert (frnd y <= s - 2 * h)%Q by (apply frnd_le; [exact F'|lra]). lra.
    + destruct N as (_ & N & _). specialize (N _ F).
      rewrite (Qabs_pos (frnd y - y)) in N by lra. rewrite (Qabs_neg (s - 2 * h - y)) in N by lra. lra.
  - assert (M : (frnd (s - h) <= frnd y)%Q).
    { apply (nearest_mono (s - h) y); [exact A|apply frnd_near; lra|exact N]. }
    lra.
Qed.

Definition half53 : Q := 1 # 9007199254740992.
Definition half54 : Q := 1 # 18014398509481984.
Lemma reach_one : forall y, (0 <= y)%Q -> (y <= 1)%Q -> ((1 <= frnd y)%Q <-> (1 - half54 <= y)%Q).
Proof.
  intros y Y U. apply (reach y 1 half54); auto; unfold half54; try lra.
  - exists 9007199254740991, (-53). split; [lia|]. split; [lia|]. reflexivity.
  - exists 1, 0. split; [lia|]. split; [lia|]. reflexivity.
  - exists 9007199254740991, (-53). split; [unfold P53; lia|]. split; [lia|]. vm_compute. reflexivity.
  - apply Qle_bool_iff. vm_compute. reflexivity.
  - vm_compute. reflexivity.
Qed.
Lemma reach_two : forall y, (0 <= y)%Q -> (y <= 2)%Q -> ((2 <= frnd y)%Q <-> (2 - half53 <= y)%Q).
Proof.
  intros y Y U. apply (reach y 2 half53); auto; unfold half53; try lra.
  - exists 9007199254740991, (-52). split; [lia|]. split; [lia|]. reflexivity.
  - exists 2, 0. split; [lia|]. split; [lia|]. reflexivity.
  - exists 9007199254740991, (-52). split; [unfold P53; lia|]. split; [lia|]. vm_compute. reflexivity.
  - apply Qle_bool_iff. vm_compute. reflexivity.
  - vm_compute. reflexivity.
Qed.

Lemma rounded_gap : forall x, (Qabs x <= 1)%Q ->
  rounded_value x = if Qle_bool x (half53 - 1) then 1 else if Qle_bool x half54 then 0 else 1.
Proof.
  intros x H. apply Qabs_Qle_condition in H as [A B]. unfold rounded_value, fceil, fsub.
  assert (Z0 : (frnd (x - inject_Z 1) == - frnd (inject_Z 1 - x))%Q) by (rewrite sub_swap; apply frnd_opp).
  set (y := (inject_Z 1 - x)%Q) in *. assert (Y : (y == 1 - x)%Q) by (unfold y; change (inject_Z 1) with 1%Q; reflexivity).
  assert (Y0 : (0 <= y)%Q) by lra. assert (Y2 : (y <= 2)%Q) by lra.
  assert (R0 : (0 <= frnd y)%Q).
  { change 0%Q with (inject_Z 0). apply frnd_ge; [apply is_f64_int; unfold P53; lia|exact Y0]. }
  assert (R2 : (frnd y <= 2)%Q).
  { change 2%Q with (inject_Z 2). apply frnd_le; [apply is_f64_int; unfold P53; lia|exact Y2]. }
  assert (C : Qceiling (frnd (x - inject_Z 1)) = Qceiling (- frnd y)) by (apply Qceiling_comp; exact Z0).
  rewrite C. clear C Z0. rewrite fto_int.
  2:{ assert (-2 <= Qceiling (- frnd y) <= 0).
      { split; [rewrite <- (Qceiling_Z (-2))|rewrite <- (Qceiling_Z 0)]; apply Qceiling_resp_le; change (inject_Z (-2)) with (- (2))%Q; change (inject_Z 0) with 0%Q; lra. }
      lia. }
  cbv zeta.
  assert (CE : forall k, (inject_Z (k - 1) < - frnd y)%Q -> (- frnd y <= inject_Z k)%Q -> Qceiling (- frnd y) = k).
  { intros k K1 K2. pose proof (Qceiling_lt (- frnd y)) as P1. pose proof (Qle_ceiling (- frnd y)) as P2.
    assert (inject_Z (k - 1) < inject_Z (Qceiling (- frnd y)))%Q by lra. rewrite <- Zlt_Qlt in H.
    assert (inject_Z (Qceiling (- frnd y) - 1) < inject_Z k)%Q by lra. rewrite <- Zlt_Qlt in H0. lia. }
  destruct (Qle_bool x (half53 - 1)) eqn:E1.
  - apply Qle_bool_iff in E1. assert (T : (2 <= frnd y)%Q) by (apply reach_two; auto; lra).
    rewrite (CE (-2)) by (change (inject_Z (-2 - 1)) with (- (3))%Q; change (inject_Z (-2)) with (- (2))%Q; lra).
    cbn [Z.add Z.ltb Z.compare Z.pos_sub Pos.pred_double Z.opp]. change (-2 + 1 <? 0) with true. cbv iota. unfold ffloor.
    assert (F : Qfloor x = -1).
    { pose proof (Qfloor_le x) as P1. pose proof (Qlt_floor x) as P2. unfold half53 in E1.
      assert (F1 : (inject_Z (Qfloor x) < inject_Z 0)%Q) by (change (inject_Z 0) with 0%Q; lra). rewrite <- Zlt_Qlt in F1.
      assert (F2 : (inject_Z (-1) < inject_Z (Qfloor x + 1))%Q) by (change (inject_Z (-1)) with (- (1))%Q; lra). rewrite <- Zlt_Qlt in F2. lia. }
    rewrite F. change (Qabs (inject_Z (-1))) with (inject_Z 1). now rewrite fto_int by lia.
  - assert (E1' : (half53 - 1 < x)%Q) by (apply Qnot_le_lt; intro K; apply Qle_bool_iff in K; congruence).
    assert (T : (frnd y < 2)%Q).
    { apply Qnot_le_lt. intro K. apply reach_two in K; auto. lra. }
    destruct (Qle_bool x half54) eqn:E2.
    + apply Qle_bool_iff in E2.
      assert (T1 : (1 <= frnd y)%Q).
      { destruct (Qlt_le_dec 1 y) as [K|K].
        - change 1%Q with (inject_Z 1). apply frnd_ge; [apply is_f64_int; unfold P53; lia|]. change (inject_Z 1) with 1%Q. lra.
        - apply reach_one; auto. lra. }
      rewrite (CE (-1)) by (change (inject_Z (-1 - 1)) with (- (2))%Q; change (inject_Z (-1)) with (- (1))%Q; lra). reflexivity.
    + assert (E2' : (half54 < x)%Q) by (apply Qnot_le_lt; intro K; apply Qle_bool_iff in K; congruence).
      assert (Y1 : (y <= 1)%Q) by (unfold half54 in E2'; lra).
      assert (T1 : (frnd y < 1)%Q).
      { apply Qnot_le_lt. intro K. apply reach_one in K; auto. lra. }
      rewrite (CE 0) by (change (inject_Z (0 - 1)) with (- (1))%Q; change (inject_Z 0) with 0%Q; lra). reflexivity.
Qed.

(** The error of a quotient far below 1. *)
Definition tiny300 : Q := 1 # Z.to_pos (2 ^ 300).
Lemma frnd_error_small : forall q, (tiny300 <= q)%Q ->
  (q * (9007199254740991 # 9007199254740992) <= frnd q <= q * (9007199254740993 # 9007199254740992))%Q.
Proof.
  intros q H. unfold tiny300, Qle in H. cbn [Qnum Qden] in H. rewrite pow2_pos in H by lia.
  assert (P : 0 < Qnum q) by (pose proof (p2pos 300 ltac:(lia)); nia).
  unfold frnd. rewrite Z.abs_eq by lia.
  destruct (f64_round (Qnum q) (Zpos (Qden q))) as [r|] eqn:E.
  - destruct (Qnum q <? 0) eqn:X; [lia|].
    assert (L : -1022 <= floor_log2 (Qnum q) (Zpos (Qden q))).
    { transitivity (-301); [lia|]. apply (floor_log2_ge _ _ 301); [exact P|reflexivity|lia|]. change (2 ^ 301) with (2 * 2 ^ 300). pose proof (p2pos 300 ltac:(lia)) as PP. set (p := 2 ^ 300) in *. clearbody p. nia. }
    destruct (f64_round_error (Qnum q) (Zpos (Qden q)) r P ltac:(lia) L E) as [R1 R2].
    unfold Qle. destruct q as [qn qd], r as [rn rd]. cbn [Qnum Qden Qmult] in *.
    rewrite !Pos2Z.inj_mul.
    set (a := qn * Zpos rd) in *. set (b := rn * Zpos qd) in *.
    split.
    + replace (qn * 9007199254740991 * Zpos rd) with (9007199254740991 * a) by (unfold a; ring).
      replace (rn * (Zpos qd * 9007199254740992)) with (9007199254740992 * b) by (unfold b; ring). lia.
    + replace (qn * 9007199254740993 * Zpos rd) with (9007199254740993 * a) by (unfold a; ring).
      replace (rn * (Zpos qd * 9007199254740992)) with (9007199254740992 * b) by (unfold b; ring). lia.
  - assert (PQ : (0 < q)%Q) by (unfold Qlt; cbn; lia). lra.
Qed.
Lemma err_small : forall (L T q : Q), (0 < L)%Q -> (L * tiny300 <= q)%Q ->
  (L * (4503599627370495 # 4503599627370496) <= T)%Q -> (T <= L * (4503599627370497 # 4503599627370496))%Q ->
  (0 < fdiv q L)%Q /\ (Qabs (fdiv q L * T - q) <= q * (1 # 1125899906842624))%Q.
Proof.
  intros L T q P A B C. unfold fdiv. set (t := (q / L)%Q).
  assert (E : (q == t * L)%Q) by (unfold t; field; lra).
  assert (T1 : (tiny300 <= t)%Q) by (unfold t; apply Qle_shift_div_l; [exact P|]; rewrite Qmult_comm; exact A).
  assert (T0 : (0 < t)%Q) by (eapply Qlt_le_trans; [|exact T1]; reflexivity).
  destruct (frnd_error_small t T1) as [X Y]. set (x := frnd t) in *. clearbody x. clearbody t.
  assert (TT : (0 < T)%Q) by lra. split; [lra|].
  assert (X' : (t * T * (9007199254740991 # 9007199254740992) <= x * T)%Q).
  { setoid_replace (t * T * (9007199254740991 # 9007199254740992))%Q with (t * (9007199254740991 # 9007199254740992) * T)%Q by ring.
    apply Qmult_le_compat_r; lra. }
  assert (Y' : (x * T <= t * T * (9007199254740993 # 9007199254740992))%Q).
  { setoid_replace (t * T * (9007199254740993 # 9007199254740992))%Q with (t * (9007199254740993 # 9007199254740992) * T)%Q by ring.
    apply Qmult_le_compat_r; lra. }
  assert (B' : (t * L * (4503599627370495 # 4503599627370496) <= t * T)%Q).
  { setoid_replace (t * L * (4503599627370495 # 4503599627370496))%Q with (L * (4503599627370495 # 4503599627370496) * t)%Q by ring.
    rewrite (Qmult_comm t T). apply Qmult_le_compat_r; lra. }
  assert (C' : (t * T <= t * L * (4503599627370497 # 4503599627370496))%Q).
  { setoid_replace (t * L * (4503599627370497 # 4503599627370496))%Q with (L * (4503599627370497 # 4503599627370496) * t)%Q by ring.
    rewrite (Qmult_comm t T). apply Qmult_le_compat_r; lra. }
  assert (Z0 : (0 < t * L)%Q) by (apply Qmult_lt_0_compat; assumption).
  apply Qabs_Qle_condition. rewrite E. set (xT := (x * T)%Q) in *. set (tT := (t * T)%Q) in *. set (tL := (t * L)%Q) in *. clearbody xT tT tL. split; lra.
Qed.
Lemma googol_tiny : (pow10 100 * tiny300 <= ten 36)%Q.
Proof. apply Qle_bool_iff. vm_compute. reflexivity. Qed.
Lemma gap_multiple : forall v, (ten 36 <= Qabs v)%Q -> multiple 100 v (fdiv v (pow10 100)).
Proof.
  intros v L. assert (I : In 100 (100 :: exps)) by (left; reflexivity). pose proof (pow10_pos 100 I) as P. destruct (is_near 100 I) as [C D].
  pose proof googol_tiny as G. destruct (err_small (pow10 100) (inject_Z (10 ^ 100)) (Qabs v) P) as [R1 R2]; [lra|exact C|exact D|].
  assert (T36 : (0 < ten 36)%Q) by reflexivity. unfold multiple. change (ten 100) with (inject_Z (10 ^ 100)).
  destruct (Qlt_le_dec v 0) as [N|N].
  - rewrite (qabs_neg_eq v) in * by lra. set (x := fdiv v (pow10 100)).
    assert (E : (fdiv (- v) (pow10 100) == - x)%Q) by (unfold x, fdiv; rewrite qdiv_opp; apply frnd_opp).
    rewrite E in R1, R2. split.
    + setoid_replace (x * v)%Q with ((- x) * (- v))%Q by ring. apply Qmult_lt_0_compat; lra.
    + rewrite <- (Qabs_opp (x * _ - v)). setoid_replace (- (x * inject_Z (10 ^ 100) - v))%Q with (- x * inject_Z (10 ^ 100) - - v)%Q by ring. assumption.
  - rewrite (qabs_pos_eq v) in * by lra. split; [apply Qmult_lt_0_compat; lra|assumption].
Qed.
