From Coq Require Import String Ascii List ZArith QArith Qround Qabs Bool Lia Lqa.
From Verif Require Import Base BaseProofs PopModel NumModel F64Model F64Proofs FltModel FltProofs CalModel HumModel HumFdProofs HumTimeProofs HumNumProofs IwModel IwSpec.
Import ListNotations.
Open Scope Z_scope.

Lemma qlt_iff : forall a b, qlt a b = true <-> (a < b)%Q.
Proof.
  intros a b. unfold qlt. rewrite negb_true_iff. split; intro H.
  - apply Qnot_le_lt. intro L. apply Qle_bool_iff in L. congruence.
  - apply not_true_is_false. intro L. apply Qle_bool_iff in L. lra.
Qed.
Lemma qlt_false : forall a b, qlt a b = false <-> (b <= a)%Q.
Proof.
  intros a b. split; intro H.
  - destruct (Qlt_le_dec a b) as [L|L]; [apply qlt_iff in L; congruence|assumption].
  - apply not_true_is_false. intro L. apply qlt_iff in L. lra.
Qed.

Lemma frnd_opp : forall q, (frnd (- q) == - frnd q)%Q.
Proof.
  intros [n d]. unfold frnd. cbn [Qopp Qnum Qden]. rewrite Z.abs_opp.
  destruct (f64_round (Z.abs n) (Zpos d)) as [r|] eqn:E; [|reflexivity].
  destruct (Z.lt_trichotomy n 0) as [L|[->|L]].
  - replace (- n <? 0) with false by lia. replace (n <? 0) with true by lia. rewrite Qopp_opp. reflexivity.
  - cbn [Z.opp Z.ltb Z.compare]. cbn in E. assert (r = 0)%Q by (vm_compute in E; congruence). subst r. reflexivity.
  - replace (- n <? 0) with true by lia. replace (n <? 0) with false by lia. reflexivity.
Qed.

Lemma log2_upper : forall n d K, 0 < n -> 0 < d -> 0 <= K -> 0 <= floor_log2 n d + K ->
  n * 2 ^ K < d * 2 ^ (floor_log2 n d + 1 + K).
Proof.
  intros n d K N D K0. unfold floor_log2.
  pose proof (Z.log2_spec n N) as [N1 N2]. pose proof (Z.log2_spec d D) as [D1 D2].
  pose proof (Z.log2_nonneg n). pose proof (Z.log2_nonneg d).
  set (l := Z.log2 n - Z.log2 d).
  destruct (if 0 <=? l then d * 2 ^ l <=? n else d <=? n * 2 ^ (- l)) eqn:E; cbv zeta; intro LK.
  - assert (R : 2 ^ Z.succ (Z.log2 n) * 2 ^ K = 2 ^ Z.log2 d * 2 ^ (l + 1 + K)).
    { rewrite <- !Z.pow_add_r by lia. f_equal. unfold l. lia. }
    pose proof (p2pos K K0). pose proof (p2pos (l + 1 + K) ltac:(lia)). nia.
  - replace (l - 1 + 1 + K) with (l + K) by lia. destruct (0 <=? l) eqn:L.
    + rewrite Z.pow_add_r by lia. pose proof (p2pos K K0). nia.
    + assert (R : 2 ^ K = 2 ^ (- l) * 2 ^ (l + K)) by (rewrite <- Z.pow_add_r by lia; f_equal; lia).
      rewrite R. pose proof (p2pos (l + K) ltac:(lia)). nia.
Qed.

Lemma round_f64 : forall n d q, 0 < n -> 0 < d -> f64_round n d = Some q -> is_f64 q.
Proof.
  intros n d q N D H. pose proof (f64_round_sig n d q N H) as E.
  set (e := Z.max (floor_log2 n d - 52) (-1074)) in *.
  exists (sig n d e), e. split; [|split; [unfold e; lia|rewrite E; reflexivity]].
  set (K := Z.max 1074 (- e)).
  assert (L : 0 <= sig n d e).
  { apply (sig_ge n d e K); unfold K, e; try lia. }
  rewrite Z.abs_eq by assumption.
  apply (sig_le n d e K); unfold K, e; try lia.
  fold e. fold K.
  set (K' := Z.max K (- floor_log2 n d)).
  pose proof (log2_upper n d K' N D ltac:(lia) ltac:(lia)) as U.
  assert (M : 2 ^ (floor_log2 n d + 1 + K') <= P53 * 2 ^ (e + K')).
  { change P53 with (2 ^ 53). rewrite <- Z.pow_add_r by lia. apply Z.pow_le_mono_r; lia. }
  assert (S : 2 ^ K' = 2 ^ K * 2 ^ (K' - K)) by (rewrite <- Z.pow_add_r by lia; f_equal; lia).
  assert (S' : 2 ^ (e + K') = 2 ^ (e + K) * 2 ^ (K' - K)) by (rewrite <- Z.pow_add_r by lia; f_equal; lia).
  rewrite S in U. rewrite S' in M. pose proof (p2pos (K' - K) ltac:(lia)) as P.
  assert (n * 2 ^ K * 2 ^ (K' - K) <= P53 * d * 2 ^ (e + K) * 2 ^ (K' - K)) by nia. nia.
Qed.

Lemma round_small : forall n d, 0 < n -> 0 < d -> n <= d * 2 ^ 900 -> exists q, f64_round n d = Some q.
Proof.
  intros n d N D B. unfold f64_round. replace (n =? 0) with false by lia. cbv zeta.
  assert (L : floor_log2 n d < 901).
  { apply floor_log2_le; try assumption; try lia. }
  replace (971 <? Z.max (floor_log2 n d - 52) (-1074)) with false by lia.
  replace (Z.max (floor_log2 n d - 52) (-1074) =? 971) with false by lia. cbn [orb andb]. eexists. reflexivity.
Qed.

Lemma frnd_f64 : forall q, (Qabs q <= inject_Z (2 ^ 900))%Q -> is_f64 (frnd q).
Proof.
  intros [n d] B. unfold frnd. cbn [Qnum Qden].
  destruct (Z.eq_dec n 0) as [->|NZ].
  { cbn. exists 0, 0. split; [unfold P53; lia|]. split; [lia|reflexivity]. }
  assert (B' : Z.abs n <= Zpos d * 2 ^ 900).
  { unfold Qle, Qabs, inject_Z in B. cbn [Qnum Qden] in B. lia. }
  destruct (round_small (Z.abs n) (Zpos d) ltac:(lia) ltac:(lia) B') as (r & E). rewrite E.
  pose proof (round_f64 (Z.abs n) (Zpos d) r ltac:(lia) ltac:(lia) E) as F.
  destruct (n <? 0); [apply is_f64_opp; assumption|assumption].
Qed.

(** ** The plural number *)
Lemma minus_one_exact : forall x, is_f64 x -> (1 <= x)%Q -> (x <= inject_Z 1000)%Q -> is_f64 (x - 1).
Proof.
  intros x (a & b & A & B & E) L U.
  destruct (Z_lt_le_dec b 0) as [N|N].
  - exists (a - 2 ^ (- b)), b. pose proof (p2pos (- b) ltac:(lia)) as P.
    assert (X : (1 <= dyadic a b)%Q) by (rewrite <- E; exact L).
    assert (Y : 2 ^ (- b) <= a).
    { unfold dyadic in X. replace (0 <=? b) with false in X by lia. unfold Qle in X. cbn [Qnum Qden] in X. rewrite pow2_pos in X by lia. lia. }
    split; [lia|]. split; [assumption|]. rewrite E. unfold dyadic. replace (0 <=? b) with false by lia.
    unfold Qeq, Qminus, Qplus, Qopp. cbn [Qnum Qden]. rewrite Pos.mul_1_r, pow2_pos by lia. ring.
  - assert (X : (x == inject_Z (a * 2 ^ b))%Q) by (rewrite E; unfold dyadic; replace (0 <=? b) with true by lia; reflexivity).
    rewrite X in *. assert (1 <= a * 2 ^ b <= 1000).
    { split; [apply inj_le_inv; exact L|apply inj_le_inv; exact U]. }
    destruct (is_f64_int (a * 2 ^ b - 1)) as (a' & b' & A' & B' & E'); [unfold P53; lia|].
    exists a', b'. split; [assumption|]. split; [assumption|]. rewrite <- E', X. unfold Qeq, Qminus, Qplus, Qopp, inject_Z. cbn [Qnum Qden]. lia.
Qed.

Lemma fto_int : forall z, Z.abs z <= 2 ^ 40 -> fto_int64 (inject_Z z) = z.
Proof.
  intros z H. unfold fto_int64, f64_to_int64, minInt64, maxInt64, qtrunc. cbn [Qnum inject_Z].
  replace (if z <? 0 then - Qfloor (- inject_Z z) else Qfloor (inject_Z z)) with z.
  - destruct (_ && _) eqn:X; [reflexivity|]. apply andb_false_iff in X. lia.
  - destruct (z <? 0); [|rewrite Qfloor_Z; reflexivity]. rewrite <- inject_Z_opp, Qfloor_Z. lia.
Qed.

Lemma ceil_shift : forall x z, Qceiling (x - inject_Z z) = Qceiling x - z.
Proof.
  intros x z. pose proof (Qceiling_lt x) as A. pose proof (Qle_ceiling x) as B.
  pose proof (Qceiling_lt (x - inject_Z z)) as C. pose proof (Qle_ceiling (x - inject_Z z)) as D.
  assert (P : (inject_Z (Qceiling x - 1) < inject_Z (Qceiling (x - inject_Z z) + z))%Q) by (rewrite inject_Z_plus; lra).
  assert (Q : (inject_Z (Qceiling (x - inject_Z z) - 1 + z) < inject_Z (Qceiling x))%Q) by (rewrite inject_Z_plus; lra).
  rewrite <- Zlt_Qlt in P, Q. lia.
Qed.

Lemma rounded_pos : forall x, is_f64 x -> (1 <= x)%Q -> (x <= inject_Z 1000)%Q -> rounded_value x = Qceiling x.
Proof.
  intros x F L U. unfold rounded_value, fceil, fsub.
  assert (E : (frnd (x - inject_Z 1) == x - inject_Z 1)%Q) by (apply frnd_exact; [apply minus_one_exact; assumption|reflexivity]).
  assert (C : Qceiling (frnd (x - inject_Z 1)) = Qceiling x - 1) by (rewrite (Qceiling_comp _ _ E); apply ceil_shift).
  assert (B : 1 <= Qceiling x <= 1000).
  { split; [|rewrite <- (Qceiling_Z 1000); apply Qceiling_resp_le; exact U]. rewrite <- (Qceiling_Z 1). apply Qceiling_resp_le. exact L. }
  rewrite C, fto_int by lia. cbv zeta. replace (Qceiling x - 1 + 1 <? 0) with false by lia. lia.
Qed.

Lemma rounded_neg : forall x, (x <= inject_Z (-1))%Q -> (inject_Z (-1000) <= x)%Q -> rounded_value x = Qceiling (- x).
Proof.
  intros x L U. unfold rounded_value, fceil, fsub.
  assert (A : (frnd (x - inject_Z 1) <= inject_Z (-2))%Q).
  { apply frnd_le; [apply is_f64_int; unfold P53; lia|]. change (inject_Z (-2)) with (inject_Z (-1) - inject_Z 1)%Q. lra. }
  assert (A' : (inject_Z (-1001) <= frnd (x - inject_Z 1))%Q).
  { apply frnd_ge; [apply is_f64_int; unfold P53; lia|]. change (inject_Z (-1001)) with (inject_Z (-1000) - inject_Z 1)%Q. lra. }
  assert (C : -1001 <= Qceiling (frnd (x - inject_Z 1)) <= -2).
  { split; [rewrite <- (Qceiling_Z (-1001))|rewrite <- (Qceiling_Z (-2))]; apply Qceiling_resp_le; assumption. }
  rewrite fto_int by lia. cbv zeta. replace (_ + 1 <? 0) with true by lia.
  unfold ffloor, Qceiling. rewrite (Qfloor_comp (- - x) x) by apply Qopp_opp.
  assert (B : -1000 <= Qfloor x <= -1).
  { split; [rewrite <- (Qfloor_Z (-1000))|rewrite <- (Qfloor_Z (-1))]; apply Qfloor_resp_le; assumption. }
  assert (E : Qabs (inject_Z (Qfloor x)) = inject_Z (- Qfloor x)).
  { unfold Qabs, inject_Z. f_equal. lia. }
  rewrite E, fto_int by lia. reflexivity.
Qed.

(** ** One unit *)

(** A value between the unit and its thousandfold (as computed). *)
Lemma unit_pos : forall (L q : Q), (0 < L)%Q -> is_f64 q -> (L <= q)%Q -> (q < fmul L (inject_Z 1000))%Q ->
  (1 <= fdiv q L)%Q /\ (fdiv q L <= inject_Z 1000)%Q.
Proof.
  intros L q P F A B. unfold fdiv. split.
  - change 1%Q with (inject_Z 1). apply frnd_ge; [apply is_f64_int; unfold P53; lia|]. apply Qle_shift_div_l; [assumption|]. change (inject_Z 1) with 1%Q. lra.
  - apply frnd_le; [apply is_f64_int; unfold P53; lia|]. apply Qle_shift_div_r; [assumption|].
    destruct (Qlt_le_dec (L * inject_Z 1000) q) as [G|G]; [|lra].
    exfalso. assert (fmul L (inject_Z 1000) <= q)%Q by (unfold fmul; apply frnd_le; [assumption|lra]). lra.
Qed.

(** ** Constants *)
Definition lim (e : Z) : Q := fmul (pow10 e) (inject_Z 1000).
Definition exps : list Z := [6; 9; 12; 15; 18; 21; 24; 27; 30; 33].
Definition near (e : Z) : bool :=
  Qle_bool (pow10 e * (4503599627370495 # 4503599627370496)) (inject_Z (10 ^ e)) &&
  Qle_bool (inject_Z (10 ^ e)) (pow10 e * (4503599627370497 # 4503599627370496)).

Lemma all_near : forallb near (100 :: exps) = true.
Proof. vm_compute. reflexivity. Qed.
Lemma is_near : forall e, In e (100 :: exps) ->
  (pow10 e * (4503599627370495 # 4503599627370496) <= inject_Z (10 ^ e))%Q /\
  (inject_Z (10 ^ e) <= pow10 e * (4503599627370497 # 4503599627370496))%Q.
Proof.
  intros e H. pose proof all_near as A. rewrite forallb_forall in A. specialize (A e H). unfold near in A.
  apply andb_true_iff in A as [A B]. split; apply Qle_bool_iff; assumption.
Qed.
Lemma pow10_pos : forall e, In e (100 :: exps) -> (0 < pow10 e)%Q.
Proof.
  intros e H. destruct (is_near e H) as [_ B].
  assert (P : (0 < inject_Z (10 ^ e))%Q).
  { change 0%Q with (inject_Z 0). rewrite <- Zlt_Qlt. apply Z.pow_pos_nonneg; [lia|]. unfold exps in H. cbn [In] in H. lia. }
  lra.
Qed.

(** The next unit is the limit of the one before. *)
Lemma lim_next : forallb (fun e => Qeq_bool (lim e) (pow10 (e + 3))) [6; 9; 12; 15; 18; 21; 24; 27; 30] = true.
Proof. vm_compute. reflexivity. Qed.
Lemma lim_is : forall e, In e [6; 9; 12; 15; 18; 21; 24; 27; 30] -> (lim e == pow10 (e + 3))%Q.
Proof.
  intros e H. pose proof lim_next as A. rewrite forallb_forall in A. apply Qeq_bool_iff. apply A. assumption.
Qed.

Lemma unit_lower : forallb (fun e => Qle_bool (inject_Z (10 ^ e)) (pow10 e)) [6; 9; 12; 15; 18; 21; 27; 30; 33] = true.
Proof. vm_compute. reflexivity. Qed.
Lemma unit_lower_24 : (pow10 24 == inject_Z (10 ^ 24 - 2 ^ 24))%Q.
Proof. vm_compute. reflexivity. Qed.

(** No float lies between a power of ten and the computed limit above it. *)
Lemma lim_round : forallb (fun e => Qle_bool (lim e) (frnd (inject_Z (10 ^ (e + 3))))) [6; 9; 12; 15; 18; 21; 24; 27; 33; 100] = true.
Proof. vm_compute. reflexivity. Qed.
Lemma lim_30 : (lim 30 == inject_Z (6938893903907229 * 2 ^ 57))%Q.
Proof. vm_compute. reflexivity. Qed.

Lemma coarse : forall v, is_f64 v -> (inject_Z (2 ^ 109) < v)%Q -> exists k, (v == inject_Z (k * 2 ^ 57))%Q.
Proof.
  intros v (a & b & A & B & E) H. rewrite E in H.
  assert (C : 57 <= b).
  { destruct (Z_le_gt_dec 57 b) as [L|L]; [assumption|exfalso]. unfold dyadic in H. destruct (0 <=? b) eqn:S.
    - rewrite <- Zlt_Qlt in H. assert (2 ^ b <= 2 ^ 56) by (apply Z.pow_le_mono_r; lia).
      pose proof (p2pos b ltac:(lia)). change (2 ^ 109) with (P53 * 2 ^ 56) in H. unfold P53 in *. nia.
    - unfold Qlt, inject_Z in H. cbn [Qnum Qden] in H. rewrite pow2_pos in H by lia. pose proof (p2pos (- b) ltac:(lia)).
      change (2 ^ 109) with (P53 * 2 ^ 56) in H. unfold P53 in *. nia. }
  exists (a * 2 ^ (b - 57)). rewrite E. unfold dyadic. replace (0 <=? b) with true by lia.
  replace (a * 2 ^ (b - 57) * 2 ^ 57) with (a * 2 ^ b); [reflexivity|].
  rewrite <- Z.mul_assoc, <- Z.pow_add_r by lia. do 2 f_equal. lia.
Qed.

Lemma is_f64_abs : forall v, is_f64 v -> is_f64 (Qabs v).
Proof. intros v H. apply Qabs_case; intros _; [assumption|apply is_f64_opp; assumption]. Qed.

Lemma lim_above : forall e v, In e (100 :: exps) -> is_f64 v -> (v < lim e)%Q -> (v < inject_Z (10 ^ (e + 3)))%Q.
Proof.
  intros e v I F L. destruct (Z.eq_dec e 30) as [->|N].
  - change (30 + 3) with 33. destruct (Qlt_le_dec v (inject_Z (10 ^ 33))) as [G|G]; [assumption|exfalso].
    destruct (coarse v F) as (k & E).
    { eapply Qlt_le_trans; [|exact G]. rewrite <- Zlt_Qlt. reflexivity. }
    rewrite lim_30, E in L. rewrite E in G. rewrite <- Zlt_Qlt in L. rewrite <- Zle_Qle in G. lia.
  - pose proof lim_round as A. rewrite forallb_forall in A.
    assert (I' : In e [6; 9; 12; 15; 18; 21; 24; 27; 33; 100]) by (unfold exps in I; cbn [In] in *; lia).
    specialize (A e I'). apply Qle_bool_iff in A.
    destruct (Qlt_le_dec v (inject_Z (10 ^ (e + 3)))) as [G|G]; [assumption|exfalso].
    pose proof (frnd_le _ _ F G). lra.
Qed.

Lemma unit_below : forall e, In e exps -> (inject_Z (10 ^ e) <= pow10 e)%Q \/ e = 24 /\ (inject_Z (10 ^ 24 - 2 ^ 24) <= pow10 24)%Q.
Proof.
  intros e I. destruct (Z.eq_dec e 24) as [->|N]; [right; split; [reflexivity|rewrite unit_lower_24; apply Qle_refl]|left].
  pose proof unit_lower as A. rewrite forallb_forall in A. apply Qle_bool_iff. apply A. unfold exps in I. cbn [In] in *. lia.
Qed.

(** ** A value shown with a unit *)
Definition shown_as (text : bytes) (n : Z) (x : Q) : iword :=
  IText (ONGetf [] text text n (AText (OPrint (bs "%.1f") (AFloat64 x)))).

Lemma loop_take : forall e text l v, (Qabs v < lim e)%Q ->
  intword_loop ((e, text) :: l) v = shown_as text (rounded_value (fdiv v (pow10 e))) (fdiv v (pow10 e)).
Proof. intros e text l v H. apply qlt_iff in H. cbn [intword_loop]. cbv zeta. change (fmul (pow10 e) (inject_Z 1000)) with (lim e). rewrite H. reflexivity. Qed.
Lemma loop_skip : forall e text l v, (lim e <= Qabs v)%Q -> intword_loop ((e, text) :: l) v = intword_loop l v.
Proof. intros e text l v H. apply qlt_false in H. cbn [intword_loop]. cbv zeta. change (fmul (pow10 e) (inject_Z 1000)) with (lim e). rewrite H. reflexivity. Qed.

Lemma err_pos : forall (L T q : Q), (0 < L)%Q -> (L <= q)%Q ->
  (L * (4503599627370495 # 4503599627370496) <= T)%Q -> (T <= L * (4503599627370497 # 4503599627370496))%Q ->
  (Qabs (fdiv q L * T - q) <= q * (1 # 1125899906842624))%Q.
Proof.
  intros L T q P A B C. unfold fdiv. set (t := (q / L)%Q).
  assert (E : (q == t * L)%Q) by (unfold t; field; lra).
  assert (T1 : (1 <= t)%Q) by (unfold t; apply Qle_shift_div_l; lra).
  destruct (frnd_error t ltac:(lra)) as [X Y]. set (x := frnd t) in *. clearbody x. clearbody t.
  assert (TT : (0 < T)%Q) by lra.
  assert (X' : (t * T * (9007199254740991 # 9007199254740992) <= x * T)%Q).
  { setoid_replace (t * T * (9007199254740991 # 9007199254740992))%Q with (t * (9007199254740991 # 9007199254740992) * T)%Q by ring.
    apply Qmult_le_compat_r; lra. }
  assert (Y' : (x * T <= t * T * (9007199254740993 # 9007199254740992))%Q).
  { setoid_replace (t * T * (9007199254740993 # 9007199254740992))%Q with (t * (9007199254740993 # 9007199254740992) * T)%Q by ring.
    apply Qmult_le_compat_r; lra. }
  assert (B' : (t * L * (4503599627370495 # 4503599627370496) <= t * T)%Q).
  { setoid_replace (t * L * (4503599627370495 # 4503599627370496))%Q with (L * (4503599627370495 # 4503599627370496) * t)%Q by ring.
    rewrite (Qmult_comm t T). apply Qmult_le_compat_r; lra. }
  assert (C' : (t * T <= t * L * (4503599627370497 # 4503599627370496))%Q).
  { setoid_replace (t * L * (4503599627370497 # 4503599627370496))%Q with (L * (4503599627370497 # 4503599627370496) * t)%Q by ring.
    rewrite (Qmult_comm t T). apply Qmult_le_compat_r; lra. }
  assert (Z0 : (0 < t * L)%Q) by (rewrite <- E; lra).
  apply Qabs_Qle_condition. rewrite E. set (xT := (x * T)%Q) in *. set (tT := (t * T)%Q) in *. set (tL := (t * L)%Q) in *. clearbody xT tT tL. split; lra.
Qed.

Lemma qabs_neg_eq : forall v, (v < 0)%Q -> Qabs v = (- v)%Q.
Proof. intros [n d] H. unfold Qlt in H. cbn [Qnum Qden] in H. unfold Qabs, Qopp. cbn [Qnum Qden]. f_equal. lia. Qed.
Lemma qabs_pos_eq : forall v, (0 <= v)%Q -> Qabs v = v.
Proof. intros [n d] H. unfold Qle in H. cbn [Qnum Qden] in H. unfold Qabs. f_equal. lia. Qed.
Lemma qdiv_opp : forall v L, (- v / L)%Q = (- (v / L))%Q.
Proof. intros [n d] L. unfold Qdiv, Qmult, Qopp. cbn [Qnum Qden]. f_equal. ring. Qed.

Lemma unit_shown : forall e v, In e (100 :: exps) -> is_f64 v -> (pow10 e <= Qabs v)%Q -> (Qabs v < lim e)%Q ->
  let x := fdiv v (pow10 e) in
  rounded_value x = Qceiling (Qabs x) /\ (1 <= Qabs x)%Q /\ (Qabs x <= inject_Z 1000)%Q /\ (0 < x * v)%Q /\
  (Qabs (x * inject_Z (10 ^ e) - v) <= Qabs v * (1 # 1125899906842624))%Q.
Proof.
  intros e v I F A B x. pose proof (pow10_pos e I) as P. destruct (is_near e I) as [C D].
  destruct (unit_pos _ _ P (is_f64_abs _ F) A B) as [L U].
  pose proof (err_pos _ _ _ P A C D) as R.
  destruct (Qlt_le_dec v 0) as [N|N].
  - rewrite (qabs_neg_eq v) in * by lra.
    assert (E : (fdiv (- v) (pow10 e) == - x)%Q) by (unfold x, fdiv; rewrite qdiv_opp; apply frnd_opp).
    rewrite E in L, U, R. change (inject_Z 1000) with 1000%Q in *.
    assert (K : (x < 0)%Q) by lra.
    rewrite (qabs_neg_eq x) by assumption.
    split; [apply rounded_neg; [change (inject_Z (-1)) with (- (1))%Q|change (inject_Z (-1000)) with (- (1000))%Q]; lra|].
    split; [assumption|]. split; [assumption|]. split.
    + setoid_replace (x * v)%Q with ((- x) * (- v))%Q by ring. apply Qmult_lt_0_compat; lra.
    + rewrite <- (Qabs_opp (x * _ - v)). setoid_replace (- (x * inject_Z (10 ^ e) - v))%Q with (- x * inject_Z (10 ^ e) - - v)%Q by ring. assumption.
  - rewrite (qabs_pos_eq v) in * by lra. fold x in L, U, R.
    assert (K : (0 <= x)%Q) by lra. rewrite (qabs_pos_eq x) by assumption.
    split; [apply rounded_pos; [|assumption|assumption]|].
    + unfold x, fdiv. apply frnd_f64. rewrite Qabs_pos.
      * apply Qle_shift_div_r; [assumption|].
        assert (G : (v <= pow10 e * inject_Z 1000)%Q).
        { destruct (Qlt_le_dec (pow10 e * inject_Z 1000) v) as [G|G]; [|assumption].
          exfalso. assert (lim e <= v)%Q by (unfold lim, fmul; apply frnd_le; [assumption|lra]). lra. }
        eapply Qle_trans; [exact G|]. rewrite (Qmult_comm (inject_Z (2 ^ 900))). apply Qmult_le_l; [assumption|].
        rewrite <- Zle_Qle. vm_compute. discriminate.
      * apply Qle_shift_div_l; [assumption|]. lra.
    + split; [assumption|]. split; [assumption|]. split; [|assumption]. apply Qmult_lt_0_compat; lra.
Qed.

(** ** The loop *)
Lemma loop_middle : forall v, is_f64 v -> (inject_Z 1000000 <= Qabs v)%Q -> (Qabs v < lim 33)%Q ->
  exists e name, In (e, name) units /\ In e exps /\ (pow10 e <= Qabs v)%Q /\ (Qabs v < lim e)%Q /\
    intword_loop converters v = shown_as (bs "%[1]s " ++ name) (rounded_value (fdiv v (pow10 e))) (fdiv v (pow10 e)).
Proof.
  intros v F L U.
  assert (L6 : (pow10 6 <= Qabs v)%Q).
  { eapply Qle_trans; [|exact L]. apply Qle_bool_iff. vm_compute. reflexivity. }
  clear L. unfold converters.
  Ltac step e name :=
    match goal with H : (pow10 e <= Qabs ?v)%Q |- _ =>
      let H' := fresh "H" in rename H into H'; destruct (Qlt_le_dec (Qabs v) (lim e)) as [S|S];
      [ exists e, (bs name); split; [cbn [In units]; tauto|]; split; [cbn [In exps]; tauto|]; split; [exact H'|]; split; [exact S|];
        rewrite loop_take by exact S; reflexivity
      | rewrite loop_skip by exact S; clear H' ]
    end.
  Ltac next e := match goal with S : (lim e <= Qabs ?v)%Q |- _ =>
    rewrite (lim_is e) in S by (cbn [In]; tauto); let k := eval vm_compute in (e + 3) in change (e + 3) with k in S end.
  step 6 "million"%string; next 6. step 9 "billion"%string; next 9. step 12 "trillion"%string; next 12. step 15 "quadrillion"%string; next 15.
  step 18 "quintillion"%string; next 18. step 21 "sextillion"%string; next 21. step 24 "septillion"%string; next 24.
  step 27 "octillion"%string; next 27. step 30 "nonillion"%string; next 30. step 33 "decillion"%string. exfalso. lra.
Qed.

Lemma lims_ordered : forallb (fun e => Qle_bool (lim e) (lim 33)) exps = true.
Proof. vm_compute. reflexivity. Qed.

Lemma loop_last : forall v, (lim 33 <= Qabs v)%Q ->
  intword_loop converters v = intword_loop [(100, bs "%[1]s googol")] v.
Proof.
  intros v H. pose proof lims_ordered as A. rewrite forallb_forall in A.
  assert (A' : forall e, In e exps -> (lim e <= Qabs v)%Q).
  { intros e I. eapply Qle_trans; [|exact H]. apply Qle_bool_iff. apply A. assumption. }
  unfold converters. do 10 (rewrite loop_skip by (apply A'; cbn [In exps]; tauto)). reflexivity.
Qed.

Lemma lim33_up : (ten 36 <= lim 33)%Q.
Proof. apply Qle_bool_iff. vm_compute. reflexivity. Qed.

Lemma lim33_100 : (lim 33 <= ten 100)%Q.
Proof. apply Qle_bool_iff. vm_compute. reflexivity. Qed.

Lemma lim33_least : forall v, is_f64 v -> (ten 36 <= v)%Q -> (lim 33 <= v)%Q.
Proof.
  intros v F H. destruct (Qlt_le_dec v (lim 33)) as [L|L]; [|assumption].
  exfalso. pose proof (lim_above 33 v ltac:(cbn [In exps]; tauto) F L) as G. change (inject_Z (10 ^ (33 + 3))) with (ten 36) in G. lra.
Qed.
Lemma lim100_least : forall v, is_f64 v -> (ten 103 <= v)%Q -> (lim 100 <= v)%Q.
Proof.
  intros v F H. destruct (Qlt_le_dec v (lim 100)) as [L|L]; [|assumption].
  exfalso. pose proof (lim_above 100 v ltac:(cbn [In exps]; tauto) F L) as G. change (inject_Z (10 ^ (100 + 3))) with (ten 103) in G. lra.
Qed.
Lemma lim100_up : (ten 103 <= lim 100)%Q.
Proof. apply Qle_bool_iff. vm_compute. reflexivity. Qed.
Lemma pow100_round : (pow10 100 <= frnd (ten 100))%Q.
Proof. apply Qle_bool_iff. vm_compute. reflexivity. Qed.
Lemma pow100_least : forall v, is_f64 v -> (ten 100 <= v)%Q -> (pow10 100 <= v)%Q.
Proof. intros v F H. eapply Qle_trans; [apply pow100_round|]. apply frnd_le; assumption. Qed.
Lemma pow100_up : (ten 100 <= pow10 100)%Q.
Proof. apply Qle_bool_iff. vm_compute. reflexivity. Qed.
Lemma ten_36_6 : (inject_Z 1000000 <= ten 36)%Q.
Proof. apply Qle_bool_iff. vm_compute. reflexivity. Qed.

Lemma intword_big : forall v, (inject_Z 1000000 <= Qabs v)%Q -> intword (FFin v) = intword_loop converters v.
Proof. intros v H. unfold intword. apply qlt_false in H. rewrite H. reflexivity. Qed.

(** Below one googol. *)
Lemma rounded_tiny : forall x, (Qabs x <= 1)%Q -> rounded_value x = 0 \/ rounded_value x = 1.
Proof.
  intros x H. apply Qabs_Qle_condition in H as [A B]. unfold rounded_value, fceil, fsub.
  assert (U : (frnd (x - inject_Z 1) <= inject_Z 0)%Q).
  { apply frnd_le; [apply is_f64_int; unfold P53; lia|]. change (inject_Z 1) with 1%Q. change (inject_Z 0) with 0%Q. lra. }
  assert (L : (inject_Z (-2) <= frnd (x - inject_Z 1))%Q).
  { apply frnd_ge; [apply is_f64_int; unfold P53; lia|]. change (inject_Z 1) with 1%Q. change (inject_Z (-2)) with (- (2))%Q. lra. }
  assert (C : -2 <= Qceiling (frnd (x - inject_Z 1)) <= 0).
  { split; [rewrite <- (Qceiling_Z (-2))|rewrite <- (Qceiling_Z 0)]; apply Qceiling_resp_le; assumption. }
  rewrite fto_int by lia. cbv zeta. destruct (_ + 1 <? 0) eqn:S; [|lia].
  unfold ffloor.
  assert (F : -1 <= Qfloor x <= 1).
  { split; [rewrite <- (Qfloor_Z (-1))|rewrite <- (Qfloor_Z 1)]; apply Qfloor_resp_le; assumption. }
  assert (E : Qabs (inject_Z (Qfloor x)) = inject_Z (Z.abs (Qfloor x))) by reflexivity.
  rewrite E, fto_int by lia. lia.
Qed.

Lemma div_below : forall v L, (0 < L)%Q -> (Qabs v <= L)%Q -> (Qabs (fdiv v L) <= 1)%Q.
Proof.
  intros v L P H. apply Qabs_Qle_condition in H as [A B]. apply Qabs_Qle_condition. unfold fdiv. split.
  - change (- (1))%Q with (inject_Z (-1)). apply frnd_ge; [apply is_f64_int; unfold P53; lia|]. apply Qle_shift_div_l; [assumption|]. change (inject_Z (-1)) with (- (1))%Q. lra.
  - change 1%Q with (inject_Z 1). apply frnd_le; [apply is_f64_int; unfold P53; lia|]. apply Qle_shift_div_r; [assumption|]. change (inject_Z 1) with 1%Q. lra.
Qed.
