(** Rounding to float64 never crosses a float64; relative error. *)
From Coq Require Import String Ascii List ZArith QArith Qround Qabs Bool Lia Lqa.
From Verif Require Import Base BaseProofs PopModel NumModel NumProofs F64Model F64Proofs FltModel.
Import ListNotations.
Open Scope Z_scope.

Definition P53 : Z := 9007199254740992.

Lemma div_even_le : forall x y k, 0 < y -> x <= k * y -> div_even x y <= k.
Proof.
  intros x y k Y H. unfold div_even.
  pose proof (Z.div_mod x y ltac:(lia)). pose proof (Z.mod_pos_bound x y Y).
  assert (x / y <= k) by (apply Z.div_le_upper_bound; lia).
  destruct (2 * (x mod y) <? y) eqn:A; [lia|].
  assert (x / y <> k) by nia.
  destruct (y <? 2 * (x mod y)); [lia|]. destruct (Z.even _); lia.
Qed.
Lemma div_even_ge : forall x y k, 0 < y -> k * y <= x -> k <= div_even x y.
Proof.
  intros x y k Y H. unfold div_even.
  assert (k <= x / y) by (apply Z.div_le_lower_bound; lia).
  destruct (2 * (x mod y) <? y); [lia|]. destruct (y <? 2 * (x mod y)); [lia|]. destruct (Z.even _); lia.
Qed.

Lemma p2pos : forall e, 0 <= e -> 0 < 2 ^ e.
Proof. intros. apply Z.pow_pos_nonneg; lia. Qed.

(** The scaled significand. *)
Definition sig (n d e : Z) : Z :=
  if 0 <=? e then div_even n (d * 2 ^ e) else div_even (n * 2 ^ (- e)) d.

Lemma sig_le : forall n d e K k, 0 < d -> 0 <= K -> 0 <= e + K ->
  n * 2 ^ K <= k * d * 2 ^ (e + K) -> sig n d e <= k.
Proof.
  intros n d e K k D K0 EK H. unfold sig. destruct (0 <=? e) eqn:E.
  - apply div_even_le; [pose proof (p2pos e ltac:(lia)); nia|].
    replace (e + K) with (K + e) in H by lia. rewrite Z.pow_add_r in H by lia.
    pose proof (p2pos K K0). nia.
  - apply div_even_le; [assumption|].
    replace K with (e + K + - e) in H at 1 by lia. rewrite Z.pow_add_r in H by lia.
    pose proof (p2pos (e + K) EK). nia.
Qed.
Lemma sig_ge : forall n d e K k, 0 < d -> 0 <= K -> 0 <= e + K ->
  k * d * 2 ^ (e + K) <= n * 2 ^ K -> k <= sig n d e.
Proof.
  intros n d e K k D K0 EK H. unfold sig. destruct (0 <=? e) eqn:E.
  - apply div_even_ge; [pose proof (p2pos e ltac:(lia)); nia|].
    replace (e + K) with (K + e) in H by lia. rewrite Z.pow_add_r in H by lia.
    pose proof (p2pos K K0). nia.
  - apply div_even_ge; [assumption|].
    assert (R : 2 ^ K = 2 ^ (e + K) * 2 ^ (- e)) by (rewrite <- Z.pow_add_r by lia; f_equal; lia). rewrite R in H.
    pose proof (p2pos (e + K) EK). nia.
Qed.

Lemma dyadic_le : forall m e n d K, 0 < d -> 0 <= K -> 0 <= e + K ->
  (dyadic m e <= n # Z.to_pos d)%Q <-> m * 2 ^ (e + K) * d <= n * 2 ^ K.
Proof.
  intros m e n d K D K0 EK. unfold dyadic, Qle. destruct (0 <=? e) eqn:E; cbn [Qnum Qden inject_Z].
  - rewrite (Z2Pos.id d) by lia. replace (e + K) with (K + e) by lia. rewrite Z.pow_add_r by lia.
    pose proof (p2pos K K0). split; intro; nia.
  - rewrite (Z2Pos.id d) by lia. rewrite (pow2_pos (- e)) by lia.
    replace K with (e + K + - e) at 2 by lia. rewrite (Z.pow_add_r 2 (e + K)) by lia.
    pose proof (p2pos (e + K) EK). split; intro; nia.
Qed.
Lemma le_dyadic : forall m e n d K, 0 < d -> 0 <= K -> 0 <= e + K ->
  (n # Z.to_pos d <= dyadic m e)%Q <-> n * 2 ^ K <= m * 2 ^ (e + K) * d.
Proof.
  intros m e n d K D K0 EK. unfold dyadic, Qle. destruct (0 <=? e) eqn:E; cbn [Qnum Qden inject_Z].
  - rewrite (Z2Pos.id d) by lia. replace (e + K) with (K + e) by lia. rewrite Z.pow_add_r by lia.
    pose proof (p2pos K K0). split; intro; nia.
  - rewrite (Z2Pos.id d) by lia. rewrite (pow2_pos (- e)) by lia.
    replace K with (e + K + - e) at 1 by lia. rewrite (Z.pow_add_r 2 (e + K)) by lia.
    pose proof (p2pos (e + K) EK). split; intro; nia.
Qed.
Lemma dyadic_dyadic : forall m e m' e' K, 0 <= K -> 0 <= e + K -> 0 <= e' + K ->
  (dyadic m e <= dyadic m' e')%Q <-> m * 2 ^ (e + K) <= m' * 2 ^ (e' + K).
Proof.
  intros m e m' e' K K0 EK EK'.
  assert (R : (dyadic m' e' == (m' * 2 ^ (e' + K)) # Z.to_pos (2 ^ K))%Q).
  { unfold dyadic, Qeq. destruct (0 <=? e') eqn:E; cbn [Qnum Qden inject_Z]; rewrite !pow2_pos by lia.
    - rewrite (Z.add_comm e' K), Z.pow_add_r by lia. ring.
    - replace K with (e' + K + - e') at 1 by lia. rewrite Z.pow_add_r by lia. ring. }
  rewrite R. rewrite (dyadic_le m e _ (2 ^ K) K) by (try apply p2pos; lia).
  pose proof (p2pos K K0). split; intro; nia.
Qed.

Lemma f64_round_sig : forall n d q, 0 < n -> f64_round n d = Some q ->
  q = dyadic (sig n d (Z.max (floor_log2 n d - 52) (-1074))) (Z.max (floor_log2 n d - 52) (-1074)).
Proof.
  intros n d q N H. unfold f64_round in H. destruct (n =? 0) eqn:E; [lia|].
  cbv zeta in H. destruct (_ || _) in H; [discriminate|]. inversion H. reflexivity.
Qed.

(** 2^52 units of the last place fit below n/d, for normal numbers. *)
Lemma exp_low : forall n d K, 0 < n -> 0 < d -> 0 <= K ->
  let e := floor_log2 n d - 52 in 0 <= e + K -> 2 ^ 52 * d * 2 ^ (e + K) <= n * 2 ^ K.
Proof.
  intros n d K N D K0 e EK. destruct (floor_log2_spec n d N D) as [A B].
  set (l := floor_log2 n d) in *.
  replace (2 ^ 52 * d * 2 ^ (e + K)) with (d * (2 ^ (e + K) * 2 ^ 52)) by ring.
  rewrite <- Z.pow_add_r by lia. replace (e + K + 52) with (l + K) by (unfold e; lia).
  destruct (Z_lt_le_dec l 0).
  - specialize (B ltac:(lia)). replace K with (l + K + - l) at 2 by lia.
    rewrite (Z.pow_add_r 2 (l + K)) by lia. pose proof (p2pos (l + K) ltac:(lia)). nia.
  - specialize (A ltac:(lia)). rewrite Z.pow_add_r by lia. pose proof (p2pos K K0). nia.
Qed.

Lemma round_le : forall n d q a b, 0 < n -> 0 < d -> f64_round n d = Some q ->
  0 <= a <= P53 -> -1074 <= b ->
  (n # Z.to_pos d <= dyadic a b)%Q -> (q <= dyadic a b)%Q.
Proof.
  intros n d q a b N D H A B L. rewrite (f64_round_sig n d q N H).
  set (e := Z.max (floor_log2 n d - 52) (-1074)).
  set (K := Z.max 0 (Z.max (- e) (- b))).
  assert (K0 : 0 <= K) by lia. assert (KE : 0 <= e + K) by lia. assert (KB : 0 <= b + K) by lia.
  apply (dyadic_dyadic _ _ _ _ K K0 KE KB). apply (le_dyadic a b n d K D K0 KB) in L.
  pose proof (p2pos (e + K) KE) as PE. pose proof (p2pos (b + K) KB) as PB.
  destruct (Z_le_gt_dec e b) as [G|G].
  - assert (R : 2 ^ (b + K) = 2 ^ (b - e) * 2 ^ (e + K)) by (rewrite <- Z.pow_add_r by lia; f_equal; lia).
    assert (S : sig n d e <= a * 2 ^ (b - e)).
    { apply (sig_le n d e K); [lia|lia|lia|]. rewrite R in L. nia. }
    rewrite R. nia.
  - assert (EN : e = floor_log2 n d - 52) by lia.
    pose proof (exp_low n d K N D K0) as X. cbv zeta in X. rewrite <- EN in X. specialize (X KE).
    assert (R : 2 ^ (e + K) = 2 ^ (e - b) * 2 ^ (b + K)) by (rewrite <- Z.pow_add_r by lia; f_equal; lia).
    assert (R2 : 2 ^ (e - b) = 2 * 2 ^ (e - b - 1)).
    { rewrite <- Z.pow_succ_r by lia. f_equal. lia. }
    pose proof (p2pos (e - b - 1) ltac:(lia)) as P1.
    change (2 ^ 52) with 4503599627370496 in X. unfold P53 in A.
    assert (S : sig n d e <= 4503599627370496).
    { apply (sig_le n d e K); try lia. 
      transitivity (a * 2 ^ (b + K) * d); [exact L|].
      assert (a * 2 ^ (b + K) <= 4503599627370496 * 2 ^ (e + K)) by (rewrite R, R2; nia). nia. }
    assert (F : 4503599627370496 * 2 ^ (e + K) <= a * 2 ^ (b + K)) by nia. nia.
Qed.

Lemma round_ge : forall n d q a b, 0 < n -> 0 < d -> f64_round n d = Some q ->
  0 <= a <= P53 -> -1074 <= b ->
  (dyadic a b <= n # Z.to_pos d)%Q -> (dyadic a b <= q)%Q.
Proof.
  intros n d q a b N D H A B L. rewrite (f64_round_sig n d q N H).
  set (e := Z.max (floor_log2 n d - 52) (-1074)).
  set (K := Z.max 0 (Z.max (- e) (- b))).
  assert (K0 : 0 <= K) by lia. assert (KE : 0 <= e + K) by lia. assert (KB : 0 <= b + K) by lia.
  apply (dyadic_dyadic _ _ _ _ K K0 KB KE). apply (dyadic_le a b n d K D K0 KB) in L.
  pose proof (p2pos (e + K) KE) as PE. pose proof (p2pos (b + K) KB) as PB.
  destruct (Z_le_gt_dec e b) as [G|G].
  - assert (R : 2 ^ (b + K) = 2 ^ (b - e) * 2 ^ (e + K)) by (rewrite <- Z.pow_add_r by lia; f_equal; lia).
    assert (S : a * 2 ^ (b - e) <= sig n d e).
    { apply (sig_ge n d e K); [lia|lia|lia|]. rewrite R in L. nia. }
    rewrite R. nia.
  - assert (EN : e = floor_log2 n d - 52) by lia.
    pose proof (exp_low n d K N D K0) as X. cbv zeta in X. rewrite <- EN in X. specialize (X KE).
    assert (R : 2 ^ (e + K) = 2 ^ (e - b) * 2 ^ (b + K)) by (rewrite <- Z.pow_add_r by lia; f_equal; lia).
    assert (R2 : 2 ^ (e - b) = 2 * 2 ^ (e - b - 1)).
    { rewrite <- Z.pow_succ_r by lia. f_equal. lia. }
    pose proof (p2pos (e - b - 1) ltac:(lia)) as P1.
    change (2 ^ 52) with 4503599627370496 in X. unfold P53 in A.
    assert (S : 4503599627370496 <= sig n d e).
    { apply (sig_ge n d e K); try lia. }
    assert (F : a * 2 ^ (b + K) <= 4503599627370496 * 2 ^ (e + K)) by (rewrite R, R2; nia). nia.
Qed.

(** A float64: a significand of at most 53 bits times a power of two. *)
Definition is_f64 (r : Q) : Prop :=
  exists a b, Z.abs a <= P53 /\ -1074 <= b /\ (r == dyadic a b)%Q.

Lemma dyadic_opp : forall a b, (dyadic (- a) b == - dyadic a b)%Q.
Proof.
  intros. unfold dyadic. destruct (0 <=? b); unfold Qeq; cbn [Qnum Qden inject_Z Qopp]; ring.
Qed.
Lemma dyadic_nonneg : forall a b, 0 <= a -> (0 <= dyadic a b)%Q.
Proof.
  intros. unfold dyadic, Qle. destruct (0 <=? b) eqn:E; cbn [Qnum Qden inject_Z]; [|lia].
  pose proof (p2pos b ltac:(lia)). nia.
Qed.

Lemma is_f64_opp : forall r, is_f64 r -> is_f64 (- r).
Proof.
  intros r (a & b & A & B & E). exists (- a), b. split; [rewrite Z.abs_opp; assumption|]. split; [assumption|].
  rewrite dyadic_opp, E. reflexivity.
Qed.

Lemma frnd_pos : forall q, 0 < Qnum q ->
  exists r, frnd q = r /\ (0 <= r)%Q /\
    forall s, is_f64 s -> ((q <= s)%Q -> (r <= s)%Q) /\ ((s <= q)%Q -> (s <= r)%Q).
Proof.
  intros q P. unfold frnd. rewrite Z.abs_eq by lia.
  destruct (f64_round (Qnum q) (Zpos (Qden q))) as [r|] eqn:E.
  - destruct (Qnum q <? 0) eqn:X; [lia|]. exists r. split; [reflexivity|].
    assert (NN : (0 <= r)%Q).
    { rewrite (f64_round_sig _ _ _ P E). apply dyadic_nonneg.
      set (e := Z.max _ _). set (K := Z.max 0 (- e)).
      apply (sig_ge _ _ e K); try lia. }
    split; [exact NN|].
    intros s (a & b & A & B & S).
    assert (QQ : (q == Qnum q # Z.to_pos (Zpos (Qden q)))%Q) by (destruct q; reflexivity).
    split; intro L.
    + rewrite S in *. assert (0 <= a).
      { destruct (Z_lt_le_dec a 0) as [N|]; [|assumption]. exfalso.
        assert (Hd : (dyadic a b <= 0)%Q).
        { pose proof (dyadic_nonneg (- a) b ltac:(lia)) as Y. rewrite dyadic_opp in Y. lra. }
        assert (0 < q)%Q by (unfold Qlt; simpl; lia). lra. }
      apply (round_le (Qnum q) (Zpos (Qden q)) r a b); try assumption; try lia.
    + rewrite S in *. destruct (Z_lt_le_dec a 0) as [N|].
      * pose proof (dyadic_nonneg (- a) b ltac:(lia)) as Y. rewrite dyadic_opp in Y. lra.
      * apply (round_ge (Qnum q) (Zpos (Qden q)) r a b); try assumption; try lia.
  - exists q. split; [reflexivity|]. split; [unfold Qle; simpl; lia|]. tauto.
Qed.

Lemma frnd_bounds : forall q s, is_f64 s ->
  ((q <= s)%Q -> (frnd q <= s)%Q) /\ ((s <= q)%Q -> (s <= frnd q)%Q).
Proof.
  intros q s S. destruct (Z.lt_trichotomy (Qnum q) 0) as [N|[Z|P]].
  - assert (N' : 0 < Qnum (- q)) by (simpl; lia).
    destruct (frnd_pos (- q) N') as (r & R & _ & B).
    destruct (B (- s)%Q (is_f64_opp s S)) as [B1 B2].
    assert (O : (frnd q == - r)%Q).
    { rewrite <- R. unfold frnd. cbn [Qnum Qden Qopp]. rewrite Z.abs_opp.
      destruct (f64_round _ _).
      - destruct (Qnum q <? 0) eqn:X1; [|lia]. destruct (- Qnum q <? 0) eqn:X2; [lia|]. reflexivity.
      - destruct q. unfold Qeq; simpl. ring. }
    rewrite O. split; intro L; [assert (- s <= r)%Q by (apply B2; lra)|assert (r <= - s)%Q by (apply B1; lra)]; lra.
  - assert (F : (frnd q == q)%Q).
    { unfold frnd. rewrite Z. simpl. unfold f64_round. simpl. unfold Qeq. simpl. rewrite Z. reflexivity. }
    rewrite F. tauto.
  - destruct (frnd_pos q P) as (r & R & _ & B). rewrite R. apply B. assumption.
Qed.

Lemma frnd_le : forall q s, is_f64 s -> (q <= s)%Q -> (frnd q <= s)%Q.
Proof. intros q s S. apply (frnd_bounds q s S). Qed.
Lemma frnd_ge : forall q s, is_f64 s -> (s <= q)%Q -> (s <= frnd q)%Q.
Proof. intros q s S. apply (frnd_bounds q s S). Qed.
Lemma frnd_exact : forall q s, is_f64 s -> (q == s)%Q -> (frnd q == s)%Q.
Proof.
  intros q s S E. apply Qle_antisym; [apply frnd_le|apply frnd_ge]; try assumption; rewrite E; apply Qle_refl.
Qed.

Lemma is_f64_int : forall z, Z.abs z <= P53 -> is_f64 (inject_Z z).
Proof.
  intros z H. exists z, 0. split; [assumption|]. split; [lia|].
  unfold dyadic. simpl. rewrite Z.mul_1_r. reflexivity.
Qed.
(** z / 2^k *)
Lemma is_f64_frac : forall z k, Z.abs z <= P53 -> 0 <= k <= 1074 -> is_f64 (z # Z.to_pos (2 ^ k)).
Proof.
  intros z k H K. exists z, (- k). split; [assumption|]. split; [lia|].
  unfold dyadic. destruct (0 <=? - k) eqn:E.
  - assert (k = 0) by lia. subst. simpl. unfold Qeq; simpl. ring.
  - rewrite Z.opp_involutive. reflexivity.
Qed.

Lemma fint_exact : forall z, Z.abs z <= P53 -> (fint z == inject_Z z)%Q.
Proof. intros z H. apply frnd_exact; [apply is_f64_int; assumption|reflexivity]. Qed.

(** Relative error at most 2^-53 above 2^-1022. *)
Lemma frnd_error : forall q, (1 # 1000000000000000000000 <= q)%Q ->
  (q * (9007199254740991 # 9007199254740992) <= frnd q <= q * (9007199254740993 # 9007199254740992))%Q.
Proof.
  intros q H. assert (P : 0 < Qnum q) by (unfold Qle in H; simpl in H; lia).
  unfold frnd. rewrite Z.abs_eq by lia.
  destruct (f64_round (Qnum q) (Zpos (Qden q))) as [r|] eqn:E.
  - destruct (Qnum q <? 0) eqn:X; [lia|].
    assert (L : -1022 <= floor_log2 (Qnum q) (Zpos (Qden q))).
    { transitivity (-100); [lia|]. apply (floor_log2_ge _ _ 100); try lia.
      unfold Qle in H. simpl in H. change (2 ^ 100) with 1267650600228229401496703205376. lia. }
    destruct (f64_round_error (Qnum q) (Zpos (Qden q)) r P ltac:(lia) L E) as [R1 R2].
    unfold Qle. destruct q as [qn qd], r as [rn rd]. cbn [Qnum Qden Qmult] in *.
    rewrite !Pos2Z.inj_mul.
    set (a := qn * Zpos rd) in *. set (b := rn * Zpos qd) in *.
    split.
    + replace (qn * 9007199254740991 * Zpos rd) with (9007199254740991 * a) by (unfold a; ring).
      replace (rn * (Zpos qd * 9007199254740992)) with (9007199254740992 * b) by (unfold b; ring). lia.
    + replace (qn * 9007199254740993 * Zpos rd) with (9007199254740993 * a) by (unfold a; ring).
      replace (rn * (Zpos qd * 9007199254740992)) with (9007199254740992 * b) by (unfold b; ring). lia.
  - lra.
Qed.
