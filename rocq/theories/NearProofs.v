(** [f64_round] gives the nearest float64. *)
From Coq Require Import ZArith QArith Qpower Qround Qabs Bool Lia Lqa ZifyBool.
From Verif Require Import Base NumModel NumProofs F64Model F64Proofs FltProofs NearSpec.
Open Scope Z_scope.

Lemma floor_log2_upper : forall n d, 0 < n -> 0 < d ->
  let l := floor_log2 n d + 1 in (0 <= l -> n < d * 2 ^ l) /\ (l < 0 -> n * 2 ^ (- l) < d).
Proof.
  intros n d N D. unfold floor_log2.
  pose proof (Z.log2_spec n N) as [N1 N2]. pose proof (Z.log2_spec d D) as [D1 D2].
  pose proof (Z.log2_nonneg n). pose proof (Z.log2_nonneg d).
  rewrite <- Z.add_1_r in N2.
  set (l := Z.log2 n - Z.log2 d).
  destruct (if 0 <=? l then d * 2 ^ l <=? n else d <=? n * 2 ^ (- l)) eqn:E; cbv zeta.
  - clear E. split; intro H1.
    + assert (X : 2 ^ (Z.log2 n + 1) = 2 ^ Z.log2 d * 2 ^ (l + 1)) by (rewrite <- Z.pow_add_r by lia; f_equal; unfold l; lia).
      assert (0 < 2 ^ (l + 1)) by (apply Z.pow_pos_nonneg; lia). nia.
    + assert (X : 2 ^ (Z.log2 n + 1) * 2 ^ (- (l + 1)) = 2 ^ Z.log2 d) by (rewrite <- Z.pow_add_r by lia; f_equal; unfold l; lia).
      assert (0 < 2 ^ (- (l + 1))) by (apply Z.pow_pos_nonneg; lia). nia.
  - replace (l - 1 + 1) with l by lia. destruct (0 <=? l) eqn:L; split; intro; lia.
Qed.

Lemma two_power : forall e, (0 < Qpower 2 e)%Q.
Proof.
  assert (P : forall e, 0 <= e -> (0 < Qpower 2 e)%Q).
  { intros e E. rewrite <- (Zpower_Qpower 2 e) by lia. pose proof (p2pos e E). unfold Qlt, inject_Z. cbn [Qnum Qden]. lia. }
  intro e. destruct (Z_le_gt_dec 0 e) as [E|E]; [now apply P|]. replace e with (- - e) by lia. rewrite Qpower_opp. apply Qinv_lt_0_compat, P. lia.
Qed.
Lemma dyadic_power : forall m e, (dyadic m e == inject_Z m * Qpower 2 e)%Q.
Proof.
  intros m e. unfold dyadic. destruct (0 <=? e) eqn:E.
  - rewrite <- (Zpower_Qpower 2 e) by lia. rewrite <- inject_Z_mult. reflexivity.
  - assert (X : (Qpower 2 e == 1 # Z.to_pos (2 ^ (- e)))%Q).
    { replace e with (- - e) at 1 by lia. rewrite Qpower_opp. rewrite <- (Zpower_Qpower 2 (- e)) by lia.
      pose proof (p2pos (- e) ltac:(lia)) as P. change ((Zpos 2) ^ (- e)) with (2 ^ (- e)). destruct (2 ^ (- e)) as [|x|x]; try lia. reflexivity. }
    rewrite X. unfold Qeq, Qmult, inject_Z. cbn [Qnum Qden]. rewrite Pos.mul_1_l. ring.
Qed.

(** Facts about the result, with v = n/d and the unit u = 2^e. *)
Lemma round_facts : forall n d q, 0 < n -> 0 < d -> f64_round n d = Some q ->
  exists m e, (q == inject_Z m * Qpower 2 e)%Q /\ -1074 <= e <= 971 /\ 0 <= m <= 2 ^ 53 /\ (e = 971 -> m < 2 ^ 53) /\
    (e = -1074 \/ 2 ^ 52 <= m /\ (inject_Z (2 ^ 52) * Qpower 2 e <= n # Z.to_pos d)%Q) /\
    (2 * Qabs (q - (n # Z.to_pos d)) <= Qpower 2 e)%Q /\
    ((2 * Qabs (q - (n # Z.to_pos d)) == Qpower 2 e)%Q -> Z.even m = true).
Proof.
  intros n d q N D R. pose proof (f64_round_sig n d q N R) as S. set (l := floor_log2 n d) in *. set (e := Z.max (l - 52) (-1074)) in *.
  assert (RNG : e <= 971 /\ (e = 971 -> sig n d e < 2 ^ 53)).
  { unfold f64_round in R. destruct (n =? 0) eqn:X; [lia|]. cbv zeta in R. fold l e in R. change (if 0 <=? e then div_even n (d * 2 ^ e) else div_even (n * 2 ^ (- e)) d) with (sig n d e) in R.
    destruct ((971 <? e) || _) eqn:Y; [discriminate|]. change (2 ^ 53) with 9007199254740992. lia. }
  set (K := Z.max 0 (- e)). assert (K0 : 0 <= K) by lia. assert (KE : 0 <= e + K) by lia.
  exists (sig n d e), e. split; [rewrite S; apply dyadic_power|]. split; [lia|].
  destruct (floor_log2_upper n d N D) as [U1 U2]. fold l in U1, U2. cbv zeta in U1, U2.
  assert (LO : 0 <= sig n d e) by (apply (sig_ge n d e K); try lia; pose proof (p2pos K K0); nia).
  assert (HI : sig n d e <= 2 ^ 53).
  { apply (sig_le n d e K); try lia. assert (X : n * 2 ^ K <= 2 ^ 53 * d * 2 ^ (l - 52 + K) \/ l - 52 < - K).
    { destruct (Z_lt_le_dec (l - 52 + K) 0) as [Y|Y]; [right; lia|left]. replace (2 ^ 53 * d * 2 ^ (l - 52 + K)) with (d * (2 ^ (l - 52 + K) * 2 ^ 53)) by ring. rewrite <- Z.pow_add_r by lia.
      replace (l - 52 + K + 53) with (l + 1 + K) by lia. destruct (Z_lt_le_dec (l + 1) 0) as [Z1|Z1].
      - specialize (U2 Z1). replace K with (l + 1 + K + - (l + 1)) at 1 by lia. rewrite Z.pow_add_r by lia. pose proof (p2pos (l + 1 + K) ltac:(lia)). nia.
      - specialize (U1 Z1). rewrite Z.pow_add_r by lia. pose proof (p2pos K K0). nia. }
    destruct X as [X|X].
    - assert (2 ^ (l - 52 + K) <= 2 ^ (e + K)) by (apply Z.pow_le_mono_r; lia). nia.
    - assert (e = -1074) by lia. assert (K = 1074) by lia. replace (e + K) with 0 by lia. rewrite Z.mul_1_r. assert (l + 1 < 0) as Z1 by lia. specialize (U2 Z1).
      assert (2 ^ K <= 2 ^ 53 * 2 ^ (- (l + 1))) by (rewrite <- Z.pow_add_r by lia; apply Z.pow_le_mono_r; lia). nia. }
  split; [lia|]. split; [tauto|]. split.
  { destruct (Z.eq_dec e (-1074)) as [X|X]; [now left|right]. assert (EE : e = l - 52) by lia.
    pose proof (exp_low n d K N D K0) as L. cbv zeta in L. fold l in L. rewrite <- EE in L. specialize (L KE). split.
    - apply (sig_ge n d e K); try lia.
    - rewrite <- dyadic_power. apply (dyadic_le (2 ^ 52) e n d K D K0 KE). nia. }
  assert (NT : 2 * Z.abs (sig n d e * d * 2 ^ (e + K) - n * 2 ^ K) <= d * 2 ^ (e + K) /\
               (2 * Z.abs (sig n d e * d * 2 ^ (e + K) - n * 2 ^ K) = d * 2 ^ (e + K) -> Z.even (sig n d e) = true)).
  { unfold sig. destruct (0 <=? e) eqn:X.
    - assert (K = 0) as -> by lia. rewrite Z.add_0_r. pose proof (p2pos e ltac:(lia)) as P. assert (DP : 0 < d * 2 ^ e) by nia.
      pose proof (div_even_near n (d * 2 ^ e) ltac:(lia) DP). pose proof (div_even_tie n (d * 2 ^ e) ltac:(lia) DP). change (2 ^ 0) with 1. rewrite Z.mul_1_r.
      replace (div_even n (d * 2 ^ e) * d * 2 ^ e - n) with (- (n - div_even n (d * 2 ^ e) * (d * 2 ^ e))) by ring. rewrite Z.abs_opp. tauto.
    - assert (EK : e + K = 0) by lia. rewrite EK. assert (K = - e) as -> by lia. change (2 ^ 0) with 1. rewrite !Z.mul_1_r. pose proof (p2pos (- e) ltac:(lia)) as P. 
      pose proof (div_even_near (n * 2 ^ (- e)) d ltac:(nia) D). pose proof (div_even_tie (n * 2 ^ (- e)) d ltac:(nia) D).
      replace (div_even (n * 2 ^ (- e)) d * d - n * 2 ^ (- e)) with (- (n * 2 ^ (- e) - div_even (n * 2 ^ (- e)) d * d)) by ring. rewrite Z.abs_opp. tauto. }
  assert (V : forall m, (Qabs (inject_Z m * Qpower 2 e - (n # Z.to_pos d)) * inject_Z (d * 2 ^ K) == inject_Z (Z.abs (m * d * 2 ^ (e + K) - n * 2 ^ K)))%Q).
  { intro m. pose proof (p2pos K K0) as PK. 
    assert (W : (Qpower 2 e * inject_Z (2 ^ K) == inject_Z (2 ^ (e + K)))%Q).
    { change 2%Q with (inject_Z 2). rewrite !Zpower_Qpower by lia. rewrite <- Qpower_plus by discriminate. reflexivity. }
    assert (W2 : ((n # Z.to_pos d) * inject_Z d == inject_Z n)%Q) by (unfold Qeq, Qmult, inject_Z; cbn [Qnum Qden]; rewrite Pos.mul_1_r, Z2Pos.id by lia; ring).
    assert (AB : (inject_Z (d * 2 ^ K) == Qabs (inject_Z (d * 2 ^ K)))%Q) by (rewrite Qabs_pos; [reflexivity|unfold Qle, inject_Z; cbn; nia]).
    rewrite AB, <- Qabs_Qmult.
    assert (EQ : ((inject_Z m * Qpower 2 e - (n # Z.to_pos d)) * inject_Z (d * 2 ^ K) == inject_Z (m * d * 2 ^ (e + K) - n * 2 ^ K))%Q).
    { unfold Zminus. rewrite !inject_Z_plus, inject_Z_opp, !inject_Z_mult. rewrite <- W, <- W2. ring. }
    rewrite EQ. reflexivity. }
  assert (V2 : (Qpower 2 e * inject_Z (d * 2 ^ K) == inject_Z (d * 2 ^ (e + K)))%Q).
  { rewrite !inject_Z_mult. change 2%Q with (inject_Z 2). rewrite !Zpower_Qpower by lia. rewrite Qpower_plus by discriminate. ring. }
  assert (PP : (0 < inject_Z (d * 2 ^ K))%Q) by (unfold Qlt, inject_Z; cbn; pose proof (p2pos K K0); nia).
  specialize (V (sig n d e)). rewrite S, dyadic_power. destruct NT as [NT1 NT2].
  set (a := Qabs _) in *. set (c := inject_Z (d * 2 ^ K)) in *.
  assert (SC : (2 * a * c == inject_Z (2 * Z.abs (sig n d e * d * 2 ^ (e + K) - n * 2 ^ K)))%Q) by (rewrite inject_Z_mult, <- V; ring).
  split.
  - apply (Qmult_le_r _ _ c PP). rewrite SC, V2. rewrite <- Zle_Qle. exact NT1.
  - intro T. apply NT2. apply (inject_Z_injective _ _). rewrite <- SC, <- V2, T. reflexivity.
Qed.

Lemma near_multiple : forall (v u : Q) m k, (0 < u)%Q -> (2 * Qabs (inject_Z m * u - v) <= u)%Q ->
  (Qabs (inject_Z m * u - v) <= Qabs (inject_Z k * u - v))%Q /\
  (k <> m -> (Qabs (inject_Z k * u - v) <= Qabs (inject_Z m * u - v))%Q -> (2 * Qabs (inject_Z m * u - v) == u)%Q).
Proof.
  intros v u m k U H. destruct (Z.eq_dec k m) as [->|N]; [split; [apply Qle_refl|congruence]|].
  assert (F : (u <= Qabs (inject_Z k * u - v) + Qabs (inject_Z m * u - v))%Q).
  { assert (C : k + 1 <= m \/ m + 1 <= k) by lia. 
    assert (A : forall x, (x <= Qabs x)%Q) by apply Qle_Qabs. assert (B : forall x, (- x <= Qabs x)%Q) by (intro x; rewrite <- Qabs_opp; apply Qle_Qabs).
    destruct C as [C|C]; rewrite Zle_Qle, inject_Z_plus in C; change (inject_Z 1) with 1%Q in C.
    - specialize (B (inject_Z k * u - v)%Q). specialize (A (inject_Z m * u - v)%Q). assert ((inject_Z k + 1) * u <= inject_Z m * u)%Q by (apply Qmult_le_compat_r; [exact C|lra]). lra.
    - specialize (B (inject_Z m * u - v)%Q). specialize (A (inject_Z k * u - v)%Q). assert ((inject_Z m + 1) * u <= inject_Z k * u)%Q by (apply Qmult_le_compat_r; [exact C|lra]). lra. }
  split; [lra|intros _ L; lra].
Qed.

Lemma round_nearest : forall n d q, 0 <= n -> 0 < d -> f64_round n d = Some q -> nearest_float (n # Z.to_pos d) q.
Proof.
  intros n d q N0 D R. destruct (Z.eq_dec n 0) as [->|NZ].
  - assert (Q0 : q = inject_Z 0) by (unfold f64_round in R; cbn in R; congruence). subst q.
    assert (V0 : (0 # Z.to_pos d == 0)%Q) by reflexivity. assert (F0 : float64 (inject_Z 0)) by (exists 0, 0; repeat split; try lia; reflexivity).
    split; [exact F0|]. assert (Z0 : (Qabs (inject_Z 0 - (0 # Z.to_pos d)) == 0)%Q) by (rewrite V0; reflexivity). split.
    + intros p _. rewrite Z0. apply Qabs_nonneg.
    + intros p _ _. right. exists 0, (-1074). split; [lia|]. split; [lia|]. split; [now left|]. reflexivity.
  - assert (N : 0 < n) by lia. destruct (round_facts n d q N D R) as (m & e & Q & E & M & M2 & NRM & NEAR & TIE).
    set (v := n # Z.to_pos d) in *. pose proof (two_power e) as U. set (u := Qpower 2 e) in *. rewrite Q in NEAR, TIE.
    assert (W53 : (inject_Z (2 ^ 53) * u == inject_Z (2 ^ 52) * Qpower 2 (e + 1))%Q).
    { change (2 ^ 53) with (2 ^ 52 * 2). rewrite inject_Z_mult, Qpower_plus by discriminate. unfold u. change (inject_Z 2) with 2%Q. change (Qpower 2 1) with 2%Q. ring. }
    assert (FQ : float64 q).
    { destruct (Z.eq_dec m (2 ^ 53)) as [X|X].
      - exists (2 ^ 52), (e + 1). split; [lia|]. split; [lia|]. rewrite Q, X. exact W53.
      - exists m, e. split; [lia|]. split; [lia|exact Q]. }
    (* every float64 is a multiple of the unit, or below 2^52 units *)
    assert (MUL : forall p, float64 p -> (exists k, (p == inject_Z k * u)%Q) \/ (p < inject_Z (2 ^ 52) * u)%Q /\ (inject_Z (2 ^ 52) * u <= v)%Q).
    { intros p (a & b & A & B & P). destruct (Z_le_gt_dec e b) as [G|G].
      - left. exists (a * 2 ^ (b - e)). rewrite P, inject_Z_mult. change (inject_Z (2 ^ (b - e))) with (inject_Z ((Zpos 2) ^ (b - e))). rewrite Zpower_Qpower by lia. unfold u.
        rewrite <- Qmult_assoc, <- Qpower_plus by discriminate. replace (b - e + e) with b by lia. reflexivity.
      - right. destruct NRM as [NRM|[_ NRM]]; [lia|]. split; [|exact NRM]. rewrite P.
        assert (X : (inject_Z (2 ^ 52) * u == inject_Z (2 ^ (52 + (e - b))) * Qpower 2 b)%Q).
        { change (inject_Z (2 ^ (52 + (e - b)))) with (inject_Z ((Zpos 2) ^ (52 + (e - b)))). rewrite !Zpower_Qpower by lia. unfold u. change (inject_Z 2) with 2%Q.
          rewrite <- !Qpower_plus by discriminate. replace (52 + (e - b) + b) with (52 + e) by lia. reflexivity. }
        rewrite X. apply Qmult_lt_compat_r; [apply two_power|]. rewrite <- Zlt_Qlt. 
        assert (2 ^ 53 <= 2 ^ (52 + (e - b))) by (apply Z.pow_le_mono_r; lia). lia. }
    assert (BELOW : forall p, (p < inject_Z (2 ^ 52) * u)%Q -> (inject_Z (2 ^ 52) * u <= v)%Q -> (Qabs (inject_Z m * u - v) < Qabs (p - v))%Q).
    { intros p P1 P2. destruct (near_multiple v u m (2 ^ 52) U NEAR) as [L _]. eapply Qle_lt_trans; [exact L|].
      rewrite (Qabs_neg (inject_Z (2 ^ 52) * u - v)) by lra. rewrite (Qabs_neg (p - v)) by lra. lra. }
    split; [exact FQ|]. split.
    + intros p P. rewrite Q. destruct (MUL p P) as [(k & ->)|[P1 P2]]; [apply near_multiple; assumption|]. apply Qlt_le_weak. now apply BELOW.
    + intros p P L. rewrite Q in L. destruct (MUL p P) as [(k & PK)|[P1 P2]]; [|exfalso; specialize (BELOW p P1 P2); lra].
      rewrite PK in L. destruct (Z.eq_dec k m) as [->|X]; [left; now rewrite PK, Q|right].
      destruct (near_multiple v u m k U NEAR) as [_ T]. specialize (TIE (T X L)). apply Z.even_spec in TIE as (h & H).
      destruct (Z.eq_dec m (2 ^ 53)) as [Y|Y].
      * exists (2 ^ 51), (e + 1). change (2 * 2 ^ 51) with (2 ^ 52). split; [lia|]. split; [lia|]. split; [right; lia|]. rewrite Q, Y. exact W53.
      * exists h, e. rewrite <- H. split; [lia|]. split; [lia|]. split; [destruct NRM as [NRM|[NRM _]]; [now left|now right]|exact Q].
Qed.

(** The nearest float64 is one. *)
Lemma even_next : forall q q', even_float q -> even_float q' -> (q < q')%Q -> exists p, float64 p /\ (q < p)%Q /\ (p < q')%Q.
Proof.
  intros q q' (m & e & M & E & C & Q) (m' & e' & M' & E' & C' & Q') L. rewrite Q, Q' in L. pose proof (two_power e) as U. pose proof (two_power e') as U'.
  exists (inject_Z (2 * m + 1) * Qpower 2 e)%Q. split; [exists (2 * m + 1), e; split; [lia|]; split; [lia|reflexivity]|]. split.
  - rewrite Q. apply Qmult_lt_compat_r; [exact U|]. rewrite <- Zlt_Qlt. lia.
  - rewrite Q'. destruct (Z_le_gt_dec e e') as [G|G].
    + assert (X : (inject_Z (2 * m') * Qpower 2 e' == inject_Z (2 * (m' * 2 ^ (e' - e))) * Qpower 2 e)%Q).
      { replace (2 * (m' * 2 ^ (e' - e))) with (2 * m' * 2 ^ (e' - e)) by ring. rewrite (inject_Z_mult (2 * m')). rewrite Zpower_Qpower by lia. change (inject_Z 2) with 2%Q.
        rewrite <- Qmult_assoc, <- Qpower_plus by discriminate. replace (e' - e + e) with e' by lia. reflexivity. }
      rewrite X in L |- *. assert (Y : 2 * m < 2 * (m' * 2 ^ (e' - e))).
      { rewrite Zlt_Qlt. apply (Qmult_lt_r _ _ (Qpower 2 e) U). exact L. }
      apply Qmult_lt_compat_r; [exact U|]. rewrite <- Zlt_Qlt. lia.
    + exfalso. destruct C as [C|C]; [lia|]. apply (Qlt_not_le _ _ L).
      assert (X : (inject_Z (2 * m) * Qpower 2 e == inject_Z (2 * m * 2 ^ (e - e')) * Qpower 2 e')%Q).
      { rewrite (inject_Z_mult (2 * m)), Zpower_Qpower by lia. change (inject_Z 2) with 2%Q. rewrite <- Qmult_assoc, <- Qpower_plus by discriminate. replace (e - e' + e') with e by lia. reflexivity. }
      rewrite X. apply Qmult_le_compat_r; [|now apply Qlt_le_weak]. rewrite <- Zle_Qle.
      assert (2 ^ 1 <= 2 ^ (e - e')) by (apply Z.pow_le_mono_r; lia). change (2 ^ 1) with 2 in *. change (2 ^ 53) with (2 * 2 ^ 52) in M'. nia.
Qed.
Lemma between_closer : forall v a b p : Q, (Qabs (a - v) == Qabs (b - v))%Q -> (a < p)%Q -> (p < b)%Q -> (Qabs (p - v) < Qabs (a - v))%Q.
Proof.
  intros v a b p E A B.
  assert (AV : (a < v)%Q).
  { destruct (Qlt_le_dec a v) as [|G]; [assumption|]. rewrite !Qabs_pos in E by lra. lra. }
  assert (BV : (v < b)%Q).
  { destruct (Qlt_le_dec v b) as [|G]; [assumption|]. rewrite !Qabs_neg in E by lra. lra. }
  rewrite (Qabs_neg (a - v)) in * by lra. rewrite (Qabs_pos (b - v)) in E by lra. apply Qabs_case; intro; lra.
Qed.
Lemma nearest_unique : forall v q q', nearest_float v q -> nearest_float v q' -> (q == q')%Q.
Proof.
  assert (H : forall v q q', nearest_float v q -> nearest_float v q' -> (q < q')%Q -> False).
  { intros v q q' (F & N & T) (F' & N' & T') L.
    assert (E : (Qabs (q - v) == Qabs (q' - v))%Q) by (apply Qle_antisym; auto).
    assert (EV : even_float q) by (destruct (T q' F') as [X|X]; [rewrite E; apply Qle_refl|lra|exact X]).
    assert (EV' : even_float q') by (destruct (T' q F) as [X|X]; [rewrite E; apply Qle_refl|lra|exact X]).
    destruct (even_next q q' EV EV' L) as (p & FP & P1 & P2). specialize (N p FP). pose proof (between_closer v q q' p E P1 P2). lra. }
  intros v q q' A B. destruct (Qlt_le_dec q q') as [L|G]; [exfalso; eauto|]. destruct (Qlt_le_dec q' q) as [L|G2]; [exfalso; eauto|]. now apply Qle_antisym.
Qed.

Lemma nearest_ext : forall v w p q, (v == w)%Q -> (p == q)%Q -> nearest_float v p -> nearest_float w q.
Proof.
  intros v w p q E F ((m & e & M & X & V) & A & B). split; [|split].
  - exists m, e. repeat split; try lia. now rewrite <- F.
  - intros r R. rewrite <- E, <- F. now apply A.
  - intros r R H. rewrite <- E, <- F in H. destruct (B r R H) as [K|(k & g & K1 & K2 & K3 & K4)]; [left; now rewrite <- F|right].
    exists k, g. repeat split; try lia; try assumption. now rewrite <- F.
Qed.
