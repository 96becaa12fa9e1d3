(** The shortest decimal of a float64. *)
From Coq Require Import String Ascii List ZArith QArith Qabs Qround Qpower Bool Lia Lqa ZifyBool.
From Verif Require Import Base BaseProofs NumModel F64Model F64Proofs FloatTextProofs CldrModel CldrSpec CldrTextProofs CldrFloatSpec CldrFloatProofs
  NearSpec NearProofs ShortNearProofs HumModel ShortDecModel ShortDecSpec CldrOperandProofs.
From Verif Require CastSpec CldrSampleProofs ShortProofs.
Import ListNotations.
Open Scope Z_scope.

(** ** Powers of ten *)
Definition ten (x : Z) : Q := Qpower 10 x.
Lemma z10 : forall x, 0 <= x -> 0 < 10 ^ x.
Proof. intros. apply Z.pow_pos_nonneg; lia. Qed.
Lemma ten_nat : forall x, 0 <= x -> (ten x == inject_Z (10 ^ x))%Q.
Proof. intros x X. unfold ten. symmetry. exact (Zpower_Qpower 10 x X). Qed.
Lemma ten_pos : forall x, (0 < ten x)%Q.
Proof.
  assert (P : forall x, 0 <= x -> (0 < ten x)%Q).
  { intros x X. rewrite ten_nat by exact X. pose proof (z10 x X). unfold Qlt, inject_Z. cbn [Qnum Qden]. lia. }
  intro x. destruct (Z_le_gt_dec 0 x) as [X|X]; [now apply P|]. replace x with (- - x) by lia. unfold ten. rewrite Qpower_opp. apply Qinv_lt_0_compat, P. lia.
Qed.
Lemma ten_plus : forall a b, (ten (a + b) == ten a * ten b)%Q.
Proof. intros a b. unfold ten. apply Qpower_plus. discriminate. Qed.
Lemma ten_mono : forall a b, a <= b -> (ten a <= ten b)%Q.
Proof.
  intros a b L. replace b with (a + (b - a)) by lia. rewrite ten_plus, (ten_nat (b - a)) by lia. pose proof (ten_pos a) as P. pose proof (z10 (b - a) ltac:(lia)) as Z1.
  assert (1 <= inject_Z (10 ^ (b - a)))%Q by (change 1%Q with (inject_Z 1); rewrite <- Zle_Qle; lia).
  set (t := inject_Z _) in *. set (u := ten a) in *. clearbody t u. nra.
Qed.

Definition dec (c x : Z) : Q := (inject_Z c * ten x)%Q.
Lemma dec_ratio : forall c x, exists n d, 0 < d /\ (0 <= c -> 0 <= n) /\ (dec c x == n # Z.to_pos d)%Q /\ (0 <= x -> n = c * 10 ^ x /\ d = 1) /\ (x < 0 -> n = c /\ d = 10 ^ (- x)).
Proof.
  intros c x. destruct (Z_le_gt_dec 0 x) as [X|X].
  - exists (c * 10 ^ x), 1. pose proof (z10 x X). split; [lia|]. split; [nia|]. split; [|split; [auto|lia]].
    unfold dec. rewrite ten_nat by exact X. rewrite <- inject_Z_mult. reflexivity.
  - exists c, (10 ^ (- x)). pose proof (z10 (- x) ltac:(lia)) as P. split; [exact P|]. split; [auto|]. split; [|split; [lia|auto]].
    unfold dec. replace x with (- - x) at 1 by lia. unfold ten. rewrite Qpower_opp. fold (ten (- x)). rewrite ten_nat by lia.
    unfold Qeq, Qmult, Qinv, inject_Z. cbn [Qnum Qden]. destruct (10 ^ (- x)) as [|t|t] eqn:E; try lia. cbn [Qnum Qden Z.to_pos]. lia.
Qed.
Lemma value_dec : forall ds point, (float_value ds point == dec (dec_val ds) (point - Z.of_nat (length ds)))%Q.
Proof.
  intros ds point. destruct (dec_ratio (dec_val ds) (point - Z.of_nat (length ds))) as (n & d & D & _ & E & A & B). rewrite E. unfold float_value. cbv zeta.
  destruct (0 <=? point - Z.of_nat (length ds)) eqn:X.
  - destruct (A ltac:(lia)) as [-> ->]. reflexivity.
  - destruct (B ltac:(lia)) as [-> ->]. reflexivity.
Qed.

(** ** Conversion *)
Lemma converts_ext : forall v w p q, (v == w)%Q -> (p == q)%Q -> converts v p -> converts w q.
Proof. intros v w p q E F [L N]. split; [now rewrite <- E|]. now apply (nearest_ext v w p q). Qed.
Lemma reads_iff : forall q c x, 0 <= c -> float64 q -> reads_as q c x = true <-> converts (dec c x) q.
Proof.
  intros q c x C F. destruct (dec_ratio c x) as (n & d & D & N & E & A & B). specialize (N C).
  assert (R : reads c x = f64_round n d).
  { unfold reads. destruct (0 <=? x) eqn:X; [destruct (A ltac:(lia)) as [-> ->]|destruct (B ltac:(lia)) as [-> ->]]; reflexivity. }
  assert (LI : (dec c x < inject_Z (2 ^ 1024 - 2 ^ 970))%Q <-> n < d * float_limit).
  { rewrite E. change (2 ^ 1024 - 2 ^ 970) with float_limit. unfold Qlt, inject_Z. cbn [Qnum Qden]. rewrite Z2Pos.id by exact D. rewrite Z.mul_1_r, (Z.mul_comm d). reflexivity. }
  unfold reads_as. rewrite R. split.
  - destruct (f64_round n d) as [p|] eqn:Y; [|discriminate]. intro H. apply Qeq_bool_iff in H. split.
    + apply LI. destruct (Z_lt_le_dec n (d * float_limit)) as [G|G]; [exact G|].
      assert (0 < n) by (pose proof limit_range; assert (0 < float_limit) by reflexivity; set (fl := float_limit) in *; clearbody fl; nia).
      rewrite round_overflow in Y by assumption. discriminate.
    + apply (nearest_ext (n # Z.to_pos d) _ p); [now symmetry|exact H|]. now apply round_nearest.
  - intros [L G]. destruct (round_defined n d N D (proj1 LI L)) as (p & Y). rewrite Y. apply Qeq_bool_iff.
    apply (nearest_unique (dec c x)); [|exact G]. apply (nearest_ext (n # Z.to_pos d) _ p p); [now symmetry|reflexivity|]. now apply round_nearest.
Qed.

(** ** Floats near a float *)
Definition two (e : Z) : Q := Qpower 2 e.
Lemma two_nat : forall x, 0 <= x -> (two x == inject_Z (2 ^ x))%Q.
Proof. intros x X. unfold two. symmetry. exact (Zpower_Qpower 2 x X). Qed.
Lemma two_plus : forall a b, (two (a + b) == two a * two b)%Q.
Proof. intros a b. unfold two. apply Qpower_plus. discriminate. Qed.
Lemma two_pos : forall a, (0 < two a)%Q.
Proof. intro a. apply two_power. Qed.
Lemma float_gap : forall p q, float64 p -> float64 q -> ~ (p == q)%Q -> (q <= inject_Z (2 ^ 53) * Qabs (p - q))%Q.
Proof.
  intros p q (m & e & M & _ & P) (m' & e' & M' & _ & Q) N. fold (two e) in P. fold (two e') in Q. change (2 ^ 53) with 9007199254740992 in *.
  destruct (Z_le_gt_dec e' e) as [L|L].
  - set (k := (m * 2 ^ (e - e') - m')). assert (D : (p - q == inject_Z k * two e')%Q).
    { rewrite P, Q. unfold k, Z.sub. rewrite inject_Z_plus, inject_Z_opp, inject_Z_mult. replace e with (e + - e' + e') at 1 by lia. rewrite two_plus, two_nat by lia. ring. }
    assert (K : k <> 0) by (intros K; apply N; rewrite K in D; assert (inject_Z 0 * two e' == 0)%Q by ring; lra).
    rewrite D, Qabs_Qmult. rewrite (Qabs_pos (two e')) by (apply Qlt_le_weak, two_pos). rewrite Q. pose proof (two_pos e') as T.
    assert (1 <= Qabs (inject_Z k))%Q.
    { change (Qabs (inject_Z k)) with (inject_Z (Z.abs k)). change 1%Q with (inject_Z 1). rewrite <- Zle_Qle. lia. }
    assert (inject_Z m' <= inject_Z 9007199254740992)%Q by (rewrite <- Zle_Qle; lia). change (inject_Z 9007199254740992) with (9007199254740992 # 1)%Q in *.
    set (u := two e') in *. set (a := Qabs _) in *. set (b := inject_Z m') in *. clearbody u a b. nra.
  - set (k := (m - m' * 2 ^ (e' - e))). assert (D : (p - q == inject_Z k * two e)%Q).
    { rewrite P, Q. unfold k, Z.sub. rewrite inject_Z_plus, inject_Z_opp, inject_Z_mult. replace e' with (e' + - e + e) at 1 by lia. rewrite two_plus, (two_nat (e' + - e)) by lia. ring. }
    assert (K : k <> 0) by (intros K; apply N; rewrite K in D; assert (inject_Z 0 * two e == 0)%Q by ring; lra).
    assert (QQ : (q == inject_Z (m' * 2 ^ (e' - e)) * two e)%Q).
    { rewrite Q, inject_Z_mult. replace e' with (e' - e + e) at 1 by lia. rewrite two_plus, (two_nat (e' - e)) by lia. ring. }
    set (w := m' * 2 ^ (e' - e)) in *. rewrite D, Qabs_Qmult. rewrite (Qabs_pos (two e)) by (apply Qlt_le_weak, two_pos). rewrite QQ. pose proof (two_pos e) as T.
    assert (W : w <= 9007199254740992 * Z.abs k) by (unfold k in *; clearbody w; lia).
    assert (inject_Z w <= inject_Z 9007199254740992 * Qabs (inject_Z k))%Q.
    { change (Qabs (inject_Z k)) with (inject_Z (Z.abs k)). rewrite <- inject_Z_mult, <- Zle_Qle. exact W. }
    set (u := two e) in *. set (a := Qabs _) in *. set (b := inject_Z w) in *. set (c := inject_Z 9007199254740992) in *. clearbody u a b c. nra.
Qed.
Lemma float_below : forall q, float64 q -> (q <= inject_Z ((2 ^ 53 - 1) * 2 ^ 971))%Q.
Proof.
  intros q (m & e & M & E & Q). rewrite Q. fold (two e). replace 971 with (e + (971 - e)) by lia.
  assert (X : (inject_Z m * two e <= inject_Z (2 ^ 53 - 1) * two 971)%Q).
  { assert (A : (two e <= two 971)%Q).
    { replace 971 with (e + (971 - e)) by lia. rewrite two_plus, (two_nat (971 - e)) by lia. pose proof (two_pos e). assert (0 < 2 ^ (971 - e)) by (apply Z.pow_pos_nonneg; lia).
      assert (1 <= inject_Z (2 ^ (971 - e)))%Q by (change 1%Q with (inject_Z 1); rewrite <- Zle_Qle; lia). set (t := inject_Z _) in *. set (u := two e) in *. clearbody t u. nra. }
    assert (B : (inject_Z m <= inject_Z (2 ^ 53 - 1))%Q) by (rewrite <- Zle_Qle; lia). assert (C : (0 <= inject_Z m)%Q) by (change 0%Q with (inject_Z 0); rewrite <- Zle_Qle; lia).
    pose proof (two_pos e). pose proof (two_pos 971). set (t := inject_Z m) in *. set (s := inject_Z (_ - _)) in *. set (u := two e) in *. set (v := two 971) in *. clearbody t s u v. nra. }
  replace (e + (971 - e)) with 971 by lia. rewrite inject_Z_mult, <- two_nat by lia. exact X.
Qed.
Lemma limit_value : float_limit = (2 ^ 53 - 1) * 2 ^ 971 + 2 ^ 970 /\ 2 ^ 53 * 2 ^ 971 = 2 ^ 54 * 2 ^ 970.
Proof. split; reflexivity. Qed.
Lemma close_converts : forall v q, float64 q -> (0 < q)%Q -> (inject_Z (2 ^ 54) * Qabs (v - q) < q)%Q -> converts v q.
Proof.
  intros v q F P C. change (inject_Z (2 ^ 54)) with (18014398509481984 # 1)%Q in C.
  assert (G : forall p, float64 p -> (p == q)%Q \/ (Qabs (q - v) < Qabs (p - v))%Q).
  { intros p FP. destruct (Qeq_dec p q) as [E|E]; [now left|right]. pose proof (float_gap p q FP F E) as X. change (inject_Z (2 ^ 53)) with (9007199254740992 # 1)%Q in X.
    revert C X. apply (Qabs_case (v - q)); apply (Qabs_case (p - q)); apply (Qabs_case (q - v)); apply (Qabs_case (p - v)); intros; lra. }
  split; [|split; [exact F|split]].
  - change (2 ^ 1024 - 2 ^ 970) with float_limit. destruct limit_value as [L1 L2]. pose proof (float_below q F) as B. rewrite L1, inject_Z_plus.
    assert (Y : (q <= (18014398509481984 # 1) * inject_Z (2 ^ 970))%Q).
    { apply Qle_trans with (inject_Z ((2 ^ 53 - 1) * 2 ^ 971)); [exact B|]. change (18014398509481984 # 1)%Q with (inject_Z (2 ^ 54)). rewrite <- inject_Z_mult, <- L2, <- Zle_Qle.
      apply Z.mul_le_mono_nonneg_r; [apply Z.pow_nonneg; lia|lia]. }
    set (a := inject_Z (2 ^ 970)) in *. set (b := inject_Z (_ * _)) in *. clearbody a b. revert C. apply (Qabs_case (v - q)); intros; lra.
  - intros p FP. destruct (G p FP) as [E|E]; [rewrite E; apply Qle_refl|now apply Qlt_le_weak].
  - intros p FP L. destruct (G p FP) as [E|E]; [now left|lra].
Qed.
(** What lies between a decimal of q and q converts to q. *)
Lemma between_converts : forall v w q, converts v q -> (v <= w /\ w <= q)%Q \/ (q <= w /\ w <= v)%Q -> converts w q.
Proof.
  intros v w q (L & F & A & B) H. split; [|split; [exact F|split]].
  - change (2 ^ 1024 - 2 ^ 970) with float_limit in *. destruct H as [H|H]; [|lra]. pose proof (float_below q F) as X. destruct limit_value as [L1 _].
    assert (Y : (inject_Z ((2 ^ 53 - 1) * 2 ^ 971) < inject_Z float_limit)%Q).
    { rewrite L1, inject_Z_plus. assert (0 < inject_Z (2 ^ 970))%Q by reflexivity. set (a := inject_Z (2 ^ 970)) in *. set (b := inject_Z (_ * _)) in *. clearbody a b. lra. }
    set (a := inject_Z float_limit) in *. set (b := inject_Z (_ * _)) in *. clearbody a b. lra.
  - intros p FP. specialize (A p FP). revert A. apply (Qabs_case (q - v)); apply (Qabs_case (p - v)); apply (Qabs_case (q - w)); apply (Qabs_case (p - w)); intros; destruct H; lra.
  - intros p FP X. destruct (Qeq_dec p q) as [E|E]; [now left|]. apply B; [exact FP|]. specialize (A p FP). revert A X.
    apply (Qabs_case (q - v)); apply (Qabs_case (p - v)); apply (Qabs_case (q - w)); apply (Qabs_case (p - w)); intros; destruct H; lra.
Qed.

(** ** The place of the first digit *)
Lemma below_iff : forall q p, below_power q p = true <-> (q < ten p)%Q.
Proof.
  intros q p. assert (E : (ten p == dec 1 p)%Q) by (unfold dec; ring). rewrite E. destruct (dec_ratio 1 p) as (n & d & D & _ & R & A & B). rewrite R. unfold below_power, Qlt. cbn [Qnum Qden].
  rewrite Z2Pos.id by exact D. destruct (0 <=? p) eqn:X.
  - destruct (A ltac:(lia)) as [-> ->]. rewrite Z.ltb_lt, Z.mul_1_l, Z.mul_1_r. reflexivity.
  - destruct (B ltac:(lia)) as [-> ->]. rewrite Z.ltb_lt, Z.mul_1_l. reflexivity.
Qed.
Lemma place_loop_spec : forall n q p, (ten (p - 1) <= q)%Q -> (q < ten (p + Z.of_nat n))%Q -> (ten (place_loop q p n - 1) <= q)%Q /\ (q < ten (place_loop q p n))%Q.
Proof.
  induction n as [|n IH]; intros q p L U; cbn [place_loop].
  - replace (p + Z.of_nat 0) with p in U by lia. auto.
  - destruct (below_power q p) eqn:B; [apply below_iff in B; auto|]. apply IH.
    + replace (p + 1 - 1) with p by lia. apply Qnot_lt_le. intro X. apply below_iff in X. congruence.
    + replace (p + 1 + Z.of_nat n) with (p + Z.of_nat (S n)) by lia. exact U.
Qed.
Lemma place_spec : forall q, float64 q -> (0 < q)%Q -> (ten (place q - 1) <= q)%Q /\ (q < ten (place q))%Q.
Proof.
  intros q F P. unfold place. apply place_loop_spec.
  - destruct F as (m & e & M & E & Q). fold (two e) in Q. assert (m <> 0) by (intros ->; rewrite Q in P; assert (inject_Z 0 * two e == 0)%Q by ring; lra).
    assert (A : (two (-1074) <= q)%Q).
    { rewrite Q. replace e with (-1074 + (e + 1074)) by lia. rewrite two_plus, (two_nat (e + 1074)) by lia. assert (0 < 2 ^ (e + 1074)) by (apply Z.pow_pos_nonneg; lia).
      assert (1 <= inject_Z (m * 2 ^ (e + 1074)))%Q by (change 1%Q with (inject_Z 1); rewrite <- Zle_Qle; nia). rewrite inject_Z_mult in *. pose proof (two_pos (-1074)).
      set (t := two (-1074)) in *. set (a := inject_Z m) in *. set (b := inject_Z (2 ^ _)) in *. clearbody t a b. nra. }
    apply Qle_trans with (two (-1074)); [|exact A]. change (-323 - 1) with (-324). apply Qle_bool_iff. vm_compute. reflexivity.
  - apply Qle_lt_trans with (1 := float_below q F). change (-323 + Z.of_nat 640) with 317. rewrite ten_nat by lia. rewrite <- Zlt_Qlt. reflexivity.
Qed.

(** ** The decimals next to q *)
Lemma quot_spec : forall q x, (0 < q)%Q -> 0 <= quot10 q x /\ (dec (quot10 q x) x <= q)%Q /\ (q < dec (quot10 q x + 1) x)%Q /\
  match rest10 q x with
  | Lt => (q - dec (quot10 q x) x < dec (quot10 q x + 1) x - q)%Q
  | Eq => (q - dec (quot10 q x) x == dec (quot10 q x + 1) x - q)%Q
  | Gt => (dec (quot10 q x + 1) x - q < q - dec (quot10 q x) x)%Q
  end.
Proof.
  intros [n d] x P. assert (N : 0 < n) by (unfold Qlt in P; cbn [Qnum Qden] in P; lia). unfold quot10, rest10. cbn [Qnum Qden].
  (* q = A / B in units of 10^x *)
  assert (G : exists A B, 0 < A /\ 0 < B /\ (if 0 <=? x then n / (10 ^ x * Zpos d) else n * 10 ^ (- x) / Zpos d) = A / B /\
    (if 0 <=? x then 2 * (n mod (10 ^ x * Zpos d)) ?= 10 ^ x * Zpos d else 2 * ((n * 10 ^ (- x)) mod Zpos d) ?= Zpos d) = (2 * (A mod B) ?= B) /\
    forall c, (dec c x - (n # d) == inject_Z (c * B - A) * (ten x * / inject_Z B))%Q).
  { destruct (0 <=? x) eqn:X.
    - exists n, (10 ^ x * Zpos d). pose proof (z10 x ltac:(lia)). split; [exact N|]. split; [nia|]. split; [reflexivity|]. split; [reflexivity|]. intro c. unfold dec. rewrite ten_nat by lia.
      unfold Z.sub. rewrite inject_Z_plus, inject_Z_opp, !inject_Z_mult. rewrite (Qmake_Qdiv n d). change (inject_Z (Zpos d)) with (Zpos d # 1)%Q. field.
      split; [discriminate|]. unfold Qeq, inject_Z. cbn [Qnum Qden]. lia.
    - exists (n * 10 ^ (- x)), (Zpos d). pose proof (z10 (- x) ltac:(lia)) as Z1. split; [nia|]. split; [lia|]. split; [reflexivity|]. split; [reflexivity|]. intro c. unfold dec.
      assert (I : (inject_Z (10 ^ (- x)) * ten x == 1)%Q) by (rewrite <- ten_nat by lia; rewrite <- ten_plus; replace (- x + x) with 0 by lia; reflexivity).
      unfold Z.sub. rewrite inject_Z_plus, inject_Z_opp, !inject_Z_mult. rewrite (Qmake_Qdiv n d). unfold Qdiv.
      change (inject_Z (Zpos d)) with (Zpos d # 1)%Q. assert (D : (~ (Zpos d # 1) == 0)%Q) by discriminate.
      set (b := (Zpos d # 1)%Q) in *. set (t := ten x) in *. set (w := inject_Z (10 ^ (- x))) in *. set (u := inject_Z c). set (a := inject_Z n). clearbody b t w u a.
      transitivity (u * t - a * (w * t) / b)%Q; [rewrite I; field; exact D|field; exact D]. }
  destruct G as (A & B & A0 & B0 & -> & -> & G). set (K := (ten x * / inject_Z B)%Q) in *.
  assert (KP : (0 < K)%Q).
  { unfold K. pose proof (ten_pos x). assert (0 < inject_Z B)%Q by (change 0%Q with (inject_Z 0); rewrite <- Zlt_Qlt; exact B0). pose proof (Qinv_lt_0_compat _ H0).
    set (a := ten x) in *. set (b := (/ inject_Z B)%Q) in *. clearbody a b. nra. }
  pose proof (Z.div_mod A B ltac:(lia)) as DM. pose proof (Z.mod_pos_bound A B B0) as MB. set (c := A / B) in *. set (r := A mod B) in *.
  assert (C0 : 0 <= c) by (apply Z.div_pos; lia). pose proof (G c) as G1. pose proof (G (c + 1)) as G2. clearbody c r K.
  replace (c * B - A) with (- r) in G1 by lia. replace ((c + 1) * B - A) with (B - r) in G2 by lia.
  assert (R0 : (0 <= inject_Z r)%Q) by (change 0%Q with (inject_Z 0); rewrite <- Zle_Qle; lia). assert (R1 : (inject_Z r < inject_Z B)%Q) by (rewrite <- Zlt_Qlt; lia).
  unfold Z.sub in G2. rewrite inject_Z_plus in G2. rewrite inject_Z_opp in G1, G2.
  split; [exact C0|]. split; [|split].
  - set (t := inject_Z r) in *. clearbody t. nra.
  - set (t := inject_Z r) in *. set (s := inject_Z B) in *. clearbody t s. nra.
  - destruct (Z.compare_spec (2 * r) B) as [E|E|E].
    + assert (inject_Z B == 2 * inject_Z r)%Q by (rewrite <- E, inject_Z_mult; reflexivity). set (t := inject_Z r) in *. set (s := inject_Z B) in *. clearbody t s. nra.
    + assert (2 * inject_Z r < inject_Z B)%Q by (change 2%Q with (inject_Z 2); rewrite <- inject_Z_mult, <- Zlt_Qlt; exact E). set (t := inject_Z r) in *. set (s := inject_Z B) in *. clearbody t s. nra.
    + assert (inject_Z B < 2 * inject_Z r)%Q by (change 2%Q with (inject_Z 2); rewrite <- inject_Z_mult, <- Zlt_Qlt; exact E). set (t := inject_Z r) in *. set (s := inject_Z B) in *. clearbody t s. nra.
Qed.
Lemma dec_le : forall c c' x, (dec c x <= dec c' x)%Q <-> c <= c'.
Proof.
  intros c c' x. unfold dec. pose proof (ten_pos x) as T. rewrite (Zle_Qle c c'). set (t := ten x) in *. set (a := inject_Z c). set (b := inject_Z c'). clearbody t a b.
  split; intro H; [apply Qmult_le_r with t; assumption|nra].
Qed.
Lemma dec_lt : forall c c' x, (dec c x < dec c' x)%Q <-> c < c'.
Proof.
  intros c c' x. unfold dec. pose proof (ten_pos x) as T. rewrite (Zlt_Qlt c c'). set (t := ten x) in *. set (a := inject_Z c). set (b := inject_Z c'). clearbody t a b.
  split; intro H; [apply Qmult_lt_r with t; assumption|nra].
Qed.
Lemma dec_scale : forall c x y, y <= x -> (dec c x == dec (c * 10 ^ (x - y)) y)%Q.
Proof.
  intros c x y L. unfold dec. rewrite inject_Z_mult, <- ten_nat by lia. rewrite <- Qmult_assoc, <- ten_plus. replace (x - y + y) with x by lia. reflexivity.
Qed.
Section Grid.
  Variables (q : Q) (p : Z).
  Hypothesis P0 : (0 < q)%Q.
  Hypothesis PL : (ten (p - 1) <= q)%Q.
  Hypothesis PU : (q < ten p)%Q.
  Lemma quot_bounds : forall k, 1 <= k -> 10 ^ (k - 1) <= quot10 q (p - k) < 10 ^ k.
  Proof.
    intros k K. destruct (quot_spec q (p - k) P0) as (Q0 & Q1 & Q2 & _). set (c := quot10 q (p - k)) in *. clearbody c.
    assert (T : forall j, 0 <= j -> (ten (p - k + j) == dec (10 ^ j) (p - k))%Q).
    { intros j J. unfold dec. rewrite <- ten_nat by exact J. rewrite ten_plus. ring. }
    split.
    - assert (10 ^ (k - 1) < c + 1); [|lia]. apply (dec_lt _ _ (p - k)). rewrite <- T by lia. replace (p - k + (k - 1)) with (p - 1) by lia. lra.
    - apply (dec_lt _ _ (p - k)). rewrite <- T by lia. replace (p - k + k) with p by lia. lra.
  Qed.
  (** Decimals of k digits lie on the grid, or below the place of q. *)
  Lemma grid : forall k c x, 1 <= k -> 10 ^ (k - 1) <= c < 10 ^ k -> let lo := quot10 q (p - k) in
    ((dec c x <= q)%Q -> (dec c x <= dec lo (p - k))%Q) /\ ((q < dec c x)%Q -> (dec (lo + 1) (p - k) <= dec c x)%Q).
  Proof.
    intros k c x K C. cbv zeta. destruct (quot_spec q (p - k) P0) as (Q0 & Q1 & Q2 & _). pose proof (quot_bounds k K) as QB. set (lo := quot10 q (p - k)) in *. clearbody lo.
    destruct (Z_le_gt_dec (p - k) x) as [X|X].
    - rewrite (dec_scale c x (p - k) X). set (M := c * 10 ^ (x - (p - k))). clearbody M. split; intro H.
      + apply dec_le. assert (M < lo + 1); [|lia]. apply (dec_lt _ _ (p - k)). lra.
      + apply dec_le. assert (lo < M); [|lia]. apply (dec_lt _ _ (p - k)). lra.
    - assert (S : (dec c x < dec (10 ^ (k - 1)) (p - k))%Q).
      { rewrite (dec_scale (10 ^ (k - 1)) (p - k) x) by lia. apply dec_lt. rewrite <- Z.pow_add_r by lia. apply Z.lt_le_trans with (10 ^ k); [lia|]. apply Z.pow_le_mono_r; lia. }
      assert (L : (dec (10 ^ (k - 1)) (p - k) <= dec lo (p - k))%Q) by (apply dec_le; lia). split; intro H; lra.
  Qed.
End Grid.

(** ** The search *)
Section Search.
  Variables (q : Q) (p : Z).
  Hypothesis F : float64 q.
  Hypothesis P0 : (0 < q)%Q.
  Hypothesis PL : (ten (p - 1) <= q)%Q.
  Hypothesis PU : (q < ten p)%Q.
  Definition none_at (k : Z) : Prop := ~ converts (dec (quot10 q (p - k)) (p - k)) q /\ ~ converts (dec (quot10 q (p - k) + 1) (p - k)) q.
  Definition best_at (k c : Z) : Prop := converts (dec c (p - k)) q /\ (c = quot10 q (p - k) \/ c = quot10 q (p - k) + 1) /\
    forall c', c' = quot10 q (p - k) \/ c' = quot10 q (p - k) + 1 -> converts (dec c' (p - k)) q -> (Qabs (dec c (p - k) - q) <= Qabs (dec c' (p - k) - q))%Q.
  Lemma up_near : forall x, let lo := quot10 q x in
    let up := match rest10 q x with Gt => true | Eq => negb (Z.even lo) | Lt => false end in
    if up then (dec (lo + 1) x - q <= q - dec lo x)%Q else (q - dec lo x <= dec (lo + 1) x - q)%Q.
  Proof.
    intros x. cbv zeta. destruct (quot_spec q x P0) as (_ & _ & _ & R). destruct (rest10 q x); [destruct (negb _)| |]; lra.
  Qed.
  Lemma search : forall n k, 1 <= k -> k + Z.of_nat n = 17 -> exists kk, k <= kk <= 17 /\ snd (shortest_from q p k n) = p - kk /\
    best_at kk (fst (shortest_from q p k n)) /\ forall j, k <= j < kk -> none_at j.
  Proof.
    induction n as [|n IH]; intros k K E.
    - assert (k = 17) by lia. subst k. exists 17. split; [lia|]. cbn [shortest_from]. cbv zeta. cbn [fst snd]. split; [reflexivity|]. split; [|lia].
      pose proof (up_near (p - 17)) as U. cbv zeta in U. destruct (quot_spec q (p - 17) P0) as (Q0 & Q1 & Q2 & _).
      set (lo := quot10 q (p - 17)) in *. set (up := match rest10 q (p - 17) with Eq => _ | Lt => _ | Gt => _ end) in *. clearbody up.
      assert (W : (dec (lo + 1) (p - 17) - dec lo (p - 17) == ten (p - 17))%Q) by (unfold dec; rewrite inject_Z_plus; ring).
      assert (TT : (10000000000000000 * ten (p - 17) <= q)%Q).
      { apply Qle_trans with (2 := PL). replace (p - 1) with (16 + (p - 17)) by lia. rewrite ten_plus. change (ten 16) with (10000000000000000 # 1)%Q. apply Qle_refl. }
      pose proof (ten_pos (p - 17)) as TP. set (a := dec lo (p - 17)) in *. set (b := dec (lo + 1) (p - 17)) in *. set (t := ten (p - 17)) in *.
      split; [|split].
      + apply close_converts; [exact F|exact P0|]. change (inject_Z (2 ^ 54)) with (18014398509481984 # 1)%Q. destruct up; cbn [fst]; [change (dec (lo + 1) (p - 17)) with b|change (dec lo (p - 17)) with a]; clearbody a b t.
        * apply (Qabs_case (b - q)); intros; lra.
        * apply (Qabs_case (a - q)); intros; lra.
      + destruct up; auto.
      + intros c'. fold lo. intros [->| ->] _; destruct up; fold a b; clearbody a b t; first [apply Qle_refl|apply (Qabs_case (b - q)); apply (Qabs_case (a - q)); intros; lra].
    - cbn [shortest_from]. cbv zeta. pose proof (up_near (p - k)) as U. cbv zeta in U. destruct (quot_spec q (p - k) P0) as (Q0 & Q1 & Q2 & _).
      set (up := match rest10 q (p - k) with Eq => _ | Lt => _ | Gt => _ end) in *. clearbody up.
      pose proof (reads_iff q (quot10 q (p - k)) (p - k) Q0 F) as RL. pose proof (reads_iff q (quot10 q (p - k) + 1) (p - k) ltac:(lia) F) as RH.
      set (lo := quot10 q (p - k)) in *.
      assert (HERE : forall c, (c = lo \/ c = lo + 1) -> converts (dec c (p - k)) q ->
        (forall c', c' = lo \/ c' = lo + 1 -> converts (dec c' (p - k)) q -> (Qabs (dec c (p - k) - q) <= Qabs (dec c' (p - k) - q))%Q) ->
        exists kk, k <= kk <= 17 /\ snd (c, p - k) = p - kk /\ best_at kk (fst (c, p - k)) /\ forall j, k <= j < kk -> none_at j).
      { intros c C1 C2 C3. exists k. split; [lia|]. split; [reflexivity|]. split; [|lia]. cbn [fst]. split; [exact C2|]. split; [exact C1|exact C3]. }
      destruct (reads_as q lo (p - k)) eqn:A; [destruct (reads_as q (lo + 1) (p - k) && up) eqn:B|destruct (reads_as q (lo + 1) (p - k)) eqn:B].
      + apply andb_true_iff in B. destruct B as [B1 ->]. apply HERE; [now right|now apply RH|]. intros c' [->| ->] _; [|apply Qle_refl].
        set (a := dec lo (p - k)) in *. set (b := dec (lo + 1) (p - k)) in *. clearbody a b. apply (Qabs_case (b - q)); apply (Qabs_case (a - q)); intros; lra.
      + apply HERE; [now left|now apply RL|]. intros c' [->| ->] C; [apply Qle_refl|]. apply RH in C. rewrite C in B. cbn [andb] in B. subst up.
        set (a := dec lo (p - k)) in *. set (b := dec (lo + 1) (p - k)) in *. clearbody a b. apply (Qabs_case (b - q)); apply (Qabs_case (a - q)); intros; lra.
      + apply HERE; [now right|now apply RH|]. intros c' [->| ->] C; [apply RL in C; discriminate|apply Qle_refl].
      + destruct (IH (k + 1) ltac:(lia) ltac:(lia)) as (kk & L & S & BB & NN). exists kk. split; [lia|]. split; [exact S|]. split; [exact BB|].
        intros j J. destruct (Z.eq_dec j k) as [->|NE]; [|apply NN; lia]. unfold none_at. fold lo. split; intro C; [apply RL in C|apply RH in C]; discriminate.
  Qed.
End Search.

(** ** The digits *)
Lemma decimal_range : forall ds, decimal ds -> 10 ^ (Z.of_nat (length ds) - 1) <= dec_val ds < 10 ^ Z.of_nat (length ds) /\ (1 <= length ds)%nat.
Proof.
  intros ds (D & d & r & -> & N). apply all_digits_b in D. pose proof (dec_val_bound (d :: r) D) as B. cbn [forallb] in D. apply andb_true_iff in D. destruct D as [D0 D1].
  split; [split; [|apply B]|cbn; lia]. change (d :: r) with ([d] ++ r) at 2. rewrite dec_val_app by exact D1. pose proof (dec_val_bound r D1) as B1.
  change (dec_val [d]) with (0 * 10 + digit_val d). replace (Z.of_nat (length (d :: r)) - 1) with (Z.of_nat (length r)) by (cbn [length]; lia).
  assert (1 <= digit_val d). { pose proof (digit_val_range d D0). assert (digit_val d <> 0); [|lia]. intro Z0. apply N. apply bval_inj. unfold digit_val in Z0. change (bval "0") with 48. lia. }
  pose proof (z10 (Z.of_nat (length r)) ltac:(lia)). set (t := 10 ^ _) in *. clearbody t. nia.
Qed.
Lemma printed : forall c, 0 < c -> let s := utoa c in let t := trim_zeros s in exists n, length s = (length t + n)%nat /\ dec_val t * 10 ^ Z.of_nat n = c /\ decimal t /\ decimal s /\ (exists r d, t = r ++ [d] /\ d <> "0"%char) /\ dec_val s = c.
Proof.
  intros c C. cbv zeta. destruct (utoa_spec c ltac:(lia)) as (NE & D & V). pose proof (utoa_lead c C) as LD. destruct (trim_zeros_spec (utoa c)) as (n & E & T).
  set (s := utoa c) in *. set (t := trim_zeros s) in *. exists n. assert (L : length s = (length t + n)%nat) by (rewrite E at 1; rewrite app_length, repeat_length; reflexivity).
  assert (VV : dec_val t * 10 ^ Z.of_nat n = c) by (rewrite <- V; rewrite E at 1; now rewrite dec_val_zeros).
  assert (TN : t <> []) by (intros X; rewrite X in VV; change (dec_val []) with 0 in VV; lia).
  assert (DS : decimal s).
  { split; [now apply all_digits_b|]. unfold no_leading_zero in LD. destruct s as [|a r]; [congruence|]. exists a, r. split; [reflexivity|]. exact LD. }
  split; [exact L|]. split; [exact VV|]. split; [|split; [exact DS|split; [destruct T as [T|T]; [contradiction|exact T]|exact V]]].
  split.
  - apply all_digits_b. rewrite E in D. rewrite forallb_app in D. now apply andb_true_iff in D.
  - destruct DS as (_ & d & r & X & N). destruct t as [|a u]; [congruence|]. exists a, u. split; [reflexivity|]. rewrite E in X. cbn [app] in X. congruence.
Qed.

Lemma small_length : forall s k, decimal s -> 0 <= k -> dec_val s < 10 ^ k -> Z.of_nat (length s) <= k.
Proof.
  intros s k D K L. destruct (decimal_range s D) as [[A _] B]. destruct (Z_le_gt_dec (Z.of_nat (length s)) k) as [X|X]; [exact X|].
  assert (10 ^ k <= 10 ^ (Z.of_nat (length s) - 1)) by (apply Z.pow_le_mono_r; lia). lia.
Qed.
Lemma shortest_ext : forall ds point p q, (p == q)%Q -> shortest ds point p -> shortest ds point q.
Proof.
  intros ds point p q E (S & C & M). assert (X : forall v a b, (a == b)%Q -> converts v a -> converts v b) by (intros v a b AB; now apply converts_ext).
  split; [exact S|]. split; [now apply (X _ p)|]. intros ds' point' D' C'. destruct (M ds' point' D') as [A B]; [apply (X _ q); [now symmetry|exact C']|]. split; [exact A|]. now rewrite <- E.
Qed.
Lemma float64_ext : forall p q, (p == q)%Q -> float64 p -> float64 q.
Proof. intros p q E (m & e & M & X & V). exists m, e. split; [exact M|]. split; [exact X|]. now rewrite <- E. Qed.
Theorem shortest_spec : forall q, float64 q -> (0 < q)%Q -> shortest (float_digits q) (float_point q) q.
Proof.
  intros q' F' P'. apply (shortest_ext _ _ (Qred q')); [apply Qred_correct|]. assert (F : float64 (Qred q')) by (apply (float64_ext q'); [symmetry; apply Qred_correct|exact F']).
  assert (P : (0 < Qred q')%Q) by (now rewrite Qred_correct). unfold float_digits, float_point. set (q := Qred q') in *. clearbody q. clear F' P' q'.
  destruct (place_spec q F P) as [PL PU]. unfold shortest_decimal.
  destruct (search q (place q) F P PL 16 1 ltac:(lia) ltac:(reflexivity)) as (kk & K & S & (C1 & C2 & C3) & NO). rewrite S.
  set (c := fst (shortest_from q (place q) 1 16)) in *. set (p := place q) in *. pose proof (quot_bounds q p P PL PU) as QB. pose proof (QB kk ltac:(lia)) as QK.
  assert (CB : 10 ^ (kk - 1) <= c <= 10 ^ kk) by (destruct C2; lia). pose proof (z10 (kk - 1) ltac:(lia)) as ZP.
  destruct (printed c ltac:(lia)) as (n & L & V & DT & DS & (r & d & ET & ND) & VS). set (s := utoa c) in *. set (t := trim_zeros s) in *. clearbody c p s t.
  assert (LT : Z.of_nat (length t) <= kk).
  { destruct (Z_lt_le_dec c (10 ^ kk)) as [X|X].
    - assert (Z.of_nat (length s) <= kk) by (apply small_length; [exact DS|lia|lia]). lia.
    - assert (c = 10 ^ kk) by lia. assert (LS : Z.of_nat (length s) <= kk + 1).
      { apply small_length; [exact DS|lia|]. rewrite VS. rewrite Z.pow_add_r by lia. change (10 ^ 1) with 10. pose proof (z10 kk ltac:(lia)). lia. }
      destruct (Z_lt_le_dec (Z.of_nat n) kk) as [Y|Y]; [|lia]. exfalso. apply (last_digit r d); [rewrite <- ET; apply DT|exact ND|]. rewrite <- ET.
      assert (E : dec_val t = 10 ^ (kk - Z.of_nat n)).
      { apply Z.mul_reg_r with (10 ^ Z.of_nat n); [pose proof (z10 (Z.of_nat n) ltac:(lia)); lia|]. rewrite V, <- Z.pow_add_r by lia. replace (kk - Z.of_nat n + Z.of_nat n) with kk by lia. assumption. }
      rewrite E. replace (kk - Z.of_nat n) with (kk - Z.of_nat n - 1 + 1) by lia. rewrite Z.pow_add_r by lia. change (10 ^ 1) with 10. apply Z_mod_mult. }
  assert (VD : (float_value t (Z.of_nat (length s) + (p - kk)) == dec c (p - kk))%Q).
  { rewrite value_dec. rewrite (dec_scale _ _ (p - kk)) by lia. replace (Z.of_nat (length s) + (p - kk) - Z.of_nat (length t) - (p - kk)) with (Z.of_nat n) by lia. rewrite V. reflexivity. }
  split; [|split].
  - split; [apply DT|]. split; [lia|]. split; [apply DT|]. exists r, d. auto.
  - apply (converts_ext (dec c (p - kk)) _ q q); [now symmetry|reflexivity|exact C1].
  - intros ds' point' D' C'. destruct (decimal_range ds' D') as [R' N']. pose proof (value_dec ds' point') as V'.
    set (k' := Z.of_nat (length ds')) in *. set (c' := dec_val ds') in *. set (x' := point' - k') in *.
    assert (CV : converts (dec c' x') q) by (now apply (converts_ext (float_value ds' point') _ q q)).
    destruct (grid q p P PL PU k' c' x' ltac:(lia) R') as [G1 G2]. destruct (quot_spec q (p - k') P) as (_ & Q1 & Q2 & _).
    assert (LE : kk <= k').
    { destruct (Z_lt_le_dec k' kk) as [X|X]; [|exact X]. exfalso. destruct (NO k' ltac:(lia)) as [N1 N2]. destruct (Qlt_le_dec q (dec c' x')) as [Y|Y].
      - apply N2. apply (between_converts (dec c' x')); [exact CV|]. right. split; [lra|auto].
      - apply N1. apply (between_converts (dec c' x')); [exact CV|]. left. split; [auto|lra]. }
    split; [lia|]. intro EL. assert (k' = kk) by lia. clearbody k'. subst k'. rewrite VD, V'. destruct (Qlt_le_dec q (dec c' x')) as [Y|Y].
    + specialize (G2 Y). apply Qle_trans with (Qabs (dec (quot10 q (p - kk) + 1) (p - kk) - q)).
      * apply C3; [now right|]. apply (between_converts (dec c' x')); [exact CV|]. right. split; lra.
      * rewrite !Qabs_pos by lra. lra.
    + specialize (G1 Y). apply Qle_trans with (Qabs (dec (quot10 q (p - kk)) (p - kk) - q)).
      * apply C3; [now left|]. apply (between_converts (dec c' x')); [exact CV|]. left. split; lra.
      * rewrite !Qabs_neg by lra. lra.
Qed.

(** ** Powers of ten as limits *)
Lemma value_range : forall ds point, decimal ds -> (ten (point - 1) <= float_value ds point)%Q /\ (float_value ds point < ten point)%Q.
Proof.
  intros ds point D. destruct (decimal_range ds D) as [[R1 R2] R3]. rewrite value_dec. set (k := Z.of_nat (length ds)) in *.
  assert (T : forall j, 0 <= j -> (ten (point - k + j) == dec (10 ^ j) (point - k))%Q).
  { intros j J. unfold dec. rewrite <- ten_nat by exact J. rewrite ten_plus. ring. }
  pose proof (T (k - 1) ltac:(lia)) as T1. pose proof (T k ltac:(lia)) as T2. replace (point - k + (k - 1)) with (point - 1) in T1 by lia. replace (point - k + k) with point in T2 by lia.
  rewrite T1, T2. split; [now apply dec_le|now apply dec_lt].
Qed.
Lemma significant_decimal : forall ds, significant ds -> decimal ds.
Proof. intros ds (A & _ & B & _). now split. Qed.
Lemma shortest_limit : forall ds point q j f, shortest ds point q -> converts (ten j) f -> (20 * Qabs (ten j - f) < ten j)%Q -> j < point <-> (f <= q)%Q.
Proof.
  intros ds point q j f (S & C & M) CF NF. pose proof (significant_decimal ds S) as D. destruct (value_range ds point D) as [V1 V2]. split; intro H.
  - apply (nearest_mono (ten j) (float_value ds point)); [|apply CF|apply C]. apply Qle_trans with (2 := V1). apply ten_mono. lia.
  - destruct (Z_lt_le_dec j point) as [X|X]; [exact X|]. exfalso. assert (TM : (ten point <= ten j)%Q) by now apply ten_mono.
    assert (Q : (q <= f)%Q) by (apply (nearest_mono (float_value ds point) (ten j)); [lra|apply C|apply CF]). assert (E : (q == f)%Q) by lra.
    assert (D1 : decimal (bs "1")) by (split; [repeat constructor|]; exists "1"%char, []; split; [reflexivity|discriminate]).
    assert (V : (float_value (bs "1") (j + 1) == ten j)%Q).
    { rewrite value_dec. replace (j + 1 - Z.of_nat (length (bs "1"))) with j by (cbn; lia). unfold dec. change (dec_val (bs "1")) with 1. ring. }
    destruct (M (bs "1") (j + 1) D1) as [L N]; [apply (converts_ext (ten j) _ f q); [now symmetry|now symmetry|exact CF]|]. destruct (decimal_range ds D) as [R R1].
    assert (length ds = 1%nat) by (cbn [length bs] in L; cbn in L; lia). specialize (N (eq_sym H0)). rewrite V in N.
    assert (NINE : (float_value ds point <= (9 # 10) * ten j)%Q).
    { rewrite value_dec. rewrite H0. rewrite H0 in R. change (10 ^ Z.of_nat 1) with 10 in R. apply Qle_trans with (dec 9 (point - Z.of_nat 1)); [apply dec_le; lia|].
      unfold dec. assert (T1 : (ten (point - Z.of_nat 1) <= ten (j - 1))%Q) by (apply ten_mono; lia). assert (T2 : (ten j == 10 * ten (j - 1))%Q).
      { replace j with (1 + (j - 1)) at 1 by lia. rewrite ten_plus. reflexivity. }
      change (inject_Z 9) with (9 # 1)%Q. lra. }
    pose proof (ten_pos j) as TP. rewrite <- E in NF. revert N NF. apply (Qabs_case (float_value ds point - q)); apply (Qabs_case (ten j - q)); intros; lra.
Qed.
Lemma ten_converts : forall j p, reads 1 j = Some p -> converts (ten j) p.
Proof.
  intros j p R. assert (F : float64 p).
  { destruct (dec_ratio 1 j) as (n & d & D & N & E & A & B). assert (X : reads 1 j = f64_round n d).
    { unfold reads. destruct (0 <=? j) eqn:X; [destruct (A ltac:(lia)) as [-> ->]|destruct (B ltac:(lia)) as [-> ->]]; reflexivity. }
    rewrite X in R. exact (proj1 (round_nearest n d p (N ltac:(lia)) D R)). }
  apply (converts_ext (dec 1 j) _ p p); [unfold dec; ring|reflexivity|]. apply reads_iff; [lia|exact F|]. unfold reads_as. rewrite R. apply Qeq_bool_iff. reflexivity.
Qed.
Lemma shortest_medium : forall ds point q f, shortest ds point q -> nearest_float (1 # 10000) f -> medium point <-> (f <= q)%Q /\ (q < 1000000)%Q.
Proof.
  intros ds point q f S N. unfold medium.
  assert (A : -4 < point <-> (f <= q)%Q).
  { assert (T : (ten (-4) == 1 # 10000)%Q) by reflexivity. destruct (reads 1 (-4)) as [p|] eqn:R; [|vm_compute in R; discriminate]. pose proof (ten_converts _ _ R) as C.
    assert (E : (p == f)%Q) by (apply (nearest_unique (1 # 10000)); [|exact N]; apply (nearest_ext (ten (-4)) _ p p); [exact T|reflexivity|apply C]). rewrite <- E.
    apply (shortest_limit ds point q (-4) p S C). vm_compute in R. injection R as <-. vm_compute. reflexivity. }
  assert (B : 6 < point <-> (1000000 <= q)%Q).
  { destruct (reads 1 6) as [p|] eqn:R; [|vm_compute in R; discriminate]. pose proof (ten_converts _ _ R) as C. assert (E : (p == 1000000)%Q) by (vm_compute in R; injection R as <-; reflexivity).
    rewrite <- E. apply (shortest_limit ds point q 6 p S C). vm_compute in R. injection R as <-. vm_compute. reflexivity. }
  split; intros [H1 H2].
  - split; [now apply A|]. apply Qnot_le_lt. intro X. apply B in X. lia.
  - split; [now apply A|]. destruct (Z_lt_le_dec 6 point) as [X|X]; [|exact X]. apply B in X. lra.
Qed.

(** ** Integers *)
Lemma significant_unique : forall a b p p', significant a -> significant b -> (float_value a p == float_value b p')%Q -> a = b /\ p = p'.
Proof.
  assert (W : forall a b p p', significant a -> significant b -> p - Z.of_nat (length a) <= p' - Z.of_nat (length b) -> (float_value a p == float_value b p')%Q -> a = b /\ p = p').
  { intros a b p p' A B L E. rewrite !value_dec in E. rewrite (dec_scale (dec_val b) _ (p - Z.of_nat (length a))) in E by lia.
    set (y := p' - Z.of_nat (length b) - (p - Z.of_nat (length a))) in *. assert (EQ : dec_val a = dec_val b * 10 ^ y).
    { apply Z.le_antisymm; apply (dec_le _ _ (p - Z.of_nat (length a))); rewrite E; apply Qle_refl. }
    assert (y = 0).
    { destruct (Z.eq_dec y 0) as [Y|Y]; [exact Y|]. exfalso. pose proof A as (DA & _ & _ & r & d & EA & ND). apply (last_digit r d); [now rewrite <- EA|exact ND|]. rewrite <- EA, EQ.
      replace y with (y - 1 + 1) by lia. rewrite Z.pow_add_r by lia. change (10 ^ 1) with 10. rewrite Z.mul_assoc. apply Z_mod_mult. }
    rewrite H in EQ. change (10 ^ 0) with 1 in EQ. rewrite Z.mul_1_r in EQ.
    destruct (decimal_range a (significant_decimal a A)) as [RA LA]. destruct (decimal_range b (significant_decimal b B)) as [RB LB].
    assert (LL : length a = length b).
    { assert (Z.of_nat (length a) <= Z.of_nat (length b)) by (apply small_length; [now apply significant_decimal|lia|lia]).
      assert (Z.of_nat (length b) <= Z.of_nat (length a)) by (apply small_length; [now apply significant_decimal|lia|lia]). lia. }
    split; [|lia]. apply CldrSampleProofs.dec_val_inj; [exact LL|apply all_digits_b, A|apply all_digits_b, B|exact EQ]. }
  intros a b p p' A B E. destruct (Z_le_gt_dec (p - Z.of_nat (length a)) (p' - Z.of_nat (length b))) as [L|L]; [now apply W|].
  destruct (W b a p' p B A ltac:(lia) (Qeq_sym _ _ E)) as [-> ->]. auto.
Qed.
Lemma float_int : forall z, 0 <= z <= 9007199254740992 -> float64 (inject_Z z).
Proof.
  intros z B. destruct (Z.eq_dec z 9007199254740992) as [->|N].
  - exists 4503599627370496, 1. split; [change (2 ^ 53) with 9007199254740992; lia|]. split; [lia|reflexivity].
  - exists z, 0. split; [change (2 ^ 53) with 9007199254740992; lia|]. split; [lia|]. change (Qpower 2 0) with 1%Q. ring.
Qed.
Lemma int_digits_shortest : forall z, 1 <= z <= 9007199254740992 -> float_digits (inject_Z z) = trim_zeros (utoa z) /\ float_point (inject_Z z) = Z.of_nat (length (utoa z)).
Proof.
  intros z B. destruct (Z.eq_dec z 9007199254740992) as [->|NZ]; [split; vm_compute; reflexivity|].
  assert (P : (0 < inject_Z z)%Q) by (change 0%Q with (inject_Z 0); rewrite <- Zlt_Qlt; lia).
  destruct (shortest_spec (inject_Z z) (float_int z ltac:(lia)) P) as (S & C & M). set (ds := float_digits (inject_Z z)) in *. set (pt := float_point (inject_Z z)) in *. clearbody ds pt.
  destruct (printed z ltac:(lia)) as (n & L & V & DT & DS & (r & d & ET & ND) & VS). set (s := utoa z) in *. set (t := trim_zeros s) in *.
  assert (L16 : Z.of_nat (length s) <= 16) by (apply small_length; [exact DS|lia|rewrite VS; change (10 ^ 16) with 10000000000000000; lia]).
  assert (VT : (float_value t (Z.of_nat (length s)) == inject_Z z)%Q).
  { rewrite value_dec. replace (Z.of_nat (length s) - Z.of_nat (length t)) with (Z.of_nat n) by lia. unfold dec. rewrite ten_nat by lia. rewrite <- inject_Z_mult, V. reflexivity. }
  assert (ST : significant t) by (split; [apply DT|]; split; [lia|]; split; [apply DT|]; exists r, d; auto).
  assert (CZ : converts (inject_Z z) (inject_Z z)).
  { apply close_converts; [apply float_int; lia|exact P|]. assert (E : (inject_Z z - inject_Z z == 0)%Q) by ring. rewrite E. change (Qabs 0) with 0%Q. rewrite Qmult_0_r. exact P. }
  destruct (M t (Z.of_nat (length s)) DT) as [LE EQ]; [apply (converts_ext (inject_Z z) _ (inject_Z z) (inject_Z z)); [now symmetry|reflexivity|exact CZ]|].
  assert (FE : (float_value ds pt == inject_Z z)%Q).
  { destruct (Nat.eq_dec (length t) (length ds)) as [LL|LL].
    - specialize (EQ LL). rewrite VT in EQ. assert (E : (inject_Z z - inject_Z z == 0)%Q) by ring. rewrite E in EQ. change (Qabs 0) with 0%Q in EQ. revert EQ. apply (Qabs_case (float_value ds pt - inject_Z z)); intros; lra.
    - exfalso. pose proof (significant_decimal ds S) as DD. destruct (decimal_range ds DD) as [RD LD]. pose proof (value_dec ds pt) as VD. destruct (decimal_range s DS) as [RS _]. rewrite VS in RS.
      destruct C as (_ & _ & C & _). pose proof (C _ (float_int (z - 1) ltac:(lia))) as C1. pose proof (C _ (float_int (z + 1) ltac:(lia))) as C2.
      assert (I1 : (inject_Z (z - 1) == inject_Z z - 1)%Q) by (unfold Z.sub; rewrite inject_Z_plus; reflexivity). assert (I2 : (inject_Z (z + 1) == inject_Z z + 1)%Q) by (rewrite inject_Z_plus; reflexivity). rewrite I1 in C1. rewrite I2 in C2.
      assert (NEAR : (inject_Z z - (1 # 2) <= float_value ds pt <= inject_Z z + (1 # 2))%Q).
      { revert C1 C2. apply (Qabs_case (inject_Z z - float_value ds pt)); apply (Qabs_case (inject_Z z - 1 - float_value ds pt)); apply (Qabs_case (inject_Z z + 1 - float_value ds pt)); intros; split; lra. }
      set (x := pt - Z.of_nat (length ds)) in *. destruct (Z_le_gt_dec 0 x) as [X|X].
      + (* an integer *) assert (VI : (float_value ds pt == inject_Z (dec_val ds * 10 ^ x))%Q) by (rewrite VD; unfold dec; rewrite ten_nat by exact X; now rewrite inject_Z_mult).
        rewrite VI in NEAR. assert (ZE : dec_val ds * 10 ^ x = z).
        { assert (A : dec_val ds * 10 ^ x < z + 1) by (rewrite Zlt_Qlt, I2; lra). assert (A' : z - 1 < dec_val ds * 10 ^ x) by (rewrite Zlt_Qlt, I1; lra). lia. }
        rewrite ZE in VI. destruct (significant_unique ds t pt (Z.of_nat (length s)) S ST) as [E _]; [now rewrite VI, VT|]. apply LL. now rewrite E.
      + (* too small *) destruct (value_range ds pt DD) as [_ VU]. assert (PT : pt <= Z.of_nat (length s) - 2) by lia.
        assert (T1 : (ten pt <= ten (Z.of_nat (length s) - 2))%Q) by now apply ten_mono. rewrite (ten_nat (Z.of_nat (length s) - 2)) in T1 by lia.
        assert (T2 : 10 ^ (Z.of_nat (length s) - 2) * 10 <= z).
        { apply Z.le_trans with (10 ^ (Z.of_nat (length s) - 1)); [|lia]. replace (Z.of_nat (length s) - 1) with (Z.of_nat (length s) - 2 + 1) by lia. rewrite (Z.pow_add_r 10 _ 1) by lia. change (10 ^ 1) with 10. lia. }
        pose proof (z10 (Z.of_nat (length s) - 2) ltac:(lia)) as T3. set (w := 10 ^ (Z.of_nat (length s) - 2)) in *. clearbody w.
        assert (T4 : (inject_Z w * 10 <= inject_Z z)%Q) by (change 10%Q with (inject_Z 10); rewrite <- inject_Z_mult, <- Zle_Qle; exact T2). assert (T5 : (1 <= inject_Z w)%Q) by (change 1%Q with (inject_Z 1); rewrite <- Zle_Qle; lia). lra. }
  apply (significant_unique ds t pt _ S ST). now rewrite FE, VT.
Qed.
Lemma digits_ext : forall p q, (p == q)%Q -> float_digits p = float_digits q /\ float_point p = float_point q.
Proof. intros p q E. unfold float_digits, float_point. now rewrite (Qred_complete _ _ E). Qed.
Lemma int_text : forall z, Z.abs z <= 2 ^ 53 -> float_text (FFin (inject_Z z)) = fmt_v (z <? 0) (int_digits z) (int_dp z).
Proof.
  intros z B. change (2 ^ 53) with 9007199254740992 in B. unfold float_text. cbn [Qnum inject_Z]. unfold int_digits, int_dp. rewrite ShortProofs.shortest_small by lia. destruct (z =? 0) eqn:E.
  - assert (z = 0) by lia. subst z. vm_compute. reflexivity.
  - destruct (int_digits_shortest (Z.abs z) ltac:(lia)) as [D1 D2]. change (Qabs (inject_Z z)) with (inject_Z (Z.abs z)). now rewrite D1, D2.
Qed.
Lemma sign_ext : forall p q, (p == q)%Q -> (Qnum p =? 0) = (Qnum q =? 0) /\ (Qnum p <? 0) = (Qnum q <? 0).
Proof. intros [a b] [c d] E. unfold Qeq in E. cbn [Qnum Qden] in *. split; nia. Qed.
Lemma same_text : forall x y, CastSpec.same_num x y -> float_text x = float_text y.
Proof.
  intros x y []; try reflexivity. unfold float_text. destruct (sign_ext _ _ H) as [-> ->]. assert (E : (Qabs p == Qabs q)%Q) by now rewrite H. destruct (digits_ext _ _ E) as [-> ->]. reflexivity.
Qed.
