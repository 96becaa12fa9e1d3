(** Date formats: digits, fields, tokens. *)
From Coq Require Import String Ascii List ZArith QArith Bool Lia.
From Verif Require Import Base BaseProofs Utf8Model Utf8Proofs PopModel NumModel F64Model FltModel CalModel CalSpec
  CalProofs CalLeapProofs HumModel HumSpec HumTimeProofs HumTextSpec HumTotalProofs HumLeapProofs DfmtModel DfmtSpec.
Import ListNotations.
Open Scope Z_scope.
Opaque abs_date.

(** ** Digits *)
Lemma utoa_fuel : forall f f' n, 0 <= n -> (Z.to_nat (Z.log2 n) < f)%nat -> (Z.to_nat (Z.log2 n) < f')%nat ->
  utoa_aux f n [] = utoa_aux f' n [].
Proof.
  induction f as [|f IH]; intros f' n N F F'; [lia|]. destruct f' as [|f']; [lia|].
  cbn [utoa_aux]. destruct (n <? 10) eqn:E; [reflexivity|].
  assert (L : Z.log2 (n / 10) < Z.log2 n).
  { pose proof (Z.log2_spec n ltac:(lia)) as [A B].
    assert (0 < n / 10) by (apply Z.div_str_pos; lia).
    assert (n / 10 < 2 ^ Z.log2 n).
    { apply Z.div_lt_upper_bound; [lia|]. rewrite Z.pow_succ_r in B by apply Z.log2_nonneg. lia. }
    apply Z.log2_lt_pow2; lia. }
  pose proof (Z.log2_nonneg (n / 10)).
  rewrite (utoa_aux_app f), (utoa_aux_app f'). f_equal. apply IH; [apply Z.div_pos; lia|lia|lia].
Qed.
Lemma digit_char_eq : forall k, 0 <= k < 10 -> digit_char k = digit k.
Proof.
  intros k K. assert (C : k = 0 \/ k = 1 \/ k = 2 \/ k = 3 \/ k = 4 \/ k = 5 \/ k = 6 \/ k = 7 \/ k = 8 \/ k = 9) by lia.
  destruct C as [->|[->|[->|[->|[->|[->|[->|[->|[->| ->]]]]]]]]]; reflexivity.
Qed.
Lemma utoa_step : forall n, 0 <= n ->
  utoa n = if n <? 10 then [digit n] else utoa (n / 10) ++ [digit (n mod 10)].
Proof.
  intros n N. unfold utoa at 1. cbn [utoa_aux]. pose proof (Z.mod_pos_bound n 10 ltac:(lia)) as M.
  rewrite digit_char_eq by lia. destruct (n <? 10) eqn:E.
  - rewrite Z.mod_small by lia. reflexivity.
  - rewrite utoa_aux_app. f_equal. unfold utoa.
    assert (L : Z.log2 (n / 10) < Z.log2 n).
    { pose proof (Z.log2_spec n ltac:(lia)) as [A B].
      assert (0 < n / 10) by (apply Z.div_str_pos; lia).
      assert (n / 10 < 2 ^ Z.log2 n).
      { apply Z.div_lt_upper_bound; [lia|]. rewrite Z.pow_succ_r in B by apply Z.log2_nonneg. lia. }
      apply Z.log2_lt_pow2; lia. }
    pose proof (Z.log2_nonneg (n / 10)).
    apply utoa_fuel; [apply Z.div_pos; lia|lia|lia].
Qed.
Lemma repeat_snoc : forall (A : Type) (x : A) n, repeat x n ++ [x] = repeat x (S n).
Proof. intros A x. induction n as [|n IH]; [reflexivity|]. cbn [repeat app]. rewrite IH. reflexivity. Qed.
Lemma zeros_digits : forall w n, 0 <= n < 10 ^ Z.of_nat (S w) -> zeros (S w) n = digits (S w) n.
Proof.
  induction w as [|w IH]; intros n N.
  - change (10 ^ Z.of_nat 1) with 10 in N. unfold zeros. cbv zeta. rewrite utoa_step by lia.
    replace (n <? 10) with true by lia. cbn [digits app length repeat Nat.sub]. rewrite Z.mod_small by lia. reflexivity.
  - change (digits (S (S w)) n) with (digits (S w) (n / 10) ++ [digit (n mod 10)]).
    rewrite <- IH.
    2:{ split; [apply Z.div_pos; lia|]. apply Z.div_lt_upper_bound; [lia|].
        rewrite <- Z.pow_succ_r by lia. rewrite <- Nat2Z.inj_succ. lia. }
    unfold zeros. cbv zeta. rewrite (utoa_step n) by lia. destruct (n <? 10) eqn:E.
    + rewrite (Z.div_small n 10), (Z.mod_small n 10) by lia. change (utoa 0) with [digit 0].
      cbn [length]. replace (S (S w) - 1)%nat with (S w) by lia. replace (S w - 1)%nat with w by lia.
      change [digit 0] with ["0"%char]. rewrite repeat_snoc. reflexivity.
    + rewrite app_length. cbn [length]. rewrite app_assoc. do 2 f_equal. f_equal. lia.
Qed.
Lemma fmt2 : forall n, 0 <= n < 100 -> fmt0 2 n = digits 2 n.
Proof. intros n N. unfold fmt0. replace (n <? 0) with false by lia. apply zeros_digits. exact N. Qed.
Lemma fmt4 : forall n, 0 <= n < 10000 -> fmt0 4 n = digits 4 n.
Proof. intros n N. unfold fmt0. replace (n <? 0) with false by lia. apply zeros_digits. exact N. Qed.
Lemma app2 : forall n, 0 <= n < 100 -> append_int n 2 = digits 2 n.
Proof. intros n N. unfold append_int. replace (n <? 0) with false by lia. apply zeros_digits. exact N. Qed.
Lemma app4 : forall n, 0 <= n < 10000 -> append_int n 4 = digits 4 n.
Proof. intros n N. unfold append_int. replace (n <? 0) with false by lia. apply zeros_digits. exact N. Qed.
Lemma app0 : forall n, 0 <= n -> append_int n 0 = itoa n.
Proof. intros n N. unfold append_int, itoa. replace (n <? 0) with false by lia. reflexivity. Qed.

(** ** Fields *)
Lemma civil_fields : forall t n y m d h mi s, civil (t_unix t + t_offset t) n y m d h mi s ->
  t_day t = n /\ year t = y /\ month t = m /\ mday t = d /\ hour t = h /\ minute t = mi /\ second t = s /\
  valid_date (y, m, d).
Proof.
  intros t n y m d h mi s (D & L & H & MI & S).
  assert (TD : t_day t = n).
  { unfold t_day, t_local. rewrite L. clear - H MI S. Z.to_euclidean_division_equations; lia. }
  assert (TS : t_secs t = 3600 * h + 60 * mi + s).
  { unfold t_secs, t_local. rewrite L. clear - H MI S. Z.to_euclidean_division_equations; lia. }
  apply ymd_days_after in D. rewrite year_ymd, month_ymd, mday_ymd, TD, D. cbn [fst snd].
  unfold hour, minute, second. rewrite TS. pose proof (ymd_valid n) as V. rewrite D in V.
  repeat split; try assumption; try (apply V); clear - H MI S; Z.to_euclidean_division_equations; lia.
Qed.

Lemma hour12_eq : forall t h, hour t = h -> 0 <= h < 24 -> hour12 t = clock12 h /\ 1 <= clock12 h <= 12.
Proof.
  intros t h E H. unfold hour12, clock12. rewrite E. clear E. cbv zeta.
  destruct (h =? 0) eqn:A; [apply Z.eqb_eq in A; subst h; split; [reflexivity|lia]|].
  destruct (h <=? 12) eqn:B.
  - destruct (Z.eq_dec h 12) as [->|N]; [split; [reflexivity|lia]|].
    rewrite Z.mod_small by lia. rewrite A. lia.
  - replace (h mod 12) with (h - 12) by (Z.to_euclidean_division_equations; lia).
    replace (h - 12 =? 0) with false by lia. lia.
Qed.

(** ** The first of January, days of the year, weeks *)
Lemma jan1_after : forall y, days_after (days_since_epoch y) (y, 1, 1).
Proof.
  intro y. apply ymd_days_after. apply ymd_unique.
  - cbn. unfold month_length. cbn [Z.eqb orb]. lia.
  - rewrite day_number_valid by lia. unfold bef. change (days_before (1 - 1)) with 0.
    change (2 <=? 1 - 1) with false. rewrite andb_false_r. lia.
Qed.
Lemma jan1_unique : forall y k, days_after k (y, 1, 1) -> k = days_since_epoch y.
Proof.
  intros y k H. pose proof (jan1_after y) as J. apply ymd_days_after in H, J.
  pose proof (ymd_number k) as A. pose proof (ymd_number (days_since_epoch y)) as B. rewrite H in A. rewrite J in B. lia.
Qed.
Lemma abs_yday : forall n y m d yd, abs_date n = (y, m, d, yd) -> yd = n - days_since_epoch y /\ 0 <= yd < 365 + lp y.
Proof.
  intros n y m d yd E. rewrite abs_date_eq in E. pose proof (ad_year_spec n) as S.
  assert (Y : ad_year n = y) by congruence. rewrite Y in *. split; [congruence|]. replace yd with (n - days_since_epoch y) by congruence. lia.
Qed.
Lemma year_day_eq : forall t, year_day t = t_day t - days_since_epoch (year t) + 1.
Proof.
  intro t. unfold year_day, year. destruct (abs_date (t_day t)) as [[[y m] d] yd] eqn:E.
  pose proof (abs_yday _ _ _ _ _ E). lia.
Qed.
Lemma iso_week_spec : forall n, iso n (fst (iso_week n)) (snd (iso_week n)).
Proof.
  intro n. unfold iso_week. cbv zeta.
  set (k := if 4 - weekday n =? 4 then -3 else 4 - weekday n).
  assert (K : (n + k) mod 7 = 3 /\ -3 <= k <= 3).
  { unfold k, weekday. destruct (4 - (n + 1) mod 7 =? 4) eqn:E; Z.to_euclidean_division_equations; lia. }
  clearbody k. destruct (abs_date (n + k)) as [[[y m] d] yd] eqn:E. cbn [fst snd].
  destruct (abs_yday _ _ _ _ _ E) as [Y B].
  exists (n + k), (days_since_epoch y), (days_since_epoch (y + 1)).
  split; [apply K|]. split; [lia|]. split; [apply jan1_after|]. split; [apply jan1_after|].
  rewrite dse_step. split; [lia|]. rewrite Y. Z.to_euclidean_division_equations; lia.
Qed.
Lemma iso_unique : forall n y w y' w', iso n y w -> iso n y' w' -> y = y' /\ w = w'.
Proof.
  intros n y w y' w' (th & j & x & T & N & J & X & B & W) (th' & j' & x' & T' & N' & J' & X' & B' & W').
  assert (E : th = th') by (clear - T T' N N'; Z.to_euclidean_division_equations; lia). subst th'.
  apply jan1_unique in J, J', X, X'. subst.
  assert (Y : y = y').
  { destruct (Z.lt_trichotomy y y') as [L|[L|L]]; [exfalso|assumption|exfalso].
    - pose proof (dse_mono (y + 1) (y' - (y + 1)) ltac:(lia)) as M. replace (y + 1 + (y' - (y + 1))) with y' in M by lia. lia.
    - pose proof (dse_mono (y' + 1) (y - (y' + 1)) ltac:(lia)) as M. replace (y' + 1 + (y - (y' + 1))) with y in M by lia. lia. }
  subst y'. split; [reflexivity|]. lia.
Qed.
