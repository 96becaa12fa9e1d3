(** The interval of TimeSince: seconds between two times, corrected by leap
    days. *)
From Coq Require Import String Ascii List ZArith QArith Qround Qabs Bool Lia Lqa.
From Verif Require Import Base BaseProofs PopModel NumModel F64Model FltModel FltProofs CalModel CalSpec
  CalProofs CalLeapProofs HumModel HumSpec HumTextSpec HumFdProofs HumTimeProofs HumTotalProofs.
Import ListNotations.
Open Scope Z_scope.
Opaque count_in abs_date.

Definition leap_corr (y1 y2 : Z) : Z :=
  let l := lcount y2 - lcount y1 in
  if l =? 0 then 0 else if is_leap y1 then l - 1 else if is_leap y2 then l + 1 else l.

Lemma interval_eq : forall d now, Z.abs (year d - 1) <= P52 -> Z.abs (year now - 1) <= P52 ->
  interval d now = t_unix now - t_unix d - 86400 * leap_corr (year d) (year now).
Proof.
  intros d now A B. unfold interval. cbv zeta. rewrite leap_days_lcount by assumption. unfold leap_corr. cbv zeta.
  change (60 * 60 * 24) with 86400.
  destruct (lcount (year now) - lcount (year d) =? 0) eqn:E; [apply Z.eqb_eq in E; rewrite E; reflexivity|].
  destruct (is_leap (year d)); [reflexivity|]. destruct (is_leap (year now)); reflexivity.
Qed.

(** ** Leap years among k years *)
Lemma lcount_bounds : forall y k, 0 <= k -> 0 <= lcount (y + k) - lcount y <= (k + 3) / 4.
Proof.
  intros y k K. unfold lcount. split.
  - pose proof (dse_mono y k K) as M. rewrite !dse_formula in M. lia.
  - Z.to_euclidean_division_equations; lia.
Qed.

Lemma leap_not_both : forall y, is_leap y = true -> is_leap (y + 1) = false.
Proof.
  intros y H. rewrite is_leap_mod in *. apply andb_true_iff in H. destruct H as [H _]. apply Z.eqb_eq in H.
  assert ((y + 1) mod 4 =? 0 = false); [|rewrite H0; reflexivity].
  apply Z.eqb_neq. Z.to_euclidean_division_equations; lia.
Qed.

(** Forward: the correction is never negative, and small. *)
Lemma corr_forward : forall y k, 0 <= k -> 0 <= leap_corr y (y + k) <= (k + 7) / 4 /\ (k <= 1 -> leap_corr y (y + k) = 0).
Proof.
  intros y k K. pose proof (lcount_bounds y k K) as B. unfold leap_corr. cbv zeta.
  assert (Q : (k + 7) / 4 = (k + 3) / 4 + 1) by (Z.to_euclidean_division_equations; lia).
  destruct (_ =? 0) eqn:E; [split; [lia|reflexivity]|]. apply Z.eqb_neq in E. split.
  - destruct (is_leap y); [lia|]. destruct (is_leap (y + k)); lia.
  - intro K1. assert (C : k = 0 \/ k = 1) by lia. destruct C as [-> | ->].
    + rewrite Z.add_0_r in E. lia.
    + rewrite lcount_step in *. unfold lp in *. destruct (is_leap y); lia.
Qed.
Lemma corr_back : forall y, leap_corr y (y - 1) = 0.
Proof.
  intro y. unfold leap_corr. cbv zeta. pose proof (lcount_step (y - 1)) as S. replace (y - 1 + 1) with y in S by lia.
  rewrite S. unfold lp. destruct (is_leap (y - 1)) eqn:E.
  - replace (lcount (y - 1) - (lcount (y - 1) + 1) =? 0) with false by lia.
    pose proof (leap_not_both _ E) as N. replace (y - 1 + 1) with y in N by lia. rewrite N. lia.
  - replace (lcount (y - 1) - (lcount (y - 1) + 0) =? 0) with true by lia. reflexivity.
Qed.

(** ** Years of times *)
Lemma year_ymd : forall t, year t = fst (fst (ymd (t_day t))).
Proof. intro t. unfold year, ymd. destruct (abs_date (t_day t)) as [[[y m] d] yd]. reflexivity. Qed.
Lemma month_ymd : forall t, month t = snd (fst (ymd (t_day t))).
Proof. intro t. unfold month, ymd. destruct (abs_date (t_day t)) as [[[y m] d] yd]. reflexivity. Qed.
Lemma mday_ymd : forall t, mday t = snd (ymd (t_day t)).
Proof. intro t. unfold mday, ymd. destruct (abs_date (t_day t)) as [[[y m] d] yd]. reflexivity. Qed.

Lemma t_day_number : forall t, t_day t = day_number (year t) (month t) (mday t) /\ valid_date (year t, month t, mday t).
Proof.
  intro t. rewrite year_ymd, month_ymd, mday_ymd.
  pose proof (ymd_valid (t_day t)) as V. pose proof (ymd_number (t_day t)) as N.
  destruct (ymd (t_day t)) as [[y m] d]. cbn [fst snd]. split; [symmetry; assumption|assumption].
Qed.
Lemma day_of_year : forall y m d, valid_date (y, m, d) ->
  days_since_epoch y <= day_number y m d < days_since_epoch (y + 1).
Proof.
  intros y m d V. cbn [valid_date] in V. destruct V as [M D]. rewrite month_length_ml in D.
  rewrite day_number_valid by lia. pose proof (bef_range (is_leap y) m M) as R. rewrite dse_step.
  unfold lp. destruct (is_leap y); lia.
Qed.
Lemma t_day_year : forall t, days_since_epoch (year t) <= t_day t < days_since_epoch (year t + 1).
Proof. intro t. destruct (t_day_number t) as [E V]. rewrite E. apply day_of_year. assumption. Qed.

Lemma local_day : forall t, 86400 * (t_day t - 719162) <= t_unix t + t_offset t < 86400 * (t_day t - 719162) + 86400.
Proof. intro t. unfold t_day, t_local. Z.to_euclidean_division_equations; lia. Qed.

Definition zone_ok (t : gotime) : Prop := Z.abs (t_offset t) <= 86400.

Lemma interval_bounds : forall d now, zone_ok d -> zone_ok now ->
  Z.abs (year d - 1) <= P52 -> Z.abs (year now - 1) <= P52 ->
  60 <= t_unix now - t_unix d -> 60 <= interval d now <= t_unix now - t_unix d.
Proof.
  intros d now ZD ZN YD YN D. rewrite interval_eq by assumption. unfold zone_ok in *.
  pose proof (t_day_year d) as TD. pose proof (t_day_year now) as TN.
  pose proof (local_day d) as LD. pose proof (local_day now) as LN.
  set (y := year d) in *. set (y' := year now) in *. clearbody y y'.
  assert (C : y' <= y - 2 \/ y' = y - 1 \/ y <= y') by lia.
  destruct C as [C|[C|C]].
  - exfalso. pose proof (dse_mono (y' + 1) (y - (y' + 1)) ltac:(lia)) as M.
    replace (y' + 1 + (y - (y' + 1))) with y in M by lia. lia.
  - rewrite C, corr_back. lia.
  - pose proof (corr_forward y (y' - y) ltac:(lia)) as [F F1]. replace (y + (y' - y)) with y' in * by lia.
    destruct (Z_le_gt_dec (y' - y) 1) as [K|K]; [rewrite (F1 K); lia|].
    split; [|lia].
    pose proof (dse_mono (y + 1) (y' - (y + 1)) ltac:(lia)) as M.
    replace (y + 1 + (y' - (y + 1))) with y' in M by lia.
    assert (B : (y' - y + 7) / 4 <= y' - y + 1) by (Z.to_euclidean_division_equations; lia). lia.
Qed.

(** ** Anniversaries *)

(** A leap year from y on and before y + k. *)
Definition some_leap (y k : Z) : Prop := 1 <= lcount (y + k) - lcount y.

Lemma unix_diff : forall d now, t_offset now = t_offset d -> t_secs now = t_secs d ->
  t_unix now - t_unix d = 86400 * (t_day now - t_day d).
Proof. intros d now O S. unfold t_secs, t_day, t_local in *. Z.to_euclidean_division_equations; lia. Qed.

Lemma anniversary_days : forall d now k, 1 <= k -> anniversary d now k ->
  t_day now - t_day d = 365 * k + (lcount (year d + k) - lcount (year d))
    + (if is_leap (year d + k) && (3 <=? month d) then 1 else 0) - (if is_leap (year d) && (3 <=? month d) then 1 else 0).
Proof.
  intros d now k K (O & S & M & D & Y).
  destruct (t_day_number d) as [E V]. destruct (t_day_number now) as [E' V'].
  rewrite E, E', M, D, Y in *. cbn [valid_date] in *. destruct V as [MV DV]. destruct V' as [_ DV'].
  rewrite !day_number_valid by lia. unfold bef. rewrite !dse_formula. unfold lcount.
  replace (2 <=? month d - 1) with (3 <=? month d) by lia. lia.
Qed.

(** What is left over after 365-day years: nothing, one day too many, or one
    day too few. *)
Definition left_over (y m k : Z) : Z :=
  if lcount (y + k) - lcount y =? 0 then (if is_leap (y + k) && (3 <=? m) then 1 else 0)
  else if is_leap y then (if 3 <=? m then (if is_leap (y + k) then 1 else 0) else 1)
  else if is_leap (y + k) then (if 3 <=? m then 0 else -1) else 0.

Lemma anniversary_interval : forall d now k, 1 <= k -> anniversary d now k ->
  Z.abs (year d - 1) <= P52 -> Z.abs (year now - 1) <= P52 ->
  interval d now = 86400 * (365 * k + left_over (year d) (month d) k).
Proof.
  intros d now k K A YD YN. rewrite interval_eq by assumption. destruct A as (O & S & R).
  rewrite unix_diff by assumption.
  rewrite (anniversary_days d now k K (conj O (conj S R))). destruct R as (_ & _ & ->).
  pose proof (lcount_bounds (year d) k ltac:(lia)) as LB.
  assert (L1 : is_leap (year d) = true -> 1 <= lcount (year d + k) - lcount (year d)).
  { intro H. pose proof (lcount_step (year d)) as LS. unfold lp in LS. rewrite H in LS.
    pose proof (lcount_bounds (year d + 1) (k - 1) ltac:(lia)) as LB2. replace (year d + 1 + (k - 1)) with (year d + k) in LB2 by lia. lia. }
  unfold leap_corr, left_over. cbv zeta. destruct (_ =? 0) eqn:E.
  - apply Z.eqb_eq in E. destruct (is_leap (year d)); [specialize (L1 eq_refl); lia|]. cbn [andb]. lia.
  - destruct (is_leap (year d)), (is_leap (year d + k)), (3 <=? month d); cbn [andb]; lia.
Qed.

Lemma left_cases : forall y m k, left_over y m k = 0 \/ left_over y m k = 1 \/
  (left_over y m k = -1 /\ is_leap y = false /\ is_leap (y + k) = true /\ m <= 2 /\ lcount (y + k) - lcount y <> 0).
Proof.
  intros y m k. unfold left_over. destruct (_ =? 0) eqn:E.
  - destruct (_ && _); lia.
  - apply Z.eqb_neq in E. destruct (is_leap y), (is_leap (y + k)), (3 <=? m) eqn:M; lia.
Qed.

Lemma year_div : forall q r, 0 <= r < 31536000 -> (31536000 * q + r) / 31536000 = q /\ (31536000 * q + r) mod 31536000 = r.
Proof.
  intros q r R. split.
  - rewrite Z.mul_comm, Z.div_add_l, Z.div_small by lia. lia.
  - rewrite Z.add_comm, Z.mul_comm, Z.mod_add, Z.mod_small by lia. reflexivity.
Qed.

Definition smaller : list (string * Z) := List.tl time_units.
Definition clearb (x : Z * Z) : bool := 2000 * (fst x mod snd x) <? 1999 * snd x.

Lemma units_years : forall adj depth q r, 1 <= depth -> 1 <= q -> 0 <= r < 31536000 -> 31536000 * q + r <= P41 ->
  2000 * r < 1999 * 31536000 -> forallb clearb (rests smaller r) = true ->
  units_of depth adj (31536000 * q + r) =
  map unitc (("year"%string, q) :: shown adj (Z.to_nat (depth - 1)) (greedy smaller r)).
Proof.
  intros adj depth q r DP Q R B C F. destruct (year_div q r R) as [DV MD].
  rewrite units_exact; [|assumption|lia|].
  - f_equal. unfold decomposition. change time_units with (("year"%string, 31536000) :: smaller).
    cbn [greedy]. rewrite DV, MD. cbn [drop_zeros]. replace (q =? 0) with false by lia.
    replace (Z.to_nat depth) with (S (Z.to_nat (depth - 1))) by lia. cbn [shown]. replace (q =? 0) with false by lia. reflexivity.
  - intros x u I. change time_units with (("year"%string, 31536000) :: smaller) in I. cbn [rests] in I. rewrite MD in I.
    destruct I as [I|I].
    + assert (X : x = 31536000 * q + r /\ u = 31536000) by (split; congruence). destruct X as [-> ->].
      unfold clear_of. rewrite MD. assumption.
    + rewrite forallb_forall in F. specialize (F _ I). unfold clearb in F. cbn [fst snd] in F. unfold clear_of. lia.
Qed.

Lemma anniversary_shown : forall d now k adj depth, 1 <= k <= 69000 -> anniversary d now k -> 1 <= depth ->
  Z.abs (year d - 1) <= P52 -> Z.abs (year now - 1) <= P52 ->
  units_of depth adj (interval d now) =
  if left_over (year d) (month d) k =? -1 then
    map unitc (("year"%string, k - 1) :: shown adj (Z.to_nat (depth - 1)) (greedy smaller (86400 * 364)))
  else map unitc (("year"%string, k) :: shown adj (Z.to_nat (depth - 1)) (greedy smaller (86400 * left_over (year d) (month d) k))).
Proof.
  intros d now k adj depth K A DP YD YN. rewrite (anniversary_interval d now k) by (try assumption; lia).
  destruct (left_cases (year d) (month d) k) as [E|[E|(E & L1 & L2 & M & LC)]]; rewrite E.
  - replace (86400 * (365 * k + 0)) with (31536000 * k + 0) by lia. cbn [Z.eqb].
    apply units_years; try (unfold P41; lia). vm_compute. reflexivity.
  - replace (86400 * (365 * k + 1)) with (31536000 * k + 86400) by lia. cbn [Z.eqb].
    apply units_years; try (unfold P41; lia). vm_compute. reflexivity.
  - replace (86400 * (365 * k + -1)) with (31536000 * (k - 1) + 86400 * 364) by lia. rewrite Z.eqb_refl.
    assert (K2 : 2 <= k).
    { destruct (Z.eq_dec k 1) as [->|]; [|lia]. exfalso. apply LC. rewrite lcount_step. unfold lp. rewrite L1. lia. }
    apply units_years; try (unfold P41; lia). vm_compute. reflexivity.
Qed.

(** ** Less than a minute apart, or the other way round *)
Lemma corr_backward : forall y k, 0 <= k -> - ((k + 3) / 4) - 1 <= leap_corr (y + k) y.
Proof.
  intros y k K. pose proof (lcount_bounds y k K) as B. unfold leap_corr. cbv zeta.
  destruct (_ =? 0) eqn:E; [lia|]. destruct (is_leap (y + k)); [lia|]. destruct (is_leap y); lia.
Qed.
Lemma interval_small : forall d now, zone_ok d -> zone_ok now ->
  Z.abs (year d - 1) <= P52 -> Z.abs (year now - 1) <= P52 ->
  t_unix now - t_unix d < 60 -> interval d now < 60.
Proof.
  intros d now ZD ZN YD YN D. rewrite interval_eq by assumption. unfold zone_ok in *.
  pose proof (t_day_year d) as TD. pose proof (t_day_year now) as TN.
  pose proof (local_day d) as LD. pose proof (local_day now) as LN.
  set (y := year d) in *. set (y' := year now) in *. clearbody y y'.
  assert (C : y' <= y - 2 \/ y' = y - 1 \/ y <= y' <= y + 1 \/ y + 2 <= y') by lia.
  destruct C as [C|[C|[C|C]]].
  - pose proof (dse_mono (y' + 1) (y - (y' + 1)) ltac:(lia)) as M.
    replace (y' + 1 + (y - (y' + 1))) with y in M by lia.
    pose proof (corr_backward y' (y - y') ltac:(lia)) as CB. replace (y' + (y - y')) with y in CB by lia.
    assert (B : (y - y' + 3) / 4 <= y - y') by (Z.to_euclidean_division_equations; lia). lia.
  - rewrite C, corr_back. lia.
  - pose proof (corr_forward y (y' - y) ltac:(lia)) as [F F1]. replace (y + (y' - y)) with y' in * by lia.
    rewrite F1 by lia. lia.
  - exfalso. pose proof (dse_mono (y + 1) (y' - (y + 1)) ltac:(lia)) as M.
    replace (y + 1 + (y' - (y + 1))) with y' in M by lia. lia.
Qed.

(** ** Shape of the units *)
Lemma names_units : map fst chunks = map (fun u => bs (fst u)) time_units.
Proof. reflexivity. Qed.
Lemma units_shape : forall depth adj delta, 60 <= delta < 2 ^ 63 -> 1 <= depth ->
  units_of depth adj delta <> [] /\
  Forall (fun u => 1 <= snd u) (units_of depth adj delta) /\
  subsequence (map fst (units_of depth adj delta)) (map (fun u => bs (fst u)) time_units) /\
  (adj = true -> contiguous (map fst (units_of depth adj delta)) (map (fun u => bs (fst u)) time_units)) /\
  Z.of_nat (length (units_of depth adj delta)) <= depth.
Proof.
  intros depth adj delta D DP.
  destruct (units_nonempty depth adj delta D DP) as (i & name & secs & l & I6 & FI & SK & C1 & SB & UE & _).
  split; [rewrite UE; discriminate|].
  rewrite units_of_eq by lia. rewrite FI. destruct (Nat.eqb i 6) eqn:E; [apply Nat.eqb_eq in E; lia|].
  destruct (loop_shape adj depth (skipn i chunks) 0 delta) as (A & B & C).
  rewrite <- names_units.
  split; [assumption|]. split; [|split].
  - apply (subseq_skipn _ i). rewrite skipn_map. assumption.
  - intros ->. destruct (loop_prefix depth (skipn i chunks) 0 delta) as (b & P).
    exists (map fst (firstn i chunks)), b. rewrite <- P, <- map_app, firstn_skipn. reflexivity.
  - lia.
Qed.
