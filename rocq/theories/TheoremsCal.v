(** Property theorems about the calendar: C43. *)
From Coq Require Import String Ascii List ZArith QArith Bool Lia.
From Verif Require Import Base FltModel FltProofs CalModel CalSpec CalProofs CalLeapProofs.
Import ListNotations.
Open Scope Z_scope.

(** ** C43: leap years, leap days, days of a month *)

(** IsLeap is the Gregorian rule, for every year including negative ones. *)
Theorem C43_is_leap : forall y, is_leap y = true <-> leap y.
Proof. exact is_leap_spec. Qed.

(** LeapDays counts the leap years from the first year on and before the
    second; backwards it counts them negatively.  Missing: years beyond 2^52,
    where float64 no longer holds the year. *)
Theorem C43_leap_days_partial : forall y k,
  Z.abs (y - 1) <= 2 ^ 52 -> Z.abs (y + Z.of_nat k - 1) <= 2 ^ 52 ->
  leap_days y (y + Z.of_nat k) = leap_years y k /\
  leap_days (y + Z.of_nat k) y = - leap_years y k.
Proof.
  intros y k A B. change (2 ^ 52) with P52 in *. rewrite !leap_days_lcount by assumption.
  rewrite leap_years_lcount. lia.
Qed.
Example C43_leap_days_example :
  leap_days 1999 2005 = 2 /\ leap_years 1999 6 = 2 /\ leap_days 1896 1905 = 2 /\ leap_days 2005 1999 = -2 /\
  leap_days (-5) 5 = leap_years (-5) 10.
Proof. vm_compute. repeat split; reflexivity. Qed.

(** Beyond that it is wrong: of these four years one is a leap year. *)
Theorem C43_leap_days_refuted : exists y k,
  0 < y + Z.of_nat k < 2 ^ 63 /\ leap_days y (y + Z.of_nat k) = 0 /\ leap_years y k = 1.
Proof. exists (2 ^ 60), 4%nat. vm_compute. repeat split; reflexivity. Qed.

(** DaysInMonth is the Gregorian month length, for every year. *)
Theorem C43_days_in_month : forall y m, 1 <= m <= 12 -> days_in_month y m = month_length y m.
Proof. exact days_in_month_spec. Qed.
Example C43_days_in_month_example :
  days_in_month 2024 2 = 29 /\ days_in_month 2100 2 = 28 /\ days_in_month 2023 4 = 30 /\ days_in_month (-3) 12 = 31.
Proof. vm_compute. repeat split; reflexivity. Qed.

(** The date of day n is the one n steps of the calendar away from 0001-01-01,
    forwards or backwards, and every date of the calendar is the date of its
    day number. *)
Theorem C43_dates : forall n y m d,
  (exists yd, abs_date n = (y, m, d, yd)) <-> days_after n (y, m, d).
Proof.
  intros n y m d. rewrite ymd_days_after. unfold ymd. destruct (abs_date n) as [[[y' m'] d'] yd']. split.
  - intros [yd E]. congruence.
  - intro E. exists yd'. congruence.
Qed.
Theorem C43_day_numbers : forall y m d, valid_date (y, m, d) -> days_after (day_number y m d) (y, m, d).
Proof. intros y m d V. apply ymd_days_after. apply ymd_unique; [assumption|reflexivity]. Qed.
Example C43_dates_example :
  abs_date 738944 = (2024, 2, 29, 59) /\ day_number 2024 2 29 = 738944 /\ valid_date (2024, 2, 29) /\
  abs_date (-1) = (0, 12, 31, 365).
Proof. vm_compute. repeat split; try reflexivity; discriminate. Qed.

(** ** C44.  The zero time is midnight of the first day of the year 1, in UTC. *)
Theorem C44_zero_time : forall t, t_offset t = 0 ->
  (is_zero t = true <-> year t = 1 /\ month t = 1 /\ mday t = 1 /\ hour t = 0 /\ minute t = 0 /\ second t = 0 /\ t_nsec t = 0).
Proof.
  intros t O. assert (D : year t = 1 /\ month t = 1 /\ mday t = 1 <-> t_day t = 0).
  { pose proof (C43_dates (t_day t) 1 1 1) as H. pose proof (C43_dates 0 1 1 1) as H0. unfold year, month, mday in *.
    destruct (abs_date (t_day t)) as [[[y m] d] yd]. split.
    - intros (-> & -> & ->). assert (A : days_after (t_day t) (1, 1, 1)) by (apply H; now exists yd).
      assert (B : days_after 0 (1, 1, 1)) by (apply H0; eexists; vm_compute; reflexivity). clear H H0.
      apply ymd_days_after in A, B. pose proof (ymd_number (t_day t)) as NA. pose proof (ymd_number 0) as NB. rewrite A in NA. rewrite B in NB. congruence.
    - intro E. rewrite E in H. assert (B : days_after 0 (1, 1, 1)) by (apply H0; eexists; vm_compute; reflexivity).
      apply H in B as (yd' & B). injection B as -> -> -> _. auto. }
  assert (L : t_local t = t_unix t) by (unfold t_local; lia).
  assert (S : hour t = 0 /\ minute t = 0 /\ second t = 0 <-> t_unix t mod 86400 = 0).
  { unfold hour, minute, second, t_secs. rewrite L. pose proof (Z.mod_pos_bound (t_unix t) 86400 ltac:(lia)). set (x := t_unix t mod 86400) in *. clearbody x.
    pose proof (Z.div_mod x 3600 ltac:(lia)). pose proof (Z.mod_pos_bound x 3600 ltac:(lia)). pose proof (Z.div_mod (x mod 3600) 60 ltac:(lia)). pose proof (Z.mod_pos_bound (x mod 3600) 60 ltac:(lia)).
    pose proof (Z.div_mod x 60 ltac:(lia)). pose proof (Z.mod_pos_bound x 60 ltac:(lia)).
    split; [intros (A & B & C); rewrite A, ?B, ?C in *; lia|intros ->; now repeat split]. }
  unfold is_zero. rewrite andb_true_iff, !Z.eqb_eq. unfold t_day in D. rewrite L in D.
  pose proof (Z.div_mod (t_unix t) 86400 ltac:(lia)) as DM. split.
  - intros [U N]. rewrite U in *. change (-62135596800 / 86400 + 719162) with 0 in D. change (-62135596800 mod 86400) with 0 in S. tauto.
  - intros (A & B & C & E & F & G & H). split; [|exact H]. assert (t_unix t / 86400 + 719162 = 0) by tauto. assert (t_unix t mod 86400 = 0) by tauto. lia.
Qed.
(** It is an instant: the location does not matter. *)
Theorem C44_zero_instant : forall t t', t_unix t = t_unix t' -> t_nsec t = t_nsec t' -> is_zero t = is_zero t'.
Proof. intros t t' U N. unfold is_zero. now rewrite U, N. Qed.
Example C44_zero_time_example : is_zero (date_in 1 1 1 (fun _ => (0, bs "UTC"))) = true /\ is_zero (date_in 1 1 1 (fun _ => (3600, bs "CET"))) = false /\
  t_offset (date_in 1 1 1 (fun _ => (0, bs "UTC"))) = 0.
Proof. vm_compute. auto. Qed.

Print Assumptions C43_is_leap.
Print Assumptions C43_leap_days_partial.
Print Assumptions C43_leap_days_refuted.
Print Assumptions C43_days_in_month.
Print Assumptions C43_dates.
Print Assumptions C43_day_numbers.
Print Assumptions C44_zero_time.
Print Assumptions C44_zero_instant.
