(** The calendar functions against the Gregorian rules. *)
From Coq Require Import String Ascii List ZArith Znumtheory QArith Qround Bool Lia Lqa.
From Verif Require Import Base BaseProofs PopModel NumModel F64Model FltModel FltProofs CalModel CalSpec.
Import ListNotations.
Open Scope Z_scope.

Lemma rem_div : forall a b, 0 < b -> (Z.rem a b =? 0) = true <-> (b | a).
Proof. intros a b B. rewrite Z.eqb_eq. apply Z.rem_divide. lia. Qed.

Lemma is_leap_spec : forall y, is_leap y = true <-> leap y.
Proof.
  intro y. unfold is_leap, leap.
  rewrite andb_true_iff, orb_true_iff, negb_true_iff, !rem_div by lia.
  rewrite <- not_true_iff_false, rem_div by lia. reflexivity.
Qed.

Lemma is_leap_mod : forall y,
  is_leap y = (y mod 4 =? 0) && (negb (y mod 100 =? 0) || (y mod 400 =? 0)).
Proof.
  intro y. unfold is_leap.
  assert (R : forall b, 0 < b -> (Z.rem y b =? 0) = (y mod b =? 0)).
  { intros b B. apply eq_true_iff_eq. rewrite rem_div by assumption. rewrite Z.eqb_eq.
    rewrite Z.mod_divide by lia. reflexivity. }
  rewrite !R by lia. reflexivity.
Qed.

Lemma leap_dec_is_leap : forall (A : Type) y (a b : A), (if leap_dec y then a else b) = (if is_leap y then a else b).
Proof.
  intros A y a b. destruct (leap_dec y) as [L|L]; destruct (is_leap y) eqn:E; try reflexivity; exfalso.
  - apply is_leap_spec in L. congruence.
  - apply L. apply is_leap_spec. assumption.
Qed.

Definition lp (y : Z) : Z := if is_leap y then 1 else 0.

Lemma lp_cases : forall y, lp y = 0 \/ lp y = 1.
Proof. intro y. unfold lp. destruct (is_leap y); lia. Qed.

Lemma dse_step : forall y, days_since_epoch (y + 1) = days_since_epoch y + 365 + lp y.
Proof.
  intro y. unfold days_since_epoch, lp. rewrite is_leap_mod.
  destruct (y mod 4 =? 0) eqn:A; destruct (y mod 100 =? 0) eqn:B; destruct (y mod 400 =? 0) eqn:C;
    cbn [andb orb negb]; cbv zeta;
    Z.to_euclidean_division_equations; lia.
Qed.

Lemma dse_formula : forall y,
  days_since_epoch y = 365 * (y - 1) + (y - 1) / 4 - (y - 1) / 100 + (y - 1) / 400.
Proof. intro y. unfold days_since_epoch. cbv zeta. Z.to_euclidean_division_equations; lia. Qed.

Lemma dse_mono : forall y k, 0 <= k -> 365 * k <= days_since_epoch (y + k) - days_since_epoch y <= 366 * k.
Proof.
  intros y k K. pattern k. apply natlike_ind; [| |assumption].
  - rewrite Z.add_0_r. lia.
  - intros x X IH. replace (y + Z.succ x) with (y + x + 1) by lia. rewrite dse_step.
    pose proof (lp_cases (y + x)). lia.
Qed.

(** ** The date of a day number *)

Definition ad_year (d : Z) : Z :=
  let n := d / 146097 in let y := 400 * n in let d := d - 146097 * n in
  let n := d / 36524 in let n := n - n / 4 in
  let y := y + 100 * n in let d := d - 36524 * n in
  let n := d / 1461 in let y := y + 4 * n in let d := d - 1461 * n in
  let n := d / 365 in let n := n - n / 4 in
  y + n + 1.
Definition ad_yday (d : Z) : Z :=
  let n := d / 146097 in let d := d - 146097 * n in
  let n := d / 36524 in let n := n - n / 4 in
  let d := d - 36524 * n in
  let n := d / 1461 in let d := d - 1461 * n in
  let n := d / 365 in let n := n - n / 4 in
  d - 365 * n.
Definition ad_md (lpy : bool) (yday : Z) : Z * Z :=
  if lpy && (yday =? 59) then (2, 29)
  else
    let day := if lpy && (59 <? yday) then yday - 1 else yday in
    let month := day / 31 in
    let e := days_before (month + 1) in
    if e <=? day then (month + 2, day - e + 1) else (month + 1, day - days_before month + 1).

Lemma dse_cycles : forall a b c e, 0 <= b <= 3 -> 0 <= c <= 24 -> 0 <= e <= 3 ->
  days_since_epoch (400 * a + 100 * b + 4 * c + e + 1) = 146097 * a + 36524 * b + 1461 * c + 365 * e.
Proof.
  intros a b c e B C E. rewrite dse_formula.
  replace (400 * a + 100 * b + 4 * c + e + 1 - 1) with (400 * a + 100 * b + 4 * c + e) by lia.
  assert (Q4 : (400 * a + 100 * b + 4 * c + e) / 4 = 100 * a + 25 * b + c) by (Z.to_euclidean_division_equations; lia).
  assert (Q1 : (400 * a + 100 * b + 4 * c + e) / 100 = 4 * a + b) by (Z.to_euclidean_division_equations; lia).
  assert (Q0 : (400 * a + 100 * b + 4 * c + e) / 400 = a) by (Z.to_euclidean_division_equations; lia).
  rewrite Q4, Q1, Q0. lia.
Qed.

Lemma ad_year_spec : forall d,
  0 <= d - days_since_epoch (ad_year d) < 365 + lp (ad_year d).
Proof.
  intro d. unfold lp. rewrite is_leap_mod.
  assert (Y : exists a b c e, ad_year d = 400 * a + 100 * b + 4 * c + e + 1
     /\ 0 <= b <= 3 /\ 0 <= c <= 24 /\ 0 <= e <= 3
     /\ 0 <= d - (146097 * a + 36524 * b + 1461 * c + 365 * e)
     /\ d - (146097 * a + 36524 * b + 1461 * c + 365 * e) <= 365
     /\ (d - (146097 * a + 36524 * b + 1461 * c + 365 * e) = 365 -> e = 3 /\ (c <> 24 \/ b = 3))).
  { unfold ad_year. cbv zeta.
    set (a := d / 146097). set (d1 := d - 146097 * a).
    set (b := d1 / 36524 - d1 / 36524 / 4). set (d2 := d1 - 36524 * b).
    set (c := d2 / 1461). set (d3 := d2 - 1461 * c).
    set (e := d3 / 365 - d3 / 365 / 4).
    exists a, b, c, e.
    assert (D1 : 0 <= d1 < 146097) by (unfold d1, a; clear; Z.to_euclidean_division_equations; lia).
    assert (B : 0 <= b <= 3 /\ 0 <= d2 /\ d2 <= 36524 /\ (d2 = 36524 -> b = 3)).
    { unfold d2, b. clearbody d1. clear - D1. Z.to_euclidean_division_equations; lia. }
    assert (C : 0 <= c <= 24 /\ 0 <= d3 /\ d3 <= 1460 /\ (d3 = 1460 -> c = 24 -> d2 = 36524)).
    { unfold d3, c. clearbody d2. clear - B. Z.to_euclidean_division_equations; lia. }
    assert (E : 0 <= e <= 3 /\ 0 <= d3 - 365 * e /\ d3 - 365 * e <= 365 /\ (d3 - 365 * e = 365 -> d3 = 1460 /\ e = 3)).
    { unfold e. clearbody d3. clear - C. Z.to_euclidean_division_equations; lia. }
    clearbody b c e. unfold d3, d2, d1 in *. clearbody a. lia. }
  destruct Y as (a & b & c & e & EQ & B & C & E & R0 & R1 & R2).
  rewrite EQ. set (y := 400 * a + 100 * b + 4 * c + e + 1) in *.
  assert (DS : days_since_epoch y = 146097 * a + 36524 * b + 1461 * c + 365 * e).
  { apply dse_cycles; assumption. }
  rewrite DS. set (r := d - _) in *. clearbody r. split; [assumption|].
  destruct (Z.eq_dec r 365) as [E5|]; [|destruct (_ && _); lia].
  destruct (R2 E5) as [E3 E6]. 
  assert (M4 : y mod 4 = 0) by (unfold y; rewrite E3; clear; Z.to_euclidean_division_equations; lia).
  assert (M1 : y mod 100 <> 0 \/ y mod 400 = 0).
  { unfold y. rewrite E3. destruct E6; clear - B C H; [left|].
    - intro Z0. replace (400 * a + 100 * b + 4 * c + 3 + 1) with (4 * c + 4 + (4 * a + b) * 100) in Z0 by lia.
      rewrite Z.mod_add in Z0 by lia. rewrite Z.mod_small in Z0; lia.
    - destruct (Z.eq_dec c 24); [right|left; intro Z0].
      + replace (400 * a + 100 * b + 4 * c + 3 + 1) with ((a + 1) * 400) by lia. apply Z.mod_mul. lia.
      + replace (400 * a + 100 * b + 4 * c + 3 + 1) with (4 * c + 4 + (4 * a + b) * 100) in Z0 by lia.
        rewrite Z.mod_add in Z0 by lia. rewrite Z.mod_small in Z0; lia. }
  destruct (y mod 4 =? 0) eqn:X4; [|lia]. destruct (y mod 100 =? 0) eqn:X1; destruct (y mod 400 =? 0) eqn:X2; simpl; lia.
Qed.

Lemma ad_year_unique : forall d y, 0 <= d - days_since_epoch y < 365 + lp y -> ad_year d = y.
Proof.
  intros d y H. pose proof (ad_year_spec d) as S. set (z := ad_year d) in *. clearbody z.
  destruct (Z.lt_trichotomy z y) as [L|[L|L]]; [exfalso| assumption|exfalso].
  - pose proof (dse_mono (z + 1) (y - (z + 1)) ltac:(lia)) as M. replace (z + 1 + (y - (z + 1))) with y in M by lia.
    rewrite dse_step in M. lia.
  - pose proof (dse_mono (y + 1) (z - (y + 1)) ltac:(lia)) as M. replace (y + 1 + (z - (y + 1))) with z in M by lia.
    rewrite dse_step in M. lia.
Qed.

Lemma abs_date_eq : forall d,
  abs_date d = (ad_year d, fst (ad_md (is_leap (ad_year d)) (d - days_since_epoch (ad_year d))),
                snd (ad_md (is_leap (ad_year d)) (d - days_since_epoch (ad_year d))),
                d - days_since_epoch (ad_year d)).
Proof.
  intro d.
  assert (Y : ad_yday d = d - days_since_epoch (ad_year d)).
  { unfold ad_yday, ad_year. cbv zeta.
    set (a := d / 146097). set (d1 := d - 146097 * a).
    set (b := d1 / 36524 - d1 / 36524 / 4). set (d2 := d1 - 36524 * b).
    set (c := d2 / 1461). set (d3 := d2 - 1461 * c).
    set (e := d3 / 365 - d3 / 365 / 4).
    assert (D1 : 0 <= d1 < 146097) by (unfold d1, a; clear; Z.to_euclidean_division_equations; lia).
    assert (B : 0 <= b <= 3 /\ 0 <= d2 <= 36524).
    { unfold d2, b. clearbody d1. clear - D1. Z.to_euclidean_division_equations; lia. }
    assert (C : 0 <= c <= 24 /\ 0 <= d3 <= 1460).
    { unfold d3, c. clearbody d2. clear - B. Z.to_euclidean_division_equations; lia. }
    assert (E : 0 <= e <= 3).
    { unfold e. clearbody d3. clear - C. Z.to_euclidean_division_equations; lia. }
    rewrite dse_cycles by (assumption || tauto). unfold d3, d2, d1. lia. }
  assert (F : abs_date d = (ad_year d, fst (ad_md (is_leap (ad_year d)) (ad_yday d)),
                            snd (ad_md (is_leap (ad_year d)) (ad_yday d)), ad_yday d)).
  { unfold abs_date, ad_md. cbv zeta. fold (ad_yday d). fold (ad_year d).
    unfold ad_year, ad_yday. cbv zeta.
    destruct (is_leap _ && (_ =? 59)); [reflexivity|].
    destruct (days_before (_ + 1) <=? _); reflexivity. }
  rewrite F, Y. reflexivity.
Qed.

(** Month and day from the day of the year, both kinds of years: a finite
    table. *)
Definition ml (l : bool) (m : Z) : Z :=
  if (m =? 4) || (m =? 6) || (m =? 9) || (m =? 11) then 30
  else if m =? 2 then (if l then 29 else 28) else 31.
Definition bef (l : bool) (m : Z) : Z := days_before (m - 1) + (if l && (2 <=? m - 1) then 1 else 0).

Definition md_ok (l : bool) (yd : Z) : bool :=
  let (m, d) := ad_md l yd in
  (1 <=? m) && (m <=? 12) && (1 <=? d) && (d <=? ml l m) && (bef l m + (d - 1) =? yd).
Lemma md_table : forallb (fun i => md_ok true (Z.of_nat i)) (seq 0 366) && forallb (fun i => md_ok false (Z.of_nat i)) (seq 0 365) = true.
Proof. vm_compute. reflexivity. Qed.

Lemma md_spec : forall (l : bool) yd, 0 <= yd < 365 + (if l then 1 else 0) ->
  let (m, d) := ad_md l yd in 1 <= m <= 12 /\ 1 <= d <= ml l m /\ bef l m + (d - 1) = yd.
Proof.
  intros l yd H. pose proof md_table as T. apply andb_true_iff in T. destruct T as [T1 T2].
  rewrite forallb_forall in T1, T2.
  assert (OK : md_ok l yd = true).
  { rewrite <- (Z2Nat.id yd) by lia.
    destruct l; [apply T1|apply T2]; apply in_seq; lia. }
  unfold md_ok in OK. destruct (ad_md l yd) as [m d].
  rewrite !andb_true_iff in OK. lia.
Qed.

Lemma bef_next : forall l m, 1 <= m <= 11 -> bef l (m + 1) = bef l m + ml l m.
Proof.
  intros l m H. assert (C : m = 1 \/ m = 2 \/ m = 3 \/ m = 4 \/ m = 5 \/ m = 6 \/ m = 7 \/ m = 8 \/ m = 9 \/ m = 10 \/ m = 11) by lia.
  destruct l; repeat destruct C as [C|C]; subst; reflexivity.
Qed.
Lemma bef_last : forall (l : bool), bef l 12 + 31 = 365 + (if l then 1 else 0).
Proof. destruct l; reflexivity. Qed.
Lemma bef_range : forall (l : bool) m, 1 <= m <= 12 -> 0 <= bef l m /\ bef l m + ml l m <= 365 + (if l then 1 else 0).
Proof.
  intros l m H. assert (C : m = 1 \/ m = 2 \/ m = 3 \/ m = 4 \/ m = 5 \/ m = 6 \/ m = 7 \/ m = 8 \/ m = 9 \/ m = 10 \/ m = 11 \/ m = 12) by lia.
  destruct l; repeat destruct C as [C|C]; subst; vm_compute; split; discriminate.
Qed.
Lemma bef_mono : forall l m m', 1 <= m -> m < m' -> m' <= 12 -> bef l m + ml l m <= bef l m'.
Proof.
  intros l m m' A B C. replace m' with (m + 1 + (m' - m - 1)) by lia.
  assert (K : 0 <= m' - m - 1) by lia.
  assert (U : m + 1 + (m' - m - 1) <= 12) by lia. revert U.
  generalize (m' - m - 1) K. clear - A. intros k K. pattern k. apply natlike_ind; [| |assumption].
  - intro U. rewrite Z.add_0_r in *. rewrite bef_next by lia. lia.
  - intros x X IH U. replace (m + 1 + Z.succ x) with (m + 1 + x + 1) in * by lia.
    rewrite bef_next by lia. specialize (IH ltac:(lia)).
    assert (0 <= ml l (m + 1 + x)) by (unfold ml; repeat destruct (_ =? _); simpl; try lia; destruct l; lia). lia.
Qed.

Lemma month_length_ml : forall y m, month_length y m = ml (is_leap y) m.
Proof. intros. unfold month_length, ml. rewrite leap_dec_is_leap. reflexivity. Qed.

Lemma day_number_valid : forall y m d, 1 <= m <= 12 ->
  day_number y m d = days_since_epoch y + bef (is_leap y) m + (d - 1).
Proof.
  intros y m d M. unfold day_number, bef. cbv zeta.
  rewrite (Z.div_small (m - 1) 12), (Z.mod_small (m - 1) 12), Z.add_0_r by lia. lia.
Qed.

Definition ymd (n : Z) : date := match abs_date n with (y, m, d, _) => (y, m, d) end.

Lemma ymd_valid : forall n, valid_date (ymd n).
Proof.
  intro n. unfold ymd. rewrite abs_date_eq. unfold valid_date.
  pose proof (ad_year_spec n) as Y. unfold lp in Y.
  pose proof (md_spec (is_leap (ad_year n)) (n - days_since_epoch (ad_year n)) Y) as M.
  destruct (ad_md _ _) as [m d]. cbn [fst snd]. rewrite month_length_ml. lia.
Qed.

Lemma ymd_number : forall n, match ymd n with (y, m, d) => day_number y m d = n end.
Proof.
  intro n. unfold ymd. rewrite abs_date_eq.
  pose proof (ad_year_spec n) as Y. unfold lp in Y.
  pose proof (md_spec (is_leap (ad_year n)) (n - days_since_epoch (ad_year n)) Y) as M.
  destruct (ad_md _ _) as [m d]. cbn [fst snd]. rewrite day_number_valid by lia. lia.
Qed.

(** Dates have different day numbers. *)
Lemma number_inj : forall y m d y' m' d', valid_date (y, m, d) -> valid_date (y', m', d') ->
  day_number y m d = day_number y' m' d' -> (y, m, d) = (y', m', d').
Proof.
  intros y m d y' m' d' [M D] [M' D'] H. rewrite month_length_ml in *.
  rewrite !day_number_valid in H by assumption.
  pose proof (bef_range (is_leap y) m M) as R. pose proof (bef_range (is_leap y') m' M') as R'.
  set (n := days_since_epoch y + bef (is_leap y) m + (d - 1)) in *.
  assert (Y : ad_year n = y) by (apply ad_year_unique; unfold lp; lia).
  assert (Y' : ad_year n = y') by (apply ad_year_unique; unfold lp; lia).
  assert (EY : y' = y) by congruence. clear Y Y'. rewrite EY in *. clear EY y'. subst n.
  destruct (Z.lt_trichotomy m m') as [L|[L|L]].
  - exfalso. pose proof (bef_mono (is_leap y) m m' ltac:(lia) L ltac:(lia)). lia.
  - subst m'. f_equal. lia.
  - exfalso. pose proof (bef_mono (is_leap y) m' m ltac:(lia) L ltac:(lia)). lia.
Qed.

Lemma next_valid : forall x, valid_date x -> valid_date (next_day x).
Proof.
  intros [[y m] d] [M D]. unfold next_day.
  assert (L : forall y m, 28 <= month_length y m).
  { intros. unfold month_length. destruct (_ || _); [lia|]. destruct (_ =? _); [destruct (leap_dec _)|]; lia. }
  pose proof (L y (m + 1)). pose proof (L (y + 1) 1).
  destruct (d <? month_length y m) eqn:E; [|destruct (m <? 12) eqn:E2]; cbn [valid_date]; lia.
Qed.

Lemma next_number : forall y m d, valid_date (y, m, d) ->
  match next_day (y, m, d) with (y', m', d') => day_number y' m' d' = day_number y m d + 1 end.
Proof.
  intros y m d [M D]. unfold next_day. rewrite month_length_ml in *.
  destruct (d <? ml (is_leap y) m) eqn:E; [|destruct (m <? 12) eqn:E2].
  - rewrite !day_number_valid by lia. lia.
  - rewrite !day_number_valid by lia. rewrite bef_next by lia. lia.
  - rewrite !day_number_valid by lia. rewrite dse_step. assert (m = 12) by lia. subst m.
    change (bef (is_leap (y + 1)) 1) with (days_before 0 + (if is_leap (y + 1) && false then 1 else 0)).
    rewrite andb_false_r. pose proof (bef_last (is_leap y)). unfold lp. 
    change (ml (is_leap y) 12) with 31 in *. change (days_before 0) with 0. lia.
Qed.

Lemma ymd_unique : forall n y m d, valid_date (y, m, d) -> day_number y m d = n -> ymd n = (y, m, d).
Proof.
  intros n y m d V H. pose proof (ymd_valid n) as V'. pose proof (ymd_number n) as N.
  destruct (ymd n) as [[y' m'] d']. apply number_inj; [assumption|assumption|congruence].
Qed.

Lemma ymd_next : forall n, ymd (n + 1) = next_day (ymd n).
Proof.
  intro n. pose proof (ymd_valid n) as V. pose proof (ymd_number n) as N.
  destruct (ymd n) as [[y m] d]. pose proof (next_valid _ V) as V'. pose proof (next_number y m d V) as S.
  destruct (next_day (y, m, d)) as [[y' m'] d']. apply ymd_unique; [assumption|lia].
Qed.

Lemma next_inj : forall x x', valid_date x -> valid_date x' -> next_day x = next_day x' -> x = x'.
Proof.
  intros [[y m] d] [[y' m'] d'] V V' E.
  pose proof (next_number y m d V) as N. pose proof (next_number y' m' d' V') as N'.
  rewrite <- E in N'. destruct (next_day (y, m, d)) as [[a b] c].
  apply number_inj; try assumption. lia.
Qed.

Lemma ymd_days_after : forall n x, days_after n x <-> ymd n = x.
Proof.
  intros n x. split.
  - intro H. induction H as [|n x H IH|n x V H IH].
    + reflexivity.
    + rewrite ymd_next, IH. reflexivity.
    + rewrite ymd_next in IH. apply next_inj; [apply ymd_valid|assumption|assumption].
  - intros <-. destruct (Z_le_gt_dec 0 n) as [P|P].
    + pattern n. apply natlike_ind; [constructor| |assumption].
      intros k K IH. replace (Z.succ k) with (k + 1) by lia. rewrite ymd_next. constructor. assumption.
    + replace n with (- (- n)) by lia. assert (K : 0 <= - n) by lia. revert K. generalize (- n). clear. intros k K.
      pattern k. apply natlike_ind; [constructor| |assumption].
      intros j J IH. apply da_prev; [apply ymd_valid|].
      rewrite <- ymd_next. replace (- Z.succ j + 1) with (- j) by lia. assumption.
Qed.

(** ** Days in a month *)
Lemma month_end : forall y m, 1 <= m <= 12 -> day_number y (m + 1) 0 = day_number y m (month_length y m).
Proof.
  intros y m M. rewrite (day_number_valid y m) by lia. rewrite month_length_ml.
  destruct (Z.eq_dec m 12) as [E|E].
  - subst m. unfold day_number. cbv zeta.
    replace ((12 + 1 - 1) / 12) with 1 by reflexivity. replace ((12 + 1 - 1) mod 12) with 0 by reflexivity.
    rewrite dse_step. replace (2 <=? 0) with false by reflexivity. rewrite andb_false_r.
    pose proof (bef_last (is_leap y)). unfold lp. replace (ml (is_leap y) 12) with 31 by reflexivity.
    replace (days_before 0) with 0 by reflexivity. lia.
  - rewrite day_number_valid by lia. rewrite bef_next by lia. lia.
Qed.

Lemma days_in_month_ymd : forall y m,
  days_in_month y m =
  match ymd (day_number y m 1) with
  | (y1, m1, d1) => match ymd (day_number (y1 + 0) (m1 + 1) (d1 - 1)) with (_, _, d2) => d2 end
  end.
Proof.
  intros y m. unfold days_in_month, ymd. destruct (abs_date (day_number y m 1)) as [[[a b] c] e].
  destruct (abs_date (day_number (a + 0) (b + 1) (c - 1))) as [[[a2 b2] c2] e2]. reflexivity.
Qed.

Lemma days_in_month_spec : forall y m, 1 <= m <= 12 -> days_in_month y m = month_length y m.
Proof.
  intros y m M. rewrite days_in_month_ymd.
  assert (L : 28 <= month_length y m).
  { unfold month_length. destruct (_ || _); [lia|]. destruct (_ =? _); [destruct (leap_dec _)|]; lia. }
  assert (A : ymd (day_number y m 1) = (y, m, 1)) by (apply ymd_unique; [split; lia|reflexivity]).
  rewrite A. rewrite Z.add_0_r, Z.sub_diag.
  assert (B : ymd (day_number y (m + 1) 0) = (y, m, month_length y m)).
  { apply ymd_unique; [split; lia|]. symmetry. apply month_end. assumption. }
  rewrite B. reflexivity.
Qed.
