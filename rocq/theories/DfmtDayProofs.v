(** NaturalDay: the texts follow the seconds between two midnights. *)
From Coq Require Import String Ascii List ZArith QArith Bool Lia Lqa.
From Verif Require Import Base BaseProofs Utf8Model PopModel NumModel F64Model F64Proofs FltModel FltProofs CalModel CalProofs CalSpec
  HumModel HumFdProofs HumNatProofs HumLeapProofs DfmtModel DfmtSpec DfmtProofs.
Import ListNotations.
Open Scope Z_scope.
Opaque abs_date.

Lemma p12 : forall z, Z.abs z <= 2 ^ 30 -> is_f64 (inject_Z z + (1 # 4096)) /\ is_f64 (inject_Z z - (1 # 4096)).
Proof.
  intros z H. split.
  - destruct (is_f64_frac (4096 * z + 1) 12) as (a & b & A & B & E); [unfold P53; lia|lia|].
    exists a, b. split; [assumption|]. split; [assumption|]. rewrite <- E. unfold Qeq; cbn [Qnum Qden inject_Z Qplus Z.to_pos Z.pow Z.pow_pos Pos.iter]. lia.
  - destruct (is_f64_frac (4096 * z - 1) 12) as (a & b & A & B & E); [unfold P53; lia|lia|].
    exists a, b. split; [assumption|]. split; [assumption|]. rewrite <- E. unfold Qeq; cbn [Qnum Qden inject_Z Qplus Qminus Qopp Z.to_pos Z.pow Z.pow_pos Pos.iter]. lia.
Qed.

Lemma hours_sum : forall d, min_dur <= d <= max_dur ->
  exists q r, q = Z.quot d hr /\ r = Z.rem d hr /\ d = hr * q + r /\ Z.abs q <= 2562048 /\ Z.abs r < hr /\
  (fint q == inject_Z q)%Q /\ (fint r == inject_Z r)%Q.
Proof.
  intros d D. exists (Z.quot d hr), (Z.rem d hr). split; [reflexivity|]. split; [reflexivity|].
  assert (E : d = hr * Z.quot d hr + Z.rem d hr) by (apply Z.quot_rem'; unfold hr, sec; lia).
  assert (R : Z.abs (Z.rem d hr) < hr).
  { pose proof (Z.rem_bound_abs d hr ltac:(unfold hr, sec; lia)). unfold hr, sec in *. lia. }
  assert (Q : Z.abs (Z.quot d hr) <= 2562048) by (unfold min_dur, max_dur, hr, sec in *; lia).
  repeat split; try assumption; apply fint_exact; unfold P53, hr, sec in *; lia.
Qed.

Lemma hours_above : forall d A, Z.abs A <= 24 -> min_dur <= d <= max_dur -> 3600 * A * sec + sec <= d ->
  (inject_Z A + (1 # 4096) <= hours d)%Q.
Proof.
  intros d A HA D L. destruct (hours_sum d D) as (q & r & Eq & Er & E & Q & R & FQ & FR).
  unfold hours. change (3600 * sec) with hr. rewrite <- Eq, <- Er. unfold fadd.
  apply frnd_ge; [apply p12; lia|].
  assert (X : (inject_Z (A - q) + (1 # 4096) <= fdiv (fint r) (inject_Z 3600000000000))%Q).
  { unfold fdiv. apply frnd_ge; [apply p12; lia|]. rewrite FR. apply Qle_shift_div_l; [reflexivity|].
    unfold Qle, Qmult, Qplus, inject_Z. cbn [Qnum Qden]. unfold hr, sec in *. lia. }
  rewrite FQ. replace (A - q) with (A + - q) in X by lia. rewrite inject_Z_plus, inject_Z_opp in X. lra.
Qed.
Lemma hours_below : forall d A, Z.abs A <= 24 -> min_dur <= d <= max_dur -> d <= 3600 * A * sec - sec ->
  (hours d <= inject_Z A - (1 # 4096))%Q.
Proof.
  intros d A HA D L. destruct (hours_sum d D) as (q & r & Eq & Er & E & Q & R & FQ & FR).
  unfold hours. change (3600 * sec) with hr. rewrite <- Eq, <- Er. unfold fadd.
  apply frnd_le; [apply p12; lia|].
  assert (X : (fdiv (fint r) (inject_Z 3600000000000) <= inject_Z (A - q) - (1 # 4096))%Q).
  { unfold fdiv. apply frnd_le; [apply p12; lia|]. rewrite FR. apply Qle_shift_div_r; [reflexivity|].
    unfold Qminus, Qle, Qmult, Qplus, Qopp, inject_Z. cbn [Qnum Qden]. unfold hr, sec in *. lia. }
  rewrite FQ. replace (A - q) with (A + - q) in X by lia. rewrite inject_Z_plus, inject_Z_opp in X. lra.
Qed.

Lemma p17 : forall k, -1 <= k <= 1 -> is_f64 (inject_Z k + (1 # 131072)) /\ is_f64 (inject_Z k - (1 # 131072)).
Proof.
  intros k K. split.
  - destruct (is_f64_frac (131072 * k + 1) 17) as (a & b & A & B & E); [unfold P53; lia|lia|].
    exists a, b. split; [assumption|]. split; [assumption|]. rewrite <- E. unfold Qeq; cbn [Qnum Qden inject_Z Qplus Z.to_pos Z.pow Z.pow_pos Pos.iter]. lia.
  - destruct (is_f64_frac (131072 * k - 1) 17) as (a & b & A & B & E); [unfold P53; lia|lia|].
    exists a, b. split; [assumption|]. split; [assumption|]. rewrite <- E. unfold Qeq; cbn [Qnum Qden inject_Z Qplus Qminus Qopp Z.to_pos Z.pow Z.pow_pos Pos.iter]. lia.
Qed.

(** float64 days of a whole number of seconds (as a saturated Duration). *)
Lemma delta_eq : forall s k, -1 <= k <= 1 ->
  Qeq_bool (fdiv (hours (Z.max min_dur (Z.min max_dur (s * sec)))) (inject_Z 24)) (inject_Z k) = (s =? 86400 * k).
Proof.
  intros s k K. set (d := Z.max min_dur (Z.min max_dur (s * sec))).
  assert (D : min_dur <= d <= max_dur) by (unfold d, min_dur, max_dur; lia).
  destruct (Z.lt_trichotomy s (86400 * k)) as [L|[->|L]].
  - replace (s =? 86400 * k) with false by lia. apply not_true_is_false. intro X. apply Qeq_bool_iff in X.
    assert (U : d <= 3600 * (24 * k) * sec - sec) by (unfold d, min_dur, max_dur, sec in *; lia).
    pose proof (hours_below d (24 * k) ltac:(lia) D U) as H.
    assert (Y : (fdiv (hours d) (inject_Z 24) <= inject_Z k - (1 # 131072))%Q).
    { unfold fdiv. apply frnd_le; [apply p17; assumption|]. apply Qle_shift_div_r; [reflexivity|].
      rewrite inject_Z_mult in H. change (inject_Z 24) with (24 # 1) in *. lra. }
    lra.
  - assert (C : k = -1 \/ k = 0 \/ k = 1) by lia. destruct C as [->|[->| ->]]; vm_compute; reflexivity.
  - replace (s =? 86400 * k) with false by lia. apply not_true_is_false. intro X. apply Qeq_bool_iff in X.
    assert (U : 3600 * (24 * k) * sec + sec <= d) by (unfold d, min_dur, max_dur, sec in *; lia).
    pose proof (hours_above d (24 * k) ltac:(lia) D U) as H.
    assert (Y : (inject_Z k + (1 # 131072) <= fdiv (hours d) (inject_Z 24))%Q).
    { unfold fdiv. apply frnd_ge; [apply p17; assumption|]. apply Qle_shift_div_l; [reflexivity|].
      rewrite inject_Z_mult in H. change (inject_Z 24) with (24 # 1) in *. lra. }
    lra.
Qed.

Definition midnight_of (t : gotime) : gotime := date_in (year t) (month t) (mday t) (t_loc t).
Definition at_loc (t u : gotime) : gotime := GT (t_unix t) (t_nsec t) (t_loc u).

Lemma midnight_number : forall t, day_number (year t) (month t) (mday t) = t_day t.
Proof. intro t. symmetry. apply t_day_number. Qed.

Lemma midnight_fixed : forall t o, (forall u, fst (t_loc t u) = o) ->
  t_unix (midnight_of t) = 86400 * (t_day t - 719162) - o.
Proof.
  intros t o F. unfold midnight_of, date_in. cbn [t_unix]. rewrite midnight_number, !F. lia.
Qed.
Section Day.
Variable get : bytes -> bytes.
Variable pget : bytes -> bytes -> bytes.
Variable upper : rune -> rune.
Variable local_name : bytes.
Variable fd : format_data.
Notation natural_day := (natural_day get pget upper local_name fd).
Notation format_time := (format_time get pget upper local_name fd).

Lemma natural_day_eq : forall now t, natural_day now t =
  let s := t_unix (midnight_of t) - t_unix (midnight_of (at_loc now t)) in
  if s =? 0 then Ok (get (bs "today")) else if s =? 86400 then Ok (get (bs "tomorrow"))
  else if s =? -86400 then Ok (get (bs "yesterday")) else format_time t (bs "DATE_FORMAT").
Proof.
  intros now t. unfold DfmtModel.natural_day. cbv zeta.
  change (t_loc (date_in (year t) (month t) (mday t) (t_loc t))) with (t_loc t).
  change (GT (t_unix now) (t_nsec now) (t_loc t)) with (at_loc now t).
  change (t_loc (at_loc now t)) with (t_loc (at_loc now t)).
  set (v := date_in (year t) (month t) (mday t) (t_loc t)).
  set (w := date_in (year (at_loc now t)) (month (at_loc now t)) (mday (at_loc now t)) (t_loc (at_loc now t))).
  change (midnight_of t) with v. change (midnight_of (at_loc now t)) with w.
  set (s := t_unix v - t_unix w).
  assert (S : sub v w = Z.max min_dur (Z.min max_dur (s * sec))).
  { unfold sub. change (t_nsec v) with 0. change (t_nsec w) with 0. cbv zeta. fold s. rewrite Z.add_0_r. reflexivity. }
  rewrite S. change 0%Q with (inject_Z 0). rewrite !delta_eq by lia. reflexivity.
Qed.

End Day.
