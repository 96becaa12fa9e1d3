(** NaturalTime at nanosecond resolution. *)
From Coq Require Import String Ascii List ZArith QArith Qround Qabs Bool Lia Lqa.
From Verif Require Import Base BaseProofs PopModel NumModel F64Model FltModel FltProofs CalModel
  CalLeapProofs HumModel HumSpec HumFdProofs HumTimeProofs.
Import ListNotations.
Open Scope Z_scope.

Lemma seconds_int : forall d n, d = n * sec -> 0 <= n <= P53 -> (seconds d == inject_Z n)%Q.
Proof.
  intros d n -> N. unfold seconds. rewrite Z.quot_mul, Z.rem_mul by (unfold sec; lia).
  assert (Z0 : (fdiv (fint 0) (inject_Z 1000000000) == 0)%Q) by (vm_compute; reflexivity).
  assert (E : (fint n == inject_Z n)%Q) by (apply fint_exact; lia).
  unfold fadd. apply frnd_exact; [apply is_f64_int; lia|]. rewrite E, Z0. ring.
Qed.

Lemma qtrunc_bounds : forall q a, 0 <= a -> (inject_Z a <= q)%Q -> a <= qtrunc q.
Proof.
  intros q a A H. assert (Q0 : (0 <= q)%Q) by (apply (Qle_trans _ (inject_Z a)); [apply (inj_le 0); assumption|assumption]).
  unfold qtrunc. assert (0 <= Qnum q) by (unfold Qle in Q0; simpl in Q0; lia). destruct (Qnum q <? 0) eqn:E; [lia|].
  pose proof (Qfloor_resp_le _ _ H) as F. rewrite Qfloor_Z in F. assumption.
Qed.
Lemma qtrunc_lt : forall q b, (0 <= q)%Q -> (q < inject_Z b)%Q -> qtrunc q < b.
Proof.
  intros q b Q0 H. unfold qtrunc. assert (0 <= Qnum q) by (unfold Qle in Q0; simpl in Q0; lia). destruct (Qnum q <? 0) eqn:E; [lia|].
  pose proof (Qfloor_le q) as F. rewrite Zlt_Qlt. apply (Qle_lt_trans _ q); assumption.
Qed.
Lemma fto_eq : forall q, 0 <= qtrunc q <= P53 -> fto_int64 q = qtrunc q.
Proof.
  intros q H. unfold fto_int64, f64_to_int64, minInt64, maxInt64, P53 in *. destruct (_ && _) eqn:X; [reflexivity|].
  apply andb_false_iff in X. lia.
Qed.

Definition hr : Z := 3600 * sec.

Lemma hours_parts : forall d, 0 <= d <= max_dur ->
  (fint (Z.quot d hr) == inject_Z (d / hr))%Q /\ (fint (Z.rem d hr) == inject_Z (d mod hr))%Q /\
  0 <= d / hr <= 2562047.
Proof.
  intros d D. rewrite Z.quot_div_nonneg, Z.rem_mod_nonneg by (unfold hr, sec; lia).
  assert (Q : 0 <= d / hr <= 2562047).
  { unfold hr, sec, max_dur in *. Z.to_euclidean_division_equations; lia. }
  pose proof (Z.mod_pos_bound d hr ltac:(unfold hr, sec; lia)) as M. unfold hr, sec in M.
  repeat split; try lia; apply fint_exact; unfold P53, hr, sec in *; lia.
Qed.

Lemma hours_ge : forall d, 24 * hr <= d <= max_dur -> 24 <= fto_int64 (hours d).
Proof.
  intros d D. destruct (hours_parts d ltac:(unfold hr, sec in *; lia)) as (A & B & C).
  assert (H24 : 24 <= d / hr) by (apply Z.div_le_lower_bound; unfold hr, sec in *; lia).
  pose proof (Z.mod_pos_bound d hr ltac:(unfold hr, sec; lia)) as M.
  unfold hours. fold hr.
  assert (F0 : (0 <= fdiv (fint (Z.rem d hr)) (inject_Z 3600000000000))%Q).
  { apply frnd_ge; [apply is_f64_0|]. rewrite B. apply Qle_shift_div_l; [reflexivity|]. rewrite Qmult_0_l. apply (inj_le 0); lia. }
  assert (F1 : (fdiv (fint (Z.rem d hr)) (inject_Z 3600000000000) <= 1)%Q).
  { apply frnd_le; [apply (is_f64_int 1); vm_compute; discriminate|]. rewrite B. apply Qle_shift_div_r; [reflexivity|].
    rewrite Qmult_1_l. apply inj_le. unfold hr, sec in *. lia. }
  set (f := fdiv _ _) in *. clearbody f.
  assert (L : (inject_Z 24 <= fadd (fint (Z.quot d hr)) f)%Q).
  { apply frnd_ge; [apply is_f64_int; vm_compute; discriminate|]. rewrite A.
    pose proof (inj_le _ _ H24). lra. }
  assert (U : (fadd (fint (Z.quot d hr)) f <= inject_Z 2562049)%Q).
  { apply frnd_le; [apply is_f64_int; vm_compute; discriminate|]. rewrite A.
    pose proof (inj_le (d / hr) 2562047 ltac:(lia)) as I.
    change (inject_Z 2562047) with (2562047 # 1) in I. change (inject_Z 2562049) with (2562049 # 1). lra. }
  set (q := fadd _ _) in *. clearbody q.
  pose proof (qtrunc_bounds q 24 ltac:(lia) L) as T.
  assert (T2 : qtrunc q < 2562050).
  { apply qtrunc_lt; [apply (Qle_trans _ (inject_Z 24)); [apply (inj_le 0); lia|assumption]|].
    apply (Qle_lt_trans _ (inject_Z 2562049)); [assumption|reflexivity]. }
  rewrite fto_eq by (unfold P53; lia). assumption.
Qed.

Lemma hours_lt : forall d n, d = n * sec -> 0 <= n < 86400 -> fto_int64 (hours d) < 24.
Proof.
  intros d n E N. assert (D : 0 <= d < 24 * hr) by (unfold hr, sec in *; lia).
  destruct (hours_parts d ltac:(unfold hr, sec, max_dur in *; lia)) as (A & B & C).
  assert (H23 : d / hr <= 23).
  { assert (d / hr < 24); [|lia]. apply Z.div_lt_upper_bound; unfold hr, sec in *; lia. }
  assert (M : d mod hr <= 3599 * sec).
  { assert (X : d mod hr = n mod 3600 * sec).
    { rewrite E. unfold hr. rewrite (Z.mul_comm 3600 sec), (Z.mul_comm n sec), Z.mul_mod_distr_l by (unfold sec; lia). ring. }
    rewrite X. pose proof (Z.mod_pos_bound n 3600 ltac:(lia)). unfold sec. lia. }
  pose proof (Z.mod_pos_bound d hr ltac:(unfold hr, sec; lia)) as M0.
  unfold hours. fold hr.
  assert (F0 : (0 <= fdiv (fint (Z.rem d hr)) (inject_Z 3600000000000))%Q).
  { apply frnd_ge; [apply is_f64_0|]. rewrite B. apply Qle_shift_div_l; [reflexivity|]. rewrite Qmult_0_l. apply (inj_le 0); lia. }
  assert (F1 : (fdiv (fint (Z.rem d hr)) (inject_Z 3600000000000) <= 4095 # 4096)%Q).
  { apply frnd_le; [apply (is_f64_frac 4095 12); [vm_compute; discriminate|lia]|]. rewrite B.
    apply Qle_shift_div_r; [reflexivity|].
    apply (Qle_trans _ (inject_Z (3599 * sec))); [apply inj_le; assumption|]. vm_compute. discriminate. }
  set (f := fdiv _ _) in *. clearbody f.
  pose proof (inj_le _ _ H23) as I. pose proof (inj_le 0 (d / hr) ltac:(lia)) as I0.
  change (inject_Z 23) with (23 # 1) in I. change (inject_Z 0) with 0%Q in I0.
  assert (L : (0 <= fadd (fint (Z.quot d hr)) f)%Q).
  { apply frnd_ge; [apply is_f64_0|]. rewrite A. lra. }
  assert (U : (fadd (fint (Z.quot d hr)) f <= 98303 # 4096)%Q).
  { apply frnd_le; [apply (is_f64_frac 98303 12); [vm_compute; discriminate|lia]|]. rewrite A. lra. }
  set (q := fadd _ _) in *. clearbody q.
  assert (T2 : qtrunc q < 24).
  { apply qtrunc_lt; [assumption|]. apply (Qle_lt_trans _ (98303 # 4096)); [assumption|reflexivity]. }
  pose proof (qtrunc_bounds q 0 ltac:(lia) L). rewrite fto_eq by (unfold P53; lia). assumption.
Qed.

Lemma fd_minutes : forall q n, (q == inject_Z n)%Q -> 0 <= n <= P41 -> floor_division q (inject_Z 60) = n / 60.
Proof.
  intros q n E N. pose proof (fd_bounds q (inject_Z 60) n 60 E (Qeq_refl _) N ltac:(lia)) as H. cbv zeta in H.
  set (k := floor_division _ _) in *. clearbody k.
  Z.to_euclidean_division_equations. lia.
Qed.

Lemma min_count_eq : forall n, 0 <= n <= P41 -> min_count n = n / 60.
Proof.
  intros n N. unfold min_count, ffloor.
  assert (Q : 0 <= n / 60 <= P41) by (split; [apply Z.div_pos; lia|apply Z.div_le_upper_bound; lia]).
  rewrite (fdiv_floor _ n 60 6); [| |lia|lia|vm_compute; discriminate|].
  - apply fto_int64_int; [reflexivity|]. unfold P41, P53 in *. lia.
  - apply fint_exact. unfold P41, P53 in *. lia.
  - change (2 ^ 6) with 64. unfold P41, P53 in *. lia.
Qed.
Lemma hour_count_eq : forall n, 0 <= n <= P41 -> hour_count n = n / 3600.
Proof.
  intros n N. unfold hour_count, ffloor.
  assert (Q : 0 <= n / 60 <= P41) by (split; [apply Z.div_pos; lia|apply Z.div_le_upper_bound; lia]).
  assert (Q2 : 0 <= n / 60 / 60 <= P41) by (split; [apply Z.div_pos; lia|apply Z.div_le_upper_bound; lia]).
  rewrite (fdiv_floor (fint n) n 60 6); [| |lia|lia|vm_compute; discriminate|].
  - rewrite (fdiv_floor _ (n / 60) 60 6); [|reflexivity|lia|lia|vm_compute; discriminate|].
    + rewrite Z.div_div by lia. change (60 * 60) with 3600. rewrite Z.div_div in Q2 by lia. change (60 * 60) with 3600 in Q2.
      apply fto_int64_int; [reflexivity|]. unfold P41, P53 in *. lia.
    + change (2 ^ 6) with 64. unfold P41, P53 in *. lia.
  - apply fint_exact. unfold P41, P53 in *. lia.
  - change (2 ^ 6) with 64. unfold P41, P53 in *. lia.
Qed.

(** Distance in nanoseconds. *)
Definition dist (t u : gotime) : Z := (t_unix u - t_unix t) * sec + (t_nsec u - t_nsec t).
Definition ns_ok (t : gotime) : Prop := 0 <= t_nsec t < sec.

Lemma before_dist : forall t u, ns_ok t -> ns_ok u -> before t u = (0 <? dist t u).
Proof.
  intros t u T U. unfold before, dist, ns_ok, sec in *.
  destruct (t_unix t <? t_unix u) eqn:A; [cbn [orb]; lia|].
  destruct (t_unix t =? t_unix u) eqn:B; cbn [orb andb]; [|lia].
  apply Z.eqb_eq in B. rewrite B, Z.sub_diag. lia.
Qed.
Lemma sub_dist : forall t u, 0 <= dist t u -> sub u t = Z.min max_dur (dist t u).
Proof. intros t u H. unfold sub. fold (dist t u). unfold min_dur, max_dur. lia. Qed.

Lemma trunc_sec_eq : forall d, 0 <= d -> trunc_sec d = d / sec * sec.
Proof.
  intros d D. unfold trunc_sec. rewrite Z.rem_mod_nonneg by (unfold sec; lia).
  pose proof (Z.div_mod d sec ltac:(unfold sec; lia)). lia.
Qed.
(** The nearest second, halves up. *)
Definition near_sec (d : Z) : Z := (d + 500000000) / sec.
Lemma round_sec_eq : forall d, 0 <= d <= max_dur - sec -> round_sec d = near_sec d * sec.
Proof.
  intros d D. unfold round_sec, near_sec. rewrite Z.rem_mod_nonneg by (unfold sec; lia). cbv zeta.
  destruct (d mod sec + d mod sec <? sec) eqn:A.
  - unfold sec in *. Z.to_euclidean_division_equations. lia.
  - destruct (d + sec - d mod sec <=? max_dur) eqn:B; unfold max_dur, sec in *; Z.to_euclidean_division_equations; lia.
Qed.
Lemma round_sec_big : forall d, 24 * hr <= d <= max_dur -> 24 * hr <= round_sec d <= max_dur.
Proof.
  intros d D. unfold round_sec. rewrite Z.rem_mod_nonneg by (unfold hr, sec in *; lia). cbv zeta.
  destruct (d mod sec + d mod sec <? sec) eqn:A.
  - unfold hr, sec in *. Z.to_euclidean_division_equations. lia.
  - destruct (d + sec - d mod sec <=? max_dur) eqn:B; unfold hr, max_dur, sec in *; Z.to_euclidean_division_equations; lia.
Qed.

(** Days are shown from 23:59:59.5 on. *)
Lemma day_branch : forall d, 0 <= d <= max_dur ->
  (24 <=? fto_int64 (hours (round_sec d))) = (86399500000000 <=? d).
Proof.
  intros d D. destruct (86399500000000 <=? d) eqn:E.
  - assert (24 <= fto_int64 (hours (round_sec d))); [|lia].
    destruct (Z_le_gt_dec (24 * hr) d).
    + apply hours_ge. apply round_sec_big. lia.
    + apply hours_ge. rewrite round_sec_eq by (unfold max_dur, hr, sec in *; lia).
      assert (near_sec d = 86400); [|unfold hr, sec, max_dur in *; lia].
      unfold near_sec, hr, sec in *. Z.to_euclidean_division_equations. lia.
  - assert (fto_int64 (hours (round_sec d)) < 24); [|lia].
    apply (hours_lt _ (near_sec d)); [apply round_sec_eq; unfold max_dur, sec; lia|].
    unfold near_sec, sec. Z.to_euclidean_division_equations. lia.
Qed.

Lemma trunc_seconds : forall d, 0 <= d < 86400 * sec -> fto_int64 (seconds (trunc_sec d)) = d / sec.
Proof.
  intros d D. assert (Q : 0 <= d / sec <= 86400) by (unfold sec in *; Z.to_euclidean_division_equations; lia).
  apply fto_int64_int; [|unfold P53; lia]. apply seconds_int; [apply trunc_sec_eq; lia|unfold P53; lia].
Qed.
Lemma round_seconds : forall d, 0 <= d < 86400 * sec -> (seconds (round_sec d) == inject_Z (near_sec d))%Q /\ 0 <= near_sec d <= 86400.
Proof.
  intros d D. assert (Q : 0 <= near_sec d <= 86400) by (unfold near_sec, sec in *; Z.to_euclidean_division_equations; lia).
  split; [|assumption]. apply seconds_int; [apply round_sec_eq; unfold max_dur, sec in *; lia|unfold P53; lia].
Qed.

Lemma natural_past : forall now1 now2 t, ns_ok t -> ns_ok now1 -> 0 < dist t now1 ->
  natural_time now1 now2 t =
  let d := dist t now1 in
  if 86399500000000 <=? d then
    OGetf [] (bs "%[1]v ago") (AText (time_since now2 t [OWithTimeStrings (bs "naturaltime-past")]))
  else if d <? sec then OGet [] (bs "now")
  else if d <? 60 * sec then count_text (bs "a second ago") (bs "%[1]v seconds ago") (d / sec)
  else if d <? 3599500000000 then count_text (bs "a minute ago") (bs "%[1]v minutes ago") (d / (60 * sec))
  else count_text (bs "an hour ago") (bs "%[1]v hours ago") (d / (3600 * sec)).
Proof.
  intros now1 now2 t T N D. unfold natural_time. rewrite before_dist by assumption.
  replace (0 <? dist t now1) with true by lia. rewrite sub_dist by lia. cbv zeta.
  rewrite day_branch by (unfold max_dur; lia).
  set (d := dist t now1) in *. clearbody d.
  destruct (86399500000000 <=? d) eqn:E.
  - replace (86399500000000 <=? Z.min max_dur d) with true by (unfold max_dur; lia). reflexivity.
  - replace (Z.min max_dur d) with d by (unfold max_dur; lia). rewrite E.
    assert (DB : 0 <= d < 86400 * sec) by (unfold sec; lia).
    rewrite (trunc_seconds d DB). destruct (round_seconds d DB) as [RS RB].
    rewrite (fd_minutes _ _ RS) by (unfold P41; lia).
    assert (Q : 0 <= d / sec <= 86400) by (unfold sec in *; Z.to_euclidean_division_equations; lia).
    rewrite min_count_eq, hour_count_eq by (unfold P41; lia).
    rewrite !Z.div_div by (unfold sec; lia). rewrite (Z.mul_comm sec 60), (Z.mul_comm sec 3600).
    replace (d / sec =? 0) with (d <? sec) by (unfold sec in *; clear - DB; destruct (d <? 1000000000) eqn:X; symmetry; [apply Z.eqb_eq|apply Z.eqb_neq]; Z.to_euclidean_division_equations; lia).
    replace (d / sec <? 60) with (d <? 60 * sec) by (unfold sec in *; clear - DB; destruct (d <? 60 * 1000000000) eqn:X; symmetry; [apply Z.ltb_lt|apply Z.ltb_ge]; Z.to_euclidean_division_equations; lia).
    replace (near_sec d / 60 <? 60) with (d <? 3599500000000); [reflexivity|].
    unfold near_sec, sec in *. clear - DB. destruct (d <? 3599500000000) eqn:X; symmetry; [apply Z.ltb_lt|apply Z.ltb_ge]; Z.to_euclidean_division_equations; lia.
Qed.

Lemma natural_future : forall now1 now2 t, ns_ok t -> ns_ok now1 -> 0 <= dist now1 t ->
  natural_time now1 now2 t =
  let d := dist now1 t in
  let s := near_sec d in
  if 86399500000000 <=? d then
    OGetf [] (bs "%[1]v from now") (AText (time_until now2 t [OWithTimeStrings (bs "naturaltime-future")]))
  else if s =? 0 then OGet [] (bs "now")
  else if s <? 60 then count_text (bs "a second from now") (bs "%[1]v seconds from now") s
  else if s <? 3600 then count_text (bs "a minute from now") (bs "%[1]v minutes from now") (s / 60)
  else count_text (bs "an hour from now") (bs "%[1]v hours from now") (s / 3600).
Proof.
  intros now1 now2 t T N D. unfold natural_time. rewrite before_dist by assumption.
  replace (0 <? dist t now1) with false by (unfold dist in *; lia). rewrite sub_dist by lia. cbv zeta.
  rewrite day_branch by (unfold max_dur; lia).
  set (d := dist now1 t) in *. clearbody d.
  destruct (86399500000000 <=? d) eqn:E.
  - replace (86399500000000 <=? Z.min max_dur d) with true by (unfold max_dur; lia). reflexivity.
  - replace (Z.min max_dur d) with d by (unfold max_dur; lia). rewrite E.
    assert (DB : 0 <= d < 86400 * sec) by (unfold sec; lia).
    destruct (round_seconds d DB) as [RS RB].
    rewrite (fto_int64_int _ _ RS) by (unfold P53; lia).
    assert (FI : (fint (near_sec d) == inject_Z (near_sec d))%Q) by (apply fint_exact; unfold P53; lia).
    rewrite (fd_minutes _ _ FI) by (unfold P41; lia).
    rewrite min_count_eq, hour_count_eq by (unfold P41; lia).
    set (s := near_sec d) in *. clearbody s.
    replace (s / 60 <? 60) with (s <? 3600); [reflexivity|].
    clear - RB. destruct (s <? 3600) eqn:X; symmetry; [apply Z.ltb_lt|apply Z.ltb_ge]; Z.to_euclidean_division_equations; lia.
Qed.
