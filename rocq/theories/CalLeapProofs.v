(** LeapDays: the float64 computation is exact for years up to 2^52. *)
From Coq Require Import String Ascii List ZArith Znumtheory QArith Qround Bool Lia Lqa.
From Verif Require Import Base BaseProofs PopModel NumModel F64Model FltModel FltProofs CalModel CalSpec CalProofs.
Import ListNotations.
Open Scope Z_scope.

Lemma qfloor_unique : forall q k, (inject_Z k <= q)%Q -> (q < inject_Z (k + 1))%Q -> Qfloor q = k.
Proof.
  intros q k A B. pose proof (Qfloor_le q) as F. pose proof (Qlt_floor q) as G.
  assert (k < Qfloor q + 1).
  { rewrite Zlt_Qlt. apply (Qle_lt_trans _ q); assumption. }
  assert (Qfloor q < k + 1).
  { rewrite Zlt_Qlt. apply (Qle_lt_trans _ q); assumption. }
  lia.
Qed.

(** Division of an integer by a small one, rounded and then floored, is floor
    division. *)
Lemma fdiv_floor : forall q y b j, (q == inject_Z y)%Q -> 0 < b -> 0 <= j <= 50 -> b <= 2 ^ j ->
  (Z.abs (y / b) + 1) * 2 ^ j <= P53 -> Qfloor (fdiv q (inject_Z b)) = y / b.
Proof.
  intros q y b j E B J BJ H.
  pose proof (p2pos j ltac:(lia)) as PJ.
  pose proof (Z.div_mod y b ltac:(lia)) as DM. pose proof (Z.mod_pos_bound y b B) as MB.
  set (k := y / b) in *. set (r := y mod b) in *. clearbody k r.
  assert (X : (q / inject_Z b == y # Z.to_pos b)%Q).
  { rewrite E. unfold Qdiv, Qmult, Qinv, inject_Z. cbn [Qnum Qden]. destruct b; try lia. unfold Qeq. simpl. lia. }
  apply qfloor_unique; unfold fdiv.
  - apply frnd_ge; [apply is_f64_int; unfold P53 in *; nia|].
    rewrite X. unfold Qle. cbn [Qnum Qden inject_Z]. rewrite Z2Pos.id by lia. nia.
  - apply (Qle_lt_trans _ (((k + 1) * 2 ^ j - 1) # Z.to_pos (2 ^ j))).
    + apply frnd_le; [apply is_f64_frac; unfold P53 in *; nia|].
      rewrite X. unfold Qle. cbn [Qnum Qden]. rewrite !Z2Pos.id by lia. nia.
    + unfold Qlt. cbn [Qnum Qden inject_Z]. rewrite Z2Pos.id by lia. nia.
Qed.

Lemma inj_sub : forall a b, (inject_Z a - inject_Z b == inject_Z (a - b))%Q.
Proof. intros. unfold Qminus. rewrite <- inject_Z_opp, <- inject_Z_plus. reflexivity. Qed.

Lemma fsub_int : forall p q a b, (p == inject_Z a)%Q -> (q == inject_Z b)%Q -> Z.abs (a - b) <= P53 ->
  (fsub p q == inject_Z (a - b))%Q.
Proof.
  intros p q a b P Q H. unfold fsub. apply frnd_exact; [apply is_f64_int; assumption|].
  rewrite P, Q. apply inj_sub.
Qed.
Lemma fadd_int : forall p q a b, (p == inject_Z a)%Q -> (q == inject_Z b)%Q -> Z.abs (a + b) <= P53 ->
  (fadd p q == inject_Z (a + b))%Q.
Proof.
  intros p q a b P Q H. unfold fadd. apply frnd_exact; [apply is_f64_int; assumption|].
  rewrite P, Q, inject_Z_plus. reflexivity.
Qed.

Lemma qtrunc_int : forall q z, (q == inject_Z z)%Q -> qtrunc q = z.
Proof.
  intros q z E. unfold qtrunc. destruct (Qnum q <? 0).
  - rewrite E. rewrite <- inject_Z_opp, Qfloor_Z. lia.
  - rewrite E. apply Qfloor_Z.
Qed.
Lemma fto_int64_int : forall q z, (q == inject_Z z)%Q -> Z.abs z <= P53 -> fto_int64 q = z.
Proof.
  intros q z E H. unfold fto_int64. rewrite (qtrunc_int q z E). unfold f64_to_int64, minInt64, maxInt64, P53 in *.
  destruct (_ && _) eqn:X; [reflexivity|]. apply andb_false_iff in X. lia.
Qed.

(** Leap years before a year, counted from year 1. *)
Definition lcount (y : Z) : Z := (y - 1) / 4 - (y - 1) / 100 + (y - 1) / 400.

Definition P52 : Z := 4503599627370496.

Lemma div_abs : forall y b, 0 < b -> Z.abs (y / b) <= Z.abs y / b + 1.
Proof.
  intros y b B. pose proof (Z.div_mod y b ltac:(lia)). pose proof (Z.mod_pos_bound y b B).
  destruct (Z_le_gt_dec 0 y).
  - rewrite (Z.abs_eq y) by lia. pose proof (Z.div_pos y b ltac:(lia) B). lia.
  - rewrite (Z.abs_neq y) by lia.
    pose proof (Z.div_mod (- y) b ltac:(lia)). pose proof (Z.mod_pos_bound (- y) b B). nia.
Qed.

Lemma leap_days_lcount : forall y1 y2, Z.abs (y1 - 1) <= P52 -> Z.abs (y2 - 1) <= P52 ->
  leap_days y1 y2 = lcount y2 - lcount y1.
Proof.
  intros y1 y2 B1 B2. unfold leap_days. cbv zeta.
  assert (F : forall y, Z.abs (y - 1) <= P52 -> (fint (y - 1) == inject_Z (y - 1))%Q).
  { intros y H. apply fint_exact. unfold P52, P53 in *. lia. }
  assert (G : forall y b j, Z.abs (y - 1) <= P52 -> 0 < b -> 0 <= j <= 50 -> b <= 2 ^ j ->
     (P52 / b + 2) * 2 ^ j <= P53 ->
     (ffloor (fdiv (fint (y - 1)) (inject_Z b)) == inject_Z ((y - 1) / b))%Q
     /\ Z.abs ((y - 1) / b) <= P52 / b + 1).
  { intros y b j H HB HJ BJ U. 
    assert (A : Z.abs ((y - 1) / b) <= P52 / b + 1).
    { etransitivity; [apply div_abs; assumption|]. apply Z.add_le_mono_r. apply Z.div_le_mono; lia. }
    split; [|exact A]. unfold ffloor.
    rewrite (fdiv_floor _ (y - 1) b j (F y H) HB HJ BJ); [reflexivity|].
    etransitivity; [|exact U]. pose proof (p2pos j ltac:(lia)). nia. }
  destruct (G y1 4 2 B1) as [G14 A14]; [lia|lia|lia|vm_compute; discriminate|].
  destruct (G y2 4 2 B2) as [G24 A24]; [lia|lia|lia|vm_compute; discriminate|].
  destruct (G y1 100 7 B1) as [G11 A11]; [lia|lia|lia|vm_compute; discriminate|].
  destruct (G y2 100 7 B2) as [G21 A21]; [lia|lia|lia|vm_compute; discriminate|].
  destruct (G y1 400 9 B1) as [G10 A10]; [lia|lia|lia|vm_compute; discriminate|].
  destruct (G y2 400 9 B2) as [G20 A20]; [lia|lia|lia|vm_compute; discriminate|].
  clear F G. 
  change (P52 / 4 + 1) with 1125899906842625 in *. change (P52 / 100 + 1) with 45035996273705 in *.
  change (P52 / 400 + 1) with 11258999068427 in *.
  unfold lcount. 
  pose proof (fsub_int _ _ _ _ G24 G14 ltac:(unfold P53; lia)) as S4.
  pose proof (fsub_int _ _ _ _ G21 G11 ltac:(unfold P53; lia)) as S1.
  pose proof (fsub_int _ _ _ _ G20 G10 ltac:(unfold P53; lia)) as S0.
  pose proof (fsub_int _ _ _ _ S4 S1 ltac:(unfold P53; lia)) as T1.
  pose proof (fadd_int _ _ _ _ T1 S0 ltac:(unfold P53; lia)) as T2.
  rewrite (fto_int64_int _ _ T2) by (unfold P53; lia). lia.
Qed.

Lemma lcount_step : forall y, lcount (y + 1) = lcount y + lp y.
Proof.
  intro y. pose proof (dse_step y) as S. rewrite !dse_formula in S. unfold lcount. lia.
Qed.

Lemma leap_years_lcount : forall k y, leap_years y k = lcount (y + Z.of_nat k) - lcount y.
Proof.
  induction k as [|k IH]; intro y.
  - simpl. rewrite Z.add_0_r. lia.
  - cbn [leap_years]. rewrite IH. rewrite leap_dec_is_leap.
    replace (y + Z.of_nat (S k)) with (y + 1 + Z.of_nat k) by lia. rewrite lcount_step. unfold lp. lia.
Qed.
