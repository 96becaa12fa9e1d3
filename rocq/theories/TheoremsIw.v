(** Intword (C55). *)
From Coq Require Import String Ascii List ZArith QArith Qround Qabs Bool Lia Lqa.
From Verif Require Import Base BaseProofs PopModel NumModel F64Model F64Proofs FltModel FltProofs CalModel HumModel IwModel IwSpec IwProofs.
Import ListNotations.
Open Scope Z_scope.

(** Below a million the number itself is shown. *)
Theorem C55_small : forall v, (Qabs v < ten 6)%Q -> intword (FFin v) = IComma (FFin v).
Proof. intros v H. unfold intword. apply qlt_iff in H. change (ten 6) with (inject_Z 1000000) in H. rewrite H. reflexivity. Qed.

Example C55_small_case : (Qabs (inject_Z (-999999)) < ten 6)%Q /\ intword (FFin (inject_Z (-999999))) = IComma (FFin (inject_Z (-999999))).
Proof. split; [vm_compute; reflexivity|apply C55_small; vm_compute; reflexivity]. Qed.

(** From a million up to 10^36, and from a googol up to 10^103, the unit is the
    one which fits, and the plural number is the multiple, rounded up. The one
    exception are numbers just below 10^24. *)
Theorem C55_units_partial : forall v, is_f64 v ->
  (ten 6 <= Qabs v)%Q /\ (Qabs v < ten 36)%Q \/ (ten 100 <= Qabs v)%Q /\ (Qabs v < ten 103)%Q ->
  exists e name x, In (e, name) units /\
    (fits e v \/ e = 24 /\ (inject_Z (10 ^ 24 - 2 ^ 24) <= Qabs v)%Q /\ (Qabs v < ten 24)%Q) /\
    multiple e v x /\ (1 <= Qabs x)%Q /\ (Qabs x <= inject_Z 1000)%Q /\
    intword (FFin v) =
    IText (ONGetf [] (bs "%[1]s " ++ name) (bs "%[1]s " ++ name) (Qceiling (Qabs x)) (AText (OPrint (bs "%.1f") (AFloat64 x)))).
Proof.
  intros v F [[L U]|[L U]].
  - rewrite intword_big by exact L. pose proof lim33_up as K.
    destruct (loop_middle v F L ltac:(lra)) as (e & name & I & J & A & B & E).
    assert (J' : In e (100 :: exps)) by (right; exact J).
    destruct (unit_shown e v J' F A B) as (R & R1 & R2 & R3 & R4).
    exists e, name, (fdiv v (pow10 e)). rewrite E, R. split; [exact I|].
    split; [|split; [split; assumption|]; split; [assumption|]; split; [assumption|]; reflexivity].
    pose proof (lim_above e (Qabs v) J' (is_f64_abs _ F) B) as G.
    destruct (unit_below e J) as [X|[-> X]].
    + left. split; [unfold ten; lra|exact G].
    + destruct (Qlt_le_dec (Qabs v) (ten 24)) as [Y|Y].
      * right. split; [reflexivity|]. split; [lra|assumption].
      * left. split; [exact Y|exact G].
  - pose proof lim33_100 as K. pose proof ten_36_6 as K6. pose proof lim33_up as K3.
    rewrite intword_big by lra. rewrite loop_last by lra.
    assert (J' : In 100 (100 :: exps)) by (left; reflexivity).
    assert (B : (Qabs v < lim 100)%Q) by (pose proof lim100_up; lra).
    pose proof (pow100_least _ (is_f64_abs _ F) L) as A.
    destruct (unit_shown 100 v J' F A B) as (R & R1 & R2 & R3 & R4).
    exists 100, (bs "googol"), (fdiv v (pow10 100)). rewrite loop_take by exact B. rewrite R.
    split; [cbn [In units]; tauto|]. split; [left; split; [exact L|exact U]|].
    split; [split; assumption|]. split; [assumption|]. split; [assumption|]. reflexivity.
Qed.

Example C55_units_case : is_f64 (inject_Z (-1500000)) /\ (ten 6 <= Qabs (inject_Z (-1500000)))%Q /\ (Qabs (inject_Z (-1500000)) < ten 36)%Q /\
  exists x, (x == - 3 # 2)%Q /\ intword (FFin (inject_Z (-1500000))) =
  IText (ONGetf [] (bs "%[1]s million") (bs "%[1]s million") 2 (AText (OPrint (bs "%.1f") (AFloat64 x)))).
Proof.
  split; [apply is_f64_int; unfold P53; lia|]. split; [vm_compute; discriminate|]. split; [vm_compute; reflexivity|].
  eexists. split; [|vm_compute; reflexivity]. vm_compute. reflexivity.
Qed.

(** The exception happens: the largest float64 below 10^24 is 1.0 septillion. *)
Theorem C55_units_refuted : exists v, is_f64 v /\ (Qabs v < ten 24)%Q /\ (ten 21 <= Qabs v)%Q /\ exists x, (x == 1)%Q /\
  intword (FFin v) = IText (ONGetf [] (bs "%[1]s septillion") (bs "%[1]s septillion") 1 (AText (OPrint (bs "%.1f") (AFloat64 x)))).
Proof.
  exists (inject_Z (7450580596923828 * 2 ^ 27)). split.
  { exists 7450580596923828, 27. split; [unfold P53; lia|]. split; [lia|]. reflexivity. }
  split; [vm_compute; reflexivity|]. split; [vm_compute; discriminate|]. eexists. split; [|vm_compute; reflexivity]. vm_compute. reflexivity.
Qed.

(** From 10^36 to a googol no unit fits: every number is shown as a fraction of a googol, ... *)
Theorem C55_gap : forall v, is_f64 v -> (ten 36 <= Qabs v)%Q -> (Qabs v < ten 100)%Q ->
  exists x n, (Qabs x <= 1)%Q /\ (n = 0 \/ n = 1) /\
  intword (FFin v) = IText (ONGetf [] (bs "%[1]s googol") (bs "%[1]s googol") n (AText (OPrint (bs "%.1f") (AFloat64 x)))).
Proof.
  intros v F L U. pose proof ten_36_6. pose proof (lim33_least _ (is_f64_abs _ F) L) as K.
  rewrite intword_big by lra. rewrite loop_last by exact K.
  assert (P : (0 < pow10 100)%Q) by (apply pow10_pos; left; reflexivity).
  pose proof pow100_up. assert (G : (ten 100 <= lim 100)%Q) by (apply Qle_bool_iff; vm_compute; reflexivity).
  assert (D : (Qabs (fdiv v (pow10 100)) <= 1)%Q) by (apply div_below; [exact P|lra]).
  exists (fdiv v (pow10 100)), (rounded_value (fdiv v (pow10 100))). split; [exact D|]. split; [apply rounded_tiny; exact D|].
  rewrite loop_take by lra. reflexivity.
Qed.

(** ... even as 0.0 googol, with plural number 0. *)
Theorem C55_gap_refuted : exists v x, is_f64 v /\ (ten 36 <= v)%Q /\ (0 < x)%Q /\ (x < 1 # 1000000000000)%Q /\
  intword (FFin v) = IText (ONGetf [] (bs "%[1]s googol") (bs "%[1]s googol") 0 (AText (OPrint (bs "%.1f") (AFloat64 x)))).
Proof.
  exists (inject_Z (2 ^ 120)), (fdiv (inject_Z (2 ^ 120)) (pow10 100)). split.
  { exists 1, 120. split; [unfold P53; lia|]. split; [lia|]. reflexivity. }
  split; [vm_compute; discriminate|]. split; [vm_compute; reflexivity|]. split; [vm_compute; reflexivity|]. vm_compute. reflexivity.
Qed.

(** Above, and for infinities and NaN, the number itself is shown. *)
Theorem C55_large : (forall v, is_f64 v -> (ten 103 <= Qabs v)%Q -> intword (FFin v) = IComma (FFin v)) /\
  (forall x, (forall q, x <> FFin q) -> intword x = IComma x).
Proof.
  split.
  - intros v F L. pose proof (lim100_least _ (is_f64_abs _ F) L) as K. pose proof ten_36_6 as K6. pose proof lim33_up.
    assert (G : (lim 33 <= ten 103)%Q) by (apply Qle_bool_iff; vm_compute; reflexivity).
    assert (G' : (ten 36 <= ten 103)%Q) by (apply Qle_bool_iff; vm_compute; reflexivity).
    rewrite intword_big by lra. rewrite loop_last by lra. rewrite loop_skip by exact K. reflexivity.
  - intros [q| | |] H; [exfalso; exact (H q eq_refl)|reflexivity..].
Qed.

Example C55_large_case : is_f64 (inject_Z (2 ^ 400)) /\ (ten 103 <= Qabs (inject_Z (2 ^ 400)))%Q.
Proof.
  split; [|vm_compute; discriminate]. exists 1, 400. split; [unfold P53; lia|]. split; [lia|]. reflexivity.
Qed.

Print Assumptions C55_small.
Print Assumptions C55_units_partial.
Print Assumptions C55_units_refuted.
Print Assumptions C55_gap.
Print Assumptions C55_gap_refuted.
Print Assumptions C55_large.
