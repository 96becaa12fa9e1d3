(** C55 (continued): numbers between the last named power of 1000 and a googol. *)
From Coq Require Import String Ascii List ZArith QArith Qabs Bool Lia Lqa.
From Verif Require Import Base F64Model FltModel FltProofs HumModel IwModel IwSpec IwProofs IwGapProofs.
Import ListNotations.
Open Scope Z_scope.

(** They are shown as the part of a googol they are, with plural number 1 from
    a little above 2^-54 googol on and down from -1 googol, else 0. *)
Theorem C55_gap_exactly : forall v, is_f64 v -> (ten 36 <= Qabs v)%Q -> (Qabs v < ten 100)%Q ->
  exists x n, multiple 100 v x /\ (Qabs x <= 1)%Q /\
  intword (FFin v) = IText (ONGetf [] (bs "%[1]s googol") (bs "%[1]s googol") n (AText (OPrint (bs "%.1f") (AFloat64 x)))) /\
  (n = 0 \/ n = 1) /\ (n = 1 <-> (inject_Z 1 < x * inject_Z (2 ^ 54))%Q \/ ((x + 1) * inject_Z (2 ^ 53) <= inject_Z 1)%Q).
Proof.
  intros v F L U. pose proof ten_36_6. pose proof (lim33_least _ (is_f64_abs _ F) L) as K.
  rewrite intword_big by lra. rewrite loop_last by exact K.
  assert (P : (0 < pow10 100)%Q) by (apply pow10_pos; left; reflexivity).
  pose proof pow100_up. assert (G : (ten 100 <= lim 100)%Q) by (apply Qle_bool_iff; vm_compute; reflexivity).
  assert (D : (Qabs (fdiv v (pow10 100)) <= 1)%Q) by (apply div_below; [exact P|lra]).
  exists (fdiv v (pow10 100)), (rounded_value (fdiv v (pow10 100))). split; [now apply gap_multiple|]. split; [exact D|].
  split; [rewrite loop_take by lra; reflexivity|]. split; [apply rounded_tiny; exact D|].
  set (x := fdiv v (pow10 100)) in *. clearbody x. rewrite (rounded_gap x D).
  change (inject_Z (2 ^ 54)) with 18014398509481984%Q. change (inject_Z (2 ^ 53)) with 9007199254740992%Q. change (inject_Z 1) with 1%Q.
  destruct (Qle_bool x (half53 - 1)) eqn:E1.
  - apply Qle_bool_iff in E1. unfold half53 in E1. split; [intros _; right; lra|reflexivity].
  - assert (E1' : (half53 - 1 < x)%Q) by (apply Qnot_le_lt; intro Q; apply Qle_bool_iff in Q; congruence). unfold half53 in E1'.
    destruct (Qle_bool x half54) eqn:E2.
    + apply Qle_bool_iff in E2. unfold half54 in E2. split; [discriminate|]. intros [A|A]; exfalso; lra.
    + assert (E2' : (half54 < x)%Q) by (apply Qnot_le_lt; intro Q; apply Qle_bool_iff in Q; congruence). unfold half54 in E2'.
      split; [intros _; left; lra|reflexivity].
Qed.

(** Half a googol, and minus half a googol, which has plural number 0. *)
Example C55_gap_example : exists v, is_f64 v /\ (ten 99 <= Qabs v)%Q /\ (Qabs v < ten 100)%Q /\
  (exists x, intword (FFin v) = IText (ONGetf [] (bs "%[1]s googol") (bs "%[1]s googol") 1 (AText (OPrint (bs "%.1f") (AFloat64 x))))) /\
  (exists x, intword (FFin (- v)) = IText (ONGetf [] (bs "%[1]s googol") (bs "%[1]s googol") 0 (AText (OPrint (bs "%.1f") (AFloat64 x))))).
Proof.
  exists (inject_Z (2 ^ 331)). split.
  { exists 1, 331. split; [unfold P53; lia|]. split; [lia|]. reflexivity. }
  split; [vm_compute; discriminate|]. split; [vm_compute; reflexivity|].
  split; eexists; vm_compute; reflexivity.
Qed.

Print Assumptions C55_gap_exactly.
