From Coq Require Import String Ascii List ZArith Bool Lia.
From Verif Require Import Base BaseProofs PopModel NumModel.
Import ListNotations.
Open Scope Z_scope.

Lemma f64_of_nat_small : forall z, 0 <= z <= 9007199254740992 -> f64_of_nat z = z.
Proof.
  intros z H. unfold f64_of_nat. destruct (z <? 9007199254740992) eqn:E; [reflexivity|].
  assert (z = 9007199254740992) by lia. subst. reflexivity.
Qed.

Lemma f64_of_int_abs : forall z, Z.abs (f64_of_int z) = Z.abs (f64_of_nat (Z.abs z)).
Proof.
  intro z. unfold f64_of_int. destruct (z <? 0) eqn:E.
  - rewrite Z.abs_opp. now replace (Z.abs z) with (- z) by lia.
  - now replace (Z.abs z) with z by lia.
Qed.

Lemma evaluate_int_exact : forall r k z, Z.abs z <= 9007199254740992 ->
  evaluate r (AInt k z) = r_form r (Z.abs z).
Proof.
  intros r k z H. unfold evaluate, abs_round.
  rewrite f64_of_int_abs, f64_of_nat_small by lia.
  rewrite Z.abs_eq by lia.
  unfold f64_to_int64. replace (_ && _) with true; [reflexivity|].
  symmetry. unfold minInt64, maxInt64. lia.
Qed.

Lemma div_even_near : forall a b, 0 <= a -> 0 < b ->
  2 * Z.abs (a - div_even a b * b) <= b.
Proof.
  intros a b Ha Hb. unfold div_even.
  pose proof (Z.div_mod a b ltac:(lia)). pose proof (Z.mod_pos_bound a b Hb).
  destruct (2 * (a mod b) <? b) eqn:E1; [lia|].
  destruct (b <? 2 * (a mod b)) eqn:E2; [lia|].
  destruct (Z.even (a / b)); lia.
Qed.

Lemma div_even_tie : forall a b, 0 <= a -> 0 < b ->
  2 * Z.abs (a - div_even a b * b) = b -> Z.even (div_even a b) = true.
Proof.
  intros a b Ha Hb. unfold div_even.
  pose proof (Z.div_mod a b ltac:(lia)). pose proof (Z.mod_pos_bound a b Hb).
  destruct (2 * (a mod b) <? b) eqn:E1; [lia|].
  destruct (b <? 2 * (a mod b)) eqn:E2; [lia|].
  destruct (Z.even (a / b)) eqn:E; [auto|]. intros _.
  rewrite Z.even_add, E. reflexivity.
Qed.

Lemma div_even_nonneg : forall a b, 0 <= a -> 0 < b -> 0 <= div_even a b.
Proof.
  intros a b Ha Hb. unfold div_even. pose proof (Z.div_pos a b Ha Hb).
  destruct (_ <? _); [lia|]. destruct (_ <? _); [lia|]. destruct (Z.even _); lia.
Qed.

(** sign does not matter *)
Lemma evaluate_sign : forall r k k' z, evaluate r (AInt k z) = evaluate r (AInt k' (- z)).
Proof.
  intros. unfold evaluate, abs_round. rewrite !f64_of_int_abs. now rewrite Z.abs_opp.
Qed.
