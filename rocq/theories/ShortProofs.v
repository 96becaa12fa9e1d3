(** Shortest decimals of integral floats. *)
From Coq Require Import ZArith Bool Lia ZifyBool.
From Verif Require Import Base NumModel NumProofs CldrModel.
Open Scope Z_scope.

Lemma f64_of_nat_large : forall c, 9007199254740992 <= c -> 9007199254740992 <= f64_of_nat c.
Proof.
  intros c B. unfold f64_of_nat. destruct (c <? 9007199254740992) eqn:E; [lia|]. cbv zeta.
  assert (L : 53 <= Z.log2 c) by (change 53 with (Z.log2 9007199254740992); now apply Z.log2_le_mono).
  set (u := 2 ^ (Z.log2 c - 52)). assert (U : 0 < u) by (apply Z.pow_pos_nonneg; lia).
  assert (P : 4503599627370496 * u = 2 ^ Z.log2 c).
  { unfold u. change 4503599627370496 with (2 ^ 52). rewrite <- Z.pow_add_r by lia. f_equal. lia. }
  assert (U2 : 2 <= u) by (change 2 with (2 ^ 1); apply Z.pow_le_mono_r; lia).
  assert (Q : 4503599627370496 <= c / u) by (apply Z.div_le_lower_bound; [lia|]; rewrite Z.mul_comm, P; apply Z.log2_spec; lia).
  assert (D : c / u <= div_even c u) by (unfold div_even; repeat match goal with |- context [if ?b then _ else _] => destruct b end; lia).
  nia.
Qed.
Lemma f64_of_nat_inv : forall c z, z < 9007199254740992 -> f64_of_nat c = z -> c = z.
Proof.
  intros c z B E. destruct (Z_lt_ge_dec c 9007199254740992) as [L|G].
  - unfold f64_of_nat in E. now replace (c <? 9007199254740992) with true in E by lia.
  - pose proof (f64_of_nat_large c ltac:(lia)). lia.
Qed.
Lemma shortest_small : forall z, 0 <= z <= 9007199254740992 -> shortest_int z = z.
Proof.
  intros z B. assert (C : z < 9007199254740992 \/ z = 9007199254740992) by lia. destruct C as [C| ->]; [|vm_compute; reflexivity].
  unfold shortest_int. generalize 20%nat. induction n as [|k IH]; [reflexivity|]. cbn [shortest_loop].
  set (p := 10 ^ Z.of_nat (S k)). set (lo := z / p * p). clearbody lo p.
  destruct (f64_of_nat lo =? z) eqn:E1; [|destruct (f64_of_nat (lo + p) =? z) eqn:E2; [|exact IH]].
  - apply Z.eqb_eq in E1. apply f64_of_nat_inv in E1; [|exact C]. destruct (_ && _) eqn:E2; [|exact E1].
    apply andb_true_iff in E2 as [E2 _]. apply Z.eqb_eq in E2. now apply f64_of_nat_inv in E2.
  - apply Z.eqb_eq in E2. now apply f64_of_nat_inv in E2.
Qed.
