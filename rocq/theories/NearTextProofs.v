(** Literals as float64. *)
From Coq Require Import List ZArith QArith Qabs Bool Lia Lqa.
From Verif Require Import Base NumModel F64Model F64Proofs HumModel CastModel FloatTextSpec FloatTextProofs NearSpec NearProofs.
Open Scope Z_scope.

Lemma lit_num_nonneg : forall l, lit_ok l -> 0 <= lit_num l.
Proof.
  intros l K. pose proof (lit_digits_nonneg l K). unfold lit_num. destruct (0 <=? lit_shift l) eqn:E; [|lia].
  assert (0 < lit_base l ^ lit_shift l) by (apply Z.pow_pos_nonneg; [unfold lit_base; destruct (l_hex l)|]; lia). nia.
Qed.
Lemma literal_nearest : forall l s q, lit_ok l -> spelled l s -> Z.abs (lit_exp l) < 100000 -> parse_number s = Some (FFin q) ->
  nearest_float (Qabs (lit_value l)) (Qabs q) /\ (0 <= q * lit_value l)%Q.
Proof.
  intros l s q K S B P. rewrite (literal_value l s K S B) in P. pose proof (lit_num_nonneg l K) as N. pose proof (lit_den_pos l) as D.
  destruct (f64_round (lit_num l) (lit_den l)) as [p|] eqn:R; [|discriminate]. cbn [signed] in P. injection P as P.
  pose proof (f64_round_nonneg _ _ _ N D R) as P0. pose proof (lit_frac l) as FR.
  assert (PP : (0 <= p)%Q) by (unfold Qle; cbn [Qnum Qden]; lia).
  assert (VP : (0 <= lit_num l # Z.to_pos (lit_den l))%Q) by (unfold Qle; cbn [Qnum Qden]; lia).
  assert (FR' : (lit_value l == if l_neg l then - (lit_num l # Z.to_pos (lit_den l)) else lit_num l # Z.to_pos (lit_den l))%Q).
  { rewrite FR. destruct (l_neg l); reflexivity. }
  set (v := lit_num l # Z.to_pos (lit_den l)) in *. split.
  - apply (nearest_ext v _ p).
    + rewrite FR'. destruct (l_neg l); rewrite ?Qabs_opp, Qabs_pos by exact VP; reflexivity.
    + rewrite <- P. destruct (l_neg l); rewrite ?Qabs_opp, Qabs_pos by exact PP; reflexivity.
    + now apply round_nearest.
  - rewrite FR', <- P. destruct (l_neg l); nra.
Qed.
