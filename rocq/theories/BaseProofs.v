(** Lemmas about the Go substrate. *)
From Coq Require Import String Ascii List ZArith Bool Lia.
From Verif Require Import Base.
Import ListNotations.
Open Scope Z_scope.

Lemma beq_eq : forall x y, beq x y = true <-> x = y.
Proof.
  induction x as [|a x IH]; destruct y as [|b y]; simpl; split; intro H;
    try reflexivity; try discriminate.
  - apply andb_true_iff in H as [H1 H2].
    apply Ascii.eqb_eq in H1. apply IH in H2. congruence.
  - injection H as -> ->. rewrite Ascii.eqb_refl. simpl. now apply IH.
Qed.

Lemma beq_refl : forall x, beq x x = true.
Proof. intro x. now apply beq_eq. Qed.

Lemma beq_neq : forall x y, beq x y = false <-> x <> y.
Proof.
  intros. rewrite <- beq_eq. now rewrite not_true_iff_false.
Qed.

Lemma bval_range : forall c, 0 <= bval c < 256.
Proof.
  intro c. unfold bval. pose proof (N_ascii_bounded c). lia.
Qed.

Lemma bval_inj : forall a b, bval a = bval b -> a = b.
Proof.
  intros a b H. unfold bval in H. apply N2Z.inj in H.
  rewrite <- (ascii_N_embedding a), <- (ascii_N_embedding b). now rewrite H.
Qed.

Lemma byte_of_val : forall z, 0 <= z < 256 -> bval (byte_of z) = z.
Proof.
  intros z H. unfold bval, byte_of.
  rewrite N_ascii_embedding; lia.
Qed.

Lemma byte_of_bval : forall c, byte_of (bval c) = c.
Proof.
  intro c. apply bval_inj. apply byte_of_val. apply bval_range.
Qed.

Lemma is_digit_val : forall c, is_digit c = true <-> 48 <= bval c <= 57.
Proof. intro c. unfold is_digit. lia. Qed.

Lemma digit_val_range : forall c, is_digit c = true -> 0 <= digit_val c <= 9.
Proof. intros c H. apply is_digit_val in H. unfold digit_val. lia. Qed.

Lemma digit_char_val : forall d, 0 <= d <= 9 ->
  digit_val (digit_char d) = d /\ is_digit (digit_char d) = true.
Proof.
  intros d H. unfold digit_val, digit_char, is_digit.
  rewrite byte_of_val by lia. split; [lia|].
  apply andb_true_iff; split; apply Z.leb_le; lia.
Qed.

Lemma digit_char_of_val : forall c, is_digit c = true -> digit_char (digit_val c) = c.
Proof.
  intros c H. apply is_digit_val in H.
  unfold digit_char, digit_val. replace (48 + (bval c - 48)) with (bval c) by lia.
  apply byte_of_bval.
Qed.

(** ** Decimal values *)

Definition dec_from (acc : Z) (s : bytes) : Z :=
  fold_left (fun a c => a * 10 + digit_val c) s acc.

Lemma dec_val_from : forall s, dec_val s = dec_from 0 s.
Proof. reflexivity. Qed.

Lemma dec_from_acc : forall s acc, forallb is_digit s = true ->
  dec_from acc s = acc * 10 ^ Z.of_nat (length s) + dec_from 0 s.
Proof.
  induction s as [|c s IH]; intros acc H.
  - unfold dec_from. simpl. lia.
  - simpl in H. apply andb_true_iff in H as [Hc Hs].
    unfold dec_from in *. simpl fold_left.
    rewrite IH by assumption. rewrite (IH (digit_val c)) by assumption.
    change (length (c :: s)) with (S (length s)).
    rewrite Nat2Z.inj_succ, Z.pow_succ_r by lia. ring.
Qed.

Lemma dec_from_nonneg : forall s acc, forallb is_digit s = true -> 0 <= acc ->
  0 <= dec_from acc s.
Proof.
  induction s as [|c s IH]; intros acc H Ha; unfold dec_from in *; simpl in *; [lia|].
  apply andb_true_iff in H as [Hc Hs]. pose proof (digit_val_range _ Hc).
  apply IH; [assumption | lia].
Qed.

Lemma dec_from_ge : forall s acc, forallb is_digit s = true -> 0 <= acc ->
  acc <= dec_from acc s.
Proof.
  induction s as [|c s IH]; intros acc H Ha; unfold dec_from in *; simpl in *; [lia|].
  apply andb_true_iff in H as [Hc Hs]. pose proof (digit_val_range _ Hc).
  specialize (IH (acc * 10 + digit_val c) Hs). lia.
Qed.

Lemma parse_uint_loop_ok : forall s n, forallb is_digit s = true -> 0 <= n ->
  dec_from n s <= maxUint64 -> parse_uint_loop s n = PInt (dec_from n s).
Proof.
  induction s as [|c s IH]; intros n H Hn Hb; simpl.
  - reflexivity.
  - simpl in H. apply andb_true_iff in H as [Hc Hs]. rewrite Hc.
    pose proof (digit_val_range _ Hc).
    assert (n * 10 + digit_val c <= dec_from (n * 10 + digit_val c) s)
      by (apply dec_from_ge; [assumption | lia]).
    change (dec_from n (c :: s)) with (dec_from (n * 10 + digit_val c) s) in *.
    destruct (maxUint64 <? n * 10 + digit_val c) eqn:E.
    + apply Z.ltb_lt in E. lia.
    + apply IH; [assumption | lia | assumption].
Qed.

Lemma digit_not_sign : forall c, is_digit c = true ->
  Ascii.eqb c "-" = false /\ Ascii.eqb c "+" = false.
Proof.
  intros c H. split; destruct (Ascii.eqb c _) eqn:E; try reflexivity;
    apply Ascii.eqb_eq in E; subst; discriminate.
Qed.

Lemma parse_int_digits : forall s, s <> [] -> forallb is_digit s = true ->
  dec_val s <= maxInt64 -> parse_int s = PInt (dec_val s).
Proof.
  intros s Hne Hd Hb. destruct s as [|c s]; [contradiction|].
  unfold parse_int. pose proof Hd as Hd'.
  simpl in Hd. apply andb_true_iff in Hd as [Hc Hs].
  destruct (digit_not_sign _ Hc) as [E1 E2]. rewrite E1, E2. simpl orb. cbv iota.
  unfold parse_uint.
  rewrite parse_uint_loop_ok; [|assumption|lia|].
  - change (dec_from 0 (c :: s)) with (dec_val (c :: s)).
    destruct (maxInt64 <? dec_val (c :: s)) eqn:E; [apply Z.ltb_lt in E; lia|reflexivity].
  - change (dec_from 0 (c :: s)) with (dec_val (c :: s)).
    unfold maxInt64, maxUint64 in *. lia.
Qed.

Lemma parse_int_ignore_digits : forall s, s <> [] -> forallb is_digit s = true ->
  dec_val s <= maxInt64 -> parse_int_ignore s = dec_val s.
Proof.
  intros s H1 H2 H3. unfold parse_int_ignore. now rewrite parse_int_digits.
Qed.

(** ** utoa *)

Lemma utoa_aux_app : forall fuel n acc, utoa_aux fuel n acc = utoa_aux fuel n [] ++ acc.
Proof.
  induction fuel as [|f IH]; intros n acc; [reflexivity|].
  change (utoa_aux (S f) n acc) with
    (if n <? 10 then digit_char (n mod 10) :: acc
     else utoa_aux f (n / 10) (digit_char (n mod 10) :: acc)).
  change (utoa_aux (S f) n []) with
    (if n <? 10 then [digit_char (n mod 10)]
     else utoa_aux f (n / 10) [digit_char (n mod 10)]).
  destruct (n <? 10); [reflexivity|].
  rewrite (IH _ (_ :: acc)), (IH _ [_]). now rewrite <- app_assoc.
Qed.

Lemma forallb_app : forall (A : Type) (p : A -> bool) x y,
  forallb p (x ++ y) = forallb p x && forallb p y.
Proof.
  induction x as [|a x IH]; intro y; simpl; [reflexivity|].
  now rewrite IH, andb_assoc.
Qed.

Lemma dec_val_snoc : forall s c, dec_val (s ++ [c]) = dec_val s * 10 + digit_val c.
Proof. intros. unfold dec_val. now rewrite fold_left_app. Qed.

Lemma utoa_aux_spec : forall fuel n, 0 <= n -> (Z.to_nat (Z.log2 n) < fuel)%nat ->
  let s := utoa_aux fuel n [] in
  s <> [] /\ forallb is_digit s = true /\ dec_val s = n.
Proof.
  induction fuel as [|f IH]; intros n Hn Hf; [lia|].
  cbv zeta.
  change (utoa_aux (S f) n []) with
    (if n <? 10 then [digit_char (n mod 10)]
     else utoa_aux f (n / 10) [digit_char (n mod 10)]).
  pose proof (Z.mod_pos_bound n 10 ltac:(lia)) as Hm.
  destruct (digit_char_val (n mod 10) ltac:(lia)) as [Hv Hd].
  destruct (n <? 10) eqn:E.
  - apply Z.ltb_lt in E. repeat split.
    + discriminate.
    + simpl. now rewrite Hd.
    + unfold dec_val. simpl. rewrite Hv. rewrite Z.mod_small by lia. lia.
  - apply Z.ltb_ge in E.
    rewrite utoa_aux_app.
    assert (Hlog : Z.log2 (n / 10) < Z.log2 n).
    { pose proof (Z.log2_spec n ltac:(lia)) as [Hl1 Hl2].
      assert (0 < n / 10) by (apply Z.div_str_pos; lia).
      assert (n / 10 < 2 ^ Z.log2 n).
      { apply Z.div_lt_upper_bound; [lia|].
        rewrite Z.pow_succ_r in Hl2 by apply Z.log2_nonneg. lia. }
      apply Z.log2_lt_pow2; lia. }
    destruct (IH (n / 10)) as [H1 [H2 H3]].
    + apply Z.div_pos; lia.
    + pose proof (Z.log2_nonneg (n / 10)). lia.
    + repeat split.
      * intro C. apply app_eq_nil in C as [C _]. contradiction.
      * rewrite forallb_app, H2. simpl. now rewrite Hd.
      * rewrite dec_val_snoc, H3, Hv. pose proof (Z.div_mod n 10). lia.
Qed.

Lemma utoa_spec : forall n, 0 <= n ->
  utoa n <> [] /\ forallb is_digit (utoa n) = true /\ dec_val (utoa n) = n.
Proof. intros n H. apply utoa_aux_spec; [assumption | lia]. Qed.
