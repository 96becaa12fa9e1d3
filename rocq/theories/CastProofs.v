From Coq Require Import String Ascii List ZArith QArith Qround Bool Lia.
From Verif Require Import Base BaseProofs PopModel NumModel NumProofs F64Model F64Proofs FltModel CalModel
  CldrModel CldrOperandProofs HumModel HumNumProofs CastModel CastSpec.
Import ListNotations.
Open Scope Z_scope.

(** ** Pointers *)
Lemma deref_mono : forall heap f f' v w, (f <= f')%nat -> deref heap f v = Ok w -> deref heap f' v = Ok w.
Proof.
  induction f as [|f IH]; intros f' v w L H.
  - destruct v as [|k z|x|re im|s|t|d|[a|]|pd pv]; try (destruct f'; exact H). discriminate.
  - destruct v as [|k z|x|re im|s|t|d|[a|]|pd pv]; try (destruct f'; exact H).
    destruct f' as [|f']; [lia|]. cbn [deref] in *. destruct (heap a); [|exact H].
    apply IH; [lia|exact H].
Qed.
Lemma deref_reaches : forall heap f v w, deref heap f v = Ok w -> reaches heap v w.
Proof.
  induction f as [|f IH]; intros v w H.
  - destruct v as [|k z|x|re im|s|t|d|[a|]|pd pv]; try discriminate; injection H as <-; constructor; congruence.
  - destruct v as [|k z|x|re im|s|t|d|[a|]|pd pv]; try (injection H as <-; constructor; congruence).
    cbn [deref] in H. destruct (heap a) as [v'|v'] eqn:A.
    + eapply re_step; [exact A|apply IH, H].
    + injection H as <-. now apply re_iface.
Qed.
Lemma reaches_deref : forall heap v w, reaches heap v w -> exists k, forall f, (k <= f)%nat -> deref heap f v = Ok w.
Proof.
  intros heap v w R. induction R as [v N|a v A|a v w A R (k & IH)].
  - exists 0%nat. intros f _. destruct v as [|k z|x|re im|s|t|d|[a|]|pd pv]; try (destruct f; reflexivity).
    exfalso. exact (N a eq_refl).
  - exists 1%nat. intros [|f] L; [lia|]. cbn [deref]. rewrite A. reflexivity.
  - exists (S k). intros [|f] L; [lia|]. cbn [deref]. rewrite A. apply IH. lia.
Qed.
Lemma deref_total : forall heap f v, deref heap f v = OutOfFuel \/ exists w, deref heap f v = Ok w.
Proof.
  induction f as [|f IH]; intros v; destruct v as [|k z|x|re im|s|t|d|[a|]|pd pv];
    try (right; eexists; reflexivity); [left; reflexivity|].
  cbn [deref]. destruct (heap a); [apply IH|right; eauto].
Qed.
Lemma reaches_fun : forall heap v w w', reaches heap v w -> reaches heap v w' -> w = w'.
Proof.
  intros heap v w w' R R'. destruct (reaches_deref _ _ _ R) as (k & K), (reaches_deref _ _ _ R') as (k' & K').
  specialize (K (max k k') ltac:(lia)). specialize (K' (max k k') ltac:(lia)). congruence.
Qed.

(** ** Decimal text *)
Lemma digit_of_digit hex c : is_digit c = true -> digit_of hex c = Some (digit_val c).
Proof. intros H. unfold digit_of. rewrite H. reflexivity. Qed.
Lemma digit_eqb c d : is_digit c = true -> is_digit d = false -> (c =? d)%char = false.
Proof. intros H K. apply Ascii.eqb_neq. intros ->. congruence. Qed.

Lemma scan_mant_digits : forall s dot m nf saw und rest, Forall (fun c => is_digit c = true) s ->
  scan_mant false (s ++ rest) dot m nf saw und =
  scan_mant false rest dot (fold_left (fun acc c => acc * 10 + digit_val c) s m)
    (if dot then nf + Z.of_nat (length s) else nf) (saw || match s with [] => false | _ => true end) und.
Proof.
  induction s as [|c s IH]; intros dot m nf saw und rest F.
  - cbn [app fold_left length]. rewrite orb_false_r. destruct dot; [rewrite Z.add_0_r|]; reflexivity.
  - inversion F as [|? ? D F']; subst. cbn [app scan_mant fold_left].
    rewrite !(digit_eqb c) by (assumption || reflexivity). rewrite digit_of_digit by assumption.
    rewrite IH by assumption.
    replace (saw || true) with true by (destruct saw; reflexivity). cbn [orb].
    destruct dot; [|reflexivity]. cbn [length]. rewrite Nat2Z.inj_succ.
    replace (nf + 1 + Z.of_nat (length s)) with (nf + Z.succ (Z.of_nat (length s))) by lia. reflexivity.
Qed.

Lemma Forall_forallb A (p : A -> bool) l : Forall (fun c => p c = true) l <-> forallb p l = true.
Proof. rewrite forallb_forall, Forall_forall. reflexivity. Qed.

Lemma lower_digit c : is_digit c = true -> lower c = c.
Proof. intros H. unfold lower, is_upper. unfold is_digit in H. replace (65 <=? bval c) with false by lia. reflexivity. Qed.

Lemma not_special s c t : s = c :: t -> is_digit c = true ->
  beq (to_lower s) (bs "inf") = false /\ beq (to_lower s) (bs "infinity") = false /\ beq (to_lower s) (bs "nan") = false.
Proof.
  intros -> H. unfold to_lower. cbn [map]. rewrite (lower_digit c H).
  assert (X : forall d r, is_digit d = false -> beq (c :: map lower t) (d :: r) = false).
  { intros d r K. cbn [beq]. rewrite (digit_eqb c d H K). reflexivity. }
  repeat split; apply X; reflexivity.
Qed.

Lemma numeral_parse : forall neg ip fp, numeral_ok ip fp ->
  parse_float_any (numeral_text neg ip fp) =
  signed neg (f64_round (dec_val (ip ++ frac_digits fp)) (10 ^ Z.of_nat (length (frac_digits fp)))).
Proof.
  intros neg ip fp (NE & DI & DF).
  destruct ip as [|c ip]; [congruence|]. inversion DI as [|? ? DC DI']; subst.
  set (tail := match fp with Some f => "."%char :: f | None => [] end).
  assert (S : take_sign (numeral_text neg (c :: ip) fp) = (neg, (c :: ip) ++ tail)).
  { unfold numeral_text. fold tail. destruct neg; [reflexivity|]. cbn [app take_sign].
    rewrite !(digit_eqb c) by (assumption || reflexivity). reflexivity. }
  unfold parse_float_any, parse_special, parse_number. rewrite S.
  destruct (not_special ((c :: ip) ++ tail) c (ip ++ tail) eq_refl DC) as (N1 & N2 & N3).
  rewrite N1, N2. cbn [orb].
  assert (NN : beq (to_lower (numeral_text neg (c :: ip) fp)) (bs "nan") = false).
  { unfold numeral_text. fold tail. destruct neg; [reflexivity|]. exact N3. }
  rewrite NN.
  assert (HX : has_hex ((c :: ip) ++ tail) = false).
  { cbn [app has_hex]. destruct (ip ++ tail) as [|d t] eqn:T; [reflexivity|].
    apply andb_false_iff. right.
    assert (DD : is_digit d = true \/ d = "."%char).
    { destruct ip as [|d' ip']; cbn [app] in T.
      - right. unfold tail in T. destruct fp; congruence.
      - left. injection T as E1 E2. rewrite <- E1. now inversion DI'. }
    destruct DD as [DD| ->]; [|reflexivity]. rewrite lower_digit by assumption. apply digit_eqb; [assumption|reflexivity]. }
  rewrite HX.
  assert (M : scan_mant false ((c :: ip) ++ tail) false 0 0 false false =
    (dec_val ((c :: ip) ++ frac_digits fp), Z.of_nat (length (frac_digits fp)), true, false, [])).
  { rewrite scan_mant_digits by assumption. cbn [orb].
    unfold dec_val. rewrite fold_left_app. unfold tail. destruct fp as [f|]; cbn [frac_digits] in *.
    - cbn [scan_mant]. change ("." =? "_")%char with false. change ("." =? ".")%char with true. cbv iota.
      rewrite <- (app_nil_r f) at 1. rewrite scan_mant_digits by assumption. cbn [scan_mant orb].
      reflexivity.
    - reflexivity. }
  rewrite M. cbn [negb andb]. unfold float_value.
  set (n := Z.of_nat (length (frac_digits fp))). assert (0 <= n) by (unfold n; lia).
  destruct (0 <=? 0 - n) eqn:E.
  - assert (N0 : n = 0) by lia. rewrite N0. change (0 - 0) with 0. rewrite !Z.pow_0_r, Z.mul_1_r. reflexivity.
  - replace (- (0 - n)) with n by lia. reflexivity.
Qed.

Lemma itoa_numeral : forall z, exists ip, itoa z = numeral_text (z <? 0) ip None /\ numeral_ok ip None /\ dec_val ip = Z.abs z.
Proof.
  intros z. unfold itoa. destruct (z <? 0) eqn:E.
  - destruct (utoa_spec (- z) ltac:(lia)) as (A & B & C). exists (utoa (- z)).
    unfold numeral_text. rewrite app_nil_r. split; [reflexivity|].
    split; [|lia]. split; [exact A|]. split; [now apply Forall_forallb|constructor].
  - destruct (utoa_spec z ltac:(lia)) as (A & B & C). exists (utoa z).
    unfold numeral_text. rewrite app_nil_r. split; [reflexivity|].
    split; [|lia]. split; [exact A|]. split; [now apply Forall_forallb|constructor].
Qed.

(** The float64 of an integer, both ways. *)
Lemma round_int : forall z, 0 <= z < 2 ^ 1000 ->
  exists q, f64_round z 1 = Some q /\ (q == inject_Z (f64_of_nat z))%Q.
Proof.
  intros z [Z0 Z1]. destruct (Z_lt_le_dec z 9007199254740992) as [L|L].
  - destruct (f64_round_exact z 1 ltac:(lia) ltac:(lia)) as (q & R & Q). rewrite Z.mul_1_r in R.
    exists q. split; [exact R|]. rewrite Q. rewrite f64_of_nat_small by lia. reflexivity.
  - destruct (f64_round_defined z 1 Z0 ltac:(lia) ltac:(lia)) as (q & R). exists q. split; [exact R|].
    unfold f64_round in R. replace (z =? 0) with false in R by lia.
    assert (F : floor_log2 z 1 = Z.log2 z).
    { unfold floor_log2. change (Z.log2 1) with 0. rewrite Z.sub_0_r.
      pose proof (Z.log2_nonneg z). replace (0 <=? Z.log2 z) with true by lia. rewrite Z.mul_1_l.
      destruct (Z.log2_spec z ltac:(lia)) as [A _]. replace (2 ^ Z.log2 z <=? z) with true by lia. reflexivity. }
    rewrite F in R.
    assert (LG : 53 <= Z.log2 z).
    { apply Z.log2_le_pow2; [lia|]. change (2 ^ 53) with 9007199254740992. exact L. }
    rewrite Z.max_l in R by lia. replace (0 <=? Z.log2 z - 52) with true in R by lia. rewrite Z.mul_1_l in R.
    destruct ((971 <? _) || _); [discriminate|]. injection R as <-.
    unfold dyadic. replace (0 <=? Z.log2 z - 52) with true by lia.
    unfold f64_of_nat. replace (z <? 9007199254740992) with false by lia. reflexivity.
Qed.

Lemma int_text : forall z, Z.abs z < 2 ^ 1000 ->
  exists x, parse_float_any (itoa z) = Some x /\ same_num x (FFin (inject_Z (f64_of_int z))).
Proof.
  intros z B. destruct (itoa_numeral z) as (ip & T & K & D). rewrite T, numeral_parse by exact K.
  cbn [frac_digits length]. rewrite app_nil_r, D. change (10 ^ Z.of_nat 0) with 1.
  destruct (round_int (Z.abs z) ltac:(lia)) as (q & R & Q). rewrite R. cbn [signed].
  eexists. split; [reflexivity|]. constructor. unfold f64_of_int. destruct (z <? 0) eqn:E.
  - rewrite Q. replace (Z.abs z) with (- z) by lia. rewrite inject_Z_opp. reflexivity.
  - rewrite Q. replace (Z.abs z) with z by lia. reflexivity.
Qed.

(** ** Rounding depends on the number only *)
Lemma div_even_scale : forall a b k, 0 < b -> 0 < k -> div_even (a * k) (b * k) = div_even a b.
Proof.
  intros a b k B K. unfold div_even. rewrite Z.div_mul_cancel_r by lia.
  rewrite Z.mul_mod_distr_r by lia.
  replace (2 * (a mod b * k) <? b * k) with (2 * (a mod b) <? b) by nia.
  replace (b * k <? 2 * (a mod b * k)) with (b <? 2 * (a mod b)) by nia. reflexivity.
Qed.
Lemma div_even_Qeq : forall p q, (p == q)%Q -> div_even (Qnum p) (Zpos (Qden p)) = div_even (Qnum q) (Zpos (Qden q)).
Proof.
  intros [a b] [c d] H. unfold Qeq in H. cbn [Qnum Qden] in *.
  rewrite <- (div_even_scale a (Zpos b) (Zpos d)), <- (div_even_scale c (Zpos d) (Zpos b)) by lia.
  rewrite H. rewrite (Z.mul_comm (Zpos b)). reflexivity.
Qed.
Lemma div_even_1 a : div_even a 1 = a.
Proof. unfold div_even. rewrite Z.div_1_r, Z.mod_1_r. reflexivity. Qed.

Lemma round_abs_same : forall x y, same_num x y -> round_to_even (num_abs x) = round_to_even (num_abs y).
Proof.
  intros x y H. destruct H as [p q H| | |]; try reflexivity. cbn [num_abs round_to_even]. f_equal. f_equal.
  apply div_even_Qeq. rewrite H. reflexivity.
Qed.
Lemma int64_integral z : num_int64 (FFin (inject_Z z)) = f64_to_int64 z.
Proof.
  cbn [num_int64]. unfold fto_int64. f_equal. unfold qtrunc. cbn [inject_Z Qnum].
  rewrite <- inject_Z_opp, !Qfloor_Z. destruct (z <? 0); lia.
Qed.
