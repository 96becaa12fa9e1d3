(** Integers of any size as plural arguments. *)
From Coq Require Import String Ascii List ZArith QArith Qabs Qround Bool Lia Lqa ZifyBool.
From Verif Require Import Base BaseProofs StrModel NumModel NumProofs F64Model F64Proofs FloatTextProofs CldrModel CldrSpec CldrTextProofs ShortProofs CldrKindSpec CldrKindProofs CldrFloatSpec
  CldrAllProofs NearSpec NearProofs AskedSpec AskedProofs CldrOperandProofs.
Import ListNotations.
Open Scope Z_scope.

Lemma nat_nearest : forall z, 0 <= z < float_limit -> nearest_float (inject_Z z) (inject_Z (f64_of_nat z)).
Proof.
  intros z B. destruct (round_integer z B) as (q & R & E). apply (nearest_ext (inject_Z z) _ q); [reflexivity|exact E|].
  exact (round_nearest z 1 q ltac:(lia) ltac:(lia) R).
Qed.
Lemma nat_error : forall a, 0 <= a -> 9007199254740992 * Z.abs (f64_of_nat a - a) <= a.
Proof.
  intros a A. unfold f64_of_nat. destruct (a <? 9007199254740992) eqn:E; [rewrite Z.sub_diag; cbn [Z.abs]; lia|]. cbv zeta.
  assert (L : 53 <= Z.log2 a) by (change 53 with (Z.log2 9007199254740992); apply Z.log2_le_mono; lia).
  set (u := 2 ^ (Z.log2 a - 52)). assert (U : 0 < u) by (apply Z.pow_pos_nonneg; lia).
  assert (P : 4503599627370496 * u <= a).
  { unfold u. change 4503599627370496 with (2 ^ 52). rewrite <- Z.pow_add_r by lia. replace (52 + (Z.log2 a - 52)) with (Z.log2 a) by lia. apply Z.log2_spec. lia. }
  assert (D : 2 * Z.abs (div_even a u * u - a) <= u); [|lia].
  pose proof (Z.div_mod a u ltac:(lia)) as DM. pose proof (Z.mod_pos_bound a u U) as MB. unfold div_even.
  set (q := a / u) in *. set (r := a mod u) in *. clearbody q r.
  assert (X0 : q * u - a = - r) by nia. assert (X1 : (q + 1) * u - a = u - r) by nia.
  repeat match goal with |- context [if ?b then _ else _] => destruct b eqn:? end; rewrite ?X0, ?X1; lia.
Qed.
Lemma nearest_self_float : forall q, float64 q -> nearest_float q q.
Proof.
  intros q F. assert (Z0 : (q - q == 0)%Q) by ring. split; [exact F|]. split.
  - intros p _. rewrite Z0. apply Qabs_nonneg.
  - intros p _ H. left. rewrite Z0 in H. change (Qabs 0) with 0%Q in H. pose proof (Qabs_nonneg (p - q)).
    assert (A : (Qabs (p - q) == 0)%Q) by (apply Qle_antisym; assumption). apply Qabs_case with (x := (p - q)%Q) (P := fun a => (a == 0)%Q -> (p == q)%Q) in A; [exact A| |]; intros; lra.
Qed.
Lemma nat_idem : forall z, 0 <= z < float_limit -> f64_of_nat z < float_limit -> f64_of_nat (f64_of_nat z) = f64_of_nat z.
Proof.
  intros z B L. pose proof (nat_nearest z B) as (F & _). pose proof (f64_of_nat_nonneg z ltac:(lia)) as P.
  pose proof (nearest_unique _ _ _ (nat_nearest (f64_of_nat z) ltac:(lia)) (nearest_self_float _ F)) as E. exact (proj1 (inject_Z_injective _ _) E).
Qed.
Lemma nearest_mono : forall v w p q, (v <= w)%Q -> nearest_float v p -> nearest_float w q -> (p <= q)%Q.
Proof.
  intros v w p q L P Q. apply Qnot_lt_le. intro G.
  pose proof (proj1 (proj2 P) q (proj1 Q)) as A. pose proof (proj1 (proj2 Q) p (proj1 P)) as B.
  assert (E : (v == w)%Q).
  { revert A B. apply (Qabs_case (p - v)); apply (Qabs_case (q - v)); apply (Qabs_case (q - w)); apply (Qabs_case (p - w)); intros; lra. }
  assert (P' : nearest_float w p) by (apply (nearest_ext v w p p E); [reflexivity|exact P]). pose proof (nearest_unique _ _ _ P' Q) as U. lra.
Qed.
Lemma nat_mono : forall a b, 0 <= a <= b -> b < float_limit -> f64_of_nat a <= f64_of_nat b.
Proof.
  intros a b A B. rewrite Zle_Qle. apply (nearest_mono (inject_Z a) (inject_Z b)); [now rewrite <- Zle_Qle|apply nat_nearest; lia|apply nat_nearest; lia].
Qed.
Lemma limit_big : 10 ^ 40 < float_limit.
Proof. reflexivity. Qed.

Lemma loop_rounds : forall f k, f64_of_nat f = f -> f64_of_nat (shortest_loop f k) = f.
Proof.
  intros f k F. induction k as [|k IH]; [exact F|]. cbn [shortest_loop].
  set (p := 10 ^ Z.of_nat (S k)). set (lo := f / p * p).
  destruct (f64_of_nat lo =? f) eqn:E1; [|destruct (f64_of_nat (lo + p) =? f) eqn:E2; [|exact IH]].
  - destruct (_ && _) eqn:E2; lia.
  - lia.
Qed.
(** Two multiples of 10^m that round to the same number are equal if one is short. *)
Lemma digit_close : forall d m c k, 1 <= d <= 9 -> 0 <= m <= k -> 0 <= c -> f64_of_nat (c * 10 ^ k) = f64_of_nat (d * 10 ^ m) -> c * 10 ^ k = d * 10 ^ m.
Proof.
  intros d m c k D M C E. assert (P : 10 ^ k = 10 ^ (k - m) * 10 ^ m) by (rewrite <- Z.pow_add_r by lia; f_equal; lia).
  assert (M0 : 0 < 10 ^ m) by (apply Z.pow_pos_nonneg; lia). assert (K0 : 0 < 10 ^ (k - m)) by (apply Z.pow_pos_nonneg; lia).
  rewrite P, Z.mul_assoc in E |- *. assert (X0 : 0 <= c * 10 ^ (k - m)) by nia. set (x := c * 10 ^ (k - m)) in *. set (p := 10 ^ m) in *. clearbody x p.
  pose proof (nat_error (x * p) ltac:(nia)) as A. pose proof (nat_error (d * p) ltac:(nia)) as B. rewrite E in A.
  set (f := f64_of_nat (d * p)) in *. clearbody f. assert (H : 9007199254740992 * Z.abs (x * p - d * p) <= x * p + d * p) by lia.
  assert (x = d); [|congruence]. destruct (Z_lt_ge_dec x (d + 1)) as [L|G]; [destruct (Z_lt_ge_dec x d) as [L'|G']; [|lia]|]; exfalso.
  - assert (p <= d * p - x * p) by nia. assert (d * p <= 9 * p) by nia. assert (x * p <= 9 * p) by nia. lia.
  - assert (x * p - d * p <= 0 \/ 0 < x * p - d * p) as [N|N] by lia; [nia|]. rewrite Z.abs_eq in H by lia.
    assert ((x - d) * p >= p) by nia. assert (d * p <= 9 * p) by nia. lia.
Qed.
Lemma loop_digit : forall d m k, 1 <= d <= 9 -> 0 <= m <= Z.of_nat k -> (k <= 20)%nat -> d * 10 ^ m <= 10 ^ 20 ->
  shortest_loop (f64_of_nat (d * 10 ^ m)) k = d * 10 ^ m.
Proof.
  intros d m k D. set (f := f64_of_nat (d * 10 ^ m)). induction k as [|k IH]; intros M K20 L.
  - assert (m = 0) by lia. subst m f. rewrite Z.pow_0_r, Z.mul_1_r. cbn [shortest_loop]. apply f64_of_nat_small. lia.
  - cbn [shortest_loop]. set (p := 10 ^ Z.of_nat (S k)). assert (P : 0 < p) by (apply Z.pow_pos_nonneg; lia).
    assert (F0 : 0 <= f) by (apply f64_of_nat_nonneg; assert (0 < 10 ^ m) by (apply Z.pow_pos_nonneg; lia); nia).
    set (j := f / p). assert (J : 0 <= j) by (apply Z.div_pos; lia). pose proof (Z.div_mod f p ltac:(lia)) as DM. pose proof (Z.mod_pos_bound f p P) as MB. fold j in DM.
    assert (C1 : f64_of_nat (j * p) = f -> j * p = d * 10 ^ m) by (intro E; apply digit_close; [exact D|lia|exact J|exact E]).
    assert (C2 : f64_of_nat (j * p + p) = f -> j * p + p = d * 10 ^ m).
    { intro E. replace (j * p + p) with ((j + 1) * p) in E |- * by ring. apply digit_close; [exact D|lia|lia|exact E]. }
    destruct (f64_of_nat (j * p) =? f) eqn:E1; [|destruct (f64_of_nat (j * p + p) =? f) eqn:E2; [apply C2; lia|]].
    + destruct (_ && _) eqn:E2; [apply C2; lia|apply C1; lia].
    + assert (C : m <= Z.of_nat k \/ m = Z.of_nat (S k)) by lia. destruct C as [C|C]; [now apply IH; lia|exfalso].
      (* one of the two neighbours rounds to f *)
      subst m. fold p in f, L. pose proof limit_big as LB. assert (PL : p <= 10 ^ 20) by (apply Z.pow_le_mono_r; lia).
      assert (T : 10 ^ 20 + 10 ^ 20 <= 10 ^ 40) by (vm_compute; discriminate).
      assert (BL : forall x, x <= 10 ^ 20 + 10 ^ 20 -> x < float_limit) by (intros; lia). clear T LB.
      set (t := 10 ^ 20) in *. clearbody t. assert (NE : f <= t + t /\ d * p <= t + t) by (pose proof (nat_error (d * p) ltac:(nia)) as NE; fold f in NE; lia).
      assert (FI : f64_of_nat f = f) by (apply nat_idem; [split; [nia|apply BL; lia]|apply BL; fold f; lia]).
      assert (FD : f64_of_nat (d * p) = f) by reflexivity. clearbody f.
      destruct (Z_le_gt_dec d j) as [G|G].
      * assert (A1 : f64_of_nat (d * p) <= f64_of_nat (j * p)) by (apply nat_mono; [nia|apply BL; nia]).
        assert (A2 : f64_of_nat (j * p) <= f64_of_nat f) by (apply nat_mono; [nia|apply BL; nia]). lia.
      * assert (A1 : f64_of_nat (j * p + p) <= f64_of_nat (d * p)) by (apply nat_mono; [nia|apply BL; nia]).
        assert (A2 : f64_of_nat f <= f64_of_nat (j * p + p)) by (apply nat_mono; [nia|apply BL; nia]). lia.
Qed.

(** The digits of one digit followed by zeros. *)
Lemma one_digit_trim : forall w d0 m, 1000000 <= w -> 1 <= d0 <= 9 -> 0 <= m -> w = d0 * 10 ^ m -> exists d, trim_zeros (utoa w) = [d].
Proof.
  intros w d0 m G D M E. destruct (large_digits w G) as (d & ds & n & U & T & DD & DDS & TR & LEN & DV).
  assert (V : w = dec_val (d :: ds) * 10 ^ Z.of_nat n) by (destruct (utoa_spec w ltac:(lia)) as (_ & _ & V); rewrite <- V at 1; rewrite U; apply dec_val_zeros).
  destruct TR as [TR|(a & c & -> & NC)]; [subst ds; eauto|]. exfalso.
  set (x := dec_val (d :: a)) in *. change (d :: a ++ [c]) with ((d :: a) ++ [c]) in V. rewrite dec_val_snoc in V.
  rewrite forallb_app in DDS. apply andb_true_iff in DDS as [DA DC]. cbn [forallb] in DC. rewrite andb_true_r in DC. pose proof (digit_val_range c DC) as CR.
  assert (CN : digit_val c <> 0) by (intro Z0; apply NC; clear - DC Z0; revert DC Z0; destruct c as [[] [] [] [] [] [] [] []]; intros; (discriminate || reflexivity)).
  assert (XP : 1 <= x). { unfold x. change (d :: a) with ([d] ++ a). rewrite dec_val_app by exact DA. change (dec_val [d]) with (0 * 10 + digit_val d). pose proof (dec_val_bound a DA). assert (0 < 10 ^ Z.of_nat (length a)) by (apply Z.pow_pos_nonneg; lia). nia. }
  fold x in V. set (c' := digit_val c) in *. clearbody x c'. clear - V E CR CN XP D M.
  rewrite E in V. assert (C : m <= Z.of_nat n \/ Z.of_nat n < m) by lia. destruct C as [C|C].
  - assert (P : 10 ^ Z.of_nat n = 10 ^ (Z.of_nat n - m) * 10 ^ m) by (rewrite <- Z.pow_add_r by lia; f_equal; lia). assert (0 < 10 ^ m) by (apply Z.pow_pos_nonneg; lia). assert (0 < 10 ^ (Z.of_nat n - m)) by (apply Z.pow_pos_nonneg; lia). nia.
  - assert (P : 10 ^ m = 10 * 10 ^ (m - Z.of_nat n - 1) * 10 ^ Z.of_nat n) by (rewrite <- (Z.pow_1_r 10) at 2; rewrite <- !Z.pow_add_r by lia; f_equal; lia).
    assert (0 < 10 ^ Z.of_nat n) by (apply Z.pow_pos_nonneg; lia). set (p := 10 ^ (m - Z.of_nat n - 1)) in *. clearbody p.
    assert (d0 * (10 * p) = x * 10 + c') by nia. assert (c' = 10 * (d0 * p - x)) by nia. lia.
Qed.

Lemma large_bound : forall s, 0 <= s <= 10 ^ 21 -> s < float_limit.
Proof. intros s B. assert (10 ^ 21 < float_limit) by reflexivity. lia. Qed.
Lemma kind_all : forall k z q, Z.abs z <= 2 ^ 64 -> nearest_float (inject_Z (Z.abs z)) q -> 1000000 <= Z.abs z ->
  (one_digit q /\ exists p, (p == q)%Q /\ new_operands (CKind k z) = Ok (Ops p (f64_trunc (z <? 0) p) 0 0 0 0 0)) \/
  (~ one_digit q /\ new_operands (CKind k z) = Err).
Proof.
  intros k z q B NQ G. change (2 ^ 64) with 18446744073709551616 in B. set (w := Z.abs z) in *. set (f := f64_of_nat w).
  assert (W : 0 <= w < float_limit) by (split; [lia|apply large_bound; change (10 ^ 21) with 1000000000000000000000; lia]).
  assert (QF : (q == inject_Z f)%Q) by (eapply nearest_unique; [exact NQ|apply nat_nearest; exact W]).
  assert (FB : 1000000 <= f <= 18446744073709553664).
  { split; [|pose proof (nat_error w ltac:(lia)) as NE; fold f in NE; lia].
    destruct (Z_lt_ge_dec w 9007199254740992) as [L|L]; [unfold f; rewrite f64_of_nat_small by lia; lia|pose proof (f64_of_nat_large w ltac:(lia)); fold f in H; lia]. }
  assert (FI : f64_of_nat f = f) by (apply nat_idem; [exact W|fold f; apply large_bound; change (10 ^ 21) with 1000000000000000000000; lia]).
  assert (KT : new_operands (CKind k z) = new_operands_string (sgn (z <? 0) ++ fmt_v false (trim_zeros (utoa (shortest_int f))) (Z.of_nat (length (utoa (shortest_int f)))))).
  { unfold new_operands, int_digits, int_dp. cbv zeta.
    assert (A : Z.abs (f64_of_int z) = f) by (rewrite f64_of_int_abs; fold w; fold f; lia).
    assert (S : (f64_of_int z <? 0) = (z <? 0)).
    { unfold f64_of_int in *. destruct (z <? 0) eqn:N; [replace (- z) with w by lia|replace z with w by lia]; fold f; lia. }
    rewrite A, S. now rewrite fmt_v_sign. }
  pose proof (loop_rounds f 20 FI) as SR. fold (shortest_int f) in SR. set (s := shortest_int f) in *.
  assert (SB : 1000000 <= s).
  { destruct (Z_lt_ge_dec s 9007199254740992) as [L|L]; [|lia]. unfold f64_of_nat in SR. replace (s <? 9007199254740992) with true in SR by lia. lia. }
  destruct (large_digits s SB) as (d & ds & n & U & T & DD & DDS & TR & LEN & DV).
  rewrite KT. rewrite T. unfold fmt_v.
  destruct ((Z.of_nat (length (utoa s)) - 1 <? -4) || (6 <=? Z.of_nat (length (utoa s)) - 1)) eqn:X; [|lia]. cbn [app]. cbv zeta.
  assert (V : s = dec_val (d :: ds) * 10 ^ Z.of_nat n) by (destruct (utoa_spec s ltac:(lia)) as (_ & _ & V); rewrite <- V at 1; rewrite U; apply dec_val_zeros).
  assert (SL : s < float_limit).
  { apply large_bound. split; [lia|]. destruct (Z_le_gt_dec s (10 ^ 21)) as [|H]; [assumption|exfalso].
    pose proof (nat_error s ltac:(lia)) as NE. rewrite SR in NE. change (10 ^ 21) with 1000000000000000000000 in H. lia. }
  destruct ds as [|d1 ds]; [left|right].
  - change (dec_val [d]) with (0 * 10 + digit_val d) in V. rewrite Z.mul_0_l, Z.add_0_l in V. pose proof (digit_val_range d DD) as DR. split.
    + exists (digit_val d), (Z.of_nat n). split; [lia|]. split; [lia|]. rewrite <- V. apply (nearest_ext (inject_Z s) _ (inject_Z f)); [reflexivity|now symmetry|].
      rewrite <- SR. apply nat_nearest. lia.
    + assert (LN : Z.of_nat (length (utoa s)) - 1 = Z.of_nat n) by (rewrite U, app_length, repeat_length; cbn [length]; lia). rewrite LN.
      destruct (round_integer s ltac:(lia)) as (p & R & E). rewrite SR in E. exists p. split; [now rewrite E, QF|].
      cbn [app]. rewrite (exp_one (z <? 0) d (Z.of_nat n) p DD); [reflexivity|]. destruct (0 <=? Z.of_nat n) eqn:X0; [|lia]. now rewrite <- V.
  - split.
    + intros (d0 & m & D & M & N). assert (PM : 0 < 10 ^ m) by (apply Z.pow_pos_nonneg; lia).
      assert (ML : d0 * 10 ^ m <= 10 ^ 20).
      { destruct (Z_le_gt_dec (d0 * 10 ^ m) (10 ^ 20)) as [|H]; [assumption|exfalso].
        pose proof (nearest_mono (inject_Z (10 ^ 20)) (inject_Z (d0 * 10 ^ m)) (inject_Z (f64_of_nat (10 ^ 20))) q) as MO.
        rewrite <- Zle_Qle in MO. specialize (MO ltac:(lia) (nat_nearest (10 ^ 20) ltac:(split; [vm_compute; discriminate|reflexivity])) N).
        rewrite QF in MO. rewrite <- Zle_Qle in MO. change (f64_of_nat (10 ^ 20)) with 100000000000000000000 in MO. lia. }
      assert (M20 : m <= 20).
      { destruct (Z_le_gt_dec m 20) as [|H]; [assumption|exfalso]. assert (10 ^ 21 <= 10 ^ m) by (apply Z.pow_le_mono_r; lia).
        change (10 ^ 21) with 1000000000000000000000 in H0. change (10 ^ 20) with 100000000000000000000 in ML. nia. }
      assert (E : f64_of_nat (d0 * 10 ^ m) = f).
      { apply inject_Z_injective. rewrite <- QF. eapply nearest_unique; [apply nat_nearest|exact N]. split; [nia|]. apply large_bound. change (10 ^ 20) with 100000000000000000000 in ML. change (10 ^ 21) with 1000000000000000000000. nia. }
      pose proof (loop_digit d0 m 20 D ltac:(lia) ltac:(lia) ML) as SE. rewrite E in SE. fold (shortest_int f) in SE. fold s in SE.
      destruct (one_digit_trim s d0 m SB D M SE) as (e & TE). congruence.
    + exact (exp_many (z <? 0) d (d1 :: ds) _ DD DDS ltac:(discriminate)).
Qed.

Lemma trunc_value : forall neg p w, 0 <= w -> (p == inject_Z w)%Q -> f64_trunc neg p = if w <=? maxInt64 then (if neg then - w else w) else minInt64.
Proof.
  intros neg p w W E. assert (F : Qfloor p = w) by (rewrite E; apply Qfloor_Z). rewrite trunc_any, F; [reflexivity|]. rewrite E. change 0%Q with (inject_Z 0). now rewrite <- Zle_Qle.
Qed.
Lemma near_of : forall neg v q p, nearest_float v q -> (p == q)%Q -> (0 <= q)%Q -> float_near neg v p (f64_trunc neg p).
Proof. intros neg v q p N E P. split; [apply (nearest_ext v v q p); [reflexivity|now symmetry|exact N]|]. apply trunc_any. now rewrite E. Qed.
Lemma float_nonneg : forall q, float64 q -> (0 <= q)%Q.
Proof.
  intros q (m & e & M & _ & ->). assert (0 < Qpower 2 e)%Q by (apply Qpower.Qpower_0_lt; reflexivity).
  assert (0 <= inject_Z m)%Q by (change 0%Q with (inject_Z 0); rewrite <- Zle_Qle; lia). nra.
Qed.
Lemma nearest_small : forall z q, 0 <= z <= 9007199254740992 -> nearest_float (inject_Z z) q -> (q == inject_Z z)%Q.
Proof.
  intros z q B N. pose proof (nat_nearest z) as H. rewrite f64_of_nat_small in H by exact B. eapply nearest_unique; [exact N|apply H]. split; [lia|]. apply large_bound. change (10 ^ 21) with 1000000000000000000000. lia.
Qed.
Lemma kinds_all : forall k z q, Z.abs z <= 2 ^ 64 -> nearest_float (inject_Z (Z.abs z)) q ->
  (Z.abs z < 1000000 \/ one_digit q -> exists o, new_operands (CKind k z) = Ok o /\ oV o = 0 /\ oW o = 0 /\ oF o = 0 /\ oT o = 0 /\ oC o = 0 /\ float_near (z <? 0) (inject_Z (Z.abs z)) (oN o) (oI o)) /\
  (~ (Z.abs z < 1000000 \/ one_digit q) -> new_operands (CKind k z) = Err).
Proof.
  intros k z q B N. destruct (Z_lt_ge_dec (Z.abs z) 1000000) as [L|G].
  - split; [intros _|intros H; elim H; now left]. destruct (kind_short k z ltac:(lia) (or_introl L)) as (p & E & P). eexists. split; [exact E|]. cbn [oN oI oV oW oF oT oC]. do 5 (split; [reflexivity|]).
    assert (Z0 : f64_trunc (z <? 0) p = z) by (rewrite (trunc_int (z <? 0) p (Z.abs z) ltac:(lia) P); destruct (z <? 0) eqn:S; lia).
    assert (PQ : (p == q)%Q) by (rewrite P; symmetry; apply nearest_small; [lia|exact N]).
    pose proof (near_of (z <? 0) _ q p N PQ (float_nonneg q (proj1 N))) as H. rewrite Z0 in H. exact H.
  - destruct (kind_all k z q B N ltac:(lia)) as [(O & p & E & R)|(O & R)]; (split; intro H; [|]).
    + eexists. split; [exact R|]. cbn [oN oI oV oW oF oT oC]. do 5 (split; [reflexivity|]). apply (near_of _ _ q); [exact N|exact E|apply float_nonneg, N].
    + elim H. now right.
    + destruct H as [H|H]; [lia|contradiction].
    + exact R.
Qed.
Lemma text_all : forall z, Z.abs z <= 2 ^ 64 -> exists o, new_operands (CString (itoa z)) = Ok o /\ oV o = 0 /\ oW o = 0 /\ oF o = 0 /\ oT o = 0 /\ oC o = 0 /\
  float_near (z <? 0) (inject_Z (Z.abs z)) (oN o) (oI o).
Proof.
  intros z B. change (2 ^ 64) with 18446744073709551616 in B. set (x := Num (z <? 0) (utoa (Z.abs z)) None None).
  destruct (utoa_spec (Z.abs z) ltac:(lia)) as (NE & D & V).
  assert (OK : nm_ok x) by (split; [exact NE|]; split; [now apply all_digits_b|exact I]).
  assert (TX : nm_text x = itoa z).
  { unfold nm_text, x, itoa. cbn [nm_neg nm_ip nm_fp nm_exp app]. rewrite !app_nil_r. destruct (z <? 0) eqn:E; [replace (Z.abs z) with (- z) by lia|replace (Z.abs z) with z by lia]; reflexivity. }
  assert (SC : nm_scaled x = Z.abs z).
  { unfold nm_scaled, nm_digits, x, nm_fdigits, nm_e. cbn [nm_ip nm_fp nm_exp length]. rewrite app_nil_r, V. unfold p10. cbn [Nat.sub Z.of_nat]. now rewrite Z.pow_0_r, Z.mul_1_r. }
  assert (NV : nm_v x = 0%nat) by reflexivity. assert (P0 : p10 (nm_v x) = 1) by reflexivity.
  destruct (numeral_good x OK) as (q & w & t & O & W & Q0 & R).
  - change (Z.of_nat (nm_e x)) with 0. unfold maxInt64. lia.
  - rewrite P0, Z.mod_1_r. unfold maxInt64. lia.
  - unfold nm_value. rewrite P0, SC. change (Z.abs z # Z.to_pos 1) with (inject_Z (Z.abs z)). rewrite <- Zlt_Qlt. apply large_bound. change (10 ^ 21) with 1000000000000000000000. lia.
  - rewrite P0, SC in R. rewrite TX, P0, Z.mod_1_r in O. rewrite P0, Z.mod_1_r, NV in W. rewrite NV in O. change (Z.of_nat 0) with 0 in *. change (Z.of_nat (nm_e x)) with 0 in O.
    assert (w = 0) by (destruct W as (W & _); lia). assert (t = 0). { destruct W as (_ & W & _). subst w. rewrite Z.sub_diag, Z.pow_0_r in W. lia. }
    subst w t. eexists. split; [cbn [new_operands]; exact O|]. cbn [oN oI oV oW oF oT oC]. do 5 (split; [reflexivity|]).
    apply (near_of _ _ q); [exact (round_nearest (Z.abs z) 1 q ltac:(lia) ltac:(lia) R)|reflexivity|exact Q0].
Qed.

(** A digit followed by zeros is a float64 as long as it fits an int64. *)
Lemma digit_exact : forall d m, 1 <= d <= 9 -> 0 <= m -> d * 10 ^ m <= maxInt64 -> f64_of_nat (d * 10 ^ m) = d * 10 ^ m.
Proof.
  intros d m D M L. assert (M18 : m <= 18).
  { destruct (Z_le_gt_dec m 18) as [|H]; [assumption|exfalso]. assert (10 ^ 19 <= 10 ^ m) by (apply Z.pow_le_mono_r; lia). change (10 ^ 19) with 10000000000000000000 in H0. unfold maxInt64 in L. nia. }
  assert (C : forallb (fun e => forallb (fun x => f64_of_nat (Z.of_nat x * 10 ^ Z.of_nat e) =? Z.of_nat x * 10 ^ Z.of_nat e) (seq 1 9)) (seq 0 19) = true) by (vm_compute; reflexivity).
  rewrite forallb_forall in C. specialize (C (Z.to_nat m)). rewrite in_seq in C. specialize (C ltac:(lia)).
  rewrite forallb_forall in C. specialize (C (Z.to_nat d)). rewrite in_seq in C. specialize (C ltac:(lia)). rewrite !Z2Nat.id in C by lia. now apply Z.eqb_eq in C.
Qed.
Lemma int_ops : forall z, minInt64 < z <= maxInt64 -> new_operands (CInt z) = Ok (Ops (inject_Z (f64_of_nat (Z.abs z))) (Z.abs z) 0 0 0 0 0).
Proof.
  intros z B. unfold new_operands, new_operands_int. replace (if (z <? 0) && negb (z =? minInt64) then - z else z) with (Z.abs z) by (destruct ((z <? 0) && negb (z =? minInt64)) eqn:X; lia).
  cbv zeta. unfold f64_of_int. now replace (Z.abs z <? 0) with false by lia.
Qed.
