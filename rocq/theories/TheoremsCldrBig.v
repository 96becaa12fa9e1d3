(** C12 for integers of any size. *)
From Coq Require Import String Ascii List ZArith QArith Qround Bool Lia ZifyBool.
From Verif Require Import Base NumModel NumProofs F64Model CldrModel CldrFloatSpec NearSpec NearProofs CldrKindSpec CldrKindProofs AskedProofs ShortNearProofs TheoremsCldr.
Import ListNotations.
Open Scope Z_scope.

(** The kinds other than int and int64: the number becomes a float64, and is
    refused from a million on unless that float64 is the nearest one to a digit
    followed by zeros.  Otherwise n is the float64 and i its integer part with
    the sign of the number, or the smallest int64 if it does not fit. *)
Theorem C12_kinds_all : forall k z q, Z.abs z <= 2 ^ 64 -> nearest_float (inject_Z (Z.abs z)) q ->
  (Z.abs z < 1000000 \/ one_digit q ->
     exists o, new_operands (CKind k z) = Ok o /\ oV o = 0 /\ oW o = 0 /\ oF o = 0 /\ oT o = 0 /\ oC o = 0 /\
       float_near (z <? 0) (inject_Z (Z.abs z)) (oN o) (oI o)) /\
  (~ (Z.abs z < 1000000 \/ one_digit q) -> new_operands (CKind k z) = Err).
Proof. exact kinds_all. Qed.
(** 10^18 + 1 counts as 10^18, 2^64 - 1 is refused. *)
Example C12_kinds_all_example : exists q, nearest_float (inject_Z (10 ^ 18 + 1)) q /\ one_digit q /\
  (exists o, new_operands (CKind Kuint64 (10 ^ 18 + 1)) = Ok o /\ oI o = 10 ^ 18) /\ new_operands (CKind Kuint64 (2 ^ 64 - 1)) = Err.
Proof.
  exists (inject_Z (10 ^ 18)). split; [|split; [|split]].
  - change (10 ^ 18) with (f64_of_nat (10 ^ 18 + 1)) at 2. apply nat_nearest. split; [vm_compute; discriminate|reflexivity].
  - exists 1, 18. split; [lia|]. split; [lia|]. change (10 ^ 18) with (f64_of_nat (10 ^ 18)) at 2. apply nat_nearest. split; [vm_compute; discriminate|reflexivity].
  - eexists. split; vm_compute; reflexivity.
  - vm_compute. reflexivity.
Qed.

(** The decimal text of every integer is accepted, with the same operands. *)
Theorem C12_text_all : forall z, Z.abs z <= 2 ^ 64 ->
  exists o, new_operands (CString (itoa z)) = Ok o /\ oV o = 0 /\ oW o = 0 /\ oF o = 0 /\ oT o = 0 /\ oC o = 0 /\
    float_near (z <? 0) (inject_Z (Z.abs z)) (oN o) (oI o).
Proof. exact text_all. Qed.
Example C12_text_all_example : exists o, new_operands (CString (itoa (2 ^ 64 - 1))) = Ok o /\ oI o = minInt64 /\ (oN o == inject_Z (2 ^ 64))%Q.
Proof. eexists. split; [vm_compute; reflexivity|]. split; reflexivity. Qed.

(** int and int64: n the nearest float64, i the absolute value; the sign of the
    smallest int64 stays. *)
Theorem C12_int_all : forall z, minInt64 <= z <= maxInt64 -> exists o, new_operands (CInt z) = Ok o /\
  oV o = 0 /\ oW o = 0 /\ oF o = 0 /\ oT o = 0 /\ oC o = 0 /\
  (z <> minInt64 -> nearest_float (inject_Z (Z.abs z)) (oN o) /\ oI o = Z.abs z) /\
  (z = minInt64 -> oN o = inject_Z minInt64 /\ oI o = minInt64).
Proof.
  intros z B. destruct (Z.eq_dec z minInt64) as [->|N].
  - eexists. split; [reflexivity|]. repeat (split; [reflexivity|]). split; [congruence|]. split; vm_compute; reflexivity.
  - rewrite int_ops by lia. eexists. split; [reflexivity|]. cbn [oN oI oV oW oF oT oC]. do 5 (split; [reflexivity|]). split; [|congruence]. intros _. split; [|reflexivity].
    apply nat_nearest. split; [lia|]. apply large_bound. unfold minInt64, maxInt64 in B. change (10 ^ 21) with 1000000000000000000000. lia.
Qed.
Example C12_int_all_example : minInt64 <= -9223372036854775808 <= maxInt64 /\ minInt64 = -9223372036854775808.
Proof. vm_compute. repeat split; discriminate. Qed.

(** So a kind agrees with int exactly for the short numbers that are not
    negative, and the text for the float64 that are not negative. *)
Theorem C12_agreement_all : forall k z, minInt64 < z <= maxInt64 ->
  ((exists o1 o2, new_operands (CInt z) = Ok o1 /\ new_operands (CKind k z) = Ok o2 /\ same_ops o1 o2) <-> 0 <= z /\ short_number z) /\
  ((exists o1 o2, new_operands (CInt z) = Ok o1 /\ new_operands (CString (itoa z)) = Ok o2 /\ same_ops o1 o2) <-> 0 <= z /\ float64 (inject_Z z)).
Proof.
  intros k z B. pose proof (int_ops z B) as I. unfold minInt64, maxInt64 in B.
  assert (W : 0 <= Z.abs z < FloatTextProofs.float_limit) by (split; [lia|apply large_bound; change (10 ^ 21) with 1000000000000000000000; lia]).
  pose proof (nat_nearest (Z.abs z) W) as NF. assert (B64 : Z.abs z <= 2 ^ 64) by (change (2 ^ 64) with 18446744073709551616; lia).
  (* equal operands: the float is the integer itself *)
  assert (EQ : forall o, float_near (z <? 0) (inject_Z (Z.abs z)) (oN o) (oI o) -> oI o = Z.abs z -> 0 <= z /\ f64_of_nat z = z).
  { intros o (N & OI) E. pose proof (nearest_unique _ _ _ N NF) as Q. assert (FQ : Qfloor (oN o) = f64_of_nat (Z.abs z)) by (rewrite Q; apply Qfloor_Z). rewrite FQ in OI. clear FQ. pose proof (f64_of_nat_nonneg (Z.abs z) ltac:(lia)) as P. unfold maxInt64, minInt64 in OI.
    destruct (f64_of_nat (Z.abs z) <=? 9223372036854775807) eqn:C; [|lia]. destruct (z <? 0) eqn:S.
    - exfalso. set (g := f64_of_nat (Z.abs z)) in *. clearbody g. lia.
    - replace (Z.abs z) with z in * by lia. lia. }
  assert (SAME : forall o, oV o = 0 -> oW o = 0 -> oF o = 0 -> oT o = 0 -> oC o = 0 -> float_near (z <? 0) (inject_Z (Z.abs z)) (oN o) (oI o) -> 0 <= z -> f64_of_nat z = z ->
    same_ops (Ops (inject_Z (f64_of_nat (Z.abs z))) (Z.abs z) 0 0 0 0 0) o).
  { intros o V W0 F T C (N & OI) P E. pose proof (nearest_unique _ _ _ N NF) as Q. unfold same_ops. cbn [oN oI oV oW oF oT oC]. split; [now symmetry|].
    assert (FQ : Qfloor (oN o) = f64_of_nat (Z.abs z)) by (rewrite Q; apply Qfloor_Z). rewrite OI, FQ, Z.abs_eq, E by lia. unfold maxInt64. destruct (z <=? 9223372036854775807) eqn:L; [|lia]. destruct (z <? 0) eqn:S; [lia|]. repeat split; congruence. }
  destruct (C12_kinds_all k z _ B64 NF) as [K1 K2]. destruct (C12_text_all z B64) as (o & TO & V & W0 & F & T & C & TN). split; split.
  - intros (o1 & o2 & E1 & E2 & S). rewrite I in E1. injection E1 as <-.
    destruct (Z_lt_ge_dec (Z.abs z) 1000000) as [L|G].
    + destruct (K1 (or_introl L)) as (o' & E' & _ & _ & _ & _ & _ & N). rewrite E2 in E'. injection E' as <-. destruct S as (_ & SI & _). cbn [oI] in SI.
      split; [exact (proj1 (EQ o2 N (eq_sym SI)))|now left].
    + destruct (kind_all k z _ B64 NF ltac:(lia)) as [(O & _)|(_ & R)]; [|congruence].
      destruct (K1 (or_intror O)) as (o' & E' & _ & _ & _ & _ & _ & N). rewrite E2 in E'. injection E' as <-. destruct S as (_ & SI & _). cbn [oI] in SI.
      destruct (EQ o2 N (eq_sym SI)) as (P & FE). split; [exact P|]. right. destruct O as (d & m & D & M & O). exists d, m. split; [exact D|]. split; [exact M|].
      rewrite (Z.abs_eq z) in * by lia. rewrite FE in O, NF.
      assert (PM : 0 < 10 ^ m) by (apply Z.pow_pos_nonneg; lia).
      assert (DL : d * 10 ^ m <= maxInt64).
      { destruct (Z_le_gt_dec (d * 10 ^ m) maxInt64) as [|H]; [assumption|exfalso]. unfold maxInt64 in H.
        pose proof (nearest_mono (inject_Z 9223372036854775808) (inject_Z (d * 10 ^ m)) (inject_Z (f64_of_nat 9223372036854775808)) (inject_Z z)) as MO.
        rewrite <- !Zle_Qle in MO. specialize (MO ltac:(lia) (nat_nearest 9223372036854775808 ltac:(split; [lia|reflexivity])) O).
        change (f64_of_nat 9223372036854775808) with 9223372036854775808 in MO. lia. }
      pose proof (digit_exact d m D M DL) as X. unfold maxInt64 in DL.
      pose proof (nearest_unique _ _ _ (nat_nearest (d * 10 ^ m) ltac:(split; [nia|apply large_bound; change (10 ^ 21) with 1000000000000000000000; nia])) O) as U.
      rewrite X in U. symmetry. exact (proj1 (inject_Z_injective _ _) U).
  - intros [P S]. assert (FE : f64_of_nat z = z /\ (Z.abs z < 1000000 \/ one_digit (inject_Z (f64_of_nat (Z.abs z))))).
    { destruct S as [S|(d & m & D & M & E)]; [split; [apply f64_of_nat_small; lia|now left]|].
      rewrite (Z.abs_eq z P) in *. assert (X : f64_of_nat z = z) by (rewrite E; apply digit_exact; [exact D|exact M|rewrite <- E; unfold maxInt64; lia]).
      split; [exact X|]. right. exists d, m. split; [exact D|]. split; [exact M|]. rewrite <- E. exact NF. }
    destruct FE as [FE H]. destruct (K1 H) as (o' & E' & V' & W' & F' & T' & C' & N). eexists _, o'. split; [exact I|]. split; [exact E'|]. now apply SAME.
  - intros (o1 & o2 & E1 & E2 & S). rewrite I in E1. injection E1 as <-. rewrite TO in E2. injection E2 as <-. destruct S as (_ & SI & _). cbn [oI] in SI.
    destruct (EQ o TN (eq_sym SI)) as (P & FE). split; [exact P|]. rewrite (Z.abs_eq z P), FE in NF. exact (proj1 NF).
  - intros [P FL]. eexists _, o. split; [exact I|]. split; [exact TO|]. apply SAME; try assumption.
    rewrite (Z.abs_eq z P) in NF. exact (proj1 (inject_Z_injective _ _) (nearest_unique _ _ _ NF (nearest_self_float _ FL))).
Qed.
Example C12_agreement_all_example : short_number (3 * 10 ^ 18) /\ 3 * 10 ^ 18 <= maxInt64 /\ ~ (2 ^ 62 + 1 <= 0) /\ float64 (inject_Z (2 ^ 62)) /\
  exists o, new_operands (CString (itoa (2 ^ 62 + 1))) = Ok o /\ oI o = 2 ^ 62.
Proof.
  split; [right; exists 3, 18; split; [lia|]; split; [lia|reflexivity]|]. split; [vm_compute; discriminate|]. split; [vm_compute; intro H; now apply H|].
  split; [exists 1, 62; repeat split; try lia; reflexivity|]. eexists. split; vm_compute; reflexivity.
Qed.

Print Assumptions C12_kinds_all.
Print Assumptions C12_text_all.
Print Assumptions C12_int_all.
Print Assumptions C12_agreement_all.
