(** C12: exactly which integers get the same operands from every type. *)
From Coq Require Import String Ascii List ZArith QArith Bool Lia ZifyBool.
From Verif Require Import Base NumModel F64Model CldrModel CldrSpec CldrTextProofs CldrEvalProofs CldrKindSpec CldrKindProofs TheoremsCldr.
Import ListNotations.
Open Scope Z_scope.

(** The kinds other than int and int64 pass through the text of a float64.  Up
    to 2^53 the operands are right for the short numbers, except that i keeps
    the sign; every other integer is refused. *)
Theorem C12_kinds_exactly : forall k z, Z.abs z <= 2 ^ 53 ->
  (short_number z -> exists o, new_operands (CKind k z) = Ok o /\ (oN o == inject_Z (Z.abs z))%Q /\ oI o = z /\ oV o = 0 /\ oW o = 0 /\ oF o = 0 /\ oT o = 0 /\ oC o = 0) /\
  (~ short_number z -> new_operands (CKind k z) = Err).
Proof.
  intros k z B. change (2 ^ 53) with 9007199254740992 in B. split; intro S; [|now apply kind_long].
  destruct (kind_short k z B S) as (q & E & Q). exists (Ops q z 0 0 0 0 0). now repeat split.
Qed.
Example C12_kinds_exactly_example : short_number 40000000 /\ ~ short_number 41000000 /\ short_number (-999999).
Proof.
  split; [right; exists 4, 7; lia|]. split; [|left; lia]. intros [H|(d & m & D & M & E)]; [lia|].
  assert (m < 7 \/ m = 7 \/ 8 <= m) as [C|[->|C]] by lia; [| |].
  - assert (10 ^ m <= 10 ^ 6) by (apply Z.pow_le_mono_r; lia). change (10 ^ 6) with 1000000 in H. set (p := 10 ^ m) in *. clearbody p. nia.
  - change (10 ^ 7) with 10000000 in E. lia.
  - assert (10 ^ 8 <= 10 ^ m) by (apply Z.pow_le_mono_r; lia). change (10 ^ 8) with 100000000 in H. set (p := 10 ^ m) in *. clearbody p. nia.
Qed.

(** The decimal text is always accepted; i keeps its sign as well. *)
Theorem C12_text_exactly : forall z, Z.abs z <= 2 ^ 53 ->
  exists o, new_operands (CString (itoa z)) = Ok o /\ (oN o == inject_Z (Z.abs z))%Q /\ oI o = z /\ oV o = 0 /\ oW o = 0 /\ oF o = 0 /\ oT o = 0 /\ oC o = 0.
Proof.
  intros z B. change (2 ^ 53) with 9007199254740992 in B. destruct (string_any z B) as (q & E & Q). exists (Ops q z 0 0 0 0 0). now repeat split.
Qed.

(** So an integer type agrees with int exactly for the short numbers that are
    not negative, and the text exactly for the numbers that are not negative. *)
Theorem C12_agreement : forall k z, Z.abs z <= 2 ^ 53 ->
  ((exists o1 o2, new_operands (CInt z) = Ok o1 /\ new_operands (CKind k z) = Ok o2 /\ same_ops o1 o2) <-> 0 <= z /\ short_number z) /\
  ((exists o1 o2, new_operands (CInt z) = Ok o1 /\ new_operands (CString (itoa z)) = Ok o2 /\ same_ops o1 o2) <-> 0 <= z).
Proof.
  intros k z B. pose proof B as B0. change (2 ^ 53) with 9007199254740992 in B.
  assert (I : new_operands (CInt z) = Ok (Ops (inject_Z (Z.abs z)) (Z.abs z) 0 0 0 0 0)).
  { unfold new_operands, new_operands_int. replace (if (z <? 0) && negb (z =? minInt64) then - z else z) with (Z.abs z) by (unfold minInt64; destruct ((z <? 0) && negb (z =? -9223372036854775808)) eqn:X; lia).
    cbv zeta. assert (F : f64_of_int (Z.abs z) = Z.abs z); [|now rewrite F].
    assert (C : Z.abs z < 9007199254740992 \/ Z.abs z = 9007199254740992) by lia. destruct C as [C| ->]; [|reflexivity]. apply f64_of_int_small. unfold two53. lia. }
  split; split.
  - intros (o1 & o2 & E1 & E2 & S). rewrite I in E1. injection E1 as <-.
    assert (SN : short_number z \/ ~ short_number z).
    { (* the answer tells *) destruct (Z_lt_ge_dec (Z.abs z) 1000000) as [L|G]; [left; now left|].
      destruct (large_digits (Z.abs z) ltac:(lia)) as (d & ds & n & U & T & DD & DDS & TR & LEN & DV). clear S.
      destruct ds as [|d1 ds]; [left|right].
      - right. exists (digit_val d), (Z.of_nat n). pose proof (BaseProofs.digit_val_range d DD). split; [lia|]. split; [lia|].
        destruct (BaseProofs.utoa_spec (Z.abs z) ltac:(lia)) as (_ & _ & V). rewrite <- V, U, CldrOperandProofs.dec_val_zeros. change (dec_val [d]) with (0 * 10 + digit_val d). now rewrite Z.mul_0_l, Z.add_0_l.
      - intro S. destruct (kind_short k z B S) as (q & E & Q). rewrite kind_text in E by exact B. revert E. unfold fmt_v, int_digits, int_dp. rewrite Z.abs_involutive, ShortProofs.shortest_small, T by lia.
        destruct ((Z.of_nat (length (utoa (Z.abs z))) - 1 <? -4) || (6 <=? Z.of_nat (length (utoa (Z.abs z))) - 1)) eqn:X; [|lia]. cbn [app]. cbv zeta.
        intro E. pose proof (exp_many (z <? 0) d (d1 :: ds) (Z.of_nat (length (utoa (Z.abs z))) - 1) DD DDS ltac:(discriminate)) as F. cbn [app] in E, F. congruence. }
    destruct (C12_kinds_exactly k z B0) as [K1 K2]. destruct SN as [SN|SN]; [|rewrite (K2 SN) in E2; discriminate].
    destruct (K1 SN) as (o & E & _ & OI & _). rewrite E2 in E. injection E as <-. split; [|exact SN]. destruct S as (_ & SI & _). cbn [oI] in SI. lia.
  - intros [P S]. destruct (kind_short k z B S) as (q & E & Q). eexists _, _. split; [exact I|]. split; [exact E|]. unfold same_ops. cbn [oN oI oV oW oF oT oC]. rewrite Q. repeat split; lia || reflexivity.
  - intros (o1 & o2 & E1 & E2 & S). rewrite I in E1. injection E1 as <-. destruct (C12_text_exactly z B0) as (o & E & _ & OI & _). rewrite E2 in E. injection E as <-. destruct S as (_ & SI & _). cbn [oI] in SI. lia.
  - intros P. destruct (string_any z B) as (q & E & Q). eexists _, _. split; [exact I|]. split; [exact E|]. unfold same_ops. cbn [oN oI oV oW oF oT oC]. rewrite Q. repeat split; lia || reflexivity.
Qed.
Example C12_agreement_example : Z.abs 1234567 <= 2 ^ 53 /\ new_operands (CKind Kuint32 1234567) = Err /\ new_operands (CKind Kint32 (-3000000)) <> Err.
Proof. split; [lia|]. split; [vm_compute; reflexivity|vm_compute; discriminate]. Qed.

(** The kinds hold the integers that fit into their bits. *)
Theorem C07_kinds : forall k z, kmin k <= z <= kmax k <->
  match k with
  | Kint8 => - 2 ^ 7 <= z < 2 ^ 7 | Kint16 => - 2 ^ 15 <= z < 2 ^ 15 | Kint32 => - 2 ^ 31 <= z < 2 ^ 31 | Kint | Kint64 => - 2 ^ 63 <= z < 2 ^ 63
  | Kuint8 => 0 <= z < 2 ^ 8 | Kuint16 => 0 <= z < 2 ^ 16 | Kuint32 => 0 <= z < 2 ^ 32 | Kuint | Kuint64 => 0 <= z < 2 ^ 64
  end.
Proof.
  intros k z. unfold kmin, kmax, minInt64, maxInt64, maxUint64.
  change (2 ^ 7) with 128. change (2 ^ 15) with 32768. change (2 ^ 31) with 2147483648. change (2 ^ 63) with 9223372036854775808.
  change (2 ^ 8) with 256. change (2 ^ 16) with 65536. change (2 ^ 32) with 4294967296. change (2 ^ 64) with 18446744073709551616.
  destruct k; lia.
Qed.
Example C07_kinds_example : kmin Kuint16 <= 0 <= kmax Kuint16 /\ kmin Kint16 <= -32768 <= kmax Kint16.
Proof. vm_compute. repeat split; discriminate. Qed.

Print Assumptions C12_kinds_exactly.
Print Assumptions C12_text_exactly.
Print Assumptions C12_agreement.
Print Assumptions C07_kinds.
