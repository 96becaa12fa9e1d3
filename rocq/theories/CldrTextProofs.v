(** The CLDR spelling of conditions; operands of integers. *)
From Coq Require Import String Ascii List ZArith QArith Qround Bool Lia ZifyBool.
From Verif Require Import Base BaseProofs Utf8Model Utf8Proofs StrModel PopModel NumModel NumProofs F64Model
  F64Proofs ReModel ReProofs CldrModel CldrBuiltin CldrSpec CldrRules CldrEvalProofs CldrOperandProofs
  CldrBuiltinProofs CldrParseProofs CldrSampleProofs ShortProofs.
Import ListNotations.
Open Scope Z_scope.

(** ** Spelling *)

Lemma utoa_aux_lead : forall f n acc, 0 < n -> (Z.to_nat (Z.log2 n) < f)%nat ->
  no_leading_zero (utoa_aux f n acc).
Proof.
  induction f as [|f IH]; intros n acc N L; [lia|]. cbn [utoa_aux].
  destruct (n <? 10) eqn:E.
  - cbn [no_leading_zero]. intro H. apply (f_equal digit_val) in H.
    rewrite Z.mod_small in H by lia.
    destruct (digit_char_val n) as [D _]; [lia|]. rewrite D in H. change (digit_val "0") with 0 in H. lia.
  - apply IH.
    + pose proof (Z.div_str_pos n 10). lia.
    + assert (Z.log2 (n / 10) < Z.log2 n).
      { assert (n / 10 <= n / 2).
        { apply Z.div_le_compat_l; lia. }
        assert (Z.log2 (n / 10) <= Z.log2 (n / 2)) by (apply Z.log2_le_mono; assumption).
        assert (Z.log2 (n / 2) < Z.log2 n); [|lia].
        change (n / 2) with (n / 2 ^ 1). rewrite <- Z.shiftr_div_pow2 by lia.
        rewrite Z.log2_shiftr by lia. pose proof (Z.log2_pos n). lia. }
      pose proof (Z.log2_nonneg (n / 10)). lia.
Qed.
Lemma utoa_lead : forall n, 0 < n -> no_leading_zero (utoa n).
Proof. intros n N. unfold utoa. apply utoa_aux_lead; [exact N|lia]. Qed.

Lemma writes_utoa : forall v, 0 <= v -> writes v (utoa v).
Proof.
  intros v V. destruct (utoa_spec v V) as (N & D & E). split; [exact N|]. split; [|exact E].
  apply all_digits_b. exact D.
Qed.

Lemma spaced_prefix : forall z ts s, Forall sep_char z -> spaced ts s -> spaced ts (z ++ s).
Proof.
  intros z ts s Z H. destruct H as [y Y|y t x Y X|y t ts s Y S E].
  - constructor. apply Forall_app. auto.
  - rewrite app_assoc. constructor; auto. apply Forall_app. auto.
  - rewrite app_assoc. constructor; auto. apply Forall_app. auto.
Qed.

Definition sep_head (s : bytes) : Prop := exists c s', s = c :: s' /\ sep_char c.

Lemma spaced_app : forall ts1 s1, spaced ts1 s1 -> forall ts2 s2, spaced ts2 s2 -> sep_head s2 ->
  spaced (ts1 ++ ts2) (s1 ++ s2).
Proof.
  intros ts1 s1 H. induction H as [y Y|y t x Y X|y t ts s Y S IH (c & s' & E & C)]; intros ts2 s2 H2 SH.
  - apply spaced_prefix; assumption.
  - cbn [app]. rewrite <- !app_assoc. apply SpCons; [exact Y|apply spaced_prefix; assumption|].
    destruct x as [|a x]; [exact SH|]. inversion X; subst. exists a. eexists. split; [reflexivity|assumption].
  - cbn [app]. rewrite <- !app_assoc. apply SpCons; [exact Y|apply IH; assumption|].
    subst s. exists c. eexists. split; [reflexivity|exact C].
Qed.

Lemma spaced_one : forall t, spaced [t] t.
Proof.
  intro t. rewrite <- (app_nil_r t) at 2. rewrite <- (app_nil_l (t ++ [])). constructor; constructor.
Qed.
Lemma spaced_sp : forall t r s, spaced r s -> spaced (t :: r) (SP :: t ++ SP :: s).
Proof.
  intros t r s H. change (SP :: t ++ SP :: s) with ([SP] ++ t ++ (SP :: s)). apply SpCons.
  - constructor; [left; reflexivity|constructor].
  - apply (spaced_prefix [SP]); [constructor; [left; reflexivity|constructor]|exact H].
  - exists SP; eexists. split; [reflexivity|left; reflexivity].
Qed.

(** Conditions the printer handles: non-empty lists, upper ends above 0. *)
Definition elem_print (e : elem) : Prop :=
  match e with Val v => 0 <= v | Range a b => 0 <= a <= b /\ 0 < b end.
Fixpoint cond_print (c : cond) : Prop :=
  match c with
  | Rel _ e l => match x_mod e with Some m => 0 <= m | None => True end /\ l <> [] /\ Forall elem_print l
  | And a b | Or a b => cond_print a /\ cond_print b
  end.

Lemma elems_text : forall l, Forall elem_print l -> l <> [] ->
  Forall2 elem_toks l (map elem_text l) /\ spaced (map elem_text l) (commas (map elem_text l)).
Proof.
  intros l F. induction F as [|e l H F IH]; intro N; [contradiction|].
  assert (E : elem_toks e (elem_text e)).
  { destruct e as [v|a b]; cbn [elem_text elem_print] in *.
    - constructor. apply writes_utoa. exact H.
    - constructor; [apply writes_utoa; lia|apply writes_utoa; lia|apply utoa_lead; lia|lia]. }
  destruct l as [|e2 l].
  - split; [repeat constructor; exact E|]. cbn [map commas]. apply spaced_one.
  - destruct (IH ltac:(discriminate)) as [A B]. split; [constructor; [exact E|exact A]|].
    change (commas (map elem_text (e :: e2 :: l)))
      with (elem_text e ++ ","%char :: commas (map elem_text (e2 :: l))).
    rewrite <- (app_nil_l (elem_text e ++ _)). cbn [map] in *. apply SpCons.
    + constructor.
    + apply (spaced_prefix [","%char]); [constructor; [|constructor]|exact B].
      right; right; right; right; left; reflexivity.
    + exists ","%char; eexists. split; [reflexivity|]. right; right; right; right; left; reflexivity.
Qed.

Lemma cond_text_toks : forall c, cond_print c ->
  exists ts, cond_toks c ts /\ spaced ts (cond_text c).
Proof.
  induction c as [neg e l|a IHa b IHb|a IHa b IHb]; intro P; cbn [cond_print cond_text] in *.
  - destruct P as (M & N & F). destruct (elems_text l F N) as [A B].
    destruct e as [o m]. cbn [x_mod x_op] in *. unfold expr_text. cbn [x_mod x_op].
    set (T := map elem_text l) in *.
    assert (R : spaced ((if neg then bs "!=" else bs "=") :: T)
                  ((if neg then bs " != " else bs " = ") ++ commas T)).
    { destruct neg; [exact (spaced_sp (bs "!=") T _ B)|exact (spaced_sp (bs "=") T _ B)]. }
    assert (SH : sep_head ((if neg then bs " != " else bs " = ") ++ commas T)).
    { destruct neg; exists SP; eexists; (split; [reflexivity|left; reflexivity]). }
    destruct m as [m|].
    + exists ([oper_text o; bs "%"; utoa m] ++ (if neg then bs "!=" else bs "=") :: T). split.
      * constructor; [|exact A]. constructor; [apply writes_utoa; exact M|left; reflexivity].
      * apply (spaced_app [oper_text o; bs "%"; utoa m]); [|exact R|exact SH].
        apply (spaced_app [oper_text o]); [apply spaced_one| |].
        -- exact (spaced_sp (bs "%") [utoa m] _ (spaced_one _)).
        -- exists SP; eexists; (split; [reflexivity|left; reflexivity]).
    + rewrite app_nil_r. exists ([oper_text o] ++ (if neg then bs "!=" else bs "=") :: T). split.
      * constructor; [constructor|exact A].
      * apply spaced_app; [apply spaced_one|exact R|exact SH].
  - destruct P as [P1 P2]. destruct (IHa P1) as (ta & TA & SA). destruct (IHb P2) as (tb & TB & SB).
    exists (ta ++ bs "and" :: tb). split; [constructor; assumption|].
    apply spaced_app; [exact SA|exact (spaced_sp (bs "and") tb _ SB)|].
    exists SP; eexists; (split; [reflexivity|left; reflexivity]).
  - destruct P as [P1 P2]. destruct (IHa P1) as (ta & TA & SA). destruct (IHb P2) as (tb & TB & SB).
    exists (ta ++ bs "or" :: tb). split; [constructor; assumption|].
    apply spaced_app; [exact SA|exact (spaced_sp (bs "or") tb _ SB)|].
    exists SP; eexists; (split; [reflexivity|left; reflexivity]).
Qed.

(** ** The table of rules *)

Fixpoint is_andb (c : cond) : bool :=
  match c with
  | Rel _ _ l => match l with [] => false | _ => true end
  | And (Rel _ _ l) b => match l with [] => false | _ => is_andb b end
  | _ => false
  end.
Fixpoint is_orb (c : cond) : bool :=
  match c with Or a b => is_andb a && is_orb b | c => is_andb c end.
Definition smallb (z : Z) : bool := (0 <=? z) && (z <? 9007199254740992).
Definition elem_smallb (e : elem) : bool :=
  match e with Val v => smallb v | Range a b => smallb a && smallb b && (a <=? b) end.
Fixpoint cond_smallb (c : cond) : bool :=
  match c with
  | Rel _ e l =>
      match x_mod e with Some m => smallb m && (0 <? m) | None => true end && forallb elem_smallb l
  | And a b | Or a b => cond_smallb a && cond_smallb b
  end.

Lemma is_andb_ok : forall c, is_andb c = true -> is_and c.
Proof.
  induction c as [neg e l|a IHa b IHb|a IHa b IHb]; cbn [is_andb is_and]; intro H.
  - destruct l; [discriminate|discriminate].
  - destruct a as [neg e l| |]; try discriminate. destruct l as [|x l]; [discriminate|].
    split; [discriminate|auto].
  - discriminate.
Qed.
Lemma is_orb_ok : forall c, is_orb c = true -> is_or c.
Proof.
  induction c as [neg e l|a IHa b IHb|a IHa b IHb]; cbn [is_orb is_or]; intro H.
  - apply (is_andb_ok (Rel neg e l)). exact H.
  - apply (is_andb_ok (And a b)). exact H.
  - apply andb_true_iff in H. destruct H as [H1 H2]. split; [apply is_andb_ok; exact H1|auto].
Qed.
Lemma smallb_ok : forall z, smallb z = true -> small z.
Proof. intros z H. unfold smallb in H. unfold small. lia. Qed.
Lemma cond_smallb_ok : forall c, cond_smallb c = true -> cond_small c.
Proof.
  induction c as [neg e l|a IHa b IHb|a IHa b IHb]; cbn [cond_smallb cond_small]; intro H;
    apply andb_true_iff in H; destruct H as [H1 H2]; [|auto|auto].
  split.
  - destruct (x_mod e); [|exact I]. apply andb_true_iff in H1. destruct H1 as [H1 H3].
    split; [apply smallb_ok; exact H1|lia].
  - apply Forall_forall. intros x I. rewrite forallb_forall in H2. specialize (H2 x I).
    destruct x as [v|a b]; cbn [elem_smallb elem_small] in *; [apply smallb_ok; exact H2|].
    apply andb_true_iff in H2. destruct H2 as [H2 H3]. apply andb_true_iff in H2. destruct H2 as [H2 H4].
    split; [apply smallb_ok; exact H2|]. split; [apply smallb_ok; exact H4|lia].
Qed.

Definition row_textb (r : category * bytes * cond) : bool :=
  beq (snd (fst r)) (cond_text (snd r)) && is_orb (snd r) && cond_smallb (snd r).

Lemma rows_textb : forallb (fun b => forallb row_textb (snd b)) cldr_rules = true.
Proof. vm_compute. reflexivity. Qed.

Lemma row_text : forall ls rs c t cd, In (ls, rs) cldr_rules -> In (c, t, cd) rs ->
  t = cond_text cd /\ is_or cd /\ cond_small cd.
Proof.
  intros ls rs c t cd I1 I2. pose proof rows_textb as H. rewrite forallb_forall in H.
  specialize (H (ls, rs) I1). cbn [snd] in H. rewrite forallb_forall in H. specialize (H (c, t, cd) I2).
  unfold row_textb in H. cbn [fst snd] in H. apply andb_true_iff in H. destruct H as [H H3].
  apply andb_true_iff in H. destruct H as [H1 H2]. apply beq_eq in H1.
  split; [exact H1|]. split; [apply is_orb_ok; exact H2|apply cond_smallb_ok; exact H3].
Qed.

Lemma row_mods : forall ls rs, In (ls, rs) cldr_rules ->
  Forall (fun r => mods_pos (snd r)) (row_rules rs).
Proof.
  intros ls rs I1. apply Forall_forall. intros [c cd] I2. unfold row_rules in I2.
  apply in_map_iff in I2. destruct I2 as ([[c' t] cd'] & E & I2). cbn [fst snd] in E. inversion E; subst.
  cbn [snd]. apply cond_small_mods. exact (proj2 (proj2 (row_text _ _ _ _ _ I1 I2))).
Qed.

(** ** Integers of other types *)

Lemma fmt_v_int : forall z, 0 <= z < 1000000 -> fmt_v false (int_digits z) (int_dp z) = utoa z.
Proof.
  intros z B. unfold int_digits, int_dp. rewrite Z.abs_eq, shortest_small by lia.
  destruct (utoa_spec z ltac:(lia)) as (N & D & V).
  destruct (trim_zeros_spec (utoa z)) as (n & E & C).
  set (t := trim_zeros (utoa z)) in *.
  assert (L : (length (utoa z) <= 6)%nat).
  { destruct (Z.eq_dec z 0) as [->|NZ]; [vm_compute; lia|].
    pose proof (lead_size (utoa z) D (utoa_lead z ltac:(lia))) as LS. rewrite V in LS.
    destruct (Nat.le_gt_cases (length (utoa z)) 6) as [|G]; [assumption|].
    assert (10 ^ 6 <= 10 ^ (Z.of_nat (length (utoa z)) - 1)) by (apply Z.pow_le_mono_r; lia).
    change (10 ^ 6) with 1000000 in H. lia. }
  assert (LE : length (utoa z) = (length t + n)%nat) by (rewrite E, app_length, repeat_length; reflexivity).
  unfold fmt_v. rewrite app_nil_l. destruct t as [|d ds] eqn:ET.
  - (* zero *)
    assert (z = 0).
    { rewrite <- V, E. cbn [app]. clear. induction n as [|n IH]; [reflexivity|].
      rewrite dec_val_from in *. cbn [repeat]. exact IH. }
    subst. reflexivity.
  - assert (LP : (0 < length (utoa z))%nat) by (rewrite LE; simpl; lia).
    destruct (((Z.of_nat (length (utoa z)) - 1) <? -4) || (6 <=? Z.of_nat (length (utoa z)) - 1)) eqn:X; [lia|].
    destruct (0 <? Z.of_nat (length (utoa z))) eqn:X2; [|lia].
    destruct (Z.of_nat (length (utoa z)) <? Z.of_nat (length (d :: ds))) eqn:X3; [lia|].
    rewrite app_nil_r, Nat2Z.id. rewrite firstn_all2 by lia.
    replace (Z.to_nat (Z.of_nat (length (utoa z)) - Z.of_nat (length (d :: ds)))) with n by lia.
    symmetry. exact E.
Qed.

Lemma int_string : forall z, 0 <= z <= 9007199254740992 ->
  exists q, new_operands_string (utoa z) = Ok (Ops q z 0 0 0 0 0) /\ (q == inject_Z z)%Q.
Proof.
  intros z B. destruct (utoa_spec z ltac:(lia)) as (N & D & V).
  set (x := Num false (utoa z) None None).
  destruct (f64_round_exact z 1 B ltac:(lia)) as (q & R & Q). rewrite Z.mul_1_r in R.
  assert (SC : nm_scaled x = z).
  { unfold nm_scaled, nm_digits, nm_fdigits, nm_e, x. cbn [nm_ip nm_fp nm_exp]. rewrite app_nil_r, V.
    change (p10 (0 - length (@nil ascii))) with 1. lia. }
  destruct (operands_numeral x q) as (w & t & O & W).
  - split; [exact N|]. split; [apply all_digits_b; exact D|exact I].
  - cbn. unfold maxInt64. lia.
  - rewrite SC. change (p10 (nm_v x)) with 1. rewrite Z.mod_1_r. unfold maxInt64. lia.
  - rewrite SC. exact R.
  - rewrite SC in *. change (p10 (nm_v x)) with 1 in *. rewrite Z.mod_1_r in *.
    change (Z.of_nat (nm_v x)) with 0 in *. change (Z.of_nat (nm_e x)) with 0 in *.
    change (nm_neg x) with false in *.
    assert (TX : nm_text x = utoa z).
    { unfold nm_text, x. cbn [nm_neg nm_ip nm_fp nm_exp]. rewrite app_nil_l, !app_nil_r. reflexivity. }
    rewrite TX in O. destruct W as (W1 & W2 & W3). assert (w = 0) by lia. subst w.
    assert (t = 0) by (rewrite Z.sub_0_r in W2; change (10 ^ 0) with 1 in W2; lia). subst t.
    exists q. split; [|exact Q]. rewrite O. do 2 f_equal.
    unfold f64_trunc. rewrite Q. rewrite Qfloor_Z. unfold f64_to_int64.
    unfold minInt64, maxInt64. destruct ((-9223372036854775808 <=? z) && (z <=? 9223372036854775807)) eqn:X; [reflexivity|lia].
Qed.
