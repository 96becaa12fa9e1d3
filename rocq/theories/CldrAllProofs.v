(** Operands of every decimal numeral. *)
From Coq Require Import String Ascii List ZArith QArith Qabs Qround Bool Lia ZifyBool.
From Verif Require Import Base BaseProofs StrModel NumModel F64Model F64Proofs CldrModel CldrSpec CldrEvalProofs CldrTextProofs CldrGramSpec CldrGramProofs FloatTextProofs CldrKindProofs CldrOperandProofs.
Import ListNotations.
Open Scope Z_scope.

(** *** Rounding *)
Lemma round_near : forall n d p, 0 <= n -> 0 < d -> f64_round n d = Some p -> forall b, ((n # Z.to_pos d) <= b)%Q -> (1 <= b * inject_Z (2 ^ 1022))%Q ->
  (Qabs (p - (n # Z.to_pos d)) * inject_Z (2 ^ 53) <= b)%Q.
Proof.
  intros n d p N D R b HB B1. assert (DP : Zpos (Z.to_pos d) = d) by (rewrite Z2Pos.id; lia). destruct (Z.eq_dec n 0) as [->|NZ].
  - change (f64_round 0 d = Some p) in R. with_strategy transparent [f64_round] (unfold f64_round in R). cbn in R. injection R as <-.
    assert (E : (Qabs (inject_Z 0 - (0 # Z.to_pos d)) * inject_Z (2 ^ 53) == 0)%Q) by reflexivity.
    rewrite E. apply (Qle_trans _ (0 # Z.to_pos d)); [|exact HB]. unfold Qle. cbn. lia.
  - destruct (round_error n d p ltac:(lia) D R) as [_ [E|E]].
    + eapply Qle_trans; [|exact HB]. unfold Qle, Qabs, Qminus, Qplus, Qopp, Qmult, inject_Z. destruct p as [x y]. cbn [Qnum Qden] in *.
      rewrite !Pos2Z.inj_mul, DP. set (w := 2 ^ 53) in *. clearbody w.
      set (v := Z.abs (x * d + - n * Zpos y)).
      assert (VE : v = Z.abs (x * d - n * Zpos y)) by (unfold v; f_equal; lia). rewrite <- VE in E. clearbody v. nia.
    + assert (T : (Qabs (p - (n # Z.to_pos d)) * inject_Z (2 ^ 53) * inject_Z (2 ^ 1022) <= 1)%Q).
      { unfold Qle, Qabs, Qminus, Qplus, Qopp, Qmult, inject_Z. destruct p as [x y]. cbn [Qnum Qden] in *.
        rewrite !Pos2Z.inj_mul, DP.
        assert (P : 2 ^ 1075 = 2 ^ 53 * 2 ^ 1022) by reflexivity. rewrite P in E. clear P.
        set (w := 2 ^ 53) in *. set (w2 := 2 ^ 1022) in *. clearbody w w2.
        set (v := Z.abs (x * d + - n * Zpos y)).
        assert (VE : v = Z.abs (x * d - n * Zpos y)) by (unfold v; f_equal; lia). rewrite <- VE in E. clearbody v. nia. }
      apply (Qmult_le_r _ _ (inject_Z (2 ^ 1022))); [reflexivity|]. eapply Qle_trans; [exact T|exact B1].
Qed.
Lemma trunc_any : forall neg q, (0 <= q)%Q -> f64_trunc neg q = if Qfloor q <=? maxInt64 then (if neg then - Qfloor q else Qfloor q) else minInt64.
Proof.
  intros neg q P. assert (0 <= Qfloor q) by (apply (Qfloor_resp_le 0 q) in P; exact P). unfold f64_trunc, f64_to_int64. cbv zeta. unfold minInt64, maxInt64.
  set (t := Qfloor q) in *. clearbody t. destruct neg; match goal with |- (if ?c then _ else _) = (if ?e then _ else _) => destruct c eqn:X; destruct e eqn:Y end; lia.
Qed.

(** *** The text behind the exponent *)
Definition moved_ip (x : numeral) := shifted_ip (nm_ip x) (nm_fdigits x) (nm_e x).
Definition moved_fp (x : numeral) := shifted_fp (nm_fdigits x) (nm_e x).
Lemma numeral_source : forall x, nm_ok x ->
  forallb is_digit (moved_ip x) = true /\ moved_ip x <> [] /\ forallb is_digit (fdig (moved_fp x)) = true /\ length (fdig (moved_fp x)) = nm_v x /\
  dec_val (moved_ip x ++ fdig (moved_fp x)) = nm_scaled x /\ dec_val (fdig (moved_fp x)) = nm_scaled x mod p10 (nm_v x) /\
  (Z.of_nat (nm_e x) <= maxInt64 -> new_operands_string (nm_text x) =
     do src <- parse_float (plain (nm_neg x) (moved_ip x) (moved_fp x)) ;
     do y <- fraction_ops (plain (nm_neg x) (moved_ip x) (moved_fp x)) ;
     match y with (v, f, w, t) => Ok (Ops (snd src) (f64_trunc (fst src) (snd src)) v w f t (Z.of_nat (nm_e x))) end) /\
  (maxInt64 < Z.of_nat (nm_e x) -> new_operands_string (nm_text x) = Err).
Proof.
  intros x (NE & DI & DF).
  assert (DI' : forallb is_digit (nm_ip x) = true) by (apply all_digits_b; exact DI).
  assert (DF' : forallb is_digit (nm_fdigits x) = true).
  { unfold nm_fdigits. destruct (nm_fp x) as [f|]; [|reflexivity].
    apply all_digits_b. tauto. }
  set (ip' := moved_ip x). set (fp' := moved_fp x).
  assert (DIP : forallb is_digit ip' = true).
  { unfold ip', moved_ip, shifted_ip. apply forallb_app_true; [exact DI'|].
    apply forallb_app_true; [apply digits_firstn; exact DF'|apply digits_zeros]. }
  assert (FD : fdig fp' = skipn (nm_e x) (nm_fdigits x)) by apply fdig_shifted.
  assert (DFP : forallb is_digit (fdig fp') = true) by (rewrite FD; apply digits_skipn, DF').
  assert (LEN : length (fdig fp') = nm_v x) by (rewrite FD, skipn_length; reflexivity).
  assert (NEP : ip' <> []).
  { unfold ip', moved_ip, shifted_ip. intro H. apply app_eq_nil in H. tauto. }
  assert (SC : dec_val (ip' ++ fdig fp') = nm_scaled x).
  { rewrite FD. apply shifted_scaled. exact DF'. }
  assert (FV : dec_val (fdig fp') = nm_scaled x mod p10 (nm_v x)).
  { rewrite <- SC, dec_val_app by exact DFP. unfold p10. rewrite LEN.
    pose proof (dec_val_bound _ DFP) as B. rewrite LEN in B.
    rewrite Z.add_comm, Z.mod_add by (apply Z.pow_nonzero; lia).
    symmetry. apply Z.mod_small. exact B. }
  do 6 (split; [assumption|]).
  assert (HEAD : forall e, nm_exp x = Some e -> match index_byte "c" (nm_text x) with
     | Some i => do c <- parse_int_err (skipn (S i) (nm_text x)) ;
                 Ok (c, shift_decimal_point (firstn i (nm_text x)) c)
     | None => Ok (0, nm_text x)
     end = do c <- parse_int_err (utoa (Z.of_nat e)); Ok (c, shift_decimal_point (plain (nm_neg x) (nm_ip x) (nm_fp x)) c)).
  { intros e EX. rewrite nm_plain, EX.
    rewrite index_byte_skip by (apply plain_no_c; [exact DI'|rewrite fdig_nm; exact DF']).
    change (index_byte "c" ("c"%char :: utoa (Z.of_nat e))) with (Some 0%nat).
    cbn [option_map]. rewrite Nat.add_0_r.
    set (p := plain (nm_neg x) (nm_ip x) (nm_fp x)).
    assert (S1 : skipn (S (length p)) (p ++ "c"%char :: utoa (Z.of_nat e)) = utoa (Z.of_nat e)).
    { generalize p. intro l. induction l; simpl; auto. }
    assert (F1 : firstn (length p) (p ++ "c"%char :: utoa (Z.of_nat e)) = p).
    { rewrite firstn_app, Nat.sub_diag, firstn_all. simpl. apply app_nil_r. }
    now rewrite S1, F1. }
  split.
  - intro EM. assert (SRC : exists cr,
     match index_byte "c" (nm_text x) with
     | Some i => do c <- parse_int_err (skipn (S i) (nm_text x)) ;
                 Ok (c, shift_decimal_point (firstn i (nm_text x)) c)
     | None => Ok (0, nm_text x)
     end = Ok cr /\ fst cr = Z.of_nat (nm_e x) /\ snd cr = plain (nm_neg x) ip' fp').
    { destruct (nm_exp x) as [e|] eqn:EX.
      - rewrite (HEAD e eq_refl). unfold ip', fp', moved_ip, moved_fp, nm_e in *. rewrite EX in *.
        destruct (utoa_spec (Z.of_nat e) ltac:(lia)) as (U1 & U2 & U3).
        unfold parse_int_err. rewrite parse_int_digits by (try assumption; lia).
        cbn [rbind]. rewrite U3. eexists. split; [reflexivity|]. split; [reflexivity|].
        cbn [snd]. apply shift_plain; [exact DI'|exact DF'].
      - rewrite nm_plain, EX, app_nil_r. unfold ip', fp', moved_ip, moved_fp, nm_e in *. rewrite EX in *.
        rewrite index_byte_none by (apply plain_no_c; [exact DI'|rewrite fdig_nm; exact DF']).
        eexists. split; [reflexivity|]. split; [reflexivity|]. cbn [snd].
        unfold shifted_ip, shifted_fp. cbn [firstn skipn Nat.sub repeat].
        rewrite !app_nil_r. f_equal. unfold nm_fdigits. destruct (nm_fp x) as [f|]; [|reflexivity].
        destruct f; [|reflexivity]. tauto. }
    destruct SRC as (cr & E1 & E2 & E3). unfold new_operands_string. rewrite E1. cbn [rbind]. now rewrite E3, E2.
  - intro EM. destruct (nm_exp x) as [e|] eqn:EX; [|unfold nm_e in EM; rewrite EX in EM; unfold maxInt64 in EM; cbn in EM; lia].
    unfold new_operands_string. rewrite (HEAD e eq_refl). unfold nm_e in EM. rewrite EX in EM.
    destruct (utoa_spec (Z.of_nat e) ltac:(lia)) as (U1 & U2 & U3). unfold parse_int_err. rewrite (parse_big (utoa (Z.of_nat e))); [reflexivity| |lia].
    split; [exact U1|]. now apply all_digits_b.
Qed.
Lemma fraction_big : forall neg ip fp, forallb is_digit ip = true -> forallb is_digit (fdig fp) = true -> maxInt64 < dec_val (fdig fp) -> fraction_ops (plain neg ip fp) = Err.
Proof.
  intros neg ip fp DI DF M. unfold fraction_ops, plain.
  rewrite index_byte_skip by (apply sgn_no; reflexivity).
  rewrite index_byte_skip by (apply digits_no; [reflexivity|exact DI]).
  destruct fp as [f|]; cbn [frac_text fdig] in *; [|unfold maxInt64 in M; cbn in M; lia].
  change (index_byte "." ("."%char :: f)) with (Some 0%nat). cbn [option_map].
  assert (SK : skipn (S (length (sgn neg) + (length ip + 0))) (sgn neg ++ ip ++ "."%char :: f) = f).
  { rewrite app_assoc.
    replace (S (length (sgn neg) + (length ip + 0)))
      with (length ((sgn neg ++ ip)) + 1)%nat by (rewrite app_length; lia).
    generalize (sgn neg ++ ip). intro l. induction l; simpl; auto. }
  rewrite SK. destruct f as [|c f]; [unfold maxInt64 in M; cbn in M; lia|].
  assert (B : parse_int_err (c :: f) = Err); [|now rewrite B]. unfold parse_int_err. rewrite parse_big; [reflexivity| |exact M]. split; [discriminate|now apply all_digits_b].
Qed.
Lemma float_none : forall neg ip fp, ip <> [] -> forallb is_digit ip = true -> forallb is_digit (fdig fp) = true ->
  f64_round (dec_val (ip ++ fdig fp)) (10 ^ Z.of_nat (length (fdig fp))) = None -> parse_float (plain neg ip fp) = Err.
Proof.
  intros neg ip fp NE DI DF R. unfold parse_float. rewrite read_float_plain by assumption.
  destruct (0 <=? 0 - Z.of_nat (length (fdig fp))) eqn:E.
  - assert (L : length (fdig fp) = 0%nat) by lia.
    rewrite L in *. change (Z.of_nat 0) with 0 in *. change (10 ^ 0) with 1 in R.
    change (0 - 0) with 0. change (10 ^ 0) with 1. rewrite Z.mul_1_r, R. reflexivity.
  - replace (- (0 - Z.of_nat (length (fdig fp)))) with (Z.of_nat (length (fdig fp))) by lia.
    rewrite R. reflexivity.
Qed.

(** *** All numerals *)
Lemma scaled_nonneg : forall x, nm_ok x -> 0 <= nm_scaled x.
Proof.
  intros x (_ & D & F). unfold nm_scaled, nm_digits. apply all_digits_b in D.
  assert (FD : forallb is_digit (nm_fdigits x) = true).
  { unfold nm_fdigits. destruct (nm_fp x); [|reflexivity]. apply all_digits_b. tauto. }
  pose proof (dec_val_bound (nm_ip x ++ nm_fdigits x) ltac:(rewrite forallb_app, D, FD; reflexivity)).
  pose proof (p10_pos (nm_e x - length (nm_fdigits x))). nia.
Qed.
Lemma value_limit : forall x z, (nm_value x < inject_Z z)%Q <-> nm_scaled x < p10 (nm_v x) * z.
Proof.
  intros x z. unfold nm_value, Qlt, inject_Z. cbn [Qnum Qden]. rewrite Z2Pos.id by apply p10_pos. rewrite Z.mul_1_r, (Z.mul_comm z). tauto.
Qed.
Lemma numeral_good : forall x, nm_ok x -> Z.of_nat (nm_e x) <= maxInt64 -> nm_scaled x mod p10 (nm_v x) <= maxInt64 -> (nm_value x < inject_Z float_limit)%Q ->
  exists q w t, new_operands_string (nm_text x) = Ok (Ops q (f64_trunc (nm_neg x) q) (Z.of_nat (nm_v x)) w (nm_scaled x mod p10 (nm_v x)) t (Z.of_nat (nm_e x))) /\
    without_zeros (Z.of_nat (nm_v x)) (nm_scaled x mod p10 (nm_v x)) w t /\ (0 <= q)%Q /\ f64_round (nm_scaled x) (p10 (nm_v x)) = Some q.
Proof.
  intros x OK E F L. apply value_limit in L. pose proof (scaled_nonneg x OK) as S0. pose proof (p10_pos (nm_v x)) as P.
  destruct (round_defined _ _ S0 P L) as (q & R). destruct (operands_numeral x q OK E F R) as (w & t & O & W). exists q, w, t.
  split; [exact O|]. split; [exact W|]. split; [|exact R]. pose proof (f64_round_nonneg _ _ _ S0 P R) as N. unfold Qle. cbn. lia.
Qed.
Lemma numeral_bad : forall x, nm_ok x -> ~ (Z.of_nat (nm_e x) <= maxInt64 /\ nm_scaled x mod p10 (nm_v x) <= maxInt64 /\ (nm_value x < inject_Z float_limit)%Q) ->
  new_operands_string (nm_text x) = Err.
Proof.
  intros x OK H. destruct (numeral_source x OK) as (DI & NE & DF & LEN & SC & FV & GO & BAD).
  destruct (Z_lt_le_dec maxInt64 (Z.of_nat (nm_e x))) as [E|E]; [exact (BAD E)|]. rewrite (GO E).
  destruct (parse_float_ok (plain (nm_neg x) (moved_ip x) (moved_fp x))) as [P1 P2].
  destruct (Z_lt_le_dec maxInt64 (nm_scaled x mod p10 (nm_v x))) as [F|F].
  - rewrite (fraction_big (nm_neg x) _ _ DI DF) by (rewrite FV; exact F). destruct (parse_float _); try congruence; reflexivity.
  - rewrite (float_none (nm_neg x) _ _ NE DI DF); [reflexivity|]. rewrite SC, LEN. fold (p10 (nm_v x)).
    assert (L : ~ nm_scaled x < p10 (nm_v x) * float_limit) by (rewrite <- value_limit; tauto).
    pose proof (p10_pos (nm_v x)) as P. pose proof limit_range as [LR _]. assert (0 < 2 ^ 1023) by reflexivity.
    apply round_overflow; [|exact P|lia]. assert (0 < float_limit) by lia. generalize dependent float_limit. intros. nia.
Qed.
