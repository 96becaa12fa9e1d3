(** Operands of decimal numerals (newOperandsString). *)
From Coq Require Import String Ascii List ZArith QArith Qround Qabs Bool Lia ZifyBool Lqa.
From Verif Require Import Base BaseProofs Utf8Model StrModel PopModel NumModel NumProofs F64Model
  F64Proofs ReModel CldrModel CldrSpec CldrEvalProofs.
Import ListNotations.
Open Scope Z_scope.

Lemma all_digits_b : forall s, all_digits s <-> forallb is_digit s = true.
Proof.
  intro s. unfold all_digits. rewrite forallb_forall, Forall_forall. reflexivity.
Qed.

Definition nondigit_start (s : bytes) : Prop :=
  match s with [] => True | c :: _ => is_digit c = false end.

Lemma take_digits_app : forall ds r, forallb is_digit ds = true -> nondigit_start r ->
  take_digits (ds ++ r) = (ds, r).
Proof.
  induction ds as [|c ds IH]; intros r D N; simpl in *.
  - destruct r as [|c r]; [reflexivity|]. simpl in N. simpl. rewrite N. reflexivity.
  - apply andb_true_iff in D. destruct D as [D1 D2]. rewrite D1, IH by assumption. reflexivity.
Qed.

Lemma digit_neq : forall c d, is_digit c = true -> is_digit d = false -> Ascii.eqb c d = false.
Proof.
  intros c d C D. destruct (Ascii.eqb c d) eqn:E; [|reflexivity].
  apply Ascii.eqb_eq in E. subst. congruence.
Qed.

Lemma index_byte_skip : forall c a b, forallb (fun x => negb (Ascii.eqb x c)) a = true ->
  index_byte c (a ++ b) = option_map (Nat.add (length a)) (index_byte c b).
Proof.
  intros c a b H. induction a as [|x a IH]; simpl in *.
  - destruct (index_byte c b); reflexivity.
  - apply andb_true_iff in H. destruct H as [H1 H2]. apply negb_true_iff in H1.
    rewrite H1, IH by exact H2. destruct (index_byte c b); reflexivity.
Qed.

Lemma digits_no : forall c s, is_digit c = false -> forallb is_digit s = true ->
  forallb (fun x => negb (Ascii.eqb x c)) s = true.
Proof.
  intros c s C D. rewrite forallb_forall in *. intros x I.
  rewrite (digit_neq x c (D x I) C). reflexivity.
Qed.

Lemma index_byte_none : forall c s, forallb (fun x => negb (Ascii.eqb x c)) s = true ->
  index_byte c s = None.
Proof.
  intros c s H. rewrite <- (app_nil_r s), index_byte_skip by exact H. reflexivity.
Qed.

Definition sgn (neg : bool) : bytes := if neg then bs "-" else [].
Definition frac_text (fp : option bytes) : bytes :=
  match fp with Some f => "."%char :: f | None => [] end.
Definition fdig (fp : option bytes) : bytes := match fp with Some f => f | None => [] end.
Definition plain (neg : bool) (ip : bytes) (fp : option bytes) : bytes :=
  sgn neg ++ ip ++ frac_text fp.

Lemma sgn_no : forall c neg, Ascii.eqb "-" c = false ->
  forallb (fun x => negb (Ascii.eqb x c)) (sgn neg) = true.
Proof.
  intros c [] H; [|reflexivity]. change (sgn true) with ["-"%char]. cbn [forallb].
  rewrite H. reflexivity.
Qed.

Lemma forallb_app_true : forall A (p : A -> bool) x y,
  forallb p x = true -> forallb p y = true -> forallb p (x ++ y) = true.
Proof. intros. rewrite forallb_app. apply andb_true_iff. auto. Qed.

Lemma read_float_plain : forall neg ip fp, ip <> [] -> forallb is_digit ip = true ->
  forallb is_digit (fdig fp) = true ->
  read_float (plain neg ip fp) = Some (neg, ip, fdig fp, 0).
Proof.
  intros neg ip fp NE DI DF. unfold read_float, plain.
  assert (S : take_sign (sgn neg ++ ip ++ frac_text fp) = (neg, ip ++ frac_text fp)).
  { destruct neg; [reflexivity|]. destruct ip as [|c ip]; [contradiction|]. simpl in *.
    apply andb_true_iff in DI. destruct DI as [DC _].
    destruct (digit_not_sign c DC) as [A B]. rewrite A, B. reflexivity. }
  rewrite S, take_digits_app.
  - destruct fp as [f|]; cbn [frac_text fdig] in *.
    + cbn [Ascii.eqb]. change (Ascii.eqb "." ".") with true. cbv iota.
      assert (T : take_digits f = (f, [])).
      { rewrite <- (app_nil_r f) at 1. apply take_digits_app; [exact DF|exact I]. }
      rewrite T. destruct ip; [contradiction|reflexivity].
    + destruct ip; [contradiction|]. reflexivity.
  - exact DI.
  - destruct fp; simpl; [reflexivity|exact I].
Qed.

Lemma dec_val_app : forall a b, forallb is_digit b = true ->
  dec_val (a ++ b) = dec_val a * 10 ^ Z.of_nat (length b) + dec_val b.
Proof.
  intros a b H. unfold dec_val. rewrite fold_left_app.
  exact (dec_from_acc b (dec_val a) H).
Qed.

Lemma dec_val_bound : forall s, forallb is_digit s = true ->
  0 <= dec_val s < 10 ^ Z.of_nat (length s).
Proof.
  intros s. induction s as [|c s IH] using rev_ind; intro H.
  - simpl. unfold dec_val; simpl. lia.
  - rewrite forallb_app in H. apply andb_true_iff in H. destruct H as [H1 H2].
    simpl in H2. rewrite andb_true_r in H2. apply digit_val_range in H2.
    rewrite dec_val_snoc, app_length. simpl length.
    rewrite Nat2Z.inj_add, Z.pow_add_r by lia. change (10 ^ Z.of_nat 1) with 10.
    specialize (IH H1). lia.
Qed.

Lemma dec_val_zeros : forall a n, dec_val (a ++ repeat "0"%char n) = dec_val a * 10 ^ Z.of_nat n.
Proof.
  intros a n. rewrite dec_val_app.
  - rewrite repeat_length.
    assert (Z0 : dec_val (repeat "0"%char n) = 0).
    { unfold dec_val. assert (G : forall k, fold_left (fun acc c => acc * 10 + digit_val c)
        (repeat "0"%char k) 0 = 0) by (induction k; simpl; auto). apply G. }
    lia.
  - induction n; simpl; auto.
Qed.

(** parse_float on such text. *)
Lemma parse_float_plain : forall neg ip fp q, ip <> [] -> forallb is_digit ip = true ->
  forallb is_digit (fdig fp) = true ->
  f64_round (dec_val (ip ++ fdig fp)) (10 ^ Z.of_nat (length (fdig fp))) = Some q ->
  parse_float (plain neg ip fp) = Ok (neg, q).
Proof.
  intros neg ip fp q NE DI DF R. unfold parse_float. rewrite read_float_plain by assumption.
  destruct (0 <=? 0 - Z.of_nat (length (fdig fp))) eqn:E.
  - assert (L : length (fdig fp) = 0%nat) by lia.
    rewrite L in *. simpl Z.of_nat in *. change (10 ^ 0) with 1 in R.
    change (0 - 0) with 0. change (10 ^ 0) with 1. rewrite Z.mul_1_r, R. reflexivity.
  - replace (- (0 - Z.of_nat (length (fdig fp)))) with (Z.of_nat (length (fdig fp))) by lia.
    rewrite R. reflexivity.
Qed.

(** Trailing zeros. *)
Lemma trim_zeros_spec : forall s, exists n,
  s = trim_zeros s ++ repeat "0"%char n /\
  (trim_zeros s = [] \/ exists a c, trim_zeros s = a ++ [c] /\ c <> "0"%char).
Proof.
  induction s as [|c s (n & E & L)]; simpl.
  - exists 0%nat. split; [reflexivity|left; reflexivity].
  - destruct (trim_zeros s) as [|x t] eqn:T.
    + destruct (Ascii.eqb c "0") eqn:C.
      * apply Ascii.eqb_eq in C. subst c. exists (S n). split; [simpl; simpl in E; congruence|].
        left; reflexivity.
      * exists n. simpl in E. split; [simpl; congruence|]. right.
        exists [], c. split; [reflexivity|]. intro H. subst. discriminate.
    + exists n. split; [simpl in *; congruence|]. right.
      destruct L as [L|(a & d & L & N)]; [discriminate|].
      exists (c :: a), d. split; [simpl; rewrite L; reflexivity|exact N].
Qed.

Lemma trim_zeros_wt : forall s, forallb is_digit s = true ->
  forallb is_digit (trim_zeros s) = true /\
  dec_val (trim_zeros s) <= dec_val s /\
  without_zeros (Z.of_nat (length s)) (dec_val s) (Z.of_nat (length (trim_zeros s)))
                (dec_val (trim_zeros s)).
Proof.
  intros s D. destruct (trim_zeros_spec s) as (n & E & L).
  set (t := trim_zeros s) in *.
  assert (DT : forallb is_digit t = true).
  { rewrite E, forallb_app in D. apply andb_true_iff in D. tauto. }
  assert (LEN : length s = (length t + n)%nat) by (rewrite E, app_length, repeat_length; reflexivity).
  assert (V : dec_val s = dec_val t * 10 ^ Z.of_nat n) by (rewrite E; apply dec_val_zeros).
  pose proof (dec_val_bound t DT) as [B _].
  assert (P : 0 < 10 ^ Z.of_nat n) by (apply Z.pow_pos_nonneg; lia).
  split; [exact DT|]. split; [nia|].
  unfold without_zeros. split; [lia|]. split.
  - rewrite V, LEN. f_equal. f_equal. lia.
  - destruct L as [L|(a & c & L & NZ)].
    + left. rewrite L. reflexivity.
    + right. rewrite L, dec_val_snoc.
      assert (DC : is_digit c = true).
      { rewrite L, forallb_app in DT. simpl in DT. apply andb_true_iff in DT.
        destruct DT as [_ DT]. rewrite andb_true_r in DT. exact DT. }
      pose proof (digit_val_range c DC).
      assert (digit_val c <> 0).
      { intro Z. apply NZ. rewrite <- (digit_char_of_val c DC), Z. reflexivity. }
      rewrite Z.add_comm, Z.mod_add by lia. rewrite Z.mod_small; lia.
Qed.

Lemma fraction_ops_plain : forall neg ip fp, forallb is_digit ip = true ->
  forallb is_digit (fdig fp) = true -> dec_val (fdig fp) <= maxInt64 ->
  exists w t,
    fraction_ops (plain neg ip fp) = Ok (Z.of_nat (length (fdig fp)), dec_val (fdig fp), w, t) /\
    without_zeros (Z.of_nat (length (fdig fp))) (dec_val (fdig fp)) w t.
Proof.
  intros neg ip fp DI DF M.
  destruct (trim_zeros_wt _ DF) as (TD & TL & TW).
  exists (Z.of_nat (length (trim_zeros (fdig fp)))), (dec_val (trim_zeros (fdig fp))).
  split; [|exact TW].
  unfold fraction_ops, plain.
  rewrite index_byte_skip by (apply sgn_no; reflexivity).
  rewrite index_byte_skip by (apply digits_no; [reflexivity|exact DI]).
  destruct fp as [f|]; cbn [frac_text fdig] in *.
  - change (index_byte "." ("."%char :: f)) with (Some 0%nat). cbn [option_map].
    assert (SK : skipn (S (length (sgn neg) + (length ip + 0))) (sgn neg ++ ip ++ "."%char :: f) = f).
    { rewrite app_assoc.
      replace (S (length (sgn neg) + (length ip + 0)))
        with (length ((sgn neg ++ ip)) + 1)%nat by (rewrite app_length; lia).
      generalize (sgn neg ++ ip). intro l. induction l; simpl; auto. }
    rewrite SK. unfold parse_int_err.
    destruct f as [|c f].
    + reflexivity.
    + rewrite parse_int_digits by (congruence || assumption). cbn [rbind].
      destruct (trim_zeros (c :: f)) as [|x t] eqn:T.
      * reflexivity.
      * rewrite parse_int_digits; [reflexivity|congruence|assumption|lia].
  - reflexivity.
Qed.

(** ** The compact exponent *)

Lemma shift_loop_digits : forall ds r c, forallb (fun x => negb (Ascii.eqb x ".")) ds = true ->
  shift_loop (ds ++ r) c false = (ds ++ fst (shift_loop r c false), snd (shift_loop r c false)).
Proof.
  induction ds as [|d ds IH]; intros r c D; cbn [app shift_loop].
  - destruct (shift_loop r c false); reflexivity.
  - cbn [forallb] in D. apply andb_true_iff in D. destruct D as [D1 D2].
    apply negb_true_iff in D1. rewrite D1. rewrite andb_false_r. cbn [andb negb].
    rewrite IH by exact D2. cbn [fst snd]. reflexivity.
Qed.

Lemma shift_loop_done : forall ds c, forallb (fun x => negb (Ascii.eqb x ".")) ds = true ->
  shift_loop ds c false = (ds, c).
Proof.
  intros ds c D. rewrite <- (app_nil_r ds) at 1. rewrite shift_loop_digits by exact D.
  simpl. rewrite app_nil_r. reflexivity.
Qed.

Lemma shift_loop_frac : forall fp n, forallb (fun x => negb (Ascii.eqb x ".")) fp = true ->
  shift_loop fp (Z.of_nat n) true =
  (firstn n fp ++ match skipn n fp with [] => [] | t => "."%char :: t end,
   Z.of_nat (n - length fp)).
Proof.
  induction fp as [|d fp IH]; intros n D.
  - simpl. rewrite firstn_nil, skipn_nil, Nat.sub_0_r. reflexivity.
  - cbn [forallb] in D. apply andb_true_iff in D. destruct D as [D1 D2].
    apply negb_true_iff in D1. cbn [shift_loop]. rewrite D1. rewrite andb_true_r.
    destruct n as [|n].
    + cbn [Z.of_nat Z.eqb andb negb]. rewrite shift_loop_done by exact D2. reflexivity.
    + destruct (Z.of_nat (S n) =? 0) eqn:E; [lia|]. cbn [andb negb].
      replace (Z.of_nat (S n) - 1) with (Z.of_nat n) by lia.
      rewrite IH by exact D2. cbn [firstn skipn length app].
      rewrite Nat.sub_succ. reflexivity.
Qed.

Definition shifted_ip (ip fd : bytes) (n : nat) : bytes :=
  ip ++ firstn n fd ++ repeat "0"%char (n - length fd).
Definition shifted_fp (fd : bytes) (n : nat) : option bytes :=
  match skipn n fd with [] => None | t => Some t end.

Lemma shift_plain : forall neg ip fp n, forallb is_digit ip = true ->
  forallb is_digit (fdig fp) = true ->
  shift_decimal_point (plain neg ip fp) (Z.of_nat n) =
  plain neg (shifted_ip ip (fdig fp) n) (shifted_fp (fdig fp) n).
Proof.
  intros neg ip fp n DI DF. unfold shift_decimal_point, plain.
  rewrite shift_loop_digits by (apply sgn_no; reflexivity).
  rewrite shift_loop_digits by (apply digits_no; [reflexivity|exact DI]).
  cbn [fst snd].
  assert (F : shift_loop (frac_text fp) (Z.of_nat n) false =
    (firstn n (fdig fp) ++ frac_text (shifted_fp (fdig fp) n), Z.of_nat (n - length (fdig fp)))).
  { destruct fp as [f|]; cbn [frac_text fdig] in *.
    - cbn [shift_loop]. change (Ascii.eqb "." ".") with true. cbv iota.
      rewrite shift_loop_frac by (apply digits_no; [reflexivity|exact DF]).
      unfold shifted_fp. destruct (skipn n f); reflexivity.
    - simpl. rewrite firstn_nil, Nat.sub_0_r. unfold shifted_fp. rewrite skipn_nil. reflexivity. }
  rewrite F. cbn [fst snd]. rewrite Nat2Z.id. unfold shifted_ip. rewrite <- !app_assoc.
  do 3 f_equal.
  unfold shifted_fp. destruct (Nat.le_gt_cases (length (fdig fp)) n) as [L|G].
  - rewrite (skipn_all2 (fdig fp)) by exact L. cbn [frac_text].
    rewrite app_nil_r. reflexivity.
  - replace (n - length (fdig fp))%nat with 0%nat by lia. cbn [repeat].
    rewrite app_nil_r, app_nil_l. reflexivity.
Qed.

Lemma fdig_shifted : forall fd n, fdig (shifted_fp fd n) = skipn n fd.
Proof. intros. unfold shifted_fp. destruct (skipn n fd); reflexivity. Qed.

Lemma digits_firstn : forall n s, forallb is_digit s = true -> forallb is_digit (firstn n s) = true.
Proof.
  intros n s H. rewrite <- (firstn_skipn n s), forallb_app in H.
  apply andb_true_iff in H. tauto.
Qed.
Lemma digits_skipn : forall n s, forallb is_digit s = true -> forallb is_digit (skipn n s) = true.
Proof.
  intros n s H. rewrite <- (firstn_skipn n s), forallb_app in H.
  apply andb_true_iff in H. tauto.
Qed.
Lemma digits_zeros : forall n, forallb is_digit (repeat "0"%char n) = true.
Proof. induction n; simpl; auto. Qed.

Lemma shifted_scaled : forall ip fd n, forallb is_digit fd = true ->
  dec_val (shifted_ip ip fd n ++ skipn n fd) = dec_val (ip ++ fd) * p10 (n - length fd).
Proof.
  intros ip fd n D. unfold shifted_ip, p10.
  destruct (Nat.le_gt_cases (length fd) n) as [L|G].
  - rewrite skipn_all2, firstn_all2, app_nil_r by exact L.
    rewrite app_assoc. apply dec_val_zeros.
  - replace (n - length fd)%nat with 0%nat by lia. cbn [repeat].
    rewrite app_nil_r, <- app_assoc, firstn_skipn. lia.
Qed.

(** ** newOperandsString on numerals *)

Lemma nm_plain : forall x, nm_text x =
  plain (nm_neg x) (nm_ip x) (nm_fp x) ++
  match nm_exp x with Some e => "c"%char :: utoa (Z.of_nat e) | None => [] end.
Proof.
  intro x. unfold nm_text, plain, sgn, frac_text. rewrite <- !app_assoc. reflexivity.
Qed.

Lemma fdig_nm : forall x, fdig (nm_fp x) = nm_fdigits x.
Proof. reflexivity. Qed.

Lemma plain_no_c : forall neg ip fp, forallb is_digit ip = true -> forallb is_digit (fdig fp) = true ->
  forallb (fun x => negb (Ascii.eqb x "c")) (plain neg ip fp) = true.
Proof.
  intros. unfold plain. apply forallb_app_true; [apply sgn_no; reflexivity|].
  apply forallb_app_true; [apply digits_no; [reflexivity|assumption]|].
  destruct fp; simpl in *; [|reflexivity]. apply digits_no; [reflexivity|assumption].
Qed.

Lemma operands_numeral : forall x q, nm_ok x -> Z.of_nat (nm_e x) <= maxInt64 ->
  nm_scaled x mod p10 (nm_v x) <= maxInt64 ->
  f64_round (nm_scaled x) (p10 (nm_v x)) = Some q ->
  exists w t,
    new_operands_string (nm_text x) =
      Ok (Ops q (f64_trunc (nm_neg x) q) (Z.of_nat (nm_v x)) w
              (nm_scaled x mod p10 (nm_v x)) t (Z.of_nat (nm_e x))) /\
    without_zeros (Z.of_nat (nm_v x)) (nm_scaled x mod p10 (nm_v x)) w t.
Proof.
  intros x q (NE & DI & DF) EM FM R.
  assert (DI' : forallb is_digit (nm_ip x) = true) by (apply all_digits_b; exact DI).
  assert (DF' : forallb is_digit (nm_fdigits x) = true).
  { unfold nm_fdigits. destruct (nm_fp x) as [f|]; [|reflexivity].
    apply all_digits_b. tauto. }
  set (ip' := shifted_ip (nm_ip x) (nm_fdigits x) (nm_e x)).
  set (fp' := shifted_fp (nm_fdigits x) (nm_e x)).
  assert (DIP : forallb is_digit ip' = true).
  { unfold ip', shifted_ip. apply forallb_app_true; [exact DI'|].
    apply forallb_app_true; [apply digits_firstn; exact DF'|apply digits_zeros]. }
  assert (FD : fdig fp' = skipn (nm_e x) (nm_fdigits x)) by apply fdig_shifted.
  assert (DFP : forallb is_digit (fdig fp') = true) by (rewrite FD; apply digits_skipn, DF').
  assert (LEN : length (fdig fp') = nm_v x) by (rewrite FD, skipn_length; reflexivity).
  assert (NEP : ip' <> []).
  { unfold ip', shifted_ip. intro H. apply app_eq_nil in H. tauto. }
  assert (SC : dec_val (ip' ++ fdig fp') = nm_scaled x).
  { rewrite FD. apply shifted_scaled. exact DF'. }
  assert (FV : dec_val (fdig fp') = nm_scaled x mod p10 (nm_v x)).
  { rewrite <- SC, dec_val_app by exact DFP. unfold p10. rewrite LEN.
    pose proof (dec_val_bound _ DFP) as B. rewrite LEN in B.
    rewrite Z.add_comm, Z.mod_add by (apply Z.pow_nonzero; lia).
    symmetry. apply Z.mod_small. exact B. }
  assert (SRC : exists cr,
     match index_byte "c" (nm_text x) with
     | Some i => do c <- parse_int_err (skipn (S i) (nm_text x)) ;
                 Ok (c, shift_decimal_point (firstn i (nm_text x)) c)
     | None => Ok (0, nm_text x)
     end = Ok cr /\ fst cr = Z.of_nat (nm_e x) /\ snd cr = plain (nm_neg x) ip' fp').
  { rewrite nm_plain. unfold ip', fp', nm_e in *. destruct (nm_exp x) as [e|].
    - rewrite index_byte_skip by (apply plain_no_c; [exact DI'|rewrite fdig_nm; exact DF']).
      change (index_byte "c" ("c"%char :: utoa (Z.of_nat e))) with (Some 0%nat).
      cbn [option_map]. rewrite Nat.add_0_r.
      set (p := plain (nm_neg x) (nm_ip x) (nm_fp x)).
      assert (S1 : skipn (S (length p)) (p ++ "c"%char :: utoa (Z.of_nat e)) = utoa (Z.of_nat e)).
      { generalize p. intro l. induction l; simpl; auto. }
      assert (F1 : firstn (length p) (p ++ "c"%char :: utoa (Z.of_nat e)) = p).
      { rewrite firstn_app, Nat.sub_diag, firstn_all. simpl. apply app_nil_r. }
      rewrite S1, F1.
      destruct (utoa_spec (Z.of_nat e) ltac:(lia)) as (U1 & U2 & U3).
      unfold parse_int_err. rewrite parse_int_digits by (try assumption; lia).
      cbn [rbind]. rewrite U3. eexists. split; [reflexivity|]. split; [reflexivity|].
      cbn [snd]. unfold p. apply shift_plain; [exact DI'|exact DF'].
    - rewrite app_nil_r.
      rewrite index_byte_none by (apply plain_no_c; [exact DI'|rewrite fdig_nm; exact DF']).
      eexists. split; [reflexivity|]. split; [reflexivity|]. cbn [snd].
      unfold shifted_ip, shifted_fp. cbn [firstn skipn Nat.sub repeat].
      rewrite !app_nil_r. f_equal. unfold nm_fdigits. destruct (nm_fp x) as [f|]; [|reflexivity].
      destruct f; [|reflexivity]. tauto. }
  destruct SRC as (cr & E1 & E2 & E3).
  unfold new_operands_string. rewrite E1. cbn [rbind]. rewrite E3.
  rewrite (parse_float_plain _ _ _ q) by (try assumption; rewrite SC, LEN; exact R).
  cbn [rbind fst snd].
  destruct (fraction_ops_plain (nm_neg x) ip' fp' DIP DFP) as (w & t & F1 & F2).
  { rewrite FV. exact FM. }
  rewrite F1. cbn [rbind]. rewrite LEN, FV in *. rewrite E2. exists w, t.
  split; [reflexivity|exact F2].
Qed.

(** ** Up to 15 significant digits *)

Definition ten15 : Z := 1000000000000000.

Lemma p10_pos : forall n, 0 < p10 n.
Proof. intro n. unfold p10. apply Z.pow_pos_nonneg; lia. Qed.

Lemma not_multiple : forall m k r z, 0 < r < m -> m * k + r <> z * m.
Proof.
  intros m k r z B H. assert (E : r = (z - k) * m) by lia.
  destruct (Z_lt_le_dec 0 (z - k)); nia.
Qed.

Lemma round_value : forall s v, 0 <= s < ten15 -> (v <= 300)%nat ->
  exists q, f64_round s (p10 v) = Some q /\ (0 <= q)%Q /\
    Qfloor q = s / p10 v /\
    iview q = iview (Qmake s (Z.to_pos (p10 v))) /\
    ((v <= 5)%nat -> clear_of_integers q).
Proof.
  intros s v S V. pose proof (p10_pos v) as P.
  assert (ID : Zpos (Z.to_pos (p10 v)) = p10 v) by (apply Z2Pos.id; exact P).
  destruct (Z.eq_dec (s mod p10 v) 0) as [M|M].
  - (* an integer *)
    assert (E : s = s / p10 v * p10 v) by (pose proof (Z.div_mod s (p10 v)); lia).
    assert (B : 0 <= s / p10 v <= 9007199254740992).
    { split; [apply Z.div_pos; lia|]. apply Z.div_le_upper_bound; [lia|]. unfold ten15 in S. nia. }
    destruct (f64_round_exact (s / p10 v) (p10 v) B P) as (q & Q1 & Q2).
    rewrite <- E in Q1. exists q. split; [exact Q1|].
    split. { rewrite Q2. change 0%Q with (inject_Z 0). rewrite <- Zle_Qle. lia. }
    split. { rewrite Q2. apply Qfloor_Z. }
    split.
    + rewrite (iview_comp q (inject_Z (s / p10 v)) Q2), iview_Z. symmetry. apply iview_some.
      unfold Qeq, inject_Z; cbn [Qnum Qden]. rewrite ID. lia.
    + intros _ z H. rewrite Q2 in *. apply Qabs_Qle_condition in H. destruct H as [H1 H2].
      assert (z = s / p10 v); [|subst; reflexivity].
      set (k := s / p10 v) in *.
      assert (U : (inject_Z z - inject_Z k == inject_Z (z - k))%Q)
        by (unfold Z.sub; rewrite inject_Z_plus, inject_Z_opp; reflexivity).
      rewrite U in H1, H2.
      destruct (Z_lt_le_dec (z - k) 1), (Z_lt_le_dec (-1) (z - k)); try lia.
      * assert (W : (inject_Z (z - k) <= inject_Z (-1))%Q) by (rewrite <- Zle_Qle; lia).
        change (inject_Z (-1)) with (-1 # 1)%Q in W. lra.
      * assert (W : (inject_Z 1 <= inject_Z (z - k))%Q) by (rewrite <- Zle_Qle; lia).
        change (inject_Z 1) with (1 # 1)%Q in W. lra.
  - (* not an integer *)
    assert (SP : 0 < s) by (destruct (Z.eq_dec s 0); [subst; rewrite Z.mod_0_l in M; lia|lia]).
    assert (P300 : p10 v <= 10 ^ 300) by (unfold p10; apply Z.pow_le_mono_r; lia).
    assert (T : 10 ^ 300 < 2 ^ 1000) by reflexivity.
    assert (L : -1022 <= floor_log2 s (p10 v)).
    { pose proof (floor_log2_ge s (p10 v) 1000 SP P ltac:(lia)) as G.
      assert (X : p10 v < s * 2 ^ 1000); [|specialize (G X); lia].
      eapply Z.le_lt_trans; [exact P300|]. eapply Z.lt_le_trans; [exact T|].
      assert (0 < 2 ^ 1000) by reflexivity. set (w := 2 ^ 1000) in *. clearbody w. nia. }
    destruct (f64_round_defined s (p10 v) ltac:(lia) P) as (q & Q1).
    { unfold ten15 in S. assert (1000000000000000 < 2 ^ 1000) by reflexivity.
      set (w := 2 ^ 1000) in *. clearbody w. nia. }
    destruct (f64_round_error s (p10 v) q SP P L Q1) as [QN QE].
    exists q. split; [exact Q1|]. split; [unfold Qle; simpl; lia|].
    destruct q as [n d]. cbn [Qnum Qden] in *.
    set (D := Zpos d) in *. assert (DP : 0 < D) by (unfold D; lia).
    pose proof (Z.mod_pos_bound s (p10 v) P) as MB.
    pose proof (Z.div_mod s (p10 v) ltac:(lia)) as DM.
    set (k := s / p10 v) in *. set (r := s mod p10 v) in *. set (m := p10 v) in *.
    (* |n*m - s*D| * 2^53 <= s*D, s < 10^15 *)
    assert (ERR : 9 * Z.abs (n * m - s * D) < D).
    { unfold ten15 in S. set (a := Z.abs (n * m - s * D)) in *.
      assert (s * D <= 999999999999999 * D) by nia. clearbody a. lia. }
    assert (M5 : (v <= 5)%nat -> m <= 100000).
    { intro V5. change 100000 with (10 ^ 5). unfold m, p10. apply Z.pow_le_mono_r; lia. }
    assert (DD : D = Zpos d) by reflexivity.
    clear P300 T L Q1 QE QN V S.
    clearbody D m k r.
    assert (LOW : k * D < n) by nia.
    assert (UP : n < (k + 1) * D) by nia.
    assert (FL : n / D = k).
    { symmetry. apply (Z.div_unique n D k (n - k * D)); lia. }
    split; [unfold Qfloor; rewrite <- DD; exact FL|]. split.
    + transitivity (@None Z).
      * apply iview_none. intros z H. unfold Qeq, inject_Z in H; cbn [Qnum Qden] in H.
        rewrite <- DD in H. assert (E : n = z * D) by lia. rewrite E in LOW, UP.
        apply Z.mul_lt_mono_pos_r in LOW; [|exact DP]. apply Z.mul_lt_mono_pos_r in UP; [|exact DP]. lia.
      * symmetry. apply iview_none. intros z H. unfold Qeq, inject_Z in H; cbn [Qnum Qden] in H.
        rewrite ID in H. apply (not_multiple m k r z); lia.
    + intros V5 z H. exfalso. apply Qabs_Qle_condition in H. destruct H as [H1 H2].
      unfold Qle, Qminus, Qplus, Qopp, inject_Z in H1, H2; cbn [Qnum Qden] in H1, H2.
      rewrite <- DD in H1, H2. specialize (M5 V5).
      set (a := z * D - n) in *.
      assert (A1 : 1000000 * Z.abs a <= D) by lia.
      assert (A2 : a * m = (z * m - s) * D - (n * m - s * D)) by (unfold a; ring).
      assert (A3 : z * m - s <> 0) by (pose proof (not_multiple m k r z); lia).
      assert (A4 : D <= Z.abs ((z * m - s) * D)) by (rewrite Z.abs_mul; clear - A3 DP; nia).
      assert (A5 : 1000000 * Z.abs (a * m) <= 100000 * D).
      { rewrite Z.abs_mul, (Z.abs_eq m) by lia. clear - A1 M5 DP P. nia. }
      rewrite A2 in A5. set (b := (z * m - s) * D) in *. set (c := n * m - s * D) in *.
      clearbody b c. lia.
Qed.
