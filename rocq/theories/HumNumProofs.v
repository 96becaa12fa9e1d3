(** Ordinal, Apnumber and FilesizeFormat. *)
From Coq Require Import String Ascii List ZArith QArith Qround Qabs Bool Lia Lqa.
From Verif Require Import Base BaseProofs PopModel NumModel F64Model FltModel FltProofs CalModel
  CalLeapProofs HumModel HumSpec HumFdProofs HumTimeProofs.
Import ListNotations.
Open Scope Z_scope.

(** ** float64 to int64 *)
Lemma qtrunc_floor : forall q, (0 <= q)%Q -> qtrunc q = Qfloor q.
Proof.
  intros q H. unfold qtrunc. assert (0 <= Qnum q) by (unfold Qle in H; simpl in H; lia).
  destruct (Qnum q <? 0) eqn:E; [lia|reflexivity].
Qed.
Lemma floor_ge0 : forall q, (0 <= q)%Q -> 0 <= Qfloor q.
Proof. intros q H. apply Qfloor_resp_le in H. exact H. Qed.
Lemma floor_lt : forall q n, (q < inject_Z n)%Q -> Qfloor q < n.
Proof. intros q n H. rewrite Zlt_Qlt. apply (Qle_lt_trans _ q); [apply Qfloor_le|assumption]. Qed.
Lemma floor_ge : forall q n, (inject_Z n <= q)%Q -> n <= Qfloor q.
Proof. intros q n H. apply Qfloor_resp_le in H. rewrite Qfloor_Z in H. assumption. Qed.
Lemma fto_in : forall q, (0 <= q)%Q -> (q < inject_Z (2 ^ 63))%Q -> fto_int64 q = Qfloor q.
Proof.
  intros q A B. unfold fto_int64, f64_to_int64, minInt64, maxInt64. rewrite qtrunc_floor by assumption.
  pose proof (floor_ge0 q A). pose proof (floor_lt q _ B). change (2 ^ 63) with 9223372036854775808 in *.
  destruct (_ && _) eqn:E; [reflexivity|]. apply andb_false_iff in E. lia.
Qed.
Lemma fto_big : forall q, (inject_Z (2 ^ 63) <= q)%Q -> fto_int64 q = - 2 ^ 63.
Proof.
  intros q A. assert (Q0 : (0 <= q)%Q) by (apply (Qle_trans _ (inject_Z (2 ^ 63))); [apply (inj_le 0); vm_compute; discriminate|assumption]).
  unfold fto_int64, f64_to_int64, minInt64, maxInt64. rewrite qtrunc_floor by assumption.
  pose proof (floor_ge q _ A). change (2 ^ 63) with 9223372036854775808 in *.
  destruct (_ && _) eqn:E; [|reflexivity]. apply andb_true_iff in E. lia.
Qed.

(** ** Ordinal *)
Lemma ten_cases : forall r, 0 <= r < 10 ->
  r = 0 \/ r = 1 \/ r = 2 \/ r = 3 \/ r = 4 \/ r = 5 \/ r = 6 \/ r = 7 \/ r = 8 \/ r = 9.
Proof. intros. lia. Qed.

Lemma ordinal_nonneg : forall x n, num_neg x = false -> num_int64 x = n -> 0 <= n ->
  ordinal x = Ok (OGetf (ordinal_context n) (bs "%v" ++ bs (english_suffix n)) (AInt64 n)).
Proof.
  intros x n N E H. unfold ordinal. rewrite N, E. cbv zeta.
  rewrite !Z.rem_mod_nonneg by lia. unfold ordinal_context, english_suffix.
  destruct ((11 <=? n mod 100) && (n mod 100 <=? 13)) eqn:A.
  - replace ((n mod 100 =? 11) || (n mod 100 =? 12) || (n mod 100 =? 13)) with true; [reflexivity|].
    symmetry. rewrite !orb_true_iff, !Z.eqb_eq. apply andb_true_iff in A. lia.
  - replace ((n mod 100 =? 11) || (n mod 100 =? 12) || (n mod 100 =? 13)) with false.
    + pose proof (Z.mod_pos_bound n 10 ltac:(lia)) as M. apply ten_cases in M. clear A.
      set (r := n mod 10) in *. clearbody r.
      destruct M as [->|[->|[->|[->|[->|[->|[->|[->|[->| ->]]]]]]]]]; reflexivity.
    + symmetry. rewrite !orb_false_iff, !Z.eqb_neq. apply andb_false_iff in A. lia.
Qed.

Lemma num_neg_fin : forall q, num_neg (FFin q) = false <-> (0 <= q)%Q.
Proof. intro q. simpl. unfold Qle. simpl. rewrite Z.mul_1_r, Z.ltb_ge. tauto. Qed.

Lemma ordinal_min : forall x, num_neg x = false -> num_int64 x = - 2 ^ 63 -> ordinal x = Panic.
Proof. intros x N E. unfold ordinal. rewrite N, E. vm_compute. reflexivity. Qed.

(** ** Apnumber *)
Lemma digit_word_out : forall n, n <= 0 \/ 10 <= n -> digit_word n = None.
Proof.
  intros n H. destruct n as [|p|p]; [reflexivity| |reflexivity].
  do 4 (destruct p as [p|p|]; try reflexivity; try (exfalso; lia)).
Qed.
Lemma nine_cases : forall n, 1 <= n <= 9 -> n = 1 \/ n = 2 \/ n = 3 \/ n = 4 \/ n = 5 \/ n = 6 \/ n = 7 \/ n = 8 \/ n = 9.
Proof. intros. lia. Qed.
Lemma apnumber_spec : forall x,
  apnumber x = Ok (match digit_word (num_int64 x) with
                   | Some w => OGet [] (bs w)
                   | None => OPrint (bs "%d") (AInt64 (num_int64 x))
                   end).
Proof.
  intro x. unfold apnumber. set (n := num_int64 x). clearbody n. cbv zeta.
  destruct ((n <=? 0) || (10 <=? n)) eqn:E.
  - rewrite digit_word_out; [reflexivity|]. apply orb_true_iff in E. lia.
  - apply orb_false_iff in E. assert (N : 1 <= n <= 9) by lia. apply nine_cases in N.
    destruct N as [->|[->|[->|[->|[->|[->|[->|[->| ->]]]]]]]]; reflexivity.
Qed.

(** ** FilesizeFormat *)
Lemma size_small : forall n, 0 <= n < 1024 ->
  size_text n = ONGetf [] (bs "%[1]d byte") (bs "%[1]d bytes") n (AInt64 n).
Proof. intros n N. unfold size_text. cbv zeta. unfold kb. replace (n <? 1024) with true by lia. reflexivity. Qed.

Definition five (n u : Z) (name : string) : Prop :=
  (u = kb /\ name = "KB"%string /\ n < mb) \/ (u = mb /\ name = "MB"%string /\ mb <= n < gb) \/
  (u = gb /\ name = "GB"%string /\ gb <= n < tb) \/ (u = tb /\ name = "TB"%string /\ tb <= n < pb) \/
  (u = pb /\ name = "PB"%string /\ pb <= n).
Lemma five_largest : forall n u name, 1024 <= n -> five n u name -> largest_unit n u name.
Proof.
  intros n u name N H. unfold largest_unit. unfold five, kb, mb, gb, tb, pb in H.
  change binary_units with [(1024, "KB"%string); (1048576, "MB"%string); (1073741824, "GB"%string); (1099511627776, "TB"%string); (1125899906842624, "PB"%string)].
  repeat split.
  - destruct H as [(-> & -> & _)|[(-> & -> & _)|[(-> & -> & _)|[(-> & -> & _)|(-> & -> & _)]]]]; simpl; tauto.
  - lia.
  - intros u' name' I L. simpl in I.
    assert (U : u' = 1024 \/ u' = 1048576 \/ u' = 1073741824 \/ u' = 1099511627776 \/ u' = 1125899906842624).
    { destruct I as [I|[I|[I|[I|[I|[]]]]]]; inversion I; subst; tauto. }
    clear I. lia.
Qed.
Lemma size_big : forall n, 1024 <= n ->
  exists u name, five n u name /\
    size_text n = OGetf [] (bs "%s " ++ bs name) (AText (OPrint (bs "%v") (ADecimal (fdiv (fint n) (fint u)) 1))).
Proof.
  intros n N. unfold size_text. cbv zeta. unfold five.
  destruct (n <? kb) eqn:A; [unfold kb in A; lia|].
  destruct (n <? mb) eqn:B; [exists kb, "KB"%string; split; [left; repeat split; lia|reflexivity]|].
  destruct (n <? gb) eqn:C; [exists mb, "MB"%string; split; [right; left; repeat split; lia|reflexivity]|].
  destruct (n <? tb) eqn:D; [exists gb, "GB"%string; split; [right; right; left; repeat split; lia|reflexivity]|].
  destruct (n <? pb) eqn:F; [exists tb, "TB"%string; split; [right; right; right; left; repeat split; lia|reflexivity]|].
  exists pb, "PB"%string. split; [right; right; right; right; repeat split; lia|reflexivity].
Qed.
Lemma frac_exact : forall n u j, 0 <= j <= 50 -> u = 2 ^ j -> 0 <= n <= P53 ->
  (fdiv (fint n) (fint u) == n # Z.to_pos u)%Q.
Proof.
  intros n u j J -> N. unfold fdiv.
  assert (P : 0 < 2 ^ j) by (apply Z.pow_pos_nonneg; lia).
  assert (PL : 2 ^ j <= P53) by (change P53 with (2 ^ 53); apply Z.pow_le_mono_r; lia).
  apply frnd_exact; [apply is_f64_frac; lia|].
  assert (EU : (fint (2 ^ j) == inject_Z (2 ^ j))%Q) by (apply fint_exact; lia).
  rewrite EU. apply qdiv_int; [|assumption]. apply fint_exact. lia.
Qed.
Lemma size_exact : forall n u name, 0 <= n <= P53 -> five n u name -> (fdiv (fint n) (fint u) == n # Z.to_pos u)%Q.
Proof.
  intros n u name N H. unfold five in H.
  destruct H as [(-> & _)|[(-> & _)|[(-> & _)|[(-> & _)|(-> & _)]]]];
  [apply (frac_exact n _ 10)|apply (frac_exact n _ 20)|apply (frac_exact n _ 30)|apply (frac_exact n _ 40)|apply (frac_exact n _ 50)];
  try lia; reflexivity.
Qed.
Lemma filesize_neg : forall n, 0 < n < 2 ^ 63 -> filesize (- n) = OCat (OLit (bs "-")) (filesize n).
Proof.
  intros n N. unfold filesize. replace (- n <? 0) with true by lia. replace (n <? 0) with false by lia. cbv zeta.
  f_equal. f_equal. unfold wrap64. change (2 ^ 63) with 9223372036854775808 in *.
  rewrite Z.mod_small by lia. lia.
Qed.
