(** TimeSince: the units shown. *)
From Coq Require Import String Ascii List ZArith QArith Qround Qabs Bool Lia Lqa.
From Verif Require Import Base BaseProofs PopModel NumModel F64Model FltModel FltProofs CalModel CalSpec CalProofs
  CalLeapProofs HumModel HumSpec HumFdProofs.
Import ListNotations.
Open Scope Z_scope.

Lemma is_f64_pow : forall k, 0 <= k -> is_f64 (inject_Z (2 ^ k)).
Proof.
  intros k K. exists 1, k. split; [unfold P53; lia|]. split; [lia|].
  unfold dyadic. destruct (0 <=? k) eqn:E; [|lia]. rewrite Z.mul_1_l. reflexivity.
Qed.
Lemma is_f64_0 : is_f64 0%Q.
Proof. apply (is_f64_int 0). vm_compute. discriminate. Qed.

Lemma inj_le : forall a b, a <= b -> (inject_Z a <= inject_Z b)%Q.
Proof. intros. rewrite <- Zle_Qle. assumption. Qed.
Lemma inj_le_inv : forall a b, (inject_Z a <= inject_Z b)%Q -> a <= b.
Proof. intros a b H. rewrite <- Zle_Qle in H. assumption. Qed.

Lemma fround_ge : forall q z, (inject_Z z <= q)%Q -> 0 <= z -> (inject_Z z <= fround q)%Q.
Proof.
  intros q z H Z0. assert (Q0 : (0 <= q)%Q) by (apply (Qle_trans _ (inject_Z z)); [apply (inj_le 0); lia|assumption]).
  destruct (fround_near q Q0) as (w & -> & W1 & W2). apply inj_le.
  assert (z < w + 1); [|lia]. rewrite Zlt_Qlt. lra.
Qed.
Lemma fround_le : forall q z, (0 <= q)%Q -> (q <= inject_Z z)%Q -> (fround q <= inject_Z z)%Q.
Proof.
  intros q z Q0 H. destruct (fround_near q Q0) as (w & -> & W1 & W2). apply inj_le.
  assert (w < z + 1); [|lia]. rewrite Zlt_Qlt. rewrite inject_Z_plus. change (inject_Z 1) with 1%Q. lra.
Qed.
Lemma fround_neg : forall q, (q <= 0)%Q -> (fround q <= 0)%Q.
Proof.
  intros q H. unfold fround. destruct (Qnum q <? 0) eqn:E.
  - change 0%Q with (inject_Z 0). apply inj_le.
    assert (0 <= Qfloor (- q + (1 # 2))); [|lia].
    pose proof (Qfloor_resp_le 0 (- q + (1 # 2))) as F. change (Qfloor 0) with 0 in F. apply F. lra.
  - assert (Qnum q = 0) by (unfold Qle in H; simpl in H; lia).
    assert (q == 0)%Q by (unfold Qeq; simpl; lia). rewrite H1. apply Qle_refl.
Qed.

Lemma Qdiv_le_0 : forall a b, (a <= 0)%Q -> (0 < b)%Q -> (a / b <= 0)%Q.
Proof. intros a b A B. apply Qle_shift_div_r; [assumption|]. rewrite Qmult_0_l. assumption. Qed.

(** A negative rest never gives a unit. *)
Lemma count_neg : forall a b, a < 0 -> 0 < b <= P53 -> count_in a b <= 0.
Proof.
  intros a b A B. unfold count_in, floor_division, to_fixed3.
  assert (Fb : (fint b == inject_Z b)%Q) by (apply fint_exact; lia).
  assert (Bp : (0 < fint b)%Q) by (rewrite Fb; change 0%Q with (inject_Z 0); rewrite <- Zlt_Qlt; lia).
  assert (Fa : (fint a <= 0)%Q) by (apply frnd_le; [apply is_f64_0|apply (inj_le a 0); lia]).
  assert (X : (fdiv (fint a) (fint b) <= 0)%Q) by (apply frnd_le; [apply is_f64_0|apply Qdiv_le_0; assumption]).
  set (x := fdiv (fint a) (fint b)) in *. clearbody x.
  assert (Y : (fmul x (inject_Z 1000) <= 0)%Q).
  { apply frnd_le; [apply is_f64_0|]. change (inject_Z 1000) with (1000 # 1). lra. }
  pose proof (fround_neg _ Y) as R. set (y := fround (fmul x (inject_Z 1000))) in *. clearbody y.
  assert (W : (fdiv y (inject_Z 1000) <= 0)%Q).
  { apply frnd_le; [apply is_f64_0|]. apply Qdiv_le_0; [assumption|reflexivity]. }
  pose proof (Qfloor_resp_le _ _ W) as F. change (Qfloor 0) with 0 in F.
  unfold ffloor, fto_int64. rewrite (qtrunc_int _ _ (Qeq_refl _)).
  unfold f64_to_int64, minInt64. destruct (_ && _); lia.
Qed.

(** A unit that fits is counted at least once, for every int64. *)
Lemma count_pos : forall a b, b <= a -> a < 2 ^ 63 -> 60 <= b <= P53 -> 1 <= count_in a b.
Proof.
  intros a b AB A B. unfold count_in, floor_division, to_fixed3.
  assert (Fb : (fint b == inject_Z b)%Q) by (apply fint_exact; lia).
  assert (Bp : (0 < inject_Z b)%Q) by (change 0%Q with (inject_Z 0); rewrite <- Zlt_Qlt; lia).
  assert (B60 : (inject_Z 60 <= inject_Z b)%Q) by (apply inj_le; lia).
  assert (Fa1 : (inject_Z b <= fint a)%Q) by (apply frnd_ge; [apply is_f64_int; lia|apply inj_le; lia]).
  assert (Fa2 : (fint a <= inject_Z (2 ^ 63))%Q) by (apply frnd_le; [apply is_f64_pow; lia|apply inj_le; lia]).
  assert (X1 : (1 <= fdiv (fint a) (fint b))%Q).
  { apply frnd_ge; [apply (is_f64_int 1); vm_compute; discriminate|]. rewrite Fb.
    apply Qle_shift_div_l; [assumption|]. rewrite Qmult_1_l. assumption. }
  assert (X2 : (fdiv (fint a) (fint b) <= inject_Z (2 ^ 58))%Q).
  { apply frnd_le; [apply is_f64_pow; lia|]. rewrite Fb.
    apply Qle_shift_div_r; [assumption|].
    apply (Qle_trans _ _ _ Fa2). apply (Qle_trans _ (inject_Z (2 ^ 58) * inject_Z 60)).
    - rewrite <- inject_Z_mult. apply inj_le. vm_compute. discriminate.
    - rewrite <- !inject_Z_mult. apply inj_le. change (2 ^ 58) with 288230376151711744. lia. }
  set (x := fdiv (fint a) (fint b)) in *. clearbody x.
  assert (Y1 : (inject_Z 1000 <= fmul x (inject_Z 1000))%Q).
  { apply frnd_ge; [apply is_f64_int; vm_compute; discriminate|]. change (inject_Z 1000) with (1000 # 1). lra. }
  assert (Y2 : (fmul x (inject_Z 1000) <= inject_Z (2 ^ 68))%Q).
  { apply frnd_le; [apply is_f64_pow; lia|]. change (inject_Z 1000) with (1000 # 1).
    change (inject_Z (2 ^ 68)) with (295147905179352825856 # 1). change (inject_Z (2 ^ 58)) with (288230376151711744 # 1) in X2. lra. }
  set (y := fmul x (inject_Z 1000)) in *. clearbody y.
  assert (Y0 : (0 <= y)%Q) by (change (inject_Z 1000) with (1000 # 1) in Y1; lra).
  pose proof (fround_ge y 1000 Y1 ltac:(lia)) as R1. pose proof (fround_le y _ Y0 Y2) as R2.
  set (z := fround y) in *. clearbody z.
  assert (W1 : (1 <= fdiv z (inject_Z 1000))%Q).
  { apply frnd_ge; [apply (is_f64_int 1); vm_compute; discriminate|].
    apply Qle_shift_div_l; [reflexivity|]. rewrite Qmult_1_l. assumption. }
  assert (W2 : (fdiv z (inject_Z 1000) <= inject_Z (2 ^ 59))%Q).
  { apply frnd_le; [apply is_f64_pow; lia|].
    apply Qle_shift_div_r; [reflexivity|]. apply (Qle_trans _ _ _ R2).
    rewrite <- inject_Z_mult. apply inj_le. vm_compute. discriminate. }
  pose proof (Qfloor_resp_le _ _ W1) as F1. change (Qfloor 1) with 1 in F1.
  pose proof (Qfloor_resp_le _ _ W2) as F2. rewrite Qfloor_Z in F2. change (2 ^ 59) with 576460752303423488 in F2.
  unfold ffloor, fto_int64. rewrite (qtrunc_int _ _ (Qeq_refl _)).
  unfold f64_to_int64, minInt64, maxInt64. destruct (_ && _) eqn:E; [lia|]. apply andb_false_iff in E. lia.
Qed.

Lemma count_bounds : forall a b, 0 <= a <= P41 -> 0 < b <= 33554432 ->
  let k := count_in a b in
  2000 * (k * b) <= 2000 * a + b <= 2000 * ((k + 1) * b) /\ 0 <= k <= P41 + 1.
Proof.
  intros a b A B. unfold count_in. apply fd_bounds; try assumption.
  - apply fint_exact. unfold P41, P53 in *. lia.
  - apply fint_exact. unfold P53 in *. lia.
Qed.

(** Clear of the next multiple, the count is the quotient. *)
Lemma count_exact : forall a b, 0 <= a <= P41 -> 0 < b <= 33554432 -> clear_of a b -> count_in a b = a / b.
Proof.
  intros a b A B C. unfold clear_of in C. pose proof (count_bounds a b A B) as H. cbv zeta in H.
  set (k := count_in a b) in *. clearbody k.
  pose proof (Z.div_mod a b ltac:(lia)). pose proof (Z.mod_pos_bound a b ltac:(lia)).
  set (m := a mod b) in *. set (q := a / b) in *. clearbody m q. subst a.
  assert (k <= q) by nia. assert (q <= k) by nia. lia.
Qed.
Lemma count_small : forall a b, 0 <= a <= P41 -> 0 < b <= 33554432 -> 2000 * a < 1999 * b -> count_in a b = 0.
Proof.
  intros a b A B C. assert (a mod b = a) by (apply Z.mod_small; lia).
  rewrite count_exact by (try assumption; unfold clear_of; lia). apply Z.div_small. lia.
Qed.
(** Minutes are always counted exactly. *)
Lemma count_minute : forall a, 0 <= a <= P41 -> count_in a 60 = a / 60.
Proof.
  intros a A. apply count_exact; [assumption|lia|]. unfold clear_of.
  pose proof (Z.mod_pos_bound a 60 ltac:(lia)). lia.
Qed.

Opaque count_in.

(** ** sort.Search finds the first index *)
Lemma search_spec : forall f n fuel i j, (i <= j <= n)%nat -> (j - i < fuel)%nat ->
  (forall x y, (x <= y < n)%nat -> f x = true -> f y = true) ->
  (forall x, (x < i)%nat -> f x = false) -> (forall x, (j <= x < n)%nat -> f x = true) ->
  let k := search fuel f i j in
  (k <= n)%nat /\ (forall x, (x < k)%nat -> f x = false) /\ (forall x, (k <= x < n)%nat -> f x = true).
Proof.
  intros f n. induction fuel as [|fuel IH]; intros i j B FU M LO HI; [lia|].
  cbn [search]. destruct (Nat.ltb i j) eqn:E.
  - apply Nat.ltb_lt in E.
    assert (H : (i <= Nat.div2 (i + j) < j)%nat).
    { pose proof (Nat.div2_odd (i + j)) as D. unfold Nat.b2n in D. destruct (Nat.odd (i + j)); lia. }
    set (h := Nat.div2 (i + j)) in *. clearbody h.
    destruct (f h) eqn:F; apply IH; try lia; try assumption.
    + intros x X. apply (M h x); [lia|assumption].
    + intros x X. destruct (f x) eqn:FX; [|reflexivity]. rewrite (M x h) in F; [discriminate|lia|assumption].
  - apply Nat.ltb_ge in E. assert (i = j) by lia. subst j. cbv zeta. split; [lia|]. split; assumption.
Qed.

(** ** The chunks are the units *)
Definition unit_of (u : string * Z) : bytes * Z := (bs (fst u), snd u).
Lemma chunks_units : chunks = map unit_of time_units.
Proof. reflexivity. Qed.

Lemma unit_sizes : forallb (fun x => (60 <=? snd x) && (snd x <=? 33554432)) chunks = true.
Proof. vm_compute. reflexivity. Qed.
Lemma unit_size : forall i x, nth_error chunks i = Some x -> 60 <= snd x <= 33554432.
Proof.
  intros i x H. apply nth_error_In in H. pose proof unit_sizes as U. rewrite forallb_forall in U.
  specialize (U x H). cbv beta in U. apply andb_true_iff in U. lia.
Qed.
Definition sizes_halve (l : list (bytes * Z)) : bool :=
  forallb (fun x => forallb (fun y =>
    match nth_error l x, nth_error l y with
    | Some a, Some b => implb (Nat.ltb x y) (2 * snd b <=? snd a)
    | _, _ => true
    end) (seq 0 6)) (seq 0 6).
Lemma units_halve : sizes_halve chunks = true.
Proof. vm_compute. reflexivity. Qed.
Lemma unit_halve : forall x y a b, (x < y < 6)%nat -> nth_error chunks x = Some a -> nth_error chunks y = Some b ->
  2 * snd b <= snd a.
Proof.
  intros x y a b L A B. pose proof units_halve as U. unfold sizes_halve in U. rewrite forallb_forall in U.
  specialize (U x). rewrite in_seq in U. specialize (U ltac:(lia)). cbv beta in U. rewrite forallb_forall in U.
  specialize (U y). rewrite in_seq in U. specialize (U ltac:(lia)). cbv beta in U. rewrite A, B in U.
  replace (Nat.ltb x y) with true in U by (symmetry; apply Nat.ltb_lt; lia). cbn [implb] in U. lia.
Qed.

Definition nz (delta : Z) (i : nat) : bool :=
  match nth_error chunks i with Some c => negb (count_in delta (snd c) =? 0) | None => false end.

Lemma nz_mono : forall delta x y, 0 < delta < 2 ^ 63 -> (x <= y < 6)%nat -> nz delta x = true -> nz delta y = true.
Proof.
  intros delta x y D L H. destruct (Nat.eq_dec x y) as [->|N]; [assumption|].
  assert (LT : (x < y < 6)%nat) by lia. clear L N.
  unfold nz in *.
  destruct (nth_error chunks x) as [cx|] eqn:EX; [|discriminate].
  destruct (nth_error chunks y) as [cy|] eqn:EY; [|apply nth_error_None in EY; simpl in EY; lia].
  pose proof (unit_size x cx EX) as SX. pose proof (unit_size y cy EY) as SY.
  pose proof (unit_halve x y cx cy LT EX EY) as G.
  destruct (Z_lt_le_dec delta (snd cy)) as [S|S].
  - rewrite count_small in H; [discriminate| | |]; unfold P41; lia.
  - assert (1 <= count_in delta (snd cy)) by (apply count_pos; unfold P53; lia).
    destruct (count_in delta (snd cy) =? 0) eqn:Z0; [lia|reflexivity].
Qed.

Definition first_unit (delta : Z) : nat := search 7 (nz delta) 0 6.
Lemma first_unit_spec : forall delta, 0 < delta < 2 ^ 63 ->
  let k := first_unit delta in
  (k <= 6)%nat /\ (forall x, (x < k)%nat -> nz delta x = false) /\ (forall x, (k <= x < 6)%nat -> nz delta x = true).
Proof.
  intros delta D. unfold first_unit. apply (search_spec (nz delta) 6); try lia.
  intros x y L. apply nz_mono; [assumption|lia].
Qed.

Lemma units_of_eq : forall depth adj delta, 0 < delta ->
  units_of depth adj delta =
  if Nat.eqb (first_unit delta) 6 then [(bs "minute", 0)]
  else unit_loop adj depth (skipn (first_unit delta) chunks) 0 delta.
Proof.
  intros depth adj delta D. unfold units_of. destruct (delta <=? 0) eqn:E; [lia|]. cbv zeta.
  change (length chunks) with 6%nat. change (fun i : nat => match nth_error chunks i with
    | Some c => negb (count_in delta (snd c) =? 0) | None => false end) with (nz delta).
  unfold first_unit. reflexivity.
Qed.

(** ** Shape *)
Lemma loop_shape : forall adj depth l cur since,
  Forall (fun u => 1 <= snd u) (unit_loop adj depth l cur since) /\
  subsequence (map fst (unit_loop adj depth l cur since)) (map fst l) /\
  Z.of_nat (length (unit_loop adj depth l cur since)) <= Z.max 0 (depth - cur).
Proof.
  intros adj depth. induction l as [|[name secs] l IH]; intros cur since; cbn [unit_loop map].
  - repeat split; [constructor|constructor|simpl; lia].
  - destruct (cur <? depth) eqn:E; [|repeat split; [constructor|constructor|simpl; lia]].
    cbv zeta. destruct (count_in since secs <=? 0) eqn:C.
    + destruct adj; [repeat split; [constructor|constructor|simpl; lia]|].
      destruct (IH cur since) as (A & B & D). repeat split; [assumption|constructor 3; assumption|assumption].
    + destruct (IH (cur + 1) (since - secs * count_in since secs)) as (A & B & D). cbn [map fst length]. repeat split.
      * constructor; [simpl; lia|assumption].
      * constructor 2. assumption.
      * lia.
Qed.

Lemma loop_prefix : forall depth l cur since,
  exists b, map fst l = map fst (unit_loop true depth l cur since) ++ b.
Proof.
  intros depth. induction l as [|[name secs] l IH]; intros cur since; cbn [unit_loop map].
  - exists []. reflexivity.
  - destruct (cur <? depth) eqn:E; [|eexists; reflexivity].
    cbv zeta. destruct (count_in since secs <=? 0) eqn:C; [eexists; reflexivity|].
    destruct (IH (cur + 1) (since - secs * count_in since secs)) as (b & B). exists b. cbn [map fst app]. f_equal. assumption.
Qed.

Lemma subseq_skipn : forall (A : Type) n (l1 l2 : list A), subsequence l1 (skipn n l2) -> subsequence l1 l2.
Proof.
  intros A. induction n as [|n IH]; intros l1 l2 H; [assumption|].
  destruct l2 as [|x l2]; [assumption|]. constructor 3. apply IH. assumption.
Qed.

Lemma units_nonempty : forall depth adj delta, 60 <= delta < 2 ^ 63 -> 1 <= depth ->
  exists i name secs l, (i < 6)%nat /\ first_unit delta = i /\
  skipn i chunks = (name, secs) :: skipn (S i) chunks /\ 1 <= count_in delta secs /\ 60 <= secs <= 33554432 /\
  units_of depth adj delta = (name, count_in delta secs) :: l /\
  l = unit_loop adj depth (skipn (S i) chunks) (0 + 1) (delta - secs * count_in delta secs).
Proof.
  intros depth adj delta D DP. destruct (first_unit_spec delta ltac:(lia)) as (K & LO & HI). 
  remember (first_unit delta) as i eqn:EI.
  assert (I6 : (i < 6)%nat).
  { destruct (Nat.eq_dec i 6) as [E|]; [|lia]. exfalso.
    specialize (LO 5%nat ltac:(lia)). unfold nz in LO. cbn [nth_error chunks snd] in LO.
    assert (1 <= count_in delta 60) by (apply count_pos; unfold P53; lia).
    destruct (count_in delta 60 =? 0) eqn:Z0; [lia|discriminate]. }
  specialize (HI i ltac:(lia)). unfold nz in HI.
  destruct (nth_error chunks i) as [[name secs]|] eqn:E; [|discriminate].
  pose proof (unit_size i _ E) as U. cbn [snd] in *.
  assert (SK : skipn i chunks = (name, secs) :: skipn (S i) chunks).
  { clear - E. revert E. generalize chunks. induction i as [|i IH]; intros l E; destruct l as [|x l]; try discriminate.
    - inversion E. reflexivity.
    - simpl in E. simpl. apply IH. assumption. }
  assert (C1 : 1 <= count_in delta secs).
  { apply negb_true_iff in HI. apply Z.eqb_neq in HI.
    destruct (Z_lt_le_dec delta secs) as [S|S].
    - assert (0 <= count_in delta secs) by (pose proof (count_bounds delta secs ltac:(unfold P41; lia) ltac:(lia)) as CB; cbv zeta in CB; lia). lia.
    - apply count_pos; unfold P53; lia. }
  exists i, name, secs, (unit_loop adj depth (skipn (S i) chunks) (0 + 1) (delta - secs * count_in delta secs)).
  split; [assumption|]. split; [reflexivity|]. split; [assumption|]. split; [assumption|]. split; [lia|]. split; [|reflexivity].
  rewrite units_of_eq by lia. rewrite <- EI. destruct (Nat.eqb i 6) eqn:X; [apply Nat.eqb_eq in X; lia|].
  rewrite SK. cbn [unit_loop]. destruct (0 <? depth) eqn:X2; [|lia]. cbv zeta.
  destruct (count_in delta secs <=? 0) eqn:X3; [lia|reflexivity].
Qed.

Lemma units_zero : forall depth adj delta, delta < 60 -> units_of depth adj delta = [(bs "minute", 0)].
Proof.
  intros depth adj delta D. destruct (Z_le_gt_dec delta 0) as [N|P].
  - unfold units_of. destruct (delta <=? 0) eqn:E; [reflexivity|lia].
  - rewrite units_of_eq by lia.
    destruct (first_unit_spec delta ltac:(lia)) as (K & LO & HI). set (i := first_unit delta) in *.
    destruct (Nat.eqb i 6) eqn:E; [reflexivity|]. apply Nat.eqb_neq in E. exfalso.
    specialize (HI i ltac:(lia)). unfold nz in HI.
    destruct (nth_error chunks i) as [[name secs]|] eqn:N; [|discriminate].
    pose proof (unit_size i _ N) as U. cbn [snd] in *.
    rewrite count_small in HI; [discriminate| | |]; unfold P41; lia.
Qed.
