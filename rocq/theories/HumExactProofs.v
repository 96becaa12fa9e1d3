(** TimeSince: the units shown are exactly those of the rounded decomposition. *)
From Coq Require Import String Ascii List ZArith QArith Qround Bool Lia ZifyBool.
From Verif Require Import Base BaseProofs PopModel NumModel F64Model FltModel FltProofs CalModel CalSpec CalProofs
  CalLeapProofs HumModel HumSpec HumTextSpec HumFdProofs HumTimeProofs HumTotalProofs.
Import ListNotations.
Open Scope Z_scope.

(** A quotient is in question only if exactly 1/2000 of the unit is missing. *)
Lemma count_near : forall a b, 0 <= a <= P41 -> 60 <= b <= 33554432 ->
  count_in a b = nearest_count a b \/
  (2000 * a + b = 2000 * b * nearest_count a b /\ count_in a b = nearest_count a b - 1).
Proof.
  intros a b A B. pose proof (count_bounds a b A ltac:(lia)) as H. cbv zeta in H.
  set (k := count_in a b) in *. clearbody k. unfold nearest_count.
  pose proof (Z.div_mod (2000 * a + b) (2000 * b) ltac:(lia)) as D.
  pose proof (Z.mod_pos_bound (2000 * a + b) (2000 * b) ltac:(lia)) as M.
  set (q := (2000 * a + b) / (2000 * b)) in *. set (r := (2000 * a + b) mod (2000 * b)) in *. clearbody q r.
  destruct H as [[H1 H2] _].
  assert (Q0 : 0 <= q) by nia. rewrite Z.max_r by lia.
  assert (K1 : k <= q) by nia. assert (K2 : q <= k + 1) by nia.
  assert (C : k = q \/ k = q - 1) by lia. destruct C as [C|C]; [left; exact C|right].
  split; [nia|exact C].
Qed.

(** Units for which this happens: months and years. *)
Definition tie_secs (c m : Z) : Z := c * (2000 * m - 1).
Fixpoint ties_up (f : Z -> Z) (c : Z) (m : nat) : bool :=
  match m with
  | O => true
  | S m' => (f (tie_secs c (Z.of_nat m)) =? Z.of_nat m) && ties_up f c m'
  end.
Lemma ties_up_spec : forall f c n, ties_up f c n = true -> forall m, 1 <= m <= Z.of_nat n -> f (tie_secs c m) = m.
Proof.
  intros f c. induction n as [|n IH]; intros H m M; [lia|]. cbn [ties_up] in H. apply andb_true_iff in H. destruct H as [H1 H2].
  destruct (Z.eq_dec m (Z.of_nat (S n))) as [->|N]; [apply Z.eqb_eq; exact H1|]. apply IH; [exact H2|lia].
Qed.
Lemma month_ties : ties_up (fun a => count_in a 2592000) 1296 13 = true.
Proof. vm_compute. reflexivity. Qed.
Lemma year_ties : ties_up (fun a => count_in a 31536000) 15768 (Z.to_nat 1024) = true.
Proof. vm_compute. reflexivity. Qed.

Definition year_secs : Z := 31536000.
Definition no_tie (a : Z) : Prop := a <= 1024 * year_secs \/ (2000 * a + year_secs) mod (2000 * year_secs) <> 0.

Lemma count_unit : forall a u, In u time_units -> 0 <= a <= P41 ->
  (snd u = year_secs -> no_tie a) -> (snd u = 2592000 -> a <= year_secs) ->
  count_in a (snd u) = nearest_count a (snd u).
Proof.
  intros a u I A NY NM. pose proof (time_units_size u I) as S.
  destruct (count_near a (snd u) A S) as [E|[T C]]; [exact E|].
  set (m := nearest_count a (snd u)) in *.
  assert (M0 : 0 <= m) by (unfold m, nearest_count; lia). clearbody m.
  repeat (destruct I as [<-|I]; [cbn [snd] in *|]); [| | | | | |destruct I]; try (exfalso; lia).
  - unfold year_secs in NY. assert (E : a = tie_secs 15768 m) by (unfold tie_secs; lia).
    destruct (NY eq_refl) as [L|L].
    + unfold year_secs in L. rewrite E. apply (ties_up_spec _ _ _ year_ties). unfold tie_secs in E. lia.
    + exfalso. apply L. unfold year_secs. rewrite T, Z.mul_comm. apply Z.mod_mul. lia.
  - unfold year_secs in NM. specialize (NM eq_refl). assert (E : a = tie_secs 1296 m) by (unfold tie_secs; lia).
    rewrite E. apply (ties_up_spec _ _ _ month_ties). unfold tie_secs in E. lia.
Qed.

Lemma nearest_neg : forall r u, r < 0 -> 60 <= u -> nearest_count r u = 0.
Proof.
  intros r u R U. unfold nearest_count. assert ((2000 * r + u) / (2000 * u) < 1) by (apply Z.div_lt_upper_bound; lia). lia.
Qed.
Lemma nearest_rest : forall r u, 60 <= u -> r - u * nearest_count r u < u /\ (0 <= r -> - u <= r - u * nearest_count r u) /\ 0 <= nearest_count r u.
Proof.
  intros r u U. unfold nearest_count.
  pose proof (Z.div_mod (2000 * r + u) (2000 * u) ltac:(lia)) as D.
  pose proof (Z.mod_pos_bound (2000 * r + u) (2000 * u) ltac:(lia)) as M.
  set (q := (2000 * r + u) / (2000 * u)) in *. clearbody q.
  destruct (Z.max_spec 0 q) as [[Q ->]|[Q ->]]; split; [nia|split; [nia|lia]|nia|split; [nia|lia]].
Qed.

Fixpoint rests_near (units : list (string * Z)) (r : Z) : list (Z * Z) :=
  match units with
  | [] => []
  | (_, u) :: l => (r, u) :: rests_near l (r - u * nearest_count r u)
  end.

Opaque count_in.
Lemma loop_near : forall adj depth l cur r,
  (forall u, In u l -> 60 <= snd u <= 33554432) ->
  (forall x u, In (x, u) (rests_near l r) -> 0 <= x -> count_in x u = nearest_count x u) ->
  unit_loop adj depth (map unit_of l) cur r = map unitc (shown adj (Z.to_nat (depth - cur)) (greedy_near l r)).
Proof.
  intros adj depth. induction l as [|[name u] l IH]; intros cur r S C.
  - cbn. destruct (Z.to_nat (depth - cur)); reflexivity.
  - cbn [map unit_of fst snd unit_loop greedy_near]. pose proof (S (name, u) (or_introl eq_refl)) as U. cbn [snd] in U.
    assert (S' : forall x, In x l -> 60 <= snd x <= 33554432) by (intros; apply S; right; assumption).
    cbn [rests_near] in C. set (q := nearest_count r u) in *.
    assert (C' : forall x v, In (x, v) (rests_near l (r - u * q)) -> 0 <= x -> count_in x v = nearest_count x v)
      by (intros; apply C; [right|]; assumption).
    assert (CU : (count_in r u <=? 0) = (q =? 0) /\ (0 < q -> count_in r u = q)).
    { destruct (nearest_rest r u ltac:(lia)) as (_ & _ & Q0). fold q in Q0. destruct (Z_lt_le_dec r 0) as [N|N].
      - pose proof (count_neg r u N ltac:(unfold P53; lia)). assert (q = 0) by (apply nearest_neg; lia). lia.
      - rewrite (C r u (or_introl eq_refl) N). fold q. lia. }
    destruct CU as [C0 CQ].
    destruct (cur <? depth) eqn:E.
    + replace (Z.to_nat (depth - cur)) with (Datatypes.S (Z.to_nat (depth - (cur + 1)))) by lia.
      cbn [shown]. cbv zeta. rewrite C0. destruct (q =? 0) eqn:Q0.
      * destruct adj; [reflexivity|]. assert (RM : r - u * q = r) by lia. rewrite RM in *.
        rewrite (IH cur r S' C'). replace (Z.to_nat (depth - cur)) with (Datatypes.S (Z.to_nat (depth - (cur + 1)))) by lia.
        reflexivity.
      * destruct (nearest_rest r u ltac:(lia)) as (_ & _ & QP). fold q in QP.
        rewrite CQ by lia. cbn [map]. f_equal. apply IH; assumption.
    + replace (Z.to_nat (depth - cur)) with 0%nat by lia. reflexivity.
Qed.

(** All quotients that are looked at. *)
Lemma rests_ok : forall delta, 0 <= delta <= P41 -> no_tie delta ->
  forall x u, In (x, u) (rests_near time_units delta) -> 0 <= x -> count_in x u = nearest_count x u.
Proof.
  intros delta D NT x u I X.
  assert (G : forall n v r, In (n, v) time_units -> r <= P41 -> (v = year_secs -> no_tie r) -> (v = 2592000 -> r <= year_secs) ->
    (x, u) = (r, v) -> count_in x u = nearest_count x u).
  { intros n v r N R Y M E. injection E as -> ->. apply (count_unit r (n, v)); [exact N|lia|exact Y|exact M]. }
  unfold time_units in I. cbn [rests_near] in I.
  repeat match type of I with context [?r - ?v * nearest_count ?r ?v] =>
    let q := fresh "q" in
    destruct (nearest_rest r v ltac:(lia)) as (? & ? & ?); set (q := r - v * nearest_count r v) in *; clearbody q
  end.
  unfold P41, year_secs in *.
  repeat (destruct I as [I|I]; [symmetry in I; eapply G; [| | | |exact I]; [unfold time_units; cbn [In]; eauto 8|lia|intro; try lia; try exact NT|intro; lia]|]).
  destruct I.
Qed.

Lemma first_near : forall i l r, 0 <= r -> (forall x u, In (x, u) (rests_near l r) -> 0 <= x -> count_in x u = nearest_count x u) ->
  (forall x c, (x < i)%nat -> nth_error l x = Some c -> count_in r (snd c) = 0) ->
  drop_zeros (greedy_near l r) = drop_zeros (greedy_near (skipn i l) r) /\
  incl (rests_near (skipn i l) r) (rests_near l r).
Proof.
  induction i as [|i IH]; intros l r R C Z0; [split; [reflexivity|apply incl_refl]|].
  destruct l as [|[n v] l]; [split; [reflexivity|apply incl_refl]|].
  pose proof (Z0 O (n, v) ltac:(lia) eq_refl) as Q. cbn [snd] in Q.
  cbn [rests_near] in C. pose proof (C r v (or_introl eq_refl) R) as E. rewrite Q in E.
  cbn [greedy_near drop_zeros skipn rests_near]. rewrite <- E in *. cbn [Z.eqb].
  replace (r - v * 0) with r in * by lia.
  destruct (IH l r R (fun x u I => C x u (or_intror I)) (fun x c X N => Z0 (S x) c ltac:(lia) N)) as [A B].
  split; [exact A|]. apply incl_tl. exact B.
Qed.

Lemma units_near : forall adj depth delta, 1 <= depth -> 0 <= delta <= P41 -> no_tie delta ->
  units_of depth adj delta = map unitc (decomposition_near adj (Z.to_nat depth) delta).
Proof.
  intros adj depth delta DP D NT. pose proof (rests_ok delta D NT) as C.
  destruct (Z.eq_dec delta 0) as [->|N0].
  { unfold units_of. cbn [Z.leb]. unfold decomposition_near.
    replace (drop_zeros (greedy_near time_units 0)) with (@nil (string * Z * Z)) by (vm_compute; reflexivity).
    destruct (Z.to_nat depth); reflexivity. }
  rewrite units_of_eq by lia.
  destruct (first_unit_spec delta) as (I6 & LO & HI); [unfold P41 in D; lia|].
  set (i := first_unit delta) in *. clearbody i.
  assert (Z0 : forall x c, (x < i)%nat -> nth_error time_units x = Some c -> count_in delta (snd c) = 0).
  { intros x c X NX. specialize (LO x X). unfold nz in LO.
    assert (NC : nth_error chunks x = Some (unit_of c)) by (rewrite chunks_units, nth_error_map, NX; reflexivity).
    rewrite NC in LO. cbn [unit_of snd] in LO. lia. }
  destruct (first_near i time_units delta ltac:(lia) C Z0) as [DZ IN].
  unfold decomposition_near. rewrite DZ.
  destruct (Nat.eqb i 6) eqn:E6.
  - apply Nat.eqb_eq in E6. subst i. cbn [skipn time_units greedy_near drop_zeros].
    destruct (Z.to_nat depth); reflexivity.
  - apply Nat.eqb_neq in E6. rewrite chunks_units, skipn_map. rewrite loop_near.
    + rewrite Z.sub_0_r.
      destruct (nth_error time_units i) as [[s u]|] eqn:NT'.
      2:{ apply nth_error_None in NT'. change (length time_units) with 6%nat in NT'. lia. }
      assert (SN : exists t, skipn i time_units = (s, u) :: t).
      { clear - NT'. revert NT'. generalize time_units. induction i as [|i IH]; intros l N; destruct l as [|x l]; try discriminate.
        - inversion N. exists l. reflexivity.
        - simpl. apply IH. exact N. }
      destruct SN as (t & SN). rewrite SN in *. cbn [greedy_near drop_zeros rests_near] in *.
      assert (NZ : nearest_count delta u <> 0).
      { rewrite <- (C delta u (IN _ (or_introl eq_refl)) ltac:(lia)).
        specialize (HI i ltac:(lia)). unfold nz in HI.
        assert (NC : nth_error chunks i = Some (unit_of (s, u))) by (rewrite chunks_units, nth_error_map, NT'; reflexivity).
        rewrite NC in HI. cbn [unit_of snd] in HI. lia. }
      destruct (nearest_count delta u =? 0) eqn:EQ; [lia|].
      destruct (Z.to_nat depth) eqn:ED; [lia|]. cbn [shown]. rewrite EQ. reflexivity.
    + intros x I. apply time_units_size. apply (skipn_in _ i). exact I.
    + intros x u I. apply C. apply IN. exact I.
Qed.
