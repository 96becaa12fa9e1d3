(** TimeSince: totals, remainders and the exact decomposition. *)
From Coq Require Import String Ascii List ZArith QArith Qround Qabs Bool Lia Lqa.
From Verif Require Import Base BaseProofs PopModel NumModel F64Model FltModel FltProofs CalModel CalSpec CalProofs
  CalLeapProofs HumModel HumSpec HumTextSpec HumFdProofs HumTimeProofs.
Import ListNotations.
Open Scope Z_scope.

Opaque count_in.

Definition unitc (u : string * Z) : bytes * Z := (bs (fst u), snd u).

(** ** Exact decomposition *)
Lemma loop_exact : forall adj depth l cur r,
  (forall u, In u l -> 60 <= snd u <= 33554432) -> 0 <= r <= P41 ->
  (forall x u, In (x, u) (rests l r) -> clear_of x u) ->
  unit_loop adj depth (map unit_of l) cur r = map unitc (shown adj (Z.to_nat (depth - cur)) (greedy l r)).
Proof.
  intros adj depth. induction l as [|[name u] l IH]; intros cur r S R C.
  - cbn. destruct (Z.to_nat (depth - cur)); reflexivity.
  - cbn [map unit_of fst snd unit_loop greedy]. pose proof (S (name, u) (or_introl eq_refl)) as U. cbn [snd] in U.
    assert (S' : forall x, In x l -> 60 <= snd x <= 33554432) by (intros; apply S; right; assumption).
    assert (C' : forall x v, In (x, v) (rests l (r mod u)) -> clear_of x v) by (intros; apply C; right; assumption).
    pose proof (C r u (or_introl eq_refl)) as CU.
    destruct (cur <? depth) eqn:E.
    + replace (Z.to_nat (depth - cur)) with (Datatypes.S (Z.to_nat (depth - (cur + 1)))) by lia.
      cbn [shown]. cbv zeta. rewrite (count_exact r u R ltac:(lia) CU).
      pose proof (Z.div_pos r u ltac:(lia) ltac:(lia)) as QP.
      pose proof (Z.div_mod r u ltac:(lia)) as DM. pose proof (Z.mod_pos_bound r u ltac:(lia)) as MB.
      destruct (r / u =? 0) eqn:Q0.
      * destruct (r / u <=? 0) eqn:Q1; [|lia]. destruct adj; [reflexivity|].
        assert (RM : r mod u = r) by lia. rewrite RM in *.
        rewrite (IH cur r S' R C'). replace (Z.to_nat (depth - cur)) with (Datatypes.S (Z.to_nat (depth - (cur + 1)))) by lia.
        reflexivity.
      * destruct (r / u <=? 0) eqn:Q1; [lia|]. cbn [map]. f_equal.
        replace (r - u * (r / u)) with (r mod u) by lia.
        apply IH; [assumption|unfold P41 in *; lia|assumption].
    + replace (Z.to_nat (depth - cur)) with 0%nat by lia. reflexivity.
Qed.

Lemma drop_greedy : forall i l r name u, 0 <= r ->
  (forall x, In x l -> 0 < snd x) ->
  (forall x c, (x < i)%nat -> nth_error l x = Some c -> r / snd c = 0) ->
  nth_error l i = Some (name, u) -> r / u <> 0 ->
  drop_zeros (greedy l r) = greedy (skipn i l) r /\ incl (rests (skipn i l) r) (rests l r).
Proof.
  induction i as [|i IH]; intros l r name u R S Z0 N NZ; destruct l as [|[n v] l]; try discriminate.
  - cbn in N. inversion N; subst. cbn [greedy drop_zeros skipn].
    destruct (r / u =? 0) eqn:E; [lia|]. split; [reflexivity|apply incl_refl].
  - cbn [greedy drop_zeros skipn]. pose proof (Z0 O (n, v) ltac:(lia) eq_refl) as Q. cbn [snd] in Q.
    rewrite Q. cbn [Z.eqb]. pose proof (S (n, v) (or_introl eq_refl)) as V. cbn [snd] in V.
    assert (RM : r mod v = r) by (pose proof (Z.div_mod r v ltac:(lia)); lia). rewrite RM.
    destruct (IH l r name u R (fun x H => S x (or_intror H)) (fun x c X N' => Z0 (Datatypes.S x) c ltac:(lia) N') N NZ) as [A B].
    split; [exact A|]. cbn [rests]. rewrite RM. apply incl_tl. exact B.
Qed.

Lemma drop_none : forall l r, 0 <= r -> (forall x, In x l -> 0 < snd x /\ r / snd x = 0) ->
  drop_zeros (greedy l r) = [].
Proof.
  induction l as [|[n v] l IH]; intros r R H; [reflexivity|].
  cbn [greedy drop_zeros]. destruct (H (n, v) (or_introl eq_refl)) as [V Q]. cbn [snd] in V, Q. rewrite Q. cbn [Z.eqb].
  assert (RM : r mod v = r) by (pose proof (Z.div_mod r v ltac:(lia)); lia). rewrite RM.
  apply IH; [assumption|]. intros x I. apply H. right. assumption.
Qed.

Lemma time_units_size : forall x, In x time_units -> 60 <= snd x <= 33554432.
Proof.
  intros x H. assert (I : In (unit_of x) chunks) by (rewrite chunks_units; apply in_map; assumption).
  apply In_nth_error in I. destruct I as (i & I). apply (unit_size i (unit_of x) I).
Qed.

Lemma nth_units : forall i name secs, nth_error chunks i = Some (name, secs) ->
  exists s, nth_error time_units i = Some (s, secs) /\ name = bs s.
Proof.
  intros i name secs H. rewrite chunks_units, nth_error_map in H.
  destruct (nth_error time_units i) as [[s v]|]; [|discriminate]. unfold unit_of in H. cbn [option_map fst snd] in H.
  exists s. split; congruence.
Qed.

Lemma nth_rests : forall i l r name u, 0 <= r -> (forall x, In x l -> 0 < snd x) ->
  (forall x c, (x < i)%nat -> nth_error l x = Some c -> r / snd c = 0) ->
  nth_error l i = Some (name, u) -> In (r, u) (rests l r).
Proof.
  induction i as [|i IH]; intros l r name u R S Z0 N; destruct l as [|[n v] l]; try discriminate.
  - inversion N; subst. left. reflexivity.
  - pose proof (Z0 O (n, v) ltac:(lia) eq_refl) as Q. cbn [snd] in Q.
    pose proof (S (n, v) (or_introl eq_refl)) as V. cbn [snd] in V.
    assert (RM : r mod v = r) by (pose proof (Z.div_mod r v ltac:(lia)); lia). cbn [rests]. rewrite RM. right.
    apply (IH l r name u); try assumption.
    + intros x H. apply S. right. assumption.
    + intros x c X N'. apply (Z0 (Datatypes.S x) c); [lia|assumption].
Qed.

Lemma clear_count0 : forall r u, 0 <= r <= P41 -> 60 <= u <= 33554432 -> count_in r u = 0 -> r / u = 0.
Proof.
  intros r u R U C. pose proof (count_bounds r u R ltac:(lia)) as B. cbv zeta in B. rewrite C in B.
  apply Z.div_small. lia.
Qed.

Lemma skipn_map : forall (A B : Type) (f : A -> B) n l, skipn n (map f l) = map f (skipn n l).
Proof. intros A B f. induction n as [|n IH]; intros [|x l]; try reflexivity. apply IH. Qed.
Lemma skipn_in : forall (A : Type) n (l : list A) x, In x (skipn n l) -> In x l.
Proof. intros A. induction n as [|n IH]; intros [|y l] x H; try assumption. right. apply IH. assumption. Qed.

Lemma units_exact : forall adj depth delta, 1 <= depth -> 0 <= delta <= P41 ->
  (forall x u, In (x, u) (rests time_units delta) -> clear_of x u) ->
  units_of depth adj delta = map unitc (decomposition adj (Z.to_nat depth) delta).
Proof.
  intros adj depth delta DP D C. destruct (Z_lt_le_dec delta 60) as [S|S].
  - rewrite units_zero by assumption. unfold decomposition. rewrite drop_none.
    + destruct (Z.to_nat depth); reflexivity.
    + lia.
    + intros x I. pose proof (time_units_size x I). split; [lia|]. apply Z.div_small. lia.
  - destruct (units_nonempty depth adj delta) as (i & name & secs & l & I6 & FI & SK & C1 & SB & _ & _);
      [unfold P41 in D; lia|assumption|].
    destruct (first_unit_spec delta) as (_ & LO & _); [unfold P41 in D; lia|]. rewrite FI in LO.
    assert (N : nth_error chunks i = Some (name, secs)).
    { clear - SK. revert SK. generalize chunks. induction i as [|i IH]; intros l SK; destruct l as [|x l]; try discriminate.
      - simpl in SK. inversion SK. reflexivity.
      - simpl. apply IH. exact SK. }
    destruct (nth_units i name secs N) as (s & N' & NS).
    assert (Z0 : forall x c, (x < i)%nat -> nth_error time_units x = Some c -> delta / snd c = 0).
    { intros x c X NX. specialize (LO x X). unfold nz in LO.
      assert (NC : nth_error chunks x = Some (unit_of c)) by (rewrite chunks_units, nth_error_map, NX; reflexivity).
      rewrite NC in LO. cbn [unit_of snd] in LO. apply negb_false_iff in LO. apply Z.eqb_eq in LO.
      apply clear_count0; [assumption| |assumption]. apply (time_units_size c). apply nth_error_In in NX. assumption. }
    assert (TP : forall x, In x time_units -> 0 < snd x) by (intros x I; pose proof (time_units_size x I); lia).
    assert (NZ : delta / secs <> 0).
    { rewrite <- (count_exact delta secs D ltac:(lia)); [lia|].
      apply C. apply (nth_rests i time_units delta s secs); try assumption. lia. }
    destruct (drop_greedy i time_units delta s secs ltac:(lia) TP Z0 N' NZ) as [DG IN].
    rewrite units_of_eq by lia. rewrite FI. destruct (Nat.eqb i 6) eqn:E6; [apply Nat.eqb_eq in E6; lia|].
    rewrite chunks_units, skipn_map. rewrite loop_exact.
    + unfold decomposition. rewrite DG. rewrite Z.sub_0_r.
      assert (NE : shown adj (Z.to_nat depth) (greedy (skipn i time_units) delta) <> []).
      { assert (SN : exists t, skipn i time_units = (s, secs) :: t).
        { clear - N'. revert N'. generalize time_units. induction i as [|i IH]; intros l N; destruct l as [|x l]; try discriminate.
          - inversion N. exists l. reflexivity.
          - simpl. apply IH. exact N. }
        destruct SN as (t & ->). cbn [greedy]. destruct (Z.to_nat depth) eqn:ED; [lia|]. cbn [shown].
        destruct (delta / secs =? 0) eqn:EQ; [lia|discriminate]. }
      destruct (shown _ _ _); [contradiction|reflexivity].
    + intros x I. apply time_units_size. apply (skipn_in _ i). assumption.
    + assumption.
    + intros x u I. apply C. apply IN. assumption.
Qed.

(** ** Totals *)

(** The loop with the sizes kept. *)
Fixpoint tl (adjacent : bool) (depth : Z) (l : list (string * Z)) (cur since : Z) : list (string * Z * Z) :=
  match l with
  | [] => []
  | (name, secs) :: l' =>
      if cur <? depth then
        let count := count_in since secs in
        if count <=? 0 then
          if adjacent then [] else tl adjacent depth l' cur since
        else (name, secs, count) :: tl adjacent depth l' (cur + 1) (since - secs * count)
      else []
  end.
Definition nc (x : string * Z * Z) : string * Z := (fst (fst x), snd x).
Definition tot (l : list (string * Z * Z)) : Z := fold_right (fun x acc => snd (fst x) * snd x + acc) 0 l.

Lemma tl_loop : forall adj depth l cur since,
  unit_loop adj depth (map unit_of l) cur since = map unitc (map nc (tl adj depth l cur since)).
Proof.
  intros adj depth. induction l as [|[n u] l IH]; intros cur since; [reflexivity|].
  cbn [map unit_of fst snd unit_loop tl]. destruct (cur <? depth); [|reflexivity]. cbv zeta.
  destruct (count_in since u <=? 0).
  - destruct adj; [reflexivity|apply IH].
  - cbn [map]. rewrite IH. reflexivity.
Qed.

Lemma tl_in : forall adj depth l cur since n u k, In (n, u, k) (tl adj depth l cur since) -> In (n, u) l.
Proof.
  intros adj depth. induction l as [|[n u] l IH]; intros cur since m v k H; [destruct H|].
  cbn [tl] in H. destruct (cur <? depth); [|destruct H]. cbv zeta in H.
  destruct (count_in since u <=? 0).
  - destruct adj; [destruct H|right; eapply IH; exact H].
  - destruct H as [E|H]; [left; congruence|right; eapply IH; exact H].
Qed.

Lemma tl_neg : forall adj depth l cur since, since < 0 -> (forall u, In u l -> 60 <= snd u <= 33554432) ->
  tl adj depth l cur since = [].
Proof.
  intros adj depth. induction l as [|[n u] l IH]; intros cur since N S; [reflexivity|].
  cbn [tl]. destruct (cur <? depth); [|reflexivity]. cbv zeta.
  pose proof (S (n, u) (or_introl eq_refl)) as U. cbn [snd] in U.
  pose proof (count_neg since u N ltac:(unfold P53; lia)).
  destruct (count_in since u <=? 0) eqn:E; [|lia]. destruct adj; [reflexivity|].
  apply IH; [assumption|]. intros x I. apply S. right. assumption.
Qed.

Lemma last_cons_ne : forall (A : Type) (x : A) l d, l <> [] -> last (x :: l) d = last l d.
Proof. intros A x [|y l] d H; [contradiction|reflexivity]. Qed.

Definition near (s : Z) (L : list (string * Z * Z)) : Prop :=
  forall n u k, last L (EmptyString, 0, 0) = (n, u, k) -> L <> [] ->
    2000 * (tot L - s) <= u /\ 2000 * (s - tot L) <= 1999 * u.

Lemma tl_near : forall adj depth l cur s, s <= P41 -> (forall u, In u l -> 60 <= snd u <= 33554432) ->
  near s (tl adj depth l cur s).
Proof.
  intros adj depth. induction l as [|[n u] l IH]; intros cur s R S; [intros ? ? ? ? NE; contradiction|].
  destruct (Z_lt_le_dec s 0) as [N|P].
  { rewrite tl_neg by assumption. intros ? ? ? ? NE; contradiction. }
  pose proof (S (n, u) (or_introl eq_refl)) as U. cbn [snd] in U.
  assert (S' : forall x, In x l -> 60 <= snd x <= 33554432) by (intros; apply S; right; assumption).
  cbn [tl]. destruct (cur <? depth); [|intros ? ? ? ? NE; contradiction]. cbv zeta.
  pose proof (count_bounds s u ltac:(lia) ltac:(lia)) as CB. cbv zeta in CB.
  destruct (count_in s u <=? 0) eqn:E.
  - destruct adj; [intros ? ? ? ? NE; contradiction|apply IH; assumption].
  - set (k := count_in s u) in *. clearbody k.
    specialize (IH (cur + 1) (s - u * k) ltac:(nia) S').
    set (L := tl adj depth l (cur + 1) (s - u * k)) in *. clearbody L.
    intros n' u' k' LA _. cbn [tot fold_right fst snd]. fold (tot L).
    destruct L as [|x L].
    + cbn in LA. inversion LA; subst. cbn [tot fold_right]. nia.
    + rewrite last_cons_ne in LA by discriminate. specialize (IH n' u' k' LA ltac:(discriminate)). lia.
Qed.

(** Nothing is left over that could still be shown. *)
Lemma tl_rest_all : forall depth l cur s, s <= P41 -> (forall u, In u l -> 60 <= snd u <= 33554432) ->
  l <> [] -> snd (last l (EmptyString, 0)) = 60 ->
  cur + Z.of_nat (length (tl false depth l cur s)) < depth ->
  s - tot (tl false depth l cur s) < 60.
Proof.
  intros depth. induction l as [|[n u] l IH]; intros cur s R S NE LA LE; [contradiction|].
  destruct (Z_lt_le_dec s 0) as [N|P].
  { rewrite tl_neg by assumption. cbn. lia. }
  pose proof (S (n, u) (or_introl eq_refl)) as U. cbn [snd] in U.
  assert (S' : forall x, In x l -> 60 <= snd x <= 33554432) by (intros; apply S; right; assumption).
  cbn [tl] in *. destruct (cur <? depth) eqn:CD; [|cbn in LE; lia]. cbv zeta in *.
  pose proof (count_bounds s u ltac:(lia) ltac:(lia)) as CB. cbv zeta in CB.
  destruct (count_in s u <=? 0) eqn:E.
  - destruct l as [|y l].
    + cbn in LA. subst u. cbn. lia.
    + apply IH; try assumption; [discriminate].
  - set (k := count_in s u) in *.
    cbn [tot fold_right fst snd length] in *. fold (tot (tl false depth l (cur + 1) (s - u * k))).
    destruct l as [|y l].
    + cbn in LA. subst u. cbn [tl tot fold_right]. lia.
    + specialize (IH (cur + 1) (s - u * k) ltac:(nia) S' ltac:(discriminate) LA ltac:(lia)).
      lia.
Qed.

Lemma tl_rest_adj : forall depth l cur s, s <= P41 -> (forall u, In u l -> 60 <= snd u <= 33554432) ->
  NoDup (map fst l) ->
  tl true depth l cur s <> [] ->
  cur + Z.of_nat (length (tl true depth l cur s)) < depth ->
  forall n u k n' u', last (tl true depth l cur s) (EmptyString, 0, 0) = (n, u, k) ->
  unit_after n l = Some (n', u') ->
  s - tot (tl true depth l cur s) < u'.
Proof.
  intros depth. induction l as [|[m v] l IH]; intros cur s R S ND NE LE n u k n' u' LA UA; [discriminate|].
  destruct (Z_lt_le_dec s 0) as [N|P].
  { exfalso. apply NE. apply tl_neg; assumption. }
  pose proof (S (m, v) (or_introl eq_refl)) as U. cbn [snd] in U.
  assert (S' : forall x, In x l -> 60 <= snd x <= 33554432) by (intros; apply S; right; assumption).
  cbn [tl] in *. destruct (cur <? depth) eqn:CD; [|contradiction]. cbv zeta in *.
  pose proof (count_bounds s v ltac:(lia) ltac:(lia)) as CB. cbv zeta in CB.
  destruct (count_in s v <=? 0) eqn:E; [contradiction|].
  set (c := count_in s v) in *. set (s' := s - v * c) in *.
  cbn [tot fold_right fst snd length] in *. fold (tot (tl true depth l (cur + 1) s')).
  assert (R' : s' <= P41) by (unfold s'; nia).
  inversion ND as [|? ? NI ND']; subst.
  destruct (tl true depth l (cur + 1) s') as [|x L] eqn:TL.
  - cbn in LA. inversion LA; subst m v c. cbn [tot fold_right].
    destruct l as [|[y w] l]; [discriminate|]. cbn [unit_after] in UA. rewrite String.eqb_refl in UA. inversion UA; subst y w.
    pose proof (S' (n', u') (or_introl eq_refl)) as U'. cbn [snd] in U'.
    destruct (Z_lt_le_dec s' 0); [unfold s' in *; lia|].
    pose proof (count_bounds s' u' ltac:(lia) ltac:(lia)) as CB'. cbv zeta in CB'.
    cbn [tl] in TL. cbn [length] in LE.
    destruct (cur + 1 <? depth) eqn:CD'; [|lia]. cbv zeta in TL.
    destruct (count_in s' u' <=? 0) eqn:E'; [|discriminate]. unfold s' in *. lia.
  - rewrite last_cons_ne in LA by discriminate. rewrite <- TL in *.
    assert (INL : In (n, u, k) (tl true depth l (cur + 1) s')).
    { rewrite TL in *. rewrite <- LA. clear. generalize (EmptyString, 0, 0). revert x. induction L as [|y L IH]; intros x d; [left; reflexivity|].
      right. apply IH. }
    apply tl_in in INL.
    assert (NEQ : m <> n) by (intros ->; apply NI; apply (in_map fst) in INL; exact INL).
    destruct l as [|[y w] l]; [destruct INL|]. 
    cbn [unit_after] in UA. destruct (String.eqb m n) eqn:EQ; [apply String.eqb_eq in EQ; contradiction|].
    specialize (IH (cur + 1) s' R' S' ND' ltac:(rewrite TL; discriminate) ltac:(lia) n u k n' u' LA UA).
    unfold s' in *. lia.
Qed.

(** ** For TimeSince *)
Lemma secs_of_in : forall n u, In (n, u) time_units -> secs_of n = u.
Proof.
  intros n u H. unfold time_units in H. cbn [In] in H.
  destruct H as [H|[H|[H|[H|[H|[H|[]]]]]]]; injection H as <- <-; reflexivity.
Qed.

Lemma unit_after_skip : forall i n u, (i < 6)%nat -> In (n, u) (skipn i time_units) ->
  unit_after n (skipn i time_units) = unit_after n time_units.
Proof.
  intros i n u I H. do 6 (destruct i as [|i]; [cbn [skipn time_units In] in H;
    repeat (destruct H as [H|H]; [injection H as <- <-; reflexivity|]); destruct H|]). lia.
Qed.

Lemma total_nc : forall L, (forall n u k, In (n, u, k) L -> secs_of n = u) -> total (map nc L) = tot L.
Proof.
  induction L as [|[[n u] k] L IH]; intro H; [reflexivity|].
  cbn [map total tot fold_right nc fst snd]. fold (total (map nc L)). fold (tot L).
  rewrite IH by (intros; eapply H; right; eassumption). rewrite (H n u k (or_introl eq_refl)). reflexivity.
Qed.

Lemma last_map : forall (A B : Type) (f : A -> B) l a b, l <> [] -> last (map f l) b = f (last l a).
Proof.
  intros A B f. induction l as [|x l IH]; intros a b N; [contradiction|].
  destruct l as [|y l]; [reflexivity|]. cbn [map]. cbn [map] in IH.
  change (last (f x :: f y :: map f l) b) with (last (f y :: map f l) b).
  change (last (x :: y :: l) a) with (last (y :: l) a). apply IH. discriminate.
Qed.
Lemma last_in : forall (A : Type) (l : list A) d, l <> [] -> In (last l d) l.
Proof.
  intros A. induction l as [|x l IH]; intros d N; [contradiction|].
  destruct l as [|y l]; [left; reflexivity|]. right. apply IH. discriminate.
Qed.

Definition lastname (L : list (string * Z)) : string := fst (last L (EmptyString, 0)).

Lemma units_total : forall adj depth delta, 1 <= depth -> 60 <= delta <= P41 ->
  exists L, units_of depth adj delta = map unitc L /\ L <> [] /\ 60 <= secs_of (lastname L) /\
    2000 * (total L - delta) <= secs_of (lastname L) /\
    2000 * (delta - total L) <= 1999 * secs_of (lastname L) /\
    (Z.of_nat (length L) < depth ->
       if adj then forall n' u', unit_after (lastname L) time_units = Some (n', u') -> delta - total L < u'
       else delta - total L < 60).
Proof.
  intros adj depth delta DP D.
  destruct (units_nonempty depth adj delta ltac:(unfold P41 in D; lia) DP)
    as (i & name & secs & l & I6 & FI & SK & C1 & SB & UE & _).
  pose (T := tl adj depth (skipn i time_units) 0 delta).
  assert (UT : units_of depth adj delta = map unitc (map nc T)).
  { rewrite units_of_eq by lia. rewrite FI. destruct (Nat.eqb i 6) eqn:E6; [apply Nat.eqb_eq in E6; lia|].
    rewrite chunks_units, skipn_map. apply tl_loop. }
  assert (TNE : T <> []) by (intro E; rewrite E in UT; rewrite UE in UT; discriminate).
  assert (ST : forall u, In u (skipn i time_units) -> 60 <= snd u <= 33554432).
  { intros u I. apply time_units_size. apply (skipn_in _ i). assumption. }
  assert (TI : forall n u k, In (n, u, k) T -> In (n, u) (skipn i time_units)) by (intros n u k H; eapply tl_in; exact H).
  assert (TS : forall n u k, In (n, u, k) T -> secs_of n = u).
  { intros n u k H. apply secs_of_in. apply (skipn_in _ i). eapply TI. exact H. }
  destruct (last T (EmptyString, 0, 0)) as [[n u] k] eqn:LA.
  assert (LI : In (n, u, k) T) by (rewrite <- LA; apply last_in; assumption).
  assert (LN : lastname (map nc T) = n).
  { unfold lastname. rewrite (last_map _ _ nc T (EmptyString, 0, 0)) by assumption. rewrite LA. reflexivity. }
  exists (map nc T). rewrite LN, (total_nc T TS), (TS n u k LI). 
  pose proof (tl_near adj depth (skipn i time_units) 0 delta ltac:(lia) ST n u k LA TNE) as NR. fold T in NR.
  split; [assumption|]. split; [destruct T; [contradiction|discriminate]|].
  split; [apply (ST (n, u)); eapply TI; exact LI|]. split; [lia|]. split; [lia|]. rewrite map_length. intro LE.
  destruct adj.
  - intros n' u' UA.
    apply (tl_rest_adj depth (skipn i time_units) 0 delta ltac:(lia) ST) with (n := n) (u := u) (k := k) (n' := n'); try assumption.
    + clear - I6. do 6 (destruct i as [|i]; [cbn [skipn time_units map fst]; repeat (constructor; [cbn [In]; intuition discriminate|]); constructor|]). lia.
    + rewrite (unit_after_skip i n u I6); [assumption|]. eapply TI. exact LI.
  - apply (tl_rest_all depth (skipn i time_units) 0 delta ltac:(lia) ST); try assumption.
    + clear - I6. do 6 (destruct i as [|i]; [discriminate|]). lia.
    + clear - I6. do 6 (destruct i as [|i]; [reflexivity|]). lia.
Qed.

(** ** Options: the last one of each kind counts *)
Lemma opts_fold : forall opts o,
  fold_left apply_time_opt opts o =
  TSO (last_of opt_now opts (o_now o)) (last_of opt_reverse opts (o_reverse o)) (last_of opt_ctx opts (o_ctx o))
      (last_of opt_depth opts (o_depth o)) (last_of opt_adjacent opts (o_adjacent o)).
Proof.
  induction opts as [|x opts IH]; intro o; [destruct o; reflexivity|].
  cbn [fold_left]. rewrite IH. destruct x; reflexivity.
Qed.
