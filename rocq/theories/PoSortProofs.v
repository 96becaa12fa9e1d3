(** Sorting: the orders used, insertion sort, uniqueness of the result. *)
From Coq Require Import String Ascii List ZArith Bool Lia ZifyBool Permutation Sorted.
From Verif Require Import Base BaseProofs StrModel PoFileModel PoFileSpec.
Import ListNotations.
Open Scope Z_scope.

(** ** Comparison functions *)
Record cmp_ok {A} (P : A -> Prop) (lt : A -> A -> Prop) (cmp : A -> A -> Z) : Prop := CmpOk {
  ck_lt : forall x y, P x -> P y -> (cmp x y < 0 <-> lt x y);
  ck_gt : forall x y, P x -> P y -> (0 < cmp x y <-> lt y x);
  ck_trans : forall x y z, P x -> P y -> P z -> lt x y -> lt y z -> lt x z;
  ck_eq : forall x y, P x -> P y -> cmp x y = 0 -> x = y }.

Lemma bval_inj : forall a b, bval a = bval b -> a = b.
Proof. intros a b H. rewrite <- (byte_of_bval a), <- (byte_of_bval b). now f_equal. Qed.

Lemma bcmp_lt : forall a b, bcmp a b < 0 <-> bytes_lt a b.
Proof.
  induction a as [|x a IH]; intros [|y b]; cbn [bcmp].
  - split; [lia|inversion 1].
  - split; [constructor|lia].
  - split; [lia|inversion 1].
  - destruct (bval x <? bval y) eqn:L; [split; [intros _; apply blt_head; lia|lia]|].
    destruct (bval y <? bval x) eqn:G.
    + split; [lia|]. inversion 1; subst; lia.
    + assert (x = y) by (apply bval_inj; lia). subst. rewrite IH. split; [now constructor|].
      inversion 1; subst; [lia|assumption].
Qed.
Lemma bcmp_gt : forall a b, 0 < bcmp a b <-> bytes_lt b a.
Proof.
  induction a as [|x a IH]; intros [|y b]; cbn [bcmp].
  - split; [lia|inversion 1].
  - split; [lia|inversion 1].
  - split; [constructor|lia].
  - destruct (bval x <? bval y) eqn:L; [split; [lia|inversion 1; subst; lia]|].
    destruct (bval y <? bval x) eqn:G.
    + split; [intros _; apply blt_head; lia|lia].
    + assert (x = y) by (apply bval_inj; lia). subst. rewrite IH. split; [now constructor|].
      inversion 1; subst; [lia|assumption].
Qed.
Lemma bcmp_eq : forall a b, bcmp a b = 0 <-> a = b.
Proof.
  induction a as [|x a IH]; intros [|y b]; cbn [bcmp]; try (split; [lia|discriminate]).
  - split; auto.
  - destruct (bval x <? bval y) eqn:L; [split; [lia|intro E; injection E as -> ->; lia]|].
    destruct (bval y <? bval x) eqn:G; [split; [lia|intro E; injection E as -> ->; lia]|].
    rewrite IH. split; [intros ->; f_equal; apply bval_inj; lia|intro E; now injection E].
Qed.
Lemma bytes_lt_trans : forall a b c, bytes_lt a b -> bytes_lt b c -> bytes_lt a c.
Proof.
  intros a b c H. revert c. induction H as [x s|x y s t L|x s t H IH]; intros c K; inversion K; subst; try constructor; auto; lia.
Qed.
Lemma bytes_lt_irrefl : forall a, ~ bytes_lt a a.
Proof. intros a H. apply bcmp_lt in H. rewrite (proj2 (bcmp_eq a a) eq_refl) in H. lia. Qed.

Lemma bcmp_ok : forall P, cmp_ok P bytes_lt bcmp.
Proof.
  intro P. constructor; intros.
  - apply bcmp_lt.
  - apply bcmp_gt.
  - eapply bytes_lt_trans; eauto.
  - now apply bcmp_eq.
Qed.

Lemma zcmp_spec : forall a b, (a < b /\ zcmp a b = -1) \/ (a = b /\ zcmp a b = 0) \/ (b < a /\ zcmp a b = 1).
Proof. intros a b. unfold zcmp. destruct (a <? b) eqn:E; [left; lia|]. destruct (b <? a) eqn:F; [right; right; lia|right; left; lia]. Qed.

Lemma ref_lt_trans : forall a b c, ref_lt a b -> ref_lt b c -> ref_lt a c.
Proof.
  intros a b c [H|[E H]] [K|[F K]]; unfold ref_lt.
  - left. eapply bytes_lt_trans; eauto.
  - left. now rewrite <- F.
  - left. now rewrite E.
  - right. split; [congruence|]. lia.
Qed.
Lemma ref_cmp_cases : forall a b,
  (ref_lt a b /\ ref_cmp a b < 0) \/ (a = b /\ ref_cmp a b = 0) \/ (ref_lt b a /\ 0 < ref_cmp a b).
Proof.
  intros a b. unfold ref_cmp, or_cmp, ref_lt.
  destruct (Z.eqb_spec (bcmp (r_path a) (r_path b)) 0) as [E|N].
  - apply bcmp_eq in E. destruct (zcmp_spec (r_line a) (r_line b)) as [[L Z]|[[L Z]|[L Z]]]; rewrite Z; cbn [Z.eqb].
    + left. split; [right; split; [congruence|lia]|lia].
    + destruct (zcmp_spec (r_col a) (r_col b)) as [[C Z2]|[[C Z2]|[C Z2]]]; rewrite Z2.
      * left. split; [right; split; [congruence|lia]|lia].
      * right. left. split; [|lia]. destruct a, b; cbn in *; congruence.
      * right. right. split; [right; split; [congruence|lia]|lia].
    + right. right. split; [right; split; [congruence|lia]|lia].
  - destruct (Z.lt_trichotomy (bcmp (r_path a) (r_path b)) 0) as [L|[E|G]]; [|contradiction|].
    + left. split; [left; now apply bcmp_lt|lia].
    + right. right. split; [left; now apply bcmp_gt|lia].
Qed.
Lemma ref_lt_irrefl : forall a, ~ ref_lt a a.
Proof. intros a [H|[_ H]]; [now apply bytes_lt_irrefl in H|lia]. Qed.

Lemma cmp_ok_of_cases : forall A (P : A -> Prop) (lt : A -> A -> Prop) (cmp : A -> A -> Z),
  (forall x y z, P x -> P y -> P z -> lt x y -> lt y z -> lt x z) ->
  (forall x, P x -> ~ lt x x) ->
  (forall x y, P x -> P y -> (lt x y /\ cmp x y < 0) \/ (x = y /\ cmp x y = 0) \/ (lt y x /\ 0 < cmp x y)) ->
  cmp_ok P lt cmp.
Proof.
  intros A P lt cmp T I C. assert (AS : forall x y, P x -> P y -> lt x y -> lt y x -> False).
  { intros x y X Y H K. apply (I x X). eapply (T x y x); eauto. }
  constructor; [| |exact T|]; intros x y X Y; destruct (C x y X Y) as [[H K]|[[H K]|[H K]]].
  - split; auto.
  - subst. split; [lia|]. intro H. now apply I in H.
  - split; [lia|]. intro L. exfalso. eapply AS; [exact X|exact Y|..]; eauto.
  - split; [lia|]. intro L. exfalso. eapply AS; [exact X|exact Y|..]; eauto.
  - subst. split; [lia|]. intro H. now apply I in H.
  - split; auto.
  - lia.
  - auto.
  - lia.
Qed.
Lemma ref_cmp_ok : forall P, cmp_ok P ref_lt ref_cmp.
Proof.
  intro P. apply cmp_ok_of_cases.
  - intros x y z _ _ _. apply ref_lt_trans.
  - intros x _. apply ref_lt_irrefl.
  - intros x y _ _. apply ref_cmp_cases.
Qed.

(** ** Insertion sort *)
Lemma ins_perm : forall A cmp (x : A) l, Permutation (x :: l) (ins_rev cmp x l).
Proof.
  intros A cmp x l. induction l as [|y l IH]; cbn [ins_rev]; [reflexivity|].
  destruct (cmp x y <? 0); [|reflexivity]. rewrite <- IH. apply perm_swap.
Qed.
Lemma sort_perm : forall A cmp (l : list A), Permutation l (sort cmp l).
Proof.
  intros A cmp l. unfold sort. rewrite <- Permutation_rev.
  rewrite <- (app_nil_r l) at 1. generalize (@nil A) as acc.
  induction l as [|x l IH]; intro acc; [reflexivity|]. cbn [app fold_left].
  rewrite <- IH, <- ins_perm. rewrite Permutation_middle. reflexivity.
Qed.

Section SORT.
  Variable A : Type.
  Variables (P : A -> Prop) (lt : A -> A -> Prop) (cmp : A -> A -> Z).
  Hypothesis OK : cmp_ok P lt cmp.
  Let le x y := lt x y \/ x = y.
  Lemma le_trans_ : forall x y z, P x -> P y -> P z -> le x y -> le y z -> le x z.
  Proof. intros x y z X Y Z [H| ->] [K| <-]; unfold le; auto. left. eapply (ck_trans _ _ _ OK x y z); eauto. Qed.
  Lemma ins_sorted : forall x l, P x -> Forall P l -> StronglySorted (fun a b => le b a) l ->
    StronglySorted (fun a b => le b a) (ins_rev cmp x l).
  Proof.
    intros x l X PL Srt. induction Srt as [|y l Srt IH F]; cbn [ins_rev]; [repeat constructor|].
    pose proof (Forall_inv PL) as Y. cbn beta in Y. apply Forall_inv_tail in PL.
    destruct (cmp x y <? 0) eqn:E.
    - constructor; [auto|]. apply (Permutation_Forall (ins_perm _ cmp x l)). constructor; [|exact F].
      left. apply (ck_lt _ _ _ OK); auto; lia.
    - assert (L : le y x).
      { destruct (Z.eq_dec (cmp x y) 0) as [Z|N]; [right; symmetry; now apply (ck_eq _ _ _ OK)|].
        left. apply (ck_gt _ _ _ OK x y); auto; lia. }
      constructor; [now constructor|]. constructor; [exact L|].
      rewrite Forall_forall in F, PL. apply Forall_forall. intros z I. apply (le_trans_ z y x); auto.
  Qed.
  Lemma sort_rev_sorted : forall l, Forall P l ->
    StronglySorted (fun a b => le b a) (fold_left (fun acc x => ins_rev cmp x acc) l []).
  Proof.
    intros l PL. assert (G : forall acc, Forall P acc -> StronglySorted (fun a b => le b a) acc ->
      StronglySorted (fun a b => le b a) (fold_left (fun acc x => ins_rev cmp x acc) l acc)).
    { induction PL as [|x l X PL IH]; intros acc PA SA; [exact SA|]. cbn [fold_left]. apply IH.
      - apply (Permutation_Forall (ins_perm _ cmp x acc)). now constructor.
      - now apply ins_sorted. }
    apply G; constructor.
  Qed.
  Lemma sorted_ordered : forall l, StronglySorted le l <-> ordered le l.
  Proof.
    induction l as [|x l IH]; (split; intro H).
    - intros [|] ? ? ? ? E; discriminate.
    - constructor.
    - inversion H as [|? ? SL F]; subst. intros [|z a] u b v c E; injection E as -> ->.
      + rewrite Forall_forall in F. apply F. apply in_or_app. right. now left.
      + eapply (proj1 IH SL). reflexivity.
    - constructor.
      + apply IH. intros a u b v c E. apply (H (x :: a) u b v c). cbn. now f_equal.
      + apply Forall_forall. intros y I. apply in_split in I as (b & c & ->). now apply (H [] x b y c).
  Qed.
  Lemma ordered_rev : forall l (r : A -> A -> Prop), ordered r (rev l) <-> ordered (fun a b => r b a) l.
  Proof.
    intros l r. split; intros H a x b y c E.
    - apply (H (rev c) y (rev b) x (rev a)). rewrite E. rewrite !rev_app_distr. cbn. rewrite !rev_app_distr. cbn. now rewrite <- !app_assoc.
    - apply (H (rev c) y (rev b) x (rev a)). rewrite <- (rev_involutive l), E. rewrite !rev_app_distr. cbn. rewrite !rev_app_distr. cbn. now rewrite <- !app_assoc.
  Qed.
End SORT.

Lemma sorted_iff : forall A (le : A -> A -> Prop) l, StronglySorted le l <-> ordered le l.
Proof.
  intros A le. induction l as [|x l IH]; (split; intro H).
  - intros [|] ? ? ? ? E; discriminate.
  - constructor.
  - inversion H as [|? ? SL F]; subst. intros [|z a] u b v c E; injection E as -> ->.
    + rewrite Forall_forall in F. apply F. apply in_or_app. right. now left.
    + eapply (proj1 IH SL). reflexivity.
  - constructor.
    + apply IH. intros a u b v c E. apply (H (x :: a) u b v c). cbn. now f_equal.
    + apply Forall_forall. intros y I. apply in_split in I as (b & c & ->). now apply (H [] x b y c).
Qed.
Lemma sort_ordered : forall A (P : A -> Prop) (lt : A -> A -> Prop) cmp l, cmp_ok P lt cmp -> Forall P l ->
  ordered (fun x y => lt x y \/ x = y) (sort cmp l).
Proof.
  intros A P lt cmp l OK PL. unfold sort. apply ordered_rev.
  apply (sorted_iff A (fun a b => lt b a \/ b = a)). now apply (sort_rev_sorted A P lt cmp OK).
Qed.
(** a sorted arrangement is unique *)
Lemma ordered_unique : forall A (P : A -> Prop) (lt : A -> A -> Prop) cmp l m, cmp_ok P lt cmp -> Forall P l -> Permutation l m ->
  ordered (fun x y => lt x y \/ x = y) l -> ordered (fun x y => lt x y \/ x = y) m -> l = m.
Proof.
  intros A P lt cmp l m OK. revert m.
  assert (AS : forall x y, P x -> P y -> lt x y -> lt y x -> False).
  { intros x y X Y H K. apply (ck_lt _ _ _ OK x y X Y) in H. apply (ck_gt _ _ _ OK x y X Y) in K. lia. }
  induction l as [|x l IH]; intros m PL PM OL OM.
  - now apply Permutation_nil in PM.
  - destruct m as [|y m]; [apply Permutation_sym, Permutation_nil in PM; discriminate|].
    pose proof (proj1 (Forall_forall _ _) PL) as PL'.
    assert (PY : P y) by (apply PL'; eapply Permutation_in; [symmetry; exact PM|now left]).
    assert (E : x = y).
    { assert (IX : In x (y :: m)) by (eapply Permutation_in; [exact PM|now left]).
      assert (IY : In y (x :: l)) by (eapply Permutation_in; [symmetry; exact PM|now left]).
      destruct IX as [|IX]; [congruence|]. destruct IY as [|IY]; [congruence|].
      apply in_split in IX as (b & c & ->). apply in_split in IY as (b' & c' & ->).
      destruct (OL [] x b' y c' eq_refl) as [L|]; [|assumption].
      destruct (OM [] y b x c eq_refl) as [M|]; [|congruence].
      exfalso. apply (AS x y); auto. apply PL'. now left. }
    subst y. f_equal. apply IH.
    + now apply Forall_inv_tail in PL.
    + now apply Permutation_cons_inv in PM.
    + intros a u b v c E. apply (OL (x :: a) u b v c). cbn. now f_equal.
    + intros a u b v c E. apply (OM (x :: a) u b v c). cbn. now f_equal.
Qed.
Lemma sort_unique : forall A (P : A -> Prop) (lt : A -> A -> Prop) cmp l m, cmp_ok P lt cmp -> Forall P l -> Permutation l m ->
  ordered (fun x y => lt x y \/ x = y) m -> sort cmp l = m.
Proof.
  intros A P lt cmp l m OK PL PM OM. apply (ordered_unique A P lt cmp); auto.
  - apply (Permutation_Forall (sort_perm _ cmp l)). exact PL.
  - now rewrite <- sort_perm.
  - now apply (sort_ordered A P lt).
Qed.
Lemma sort_permutation : forall A (P : A -> Prop) (lt : A -> A -> Prop) cmp l m, cmp_ok P lt cmp -> Forall P l -> Permutation l m ->
  sort cmp l = sort cmp m.
Proof.
  intros A P lt cmp l m OK PL PM. apply (sort_unique A P lt); auto.
  - now rewrite PM, <- sort_perm.
  - apply (sort_ordered A P lt); auto. now apply (Permutation_Forall PM).
Qed.

(** ** Messages *)
Lemma key_lt_trans : forall a b c, key_lt a b -> key_lt b c -> key_lt a c.
Proof.
  intros a b c [H|[E H]] [K|[F K]]; unfold key_lt.
  - left. eapply bytes_lt_trans; eauto.
  - left. now rewrite <- F.
  - left. now rewrite E.
  - right. split; [congruence|]. eapply bytes_lt_trans; eauto.
Qed.
Lemma key_lt_irrefl : forall a, ~ key_lt a a.
Proof. intros a [H|[_ H]]; now apply bytes_lt_irrefl in H. Qed.

Lemma msg_cmp_norefs : forall a b, refs_of a = [] -> refs_of b = [] ->
  msg_cmp a b = or_cmp (bcmp (m_ctx a) (m_ctx b)) (bcmp (m_id a) (m_id b)).
Proof.
  intros a b A B. unfold msg_cmp, refs_of in *. destruct (m_com a) as [ca|], (m_com b) as [cb|]; try reflexivity.
  now rewrite A.
Qed.
Lemma norefs_ok : forall ms, NoDup (map key ms) ->
  cmp_ok (fun m => In m ms /\ refs_of m = []) key_lt msg_cmp.
Proof.
  intros ms N. apply cmp_ok_of_cases.
  - intros x y z _ _ _. apply key_lt_trans.
  - intros x _. apply key_lt_irrefl.
  - intros x y [IX X] [IY Y]. rewrite msg_cmp_norefs by assumption. unfold or_cmp, key_lt.
    destruct (Z.eqb_spec (bcmp (m_ctx x) (m_ctx y)) 0) as [E|NE].
    + apply bcmp_eq in E. destruct (Z.lt_trichotomy (bcmp (m_id x) (m_id y)) 0) as [L|[Z|G]].
      * left. split; [right; split; [exact E|now apply bcmp_lt]|exact L].
      * right. left. split; [|exact Z]. apply bcmp_eq in Z.
        clear - N IX IY E Z. induction ms as [|m ms IH]; [destruct IX|]. cbn [map] in N. apply NoDup_cons_iff in N as [NI N].
        assert (K : key x = key y) by (unfold key; congruence).
        destruct IX as [->|IX], IY as [->|IY]; auto; exfalso; apply NI.
        -- rewrite K. now apply in_map.
        -- rewrite <- K. now apply in_map.
      * right. right. split; [right; split; [congruence|now apply bcmp_gt]|exact G].
    + destruct (Z.lt_trichotomy (bcmp (m_ctx x) (m_ctx y)) 0) as [L|[Z|G]]; [|contradiction|].
      * left. split; [left; now apply bcmp_lt|exact L].
      * right. right. split; [left; now apply bcmp_gt|exact G].
Qed.

(** references sorted: the first one is the least *)
Definition head_ref (m : message) : reference := hd (Ref [] 0 0) (refs_of m).
Definition head_lt (a b : message) : Prop := ref_lt (head_ref a) (head_ref b).
Lemma refs_cmp_head : forall x a y b, x <> y ->
  refs_cmp (x :: a) (y :: b) = Some (ref_cmp x y).
Proof.
  intros x a y b N. cbn [refs_cmp]. cbv zeta. unfold ref_cmp, or_cmp.
  destruct (bcmp (r_path x) (r_path y) =? 0) eqn:E; cbn [negb]; [|reflexivity].
  assert (P : r_path x = r_path y) by (apply bcmp_eq; lia).
  destruct (zcmp_spec (r_line x) (r_line y)) as [[L Z]|[[L Z]|[L Z]]]; rewrite Z; cbn [Z.eqb].
  - destruct (r_line x =? r_line y) eqn:EL; [lia|]. cbn [negb]. destruct (r_line x >? r_line y) eqn:G; [lia|reflexivity].
  - rewrite L, Z.eqb_refl. cbn [negb].
    destruct (zcmp_spec (r_col x) (r_col y)) as [[C Z2]|[[C Z2]|[C Z2]]]; rewrite Z2.
    + destruct (r_col x =? r_col y) eqn:EC; [lia|]. cbn [negb]. destruct (r_col x >? r_col y) eqn:G; [lia|reflexivity].
    + exfalso. apply N. destruct x, y; cbn in *; congruence.
    + destruct (r_col x =? r_col y) eqn:EC; [lia|]. cbn [negb]. destruct (r_col x >? r_col y) eqn:G; [reflexivity|lia].
  - destruct (r_line x =? r_line y) eqn:EL; [lia|]. cbn [negb]. destruct (r_line x >? r_line y) eqn:G; [reflexivity|lia].
Qed.
Lemma msg_cmp_head : forall a b, refs_of a <> [] -> refs_of b <> [] -> head_ref a <> head_ref b ->
  msg_cmp a b = ref_cmp (head_ref a) (head_ref b).
Proof.
  intros a b A B N. unfold msg_cmp, head_ref, refs_of in *.
  destruct (m_com a) as [ca|]; [|congruence]. destruct (m_com b) as [cb|]; [|congruence].
  destruct (cm_refs ca) as [|x l]; [congruence|]. destruct (cm_refs cb) as [|y l']; [congruence|].
  cbn [hd] in *. rewrite (refs_cmp_head x l y l' N). reflexivity.
Qed.
(** A list in which every two entries differ by their first references; a
    message is never compared with itself. *)
Lemma ref_cmp_pos : forall x y, ref_lt x y -> ref_cmp x y < 0 /\ 0 < ref_cmp y x.
Proof. intros x y H. pose proof (ref_cmp_ok (fun _ => True)) as OK. split; [now apply (ck_lt _ _ _ OK)|now apply (ck_gt _ _ _ OK y x)]. Qed.
Definition hcmp (a b : message) : Z := ref_cmp (head_ref a) (head_ref b).
Lemma hcmp_ok : forall ms, NoDup (map head_ref ms) -> cmp_ok (fun m => In m ms) head_lt hcmp.
Proof.
  intros ms N. apply cmp_ok_of_cases.
  - intros x y z _ _ _. apply ref_lt_trans.
  - intros x _. apply ref_lt_irrefl.
  - intros x y IX IY. unfold head_lt, hcmp. destruct (ref_cmp_cases (head_ref x) (head_ref y)) as [H|[[E Z]|H]]; auto.
    right. left. split; [|exact Z]. clear Z. induction ms as [|m ms IH]; [destruct IX|].
    cbn [map] in N. apply NoDup_cons_iff in N as [NI N].
    destruct IX as [->|IX], IY as [->|IY]; auto; exfalso; apply NI.
    + rewrite E. now apply in_map.
    + rewrite <- E. now apply in_map.
Qed.
Lemma ins_ext : forall A (c d : A -> A -> Z) x l, (forall y, In y l -> c x y = d x y) -> ins_rev c x l = ins_rev d x l.
Proof.
  intros A c d x l. induction l as [|y l IH]; intro H; [reflexivity|]. cbn [ins_rev].
  rewrite (H y) by now left. rewrite IH by (intros z I; apply H; now right). reflexivity.
Qed.
(** the comparisons made are between different positions *)
Lemma sort_ext : forall A (c d : A -> A -> Z) l,
  (forall a x b y e, l = a ++ x :: b ++ y :: e -> c y x = d y x) -> sort c l = sort d l.
Proof.
  intros A c d l. induction l as [|x l IH] using rev_ind; intro H; [reflexivity|].
  unfold sort. rewrite !fold_left_app. cbn [fold_left]. f_equal.
  assert (E : fold_left (fun acc x => ins_rev c x acc) l [] = fold_left (fun acc x => ins_rev d x acc) l []).
  { rewrite <- (rev_involutive (fold_left (fun acc x => ins_rev c x acc) l [])). fold (sort c l). rewrite IH.
    - unfold sort. now rewrite rev_involutive.
    - intros a u b v e E. subst l. apply (H a u b v (e ++ [x])). rewrite <- !app_assoc. cbn [app]. now rewrite <- app_assoc. }
  rewrite E. apply ins_ext. intros y I.
  assert (IL : In y l).
  { eapply Permutation_in; [|exact I]. rewrite (Permutation_rev (fold_left _ _ _)). fold (sort d l). symmetry. apply sort_perm. }
  apply in_split in IL as (a & b & ->). apply (H a y b x []). now rewrite <- app_assoc.
Qed.

Definition refs_sorted (m : message) : Prop := ordered ref_le (refs_of m).
Lemma sort_msg_key : forall m, key (sort_msg_comment m) = key m.
Proof. intros [c x i p s]. reflexivity. Qed.
Lemma sort_msg_refs : forall m, refs_of (sort_msg_comment m) = sort ref_cmp (refs_of m).
Proof. intros [[c|] x i p s]; reflexivity. Qed.
Lemma least_head : forall m r, least_ref m r -> head_ref (sort_msg_comment m) = r.
Proof.
  intros m r [I F]. unfold head_ref. rewrite sort_msg_refs.
  pose proof (sort_perm _ ref_cmp (refs_of m)) as PM.
  pose proof (sort_ordered _ (fun _ => True) ref_lt ref_cmp (refs_of m) (ref_cmp_ok _) (proj2 (Forall_forall _ _) (fun _ _ => Logic.I))) as O.
  destruct (sort ref_cmp (refs_of m)) as [|x l]; [symmetry in PM; apply Permutation_nil in PM; rewrite PM in I; destruct I|].
  cbn [hd]. assert (IR : In r (x :: l)) by (eapply Permutation_in; eauto).
  destruct IR as [->|IR]; [reflexivity|]. apply in_split in IR as (b & c & ->).
  assert (IX : ref_le r x) by (rewrite Forall_forall in F; apply F; eapply Permutation_in; [symmetry; exact PM|now left]).
  destruct (O [] x b r c eq_refl) as [L|]; [|assumption]. destruct IX as [K|]; [|congruence].
  exfalso. apply (ref_lt_irrefl x). eapply ref_lt_trans; eauto.
Qed.
