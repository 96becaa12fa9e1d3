(** Proofs about the order of messages (C27). *)
From Coq Require Import List ZArith Bool Lia Permutation.
From Verif Require Import Base BaseProofs PoStrModel PoFileModel PoFileSpec PoSortProofs PoMergeProofs PoOrderSpec.
Import ListNotations.
Open Scope Z_scope.

Lemma refs_sorted : forall m, sorted_refs m (sort ref_cmp (refs_of m)).
Proof.
  intro m. split; [apply sort_perm|]. exact (sort_refs_ordered (refs_of m)).
Qed.
Lemma sorted_refs_eq : forall m l, sorted_refs m l -> l = sort ref_cmp (refs_of m).
Proof.
  intros m l [P O]. symmetry. apply (sort_unique _ (fun _ => True) ref_lt); [apply ref_cmp_ok|now apply Forall_forall|exact P|exact O].
Qed.
Lemma precedes_eq : forall a b, precedes a b <->
  refs_before (sort ref_cmp (refs_of a)) (sort ref_cmp (refs_of b)) \/
  refs_open (sort ref_cmp (refs_of a)) (sort ref_cmp (refs_of b)) /\ key_lt a b.
Proof.
  intros a b. split.
  - intros (l & k & A & B & H). now rewrite <- (sorted_refs_eq _ _ A), <- (sorted_refs_eq _ _ B).
  - intro H. eexists _, _. split; [apply refs_sorted|]. split; [apply refs_sorted|exact H].
Qed.

Lemma ref_eqb_eq : forall x y, ref_eqb x y = true <-> x = y.
Proof.
  intros x y. split.
  - intro E. unfold ref_eqb in E. apply andb_true_iff in E as [E E3]. apply andb_true_iff in E as [E1 E2].
    destruct x, y. cbn in *. apply beq_eq in E1. apply Z.eqb_eq in E2, E3. now subst.
  - intros ->. unfold ref_eqb. rewrite !Z.eqb_refl. now rewrite (proj2 (beq_eq _ _) eq_refl).
Qed.
Lemma refs_cmp_cons : forall x a y b, refs_cmp (x :: a) (y :: b) =
  if ref_eqb x y then (if is_nil (r_path x) then refs_cmp a b else Some 0) else Some (ref_cmp x y).
Proof.
  intros x a y b. destruct (ref_eqb x y) eqn:E.
  - apply ref_eqb_eq in E. subst y. cbn [refs_cmp]. cbv zeta.
    assert (R : forall p, bcmp p p = 0) by (intro p; now apply bcmp_eq).
    rewrite R, !Z.eqb_refl. cbn [negb Z.eqb]. destruct (r_path x); reflexivity.
  - apply refs_cmp_head. intro Q. apply ref_eqb_eq in Q. congruence.
Qed.

(** the comparison of the references, whole *)
Lemma refs_cmp_cases : forall a b,
  (refs_before a b /\ exists c, refs_cmp a b = Some c /\ c < 0) \/
  (refs_before b a /\ exists c, refs_cmp a b = Some c /\ 0 < c) \/
  (refs_open a b /\ refs_open b a /\ refs_cmp a b = None) \/
  (~ refs_before a b /\ ~ refs_before b a /\ ~ refs_open a b /\ ~ refs_open b a /\ refs_cmp a b = Some 0).
Proof.
  induction a as [|x a IH]; intros [|y b]; try (right; right; left; split; [constructor|split; [constructor|reflexivity]]).
  rewrite refs_cmp_cons. destruct (ref_eqb x y) eqn:E.
  - apply ref_eqb_eq in E. subst y. destruct (r_path x) as [|p0 p] eqn:P; cbn [is_nil].
    + destruct (IH b) as [[H C]|[[H C]|[(H & K & C)|(H1 & H2 & H3 & H4 & C)]]].
      * left. split; [now constructor|exact C].
      * right. left. split; [now constructor|exact C].
      * right. right. left. split; [now constructor|]. split; [now constructor|exact C].
      * right. right. right. split; [|split; [|split; [|split; [|exact C]]]].
        -- intro B. inversion B; subst; [now apply ref_lt_irrefl in H0|contradiction].
        -- intro B. inversion B; subst; [now apply ref_lt_irrefl in H0|contradiction].
        -- intro B. inversion B; subst. contradiction.
        -- intro B. inversion B; subst. contradiction.
    + right. right. right. split; [|split; [|split; [|split; [|reflexivity]]]].
      * intro B. inversion B; subst; [now apply ref_lt_irrefl in H0|congruence].
      * intro B. inversion B; subst; [now apply ref_lt_irrefl in H0|congruence].
      * intro B. inversion B; subst. congruence.
      * intro B. inversion B; subst. congruence.
  - destruct (ref_cmp_cases x y) as [[H C]|[[H C]|[H C]]].
    + left. split; [now constructor|eauto].
    + apply ref_eqb_eq in H. congruence.
    + right. left. split; [now constructor|eauto].
Qed.
Lemma refs_before_asym : forall a b, refs_before a b -> refs_before b a -> False.
Proof.
  intros a b H. induction H as [x a y b H|x a b P H IH]; intro K; inversion K; subst.
  - eapply ref_lt_irrefl. eapply ref_lt_trans; eauto.
  - now apply ref_lt_irrefl in H.
  - eapply ref_lt_irrefl; eauto.
  - auto.
Qed.
Lemma refs_before_open : forall a b, refs_before a b -> refs_open a b \/ refs_open b a -> False.
Proof.
  intros a b H. induction H as [x a y b H|x a b P H IH]; intros [K|K]; inversion K; subst.
  - now apply ref_lt_irrefl in H.
  - now apply ref_lt_irrefl in H.
  - auto.
  - auto.
Qed.

(** ** Messages *)
Lemma key_cmp_cases : forall a b,
  (key_lt a b /\ or_cmp (bcmp (m_ctx a) (m_ctx b)) (bcmp (m_id a) (m_id b)) < 0) \/
  (key a = key b /\ or_cmp (bcmp (m_ctx a) (m_ctx b)) (bcmp (m_id a) (m_id b)) = 0) \/
  (key_lt b a /\ 0 < or_cmp (bcmp (m_ctx a) (m_ctx b)) (bcmp (m_id a) (m_id b))).
Proof.
  intros x y. unfold or_cmp, key_lt, key. destruct (Z.eqb_spec (bcmp (m_ctx x) (m_ctx y)) 0) as [E|NE].
  - apply bcmp_eq in E. destruct (Z.lt_trichotomy (bcmp (m_id x) (m_id y)) 0) as [L|[Z|G]].
    + left. split; [right; split; [exact E|now apply bcmp_lt]|exact L].
    + right. left. split; [|exact Z]. apply bcmp_eq in Z. congruence.
    + right. right. split; [right; split; [congruence|now apply bcmp_gt]|exact G].
  - destruct (Z.lt_trichotomy (bcmp (m_ctx x) (m_ctx y)) 0) as [L|[Z|G]]; [|contradiction|].
    + left. split; [left; now apply bcmp_lt|exact L].
    + right. right. split; [left; now apply bcmp_gt|exact G].
Qed.

(** messages whose comments are sorted *)
Lemma msg_cmp_refs : forall a b, msg_cmp (sort_msg_comment a) (sort_msg_comment b) =
  match refs_cmp (sort ref_cmp (refs_of a)) (sort ref_cmp (refs_of b)) with
  | Some c => c
  | None => or_cmp (bcmp (m_ctx a) (m_ctx b)) (bcmp (m_id a) (m_id b))
  end.
Proof.
  intros [[ca|] xa ia pa sa] [[cb|] xb ib pb sb]; try reflexivity.
  - unfold msg_cmp. cbn [sort_msg_comment m_com option_map m_ctx m_id refs_of].
    change (sort ref_cmp []) with (@nil reference). now destruct (sort ref_cmp (cm_refs ca)).
Qed.

Lemma msg_cmp_cases : forall a b, let c := msg_cmp (sort_msg_comment a) (sort_msg_comment b) in
  (precedes a b /\ ~ precedes b a /\ c < 0) \/ (precedes b a /\ ~ precedes a b /\ 0 < c) \/
  (~ precedes a b /\ ~ precedes b a /\ c = 0).
Proof.
  intros a b c. unfold c. rewrite msg_cmp_refs, !precedes_eq.
  set (l := sort ref_cmp (refs_of a)). set (k := sort ref_cmp (refs_of b)).
  assert (KA : key_lt a b -> key_lt b a -> False) by (intros H K; eapply key_lt_irrefl; eapply key_lt_trans; eauto).
  destruct (refs_cmp_cases l k) as [[H (z & -> & Z)]|[[H (z & -> & Z)]|[(H & K & ->)|(H1 & H2 & H3 & H4 & ->)]]].
  - left. split; [now left|]. split; [|exact Z]. intros [Q|[Q _]]; [eapply refs_before_asym; eauto|eapply refs_before_open; eauto].
  - right. left. split; [now left|]. split; [|exact Z]. intros [Q|[Q _]]; [eapply refs_before_asym; eauto|eapply refs_before_open; eauto].
  - assert (NB : ~ refs_before l k) by (intro Q; eapply refs_before_open; eauto).
    assert (NB' : ~ refs_before k l) by (intro Q; eapply refs_before_open; eauto).
    destruct (key_cmp_cases a b) as [[L C]|[[E C]|[L C]]].
    + left. split; [now right|]. split; [|exact C]. tauto.
    + right. right. rewrite C. unfold key in E. injection E as E1 E2.
      assert (~ key_lt a b /\ ~ key_lt b a) as [N1 N2].
      { split; intros [Q|[_ Q]]; rewrite ?E1, ?E2 in Q; now apply bytes_lt_irrefl in Q. }
      tauto.
    + right. left. split; [now right|]. split; [|exact C]. tauto.
  - right. right. tauto.
Qed.

Lemma precedes_irrefl : forall a, ~ precedes a a.
Proof. intros a H. destruct (msg_cmp_cases a a) as [(_ & N & _)|[(_ & N & _)|(N & _)]]; now apply N. Qed.

Lemma sort_msg_again : forall a, sort_msg_comment (sort_msg_comment a) = sort_msg_comment a.
Proof.
  intros [[c|] x i p s]; [|reflexivity]. unfold sort_msg_comment. cbn [m_com option_map m_ctx m_id m_pl m_str]. f_equal. f_equal.
  unfold sort_comment. cbn [cm_tr cm_ex cm_refs cm_flags cm_pctx cm_pid].
  f_equal.
  - symmetry. apply (sort_permutation _ (fun _ => True) ref_lt); [apply ref_cmp_ok|now apply Forall_forall|apply sort_perm].
  - symmetry. apply (sort_permutation _ (fun _ => True) bytes_lt); [apply bcmp_ok|now apply Forall_forall|apply sort_perm].
Qed.
Lemma precedes_sorted : forall a b, precedes (sort_msg_comment a) (sort_msg_comment b) <-> precedes a b.
Proof.
  intros a b. pose proof (msg_cmp_cases a b) as C. pose proof (msg_cmp_cases (sort_msg_comment a) (sort_msg_comment b)) as D.
  cbv zeta in *. rewrite !sort_msg_again in D. split; intro H.
  - destruct D as [(_ & _ & D)|[(_ & N & _)|(N & _)]]; [|contradiction|contradiction].
    destruct C as [(C & _)|[(_ & _ & C)|(_ & _ & C)]]; [exact C|lia|lia].
  - destruct C as [(_ & _ & C)|[(_ & N & _)|(N & _)]]; [|contradiction|contradiction].
    destruct D as [(D & _)|[(_ & _ & D)|(_ & _ & D)]]; [exact D|lia|lia].
Qed.

Definition key_dec : forall a b : bytes * bytes, {a = b} + {a <> b}.
Proof. intros a b. decide equality; apply (list_eq_dec Ascii.ascii_dec). Defined.
Lemma nodup_key : forall ms a b, NoDup (map key ms) -> In a ms -> In b ms -> key a = key b -> a = b.
Proof.
  intros ms a b N. induction ms as [|m ms IH]; intros A B E; [destruct A|].
  cbn [map] in N. apply NoDup_cons_iff in N as [NI N]. destruct A as [->|A], B as [->|B]; auto; exfalso; apply NI.
  - rewrite E. now apply in_map.
  - rewrite <- E. now apply in_map.
Qed.

Lemma arranged_ok : forall ms, arranged ms -> cmp_ok (fun m => In m (map sort_msg_comment ms)) precedes msg_cmp.
Proof.
  intros ms (N & T & R). apply cmp_ok_of_cases.
  - intros x y z X Y Z. apply in_map_iff in X as (x' & <- & X). apply in_map_iff in Y as (y' & <- & Y). apply in_map_iff in Z as (z' & <- & Z).
    rewrite !precedes_sorted. now apply R.
  - intros x _. apply precedes_irrefl.
  - intros x y X Y. apply in_map_iff in X as (a & <- & X). apply in_map_iff in Y as (b & <- & Y). rewrite !precedes_sorted.
    destruct (msg_cmp_cases a b) as [(H & _ & C)|[(H & _ & C)|(H & K & C)]]; auto.
    right. left. split; [|exact C]. f_equal. apply (nodup_key ms); auto.
    destruct (key_dec (key a) (key b)) as [Q|Q]; [exact Q|]. exfalso. destruct (T a b X Y Q); contradiction.
Qed.

(** ** Insertion keeps the order of the others *)
Definition before {A} (x y : A) (l : list A) : Prop := exists a b c, l = a ++ x :: b ++ y :: c.
Lemma before_nodup : forall A (x y : A) l, NoDup l -> before x y l -> before y x l -> False.
Proof.
  intros A x y l. induction l as [|u l IH]; intros N (a & b & c & E) (a' & b' & c' & E'); [destruct a; discriminate|].
  apply NoDup_cons_iff in N as [NI N]. destruct a as [|u1 a]; cbn [app] in E; injection E as -> E.
  - apply NI. destruct a' as [|u2 a']; cbn [app] in E'; injection E' as Q E'.
    + rewrite E'. apply in_or_app. right. now left.
    + rewrite E'. apply in_or_app. right. right. apply in_or_app. right. now left.
  - destruct a' as [|u2 a']; cbn [app] in E'; injection E' as Q E'.
    + subst u1. apply NI. rewrite E. apply in_or_app. right. right. apply in_or_app. right. now left.
    + subst u2. apply IH; [exact N|now exists a, b, c|now exists a', b', c'].
Qed.
Lemma before_map : forall A B (f : A -> B) x y l, before x y l -> before (f x) (f y) (map f l).
Proof.
  intros A B f x y l (a & b & c & ->). exists (map f a), (map f b), (map f c). rewrite map_app. cbn [map]. now rewrite map_app.
Qed.
Lemma before_rev : forall A (x y : A) l, before x y l -> before y x (rev l).
Proof.
  intros A x y l (a & b & c & ->). exists (rev c), (rev b), (rev a).
  rewrite rev_app_distr. cbn [rev]. rewrite rev_app_distr. cbn [rev]. now rewrite <- !app_assoc.
Qed.
Lemma ins_split : forall A cmp (x : A) l, exists u v, l = u ++ v /\ ins_rev cmp x l = u ++ x :: v.
Proof.
  intros A cmp x l. induction l as [|y l (u & v & E & F)]; cbn [ins_rev].
  - now exists [], [].
  - destruct (cmp x y <? 0); [|now exists [], (y :: l)]. exists (y :: u), v. cbn [app]. rewrite F. split; [now rewrite E|reflexivity].
Qed.
Lemma before_insert : forall A (x y z : A) u v, before x y (u ++ v) -> before x y (u ++ z :: v).
Proof.
  intros A x y z u v (a & b & c & E). revert a E. induction u as [|w u IH]; intros a E; cbn [app] in *.
  - exists (z :: a), b, c. now rewrite E.
  - destruct a as [|w' a]; cbn [app] in E; injection E as -> E.
    + assert (S : exists b' c', u ++ z :: v = b' ++ y :: c').
      { assert (I : In y (u ++ z :: v)).
        { assert (J : In y (u ++ v)) by (rewrite E; apply in_or_app; right; now left).
          apply in_app_or in J as [J|J]; apply in_or_app; [now left|right; now right]. }
        apply in_split in I. exact I. }
      destruct S as (b' & c' & S). exists [], b', c'. cbn [app]. now rewrite S.
    + destruct (IH a E) as (a1 & b1 & c1 & E1). exists (w' :: a1), b1, c1. cbn [app]. now rewrite E1.
Qed.
Lemma before_fold : forall A cmp (x y : A) l acc, before x y acc -> before x y (fold_left (fun acc x => ins_rev cmp x acc) l acc).
Proof.
  intros A cmp x y l. induction l as [|z l IH]; intros acc H; [exact H|]. cbn [fold_left]. apply IH.
  destruct (ins_split A cmp z acc) as (u & v & E & F). rewrite F. apply before_insert. now rewrite <- E.
Qed.

(** elements that need not move when they are inserted stay in their order *)
Lemma sort_keeps2 : forall A cmp (a b : A) rest, ~ cmp b a < 0 -> before a b (sort cmp (a :: b :: rest)).
Proof.
  intros A cmp a b rest H. unfold sort. apply before_rev. cbn [fold_left ins_rev]. apply before_fold.
  destruct (Z.ltb_spec (cmp b a) 0); [contradiction|]. now exists [], [], [].
Qed.
Lemma sort_keeps3 : forall A cmp (a b c : A) rest, ~ cmp b a < 0 -> ~ cmp c b < 0 -> before a c (sort cmp (a :: b :: c :: rest)).
Proof.
  intros A cmp a b c rest H K. unfold sort. apply before_rev. cbn [fold_left ins_rev]. apply before_fold.
  destruct (Z.ltb_spec (cmp b a) 0); [contradiction|]. cbn [ins_rev]. destruct (Z.ltb_spec (cmp c b) 0); [contradiction|].
  now exists [], [b], [].
Qed.

Lemma pull1 : forall A (a : A) l, In a l -> exists r, Permutation l (a :: r).
Proof. intros A a l I. apply in_split in I as (u & v & ->). exists (u ++ v). symmetry. apply Permutation_middle. Qed.
Lemma pull2 : forall A (a b : A) l, a <> b -> In a l -> In b l -> exists r, Permutation l (a :: b :: r).
Proof.
  intros A a b l N IA IB. destruct (pull1 A a l IA) as (r & P). assert (I : In b r).
  { apply (Permutation_in _ P) in IB. destruct IB; [congruence|assumption]. }
  destruct (pull1 A b r I) as (q & Q). exists q. rewrite P. now apply perm_skip.
Qed.
Lemma pull3 : forall A (a b c : A) l, a <> b -> a <> c -> b <> c -> In a l -> In b l -> In c l -> exists r, Permutation l (a :: b :: c :: r).
Proof.
  intros A a b c l N1 N2 N3 IA IB IC. destruct (pull1 A a l IA) as (r & P).
  destruct (pull2 A b c r N3) as (q & Q).
  - apply (Permutation_in _ P) in IB. destruct IB; [congruence|assumption].
  - apply (Permutation_in _ P) in IC. destruct IC; [congruence|assumption].
  - exists q. rewrite P. now apply perm_skip.
Qed.

Lemma sort_messages_perm' : forall ms, Permutation (map key ms) (map key (sort_messages ms)).
Proof.
  intros ms. destruct ms as [|m [|n ms]]; [constructor|constructor; constructor|].
  change (sort_messages (m :: n :: ms)) with (sort msg_cmp (map sort_msg_comment (m :: n :: ms))).
  rewrite <- (keys_sorted (m :: n :: ms)). apply Permutation_map, sort_perm.
Qed.
Lemma not_before : forall a b, ~ precedes a b -> ~ msg_cmp (sort_msg_comment a) (sort_msg_comment b) < 0.
Proof. intros a b N. destruct (msg_cmp_cases a b) as [(H & _)|[(_ & _ & C)|(_ & _ & C)]]; [contradiction|lia|lia]. Qed.
Lemma precedes_asym : forall a b, precedes a b -> ~ precedes b a.
Proof. intros a b H. destruct (msg_cmp_cases a b) as [(_ & N & _)|[(_ & N & _)|(N & _)]]; [exact N|contradiction|contradiction]. Qed.

Lemma same_order_arranged : forall ms, NoDup (map key ms) ->
  (forall ms', Permutation ms ms' -> map key (sort_messages ms') = map key (sort_messages ms)) -> arranged ms.
Proof.
  intros ms N H.
  assert (NS : NoDup (map key (sort_messages ms))) by (eapply Permutation_NoDup; [apply sort_messages_perm'|exact N]).
  assert (K2 : forall a b r, Permutation ms (a :: b :: r) -> ~ precedes b a -> before (key a) (key b) (map key (sort_messages ms))).
  { intros a b r P Q. rewrite <- (H _ P). change (sort_messages (a :: b :: r)) with (sort msg_cmp (map sort_msg_comment (a :: b :: r))).
    rewrite <- (sort_msg_key a), <- (sort_msg_key b). apply before_map. apply sort_keeps2. now apply not_before. }
  assert (T : forall a b, In a ms -> In b ms -> key a <> key b -> precedes a b \/ precedes b a).
  { intros a b A B Q. destruct (msg_cmp_cases a b) as [(X & _)|[(X & _)|(X & Y & _)]]; auto. exfalso.
    destruct (pull2 _ a b ms ltac:(congruence) A B) as (r & P). apply (before_nodup _ _ _ _ NS (K2 a b r P Y)).
    apply (K2 b a r); [|exact X]. rewrite P. apply perm_swap. }
  split; [exact N|]. split; [exact T|]. intros a b c A B C AB BC.
  assert (NAB : a <> b) by (intros ->; now apply precedes_irrefl in AB).
  assert (NBC : b <> c) by (intros ->; now apply precedes_irrefl in BC).
  assert (NAC : a <> c) by (intros ->; now apply precedes_asym in AB).
  destruct (T a c A C) as [X|X]; [|exact X|].
  { intro Q. apply NAC. now apply (nodup_key ms). }
  exfalso. destruct (pull3 _ a b c ms NAB NAC NBC A B C) as (r & P).
  apply (before_nodup _ (key a) (key c) _ NS).
  - rewrite <- (H _ P). change (sort_messages (a :: b :: c :: r)) with (sort msg_cmp (map sort_msg_comment (a :: b :: c :: r))).
    rewrite <- (sort_msg_key a), <- (sort_msg_key c). apply before_map. apply sort_keeps3; apply not_before; now apply precedes_asym.
  - apply (K2 c a (b :: r)); [|now apply precedes_asym]. rewrite P. rewrite (perm_swap c b r). apply perm_swap.
Qed.

Lemma arranged_perm : forall ms ms', Permutation ms ms' -> arranged ms -> sort_messages ms = sort_messages ms'.
Proof.
  intros ms ms' P A.
  assert (G : sort msg_cmp (map sort_msg_comment ms) = sort msg_cmp (map sort_msg_comment ms')).
  { apply (sort_permutation _ (fun m => In m (map sort_msg_comment ms)) precedes); [now apply arranged_ok|now apply Forall_forall|].
    now apply Permutation_map. }
  destruct ms as [|m [|n ms]].
  - apply Permutation_nil in P. now subst.
  - apply Permutation_length_1_inv in P. now subst.
  - pose proof (Permutation_length P) as L. destruct ms' as [|m' [|n' ms']]; try discriminate. exact G.
Qed.
Lemma arranged_order : forall ms, arranged ms -> ordered precedes (sort_messages ms).
Proof.
  intros ms A. destruct ms as [|m [|n ms]].
  - intros a x b y c E. destruct a; discriminate.
  - intros a x b y c E. destruct a as [|? [|? a]]; try discriminate. destruct b; discriminate.
  - change (sort_messages (m :: n :: ms)) with (sort msg_cmp (map sort_msg_comment (m :: n :: ms))).
    pose proof (sort_ordered _ _ _ _ (map sort_msg_comment (m :: n :: ms)) (arranged_ok _ A) ltac:(now apply Forall_forall)) as O.
    intros a x b y c E. destruct (O a x b y c E) as [H|H]; [exact H|]. exfalso. subst y.
    assert (NS : NoDup (map key (sort_messages (m :: n :: ms)))) by (eapply Permutation_NoDup; [apply sort_messages_perm'|apply A]).
    change (sort_messages (m :: n :: ms)) with (sort msg_cmp (map sort_msg_comment (m :: n :: ms))) in NS. rewrite E in NS.
    apply NoDup_map_inv in NS. apply NoDup_remove_2 in NS. apply NS. apply in_or_app. right. apply in_or_app. right. now left.
Qed.

Lemma precedes_cmp : forall a b, precedes a b <-> msg_cmp (sort_msg_comment a) (sort_msg_comment b) < 0.
Proof.
  intros a b. destruct (msg_cmp_cases a b) as [(H & _ & C)|[(_ & N & C)|(N & _ & C)]]; split; intro K; auto; try contradiction; lia.
Qed.
