(** Comment.Merge as a union, and the order of messages in the output. *)
From Coq Require Import String Ascii List ZArith Bool Lia ZifyBool Permutation Sorted.
From Verif Require Import Base BaseProofs StrModel PoStrModel Utf8Model TrimProofs PoStrProofs PoFileModel PoFileSpec PoSortProofs.
Import ListNotations.
Open Scope Z_scope.

Lemma mem_iff : forall x l, mem_bytes x l = true <-> In x l.
Proof.
  intros x l. unfold mem_bytes. rewrite existsb_exists. split.
  - intros (y & I & E). apply beq_eq in E. now subst.
  - intro I. exists x. split; [exact I|now apply beq_eq].
Qed.
Lemma add_new_in : forall acc x y, In y (add_new acc x) <-> In y acc \/ y = x.
Proof.
  intros acc x y. unfold add_new. destruct (mem_bytes x acc) eqn:E.
  - apply mem_iff in E. split; [auto|intros [| ->]; auto].
  - rewrite in_app_iff. cbn. intuition.
Qed.
Lemma NoDup_snoc : forall A (l : list A) x, NoDup l -> ~ In x l -> NoDup (l ++ [x]).
Proof.
  intros A l x N NI. apply (Permutation_NoDup (Permutation_cons_append l x)). now constructor.
Qed.
Lemma add_new_nodup : forall acc x, NoDup acc -> NoDup (add_new acc x).
Proof.
  intros acc x N. unfold add_new. destruct (mem_bytes x acc) eqn:E; [exact N|].
  apply NoDup_snoc; [exact N|]. rewrite <- mem_iff. congruence.
Qed.
Lemma add_all : forall r acc, NoDup acc ->
  NoDup (fold_left add_new r acc) /\ (forall y, In y (fold_left add_new r acc) <-> In y acc \/ In y r).
Proof.
  induction r as [|x r IH]; intros acc N; cbn [fold_left]; [split; [exact N|cbn; tauto]|].
  destruct (IH (add_new acc x) (add_new_nodup _ _ N)) as [A B]. split; [exact A|]. intro y. rewrite B, add_new_in.
  cbn. intuition.
Qed.
Lemma merge_strings_spec : forall l r, NoDup (merge_strings l r) /\
  forall y, In y (merge_strings l r) <-> In y l \/ In y r.
Proof.
  intros l r. unfold merge_strings. destruct (add_all l [] (NoDup_nil _)) as [A B].
  destruct (add_all r _ A) as [C D]. split; [exact C|]. intro y. rewrite D, B. cbn. tauto.
Qed.
Lemma add_all_known : forall r acc, (forall y, In y r -> In y acc) -> fold_left add_new r acc = acc.
Proof.
  induction r as [|x r IH]; intros acc H; [reflexivity|]. cbn [fold_left].
  assert (E : add_new acc x = acc) by (unfold add_new; now rewrite (proj2 (mem_iff x acc) (H x (or_introl eq_refl)))).
  rewrite E. apply IH. intros y I. apply H. now right.
Qed.
Lemma add_all_new : forall l acc, NoDup (acc ++ l) -> fold_left add_new l acc = acc ++ l.
Proof.
  induction l as [|x l IH]; intros acc N; [now rewrite app_nil_r|]. cbn [fold_left].
  assert (E : add_new acc x = acc ++ [x]).
  { unfold add_new. destruct (mem_bytes x acc) eqn:M; [|reflexivity]. apply mem_iff in M.
    apply NoDup_remove_2 in N. exfalso. apply N. apply in_or_app. now left. }
  rewrite E, IH; rewrite <- app_assoc; [reflexivity|exact N].
Qed.
Lemma merge_strings_known : forall l r, NoDup l -> (forall y, In y r -> In y l) -> merge_strings l r = l.
Proof.
  intros l r N H. unfold merge_strings. rewrite (add_all_new l []) by exact N. cbn [app]. now apply add_all_known.
Qed.

Lemma ref_eqb_iff : forall a b, ref_eqb a b = true <-> a = b.
Proof.
  intros [p l c] [p' l' c']. unfold ref_eqb. cbn. rewrite !andb_true_iff, beq_eq. split.
  - intros [[-> L] C]. f_equal; lia.
  - intro E. injection E as -> -> ->. split; [split; [reflexivity|lia]|lia].
Qed.
Lemma merge_refs_spec : forall r l, NoDup l -> NoDup (merge_refs l r) /\
  forall y, In y (merge_refs l r) <-> In y l \/ In y r.
Proof.
  unfold merge_refs. induction r as [|x r IH]; intros l N; cbn [fold_left]; [split; [exact N|cbn; tauto]|].
  destruct (existsb (fun y => ref_eqb y x) l) eqn:E.
  - apply existsb_exists in E as (z & I & E). apply ref_eqb_iff in E. subst z.
    destruct (IH l N) as [A B]. split; [exact A|]. intro y. rewrite B. cbn. split; [tauto|]. intros [|[<-|]]; auto.
  - assert (NI : ~ In x l).
    { intro I. assert (existsb (fun y => ref_eqb y x) l = true) by (apply existsb_exists; exists x; split; [exact I|now apply ref_eqb_iff]). congruence. }
    destruct (IH (l ++ [x]) (NoDup_snoc _ _ _ N NI)) as [A B]. split; [exact A|]. intro y. rewrite B, in_app_iff. cbn. intuition.
Qed.
Lemma merge_refs_in : forall r l y, In y (merge_refs l r) <-> In y l \/ In y r.
Proof.
  unfold merge_refs. induction r as [|x r IH]; intros l y; cbn [fold_left]; [cbn; tauto|].
  destruct (existsb (fun y => ref_eqb y x) l) eqn:E; rewrite IH.
  - apply existsb_exists in E as (z & I & E). apply ref_eqb_iff in E. subst z.
    cbn. split; [tauto|]. intros [|[<-|]]; auto.
  - rewrite in_app_iff. cbn. intuition.
Qed.
Lemma merge_refs_known : forall r l, (forall y, In y r -> In y l) -> merge_refs l r = l.
Proof.
  unfold merge_refs. induction r as [|x r IH]; intros l H; [reflexivity|]. cbn [fold_left].
  assert (E : existsb (fun y => ref_eqb y x) l = true).
  { apply existsb_exists. exists x. split; [apply H; now left|now apply ref_eqb_iff]. }
  rewrite E. apply IH. intros y I. apply H. now right.
Qed.

(** the sorted lists *)
Lemma sort_bytes_ordered : forall l, ordered bytes_le (sort bcmp l).
Proof. intro l. apply (sort_ordered _ (fun _ => True) bytes_lt); [apply bcmp_ok|]. now apply Forall_forall. Qed.
Lemma sort_refs_ordered : forall l, ordered ref_le (sort ref_cmp l).
Proof. intro l. apply (sort_ordered _ (fun _ => True) ref_lt); [apply ref_cmp_ok|]. now apply Forall_forall. Qed.
Lemma sort_in : forall A cmp (l : list A) x, In x (sort cmp l) <-> In x l.
Proof. intros A cmp l x. split; apply Permutation_in; [symmetry|]; apply sort_perm. Qed.
Lemma sort_nodup : forall A cmp (l : list A), NoDup l -> NoDup (sort cmp l).
Proof. intros A cmp l. apply Permutation_NoDup, sort_perm. Qed.
Lemma sort_bytes_id : forall l, ordered bytes_le l -> sort bcmp l = l.
Proof. intros l O. apply (sort_unique _ (fun _ => True) bytes_lt); [apply bcmp_ok|now apply Forall_forall|reflexivity|exact O]. Qed.
Lemma sort_refs_id : forall l, ordered ref_le l -> sort ref_cmp l = l.
Proof. intros l O. apply (sort_unique _ (fun _ => True) ref_lt); [apply ref_cmp_ok|now apply Forall_forall|reflexivity|exact O]. Qed.

(** ** Comments *)
Lemma merged_flags : forall c o, cm_flags (merge_comment c (Some o)) = sort bcmp (merge_strings (cm_flags c) (cm_flags o)).
Proof. reflexivity. Qed.
Lemma merged_refs : forall c o, cm_refs (merge_comment c (Some o)) = sort ref_cmp (merge_refs (cm_refs c) (cm_refs o)).
Proof. reflexivity. Qed.

Lemma flags_union : forall c o f, In f (cm_flags (merge_comment c (Some o))) <-> In f (cm_flags c) \/ In f (cm_flags o).
Proof. intros c o f. rewrite merged_flags, sort_in. apply merge_strings_spec. Qed.
Lemma refs_union : forall c o r, In r (cm_refs (merge_comment c (Some o))) <-> In r (cm_refs c) \/ In r (cm_refs o).
Proof. intros c o r. rewrite merged_refs, sort_in. apply merge_refs_in. Qed.
Lemma flags_nodup : forall c o, NoDup (cm_flags (merge_comment c (Some o))).
Proof. intros c o. rewrite merged_flags. apply sort_nodup, merge_strings_spec. Qed.
Lemma refs_nodup : forall c o, NoDup (cm_refs c) -> NoDup (cm_refs (merge_comment c (Some o))).
Proof. intros c o N. rewrite merged_refs. apply sort_nodup. now apply merge_refs_spec. Qed.

Lemma flags_twice : forall c o, cm_flags (merge_comment (merge_comment c (Some o)) (Some o)) = cm_flags (merge_comment c (Some o)).
Proof.
  intros c o. rewrite (merged_flags (merge_comment c (Some o))). rewrite merge_strings_known.
  - rewrite merged_flags. apply sort_bytes_id, sort_bytes_ordered.
  - apply flags_nodup.
  - intros y I. apply flags_union. now right.
Qed.
Lemma refs_twice : forall c o, cm_refs (merge_comment (merge_comment c (Some o)) (Some o)) = cm_refs (merge_comment c (Some o)).
Proof.
  intros c o. rewrite (merged_refs (merge_comment c (Some o))). rewrite merge_refs_known.
  - rewrite merged_refs. apply sort_refs_id, sort_refs_ordered.
  - intros y I. apply refs_union. now right.
Qed.
Lemma flags_self : forall c, NoDup (cm_flags c) -> cm_flags (merge_comment c (Some c)) = sort bcmp (cm_flags c).
Proof. intros c N. rewrite merged_flags. now rewrite merge_strings_known by auto. Qed.
Lemma refs_self : forall c, cm_refs (merge_comment c (Some c)) = sort ref_cmp (cm_refs c).
Proof. intro c. rewrite merged_refs. now rewrite merge_refs_known by auto. Qed.

(** ** Comment texts *)
Lemma join_lines_text : forall ls, join [LF] ls = lines_text ls.
Proof.
  induction ls as [|x ls IH]; [reflexivity|]. cbn [join lines_text]. destruct ls as [|y ls]; [reflexivity|].
  now rewrite IH.
Qed.
Lemma split_lines_text : forall ls, ls <> [] -> Forall (fun l => ~ In LF l) ls -> split_on LF (lines_text ls) = ls.
Proof.
  induction ls as [|x ls IH]; intros N F; [congruence|]. pose proof (Forall_inv F) as X. cbn beta in X.
  cbn [lines_text]. destruct ls as [|y ls]; [now apply split_no_lf_end|].
  rewrite split_no_lf by exact X. now rewrite IH by (congruence || now apply Forall_inv_tail in F).
Qed.
Lemma lines_text_clean : forall ls, Forall (fun l => l <> [] /\ clean l) ls -> clean (lines_text ls).
Proof.
  induction ls as [|x ls IH]; intro F; [now left|]. destruct (Forall_inv F) as [NX CX]. apply Forall_inv_tail in F.
  cbn [lines_text]. destruct ls as [|y ls]; [exact CX|]. destruct (IH F) as [E|C].
  - exfalso. cbn [lines_text] in E. destruct (Forall_inv F) as [NY _]. destruct ls; [congruence|]. now apply app_eq_nil in E.
  - destruct CX as [|(r & u & s & v & R & R2 & E1 & _)]; [congruence|].
    destruct C as (r' & u' & s' & v' & _ & _ & _ & S1 & S2 & E2).
    right. exists r, (u ++ LF :: lines_text (y :: ls)), s', (x ++ LF :: v').
    repeat split; try assumption.
    + rewrite E1 at 1. now rewrite <- app_assoc.
    + rewrite E2. now rewrite <- app_assoc.
Qed.
Lemma trim_lf : forall t, clean t -> trim_space (LF :: t) = t.
Proof.
  intros t C. rewrite <- (app_nil_r (LF :: t)). apply (trim_pad [10] t []); [|constructor|exact C].
  constructor; [reflexivity|constructor].
Qed.

Lemma lines_text_nil : forall ls, Forall (fun l => l <> [] /\ clean l /\ ~ In LF l) ls -> lines_text ls = [] -> ls = [].
Proof.
  intros [|x ls] F E; [reflexivity|]. destruct (Forall_inv F) as [N _]. cbn [lines_text] in E.
  destruct ls; [congruence|]. now apply app_eq_nil in E.
Qed.
Lemma tl_clean : forall ls, Forall (fun l => l <> [] /\ clean l /\ ~ In LF l) ls -> clean (lines_text ls).
Proof. intros ls F. apply lines_text_clean. eapply Forall_impl; [|exact F]. cbn. tauto. Qed.
Lemma tl_split : forall ls, ls <> [] -> Forall (fun l => l <> [] /\ clean l /\ ~ In LF l) ls -> split_on LF (lines_text ls) = ls.
Proof. intros ls N F. apply split_lines_text; [exact N|]. eapply Forall_impl; [|exact F]. cbn. tauto. Qed.

(** the lines of both texts, those of the first one first, each once *)
Definition union_lines (a b : list bytes) : list bytes := merge_strings a b.
Lemma union_tlines : forall a b, tlines a -> tlines b -> tlines (union_lines a b).
Proof.
  intros a b [NA A] [NB B]. destruct (merge_strings_spec a b) as [N I]. split; [exact N|].
  apply Forall_forall. intros x X. apply I in X as [X|X]; [rewrite Forall_forall in A|rewrite Forall_forall in B]; auto.
Qed.
Lemma merge_text_lines : forall a b, tlines a -> tlines b ->
  merge_text (lines_text a) (lines_text b) = lines_text (union_lines a b).
Proof.
  intros a b A B. pose proof (union_tlines a b A B) as U. destruct A as [NA A], B as [NB B], U as [NU U].
  unfold merge_text. destruct (is_nil (lines_text b)) eqn:E.
  - assert (b = []) by (apply lines_text_nil; [exact B|destruct (lines_text b); [reflexivity|discriminate]]). subst b.
    unfold union_lines, merge_strings. cbn [fold_left]. now rewrite (add_all_new a []) by exact NA.
  - assert (NB0 : b <> []) by (intros ->; discriminate). rewrite (tl_split b NB0 B), join_lines_text.
    destruct a as [|x a].
    + change (split_on LF (lines_text [])) with [@nil ascii].
      assert (EL : merge_strings [[]] b = [] :: union_lines [] b).
      { unfold union_lines, merge_strings. cbn [fold_left add_new mem_bytes existsb app].
        rewrite !add_all_new; [reflexivity|exact NB|]. cbn [app]. constructor; [|exact NB].
        intro I. rewrite Forall_forall in B. now apply B in I. }
      rewrite EL. destruct (union_lines [] b) as [|y l] eqn:EU.
      * exfalso. destruct b as [|z b]; [congruence|]. destruct (merge_strings_spec [] (z :: b)) as [_ I].
        unfold union_lines in EU. rewrite EU in I. destruct (proj2 (I z)). right. now left.
      * change (lines_text ([] :: y :: l)) with (LF :: lines_text (y :: l)). apply trim_lf. now apply tl_clean.
    + rewrite tl_split by (congruence || exact A). apply clean_trim. now apply tl_clean.
Qed.
Lemma union_again : forall a b, tlines a -> tlines b -> union_lines (union_lines a b) b = union_lines a b.
Proof.
  intros a b A B. apply merge_strings_known; [apply merge_strings_spec|]. intros y I. apply merge_strings_spec. now right.
Qed.
Lemma union_self : forall a, NoDup a -> union_lines a a = a.
Proof. intros a N. now apply merge_strings_known. Qed.

(** ** Order of the messages *)

Lemma norefs_sorted : forall m, refs_of m = [] -> refs_of (sort_msg_comment m) = [].
Proof. intros m E. rewrite sort_msg_refs, E. reflexivity. Qed.
Lemma keys_sorted : forall ms, map key (map sort_msg_comment ms) = map key ms.
Proof. intro ms. rewrite map_map. apply map_ext. apply sort_msg_key. Qed.
Lemma perm_no_refs : forall ms ms', Permutation ms ms' -> no_refs ms -> no_refs ms'.
Proof.
  intros ms ms' P [F N]. split; [now apply (Permutation_Forall P)|].
  apply (Permutation_NoDup (Permutation_map key P) N).
Qed.
Lemma heads_sorted : forall ms rs, Forall2 least_ref ms rs -> map head_ref (map sort_msg_comment ms) = rs.
Proof.
  induction 1 as [|m r ms rs L F IH]; [reflexivity|]. cbn [map]. now rewrite IH, (least_head m r L).
Qed.
Lemma head_sort_cmp : forall ms, distinct_refs ms ->
  sort msg_cmp (map sort_msg_comment ms) = sort hcmp (map sort_msg_comment ms).
Proof.
  intros ms (rs & F & N). apply sort_ext. intros a x b y e E. unfold hcmp.
  assert (NE : forall m, In m (map sort_msg_comment ms) -> refs_of m <> []).
  { intros m I. apply in_map_iff in I as (m' & <- & I). rewrite sort_msg_refs.
    assert (X : exists r, least_ref m' r).
    { clear - F I. induction F as [|m r ms rs L F IH]; [destruct I|]. destruct I as [->|I]; eauto. }
    destruct X as (r & IR & _). intro Z. pose proof (sort_perm _ ref_cmp (refs_of m')) as PM. rewrite Z in PM.
    symmetry in PM. apply Permutation_nil in PM. rewrite PM in IR. destruct IR. }
  apply msg_cmp_head.
  - apply NE. rewrite E. apply in_or_app. right. right. apply in_or_app. right. now left.
  - apply NE. rewrite E. apply in_or_app. right. now left.
  - intro Q. apply heads_sorted in F. rewrite E in F. rewrite <- F in N. rewrite map_app in N. cbn [map] in N.
    apply NoDup_remove_2 in N. apply N. apply in_or_app. right. rewrite map_app. cbn [map]. apply in_or_app. right. left. exact Q.
Qed.

Lemma sort_messages_perm : forall ms ms', Permutation ms ms' -> no_refs ms \/ distinct_refs ms ->
  sort_messages ms = sort_messages ms'.
Proof.
  intros ms ms' P C.
  assert (G : sort msg_cmp (map sort_msg_comment ms) = sort msg_cmp (map sort_msg_comment ms')).
  { destruct C as [[F N]|D].
    - apply (sort_permutation _ (fun m => In m (map sort_msg_comment ms) /\ refs_of m = []) key_lt).
      + apply norefs_ok. now rewrite keys_sorted.
      + apply Forall_forall. intros m I. split; [exact I|]. apply in_map_iff in I as (m' & <- & I).
        apply norefs_sorted. rewrite Forall_forall in F. now apply F.
      + now apply Permutation_map.
    - assert (D' : distinct_refs ms').
      { destruct D as (rs & F & N). destruct (Permutation_Forall2 P F) as (rs' & PR & F').
        exists rs'. split; [exact F'|]. eapply Permutation_NoDup; eauto. }
      rewrite (head_sort_cmp ms D), (head_sort_cmp ms' D').
      apply (sort_permutation _ (fun m => In m (map sort_msg_comment ms)) head_lt).
      + apply hcmp_ok. destruct D as (rs & F & N). now rewrite (heads_sorted ms rs F).
      + apply Forall_forall. auto.
      + now apply Permutation_map. }
  destruct ms as [|m [|n ms]].
  - apply Permutation_nil in P. now subst.
  - apply Permutation_length_1_inv in P. now subst.
  - pose proof (Permutation_length P) as L. destruct ms' as [|m' [|n' ms']]; try discriminate. exact G.
Qed.

(** Any sorting algorithm gives this order. *)
Lemma sort_messages_order : forall ms, (2 <= length ms)%nat ->
  (no_refs ms -> ordered key_lt (sort_messages ms)) /\
  (distinct_refs ms -> ordered (fun a b => exists r q, least_ref a r /\ least_ref b q /\ ref_lt r q) (sort_messages ms)) /\
  Permutation (map sort_msg_comment ms) (sort_messages ms).
Proof.
  intros ms L. assert (E : sort_messages ms = sort msg_cmp (map sort_msg_comment ms)).
  { destruct ms as [|m [|n ms]]; try (cbn in L; lia). reflexivity. }
  rewrite E. clear E L. split; [|split].
  - intros [F N]. set (l := map sort_msg_comment ms).
    assert (NK : NoDup (map key l)) by (unfold l; now rewrite keys_sorted).
    pose proof (sort_ordered _ (fun m => In m l /\ refs_of m = []) key_lt msg_cmp l (norefs_ok l NK)) as O.
    assert (FP : Forall (fun m => In m l /\ refs_of m = []) l).
    { apply Forall_forall. intros m I. split; [exact I|]. apply in_map_iff in I as (m' & <- & I).
      apply norefs_sorted. rewrite Forall_forall in F. now apply F. }
    specialize (O FP). intros a x b y c E. destruct (O a x b y c E) as [K| ->]; [exact K|]. exfalso.
    assert (NS : NoDup (map key (sort msg_cmp l))) by (eapply Permutation_NoDup; [apply Permutation_map, sort_perm|exact NK]).
    rewrite E in NS. rewrite map_app in NS. cbn [map] in NS. apply NoDup_remove_2 in NS. apply NS.
    apply in_or_app. right. rewrite map_app. apply in_or_app. right. now left.
  - intro D. rewrite (head_sort_cmp ms D). destruct D as (rs & F & N). set (l := map sort_msg_comment ms).
    assert (NK : NoDup (map head_ref l)) by (unfold l; now rewrite (heads_sorted ms rs F)).
    pose proof (sort_ordered _ (fun m => In m l) head_lt hcmp l (hcmp_ok l NK)) as O.
    assert (FP : Forall (fun m => In m l) l) by (apply Forall_forall; auto). specialize (O FP).
    intros a x b y c E. 
    assert (LR : forall m, In m (sort hcmp l) -> least_ref m (head_ref m)).
    { intros m I. apply sort_in in I. apply in_map_iff in I as (m' & <- & I).
      assert (X : exists r, least_ref m' r).
      { clear - F I. induction F as [|m r ms rs L F IH]; [destruct I|]. destruct I as [->|I]; eauto. }
      destruct X as (r & X). rewrite (least_head m' r X). destruct X as [IR FR].
      pose proof (sort_perm _ ref_cmp (refs_of m')) as PM. split; rewrite sort_msg_refs.
      - eapply Permutation_in; eauto.
      - now apply (Permutation_Forall PM). }
    exists (head_ref x), (head_ref y). split; [apply LR; rewrite E; apply in_or_app; right; now left|].
    split; [apply LR; rewrite E; apply in_or_app; right; right; apply in_or_app; right; now left|].
    destruct (O a x b y c E) as [K| ->]; [exact K|]. exfalso.
    assert (NS : NoDup (map head_ref (sort hcmp l))) by (eapply Permutation_NoDup; [apply Permutation_map, sort_perm|exact NK]).
    rewrite E in NS. rewrite map_app in NS. cbn [map] in NS. apply NoDup_remove_2 in NS. apply NS.
    apply in_or_app. right. rewrite map_app. apply in_or_app. right. now left.
  - apply sort_perm.
Qed.
