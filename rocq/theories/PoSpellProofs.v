(** Proofs about header fields (C25). *)
From Coq Require Import String Ascii List ZArith Bool Lia Permutation.
From Verif Require Import Base BaseProofs Utf8Model PoStrModel PoFileModel PoFileSpec PoSortProofs PoHeaderProofs PoSpellSpec.
Import ListNotations.
Open Scope Z_scope.

Lemma smap_set_in : forall m k v s w, NoDup (map fst m) ->
  (In (s, w) (smap_set m k v) <-> (s = k /\ w = v) \/ (s <> k /\ In (s, w) m)) /\ NoDup (map fst (smap_set m k v)).
Proof.
  induction m as [|[j x] m IH]; intros k v s w N.
  - cbn [smap_set map fst]. split; [|repeat constructor; intros []]. split.
    + intros [E|[]]. injection E as -> ->. now left.
    + intros [[-> ->]|[_ []]]. now left.
  - cbn [map fst] in N. apply NoDup_cons_iff in N as [NI N]. cbn [smap_set]. destruct (beq j k) eqn:E.
    + apply beq_eq in E. subst j. split; [|cbn [map fst]; now constructor]. split.
      * intros [Q|Q]; [injection Q as -> ->; now left|]. right. split; [|now right]. intros ->. apply NI. now apply (in_map fst) in Q.
      * intros [[-> ->]|[NE [Q|Q]]]; [now left|injection Q as -> ->; contradiction|now right].
    + apply beq_neq in E. destruct (IH k v s w N) as [I M]. split.
      * split.
        -- intros [Q|Q]; [injection Q as -> ->; right; split; [exact E|now left]|]. apply I in Q as [Q|[Q1 Q2]]; [now left|]. right. split; [exact Q1|now right].
        -- intros [[-> ->]|[NE [Q|Q]]]; [right; apply I; now left|now left|right; apply I; now right].
      * cbn [map fst]. constructor; [|exact M]. intro Q. apply in_map_iff in Q as ([s' w'] & Q & IN). cbn [fst] in Q. subst s'.
        apply (proj1 (IH k v j w' N)) in IN as [[IN _]|[_ IN]]; [contradiction|]. apply NI. now apply (in_map fst) in IN.
Qed.

Lemma last_spelled_snoc : forall kvs k v s w, last_spelled (kvs ++ [(k, v)]) s w <-> (s = k /\ w = v) \/ (s <> k /\ last_spelled kvs s w).
Proof.
  intros kvs k v s w. split.
  - intros (a & rest & E & F). destruct rest as [|e rest _] using rev_ind.
    + apply app_inj_tail in E as [-> E]. injection E as -> ->. now left.
    + right. rewrite app_comm_cons, app_assoc in E. apply app_inj_tail in E as [-> <-]. apply Forall_app in F as [F G].
      apply Forall_inv in G. cbn [fst] in G. split; [congruence|]. now exists a, rest.
  - intros [[-> ->]|[NE (a & rest & -> & F)]].
    + exists kvs, []. split; [reflexivity|constructor].
    + exists a, (rest ++ [(k, v)]). split; [now rewrite <- app_assoc|]. apply Forall_app. split; [exact F|]. constructor; [|constructor]. cbn [fst]. congruence.
Qed.

Lemma fields_unknown : forall kvs, Forall (fun e => ascii_text (fst e)) kvs -> NoDup (map fst (h_unknown (set_fields kvs))) /\
  forall s v, In (s, v) (h_unknown (set_fields kvs)) <-> field_index header_names s = None /\ last_spelled kvs s v.
Proof.
  induction kvs as [|[k v] kvs IH] using rev_ind; intro A.
  - split; [constructor|]. intros s v. split; [intros []|]. intros [_ (a & r & E & _)]. destruct a; discriminate.
  - apply Forall_app in A as [A _]. destruct (IH A) as [N I]. unfold set_fields in *. rewrite fold_left_app. cbn [fold_left fst snd].
    set (h := fold_left _ kvs new_header) in *. unfold header_set. destruct (field_index header_names k) as [i|] eqn:E; cbn [h_unknown].
    + split; [exact N|]. intros s w. rewrite I, last_spelled_snoc. split.
      * intros [X Y]. split; [exact X|]. right. split; [|exact Y]. intros ->. congruence.
      * intros [X [[-> _]|[_ Y]]]; [congruence|]. now split.
    + split; [apply (smap_set_in _ k v [] [] N)|]. intros s w. rewrite (proj1 (smap_set_in _ k v s w N)), I, last_spelled_snoc. split.
      * intros [[-> ->]|[X [Y Z]]]; [split; [exact E|now left]|]. split; [exact Y|]. right. now split.
      * intros [X [[-> ->]|[Y Z]]]; [now left|]. right. now split.
Qed.

Lemma unknown_get_some : forall fold m k, (exists s v, In (s, v) m /\ equal_fold fold s k = true /\ unknown_get fold m k = v) \/
  (Forall (fun e => equal_fold fold (fst e) k = false) m /\ unknown_get fold m k = []).
Proof.
  induction m as [|[s v] m IH]; intro k; [right; now split|]. cbn [unknown_get]. destruct (equal_fold fold s k) eqn:E.
  - left. exists s, v. split; [now left|]. now split.
  - destruct (IH k) as [(s' & v' & I & F & G)|[F G]]; [left; exists s', v'; split; [now right|now split]|right; split; [now constructor|exact G]].
Qed.

Lemma index_known : forall k i, ascii_text k -> field_index header_names k = Some i -> known_name k.
Proof.
  intros k i A. unfold known_name. pose proof names_ascii as NA. revert i NA. generalize header_names.
  induction l as [|n l IH]; intros i NA E; [discriminate|]. cbn [field_index] in E. destruct (beq (kw_upper k) (kw_upper n)) eqn:B.
  - apply beq_eq in B. apply kw_ci in B; [|exact A|now apply Forall_inv in NA]. exists n. split; [now left|exact B].
  - destruct (field_index l k) as [j|] eqn:F; [|discriminate]. destruct (IH j (Forall_inv_tail NA) eq_refl) as (m & I & C).
    exists m. split; [now right|exact C].
Qed.

Lemma spelled_in : forall kvs s v, last_spelled kvs s v -> In (s, v) kvs.
Proof. intros kvs s v (a & r & -> & _). apply in_or_app. right. now left. Qed.
Lemma spelled_last : forall kvs s w, In (s, w) kvs -> exists v, last_spelled kvs s v.
Proof.
  induction kvs as [|[k v] kvs IH] using rev_ind; intros s w I; [destruct I|].
  destruct (beq s k) eqn:E.
  - apply beq_eq in E. subst s. exists v. apply last_spelled_snoc. now left.
  - apply beq_neq in E. apply in_app_or in I as [I|[I|[]]]; [|injection I as -> ->; contradiction].
    destruct (IH s w I) as (v' & L). exists v'. apply last_spelled_snoc. right. now split.
Qed.

Lemma readable_spellings : forall fold kvs k v, ascii_fold fold -> ascii_text k -> Forall (fun e => ascii_text (fst e)) kvs -> ~ known_name k ->
  (readable fold (set_fields kvs) k v <->
   (exists s, ci_eq s k /\ last_spelled kvs s v) \/ (v = [] /\ Forall (fun e => ~ ci_eq (fst e) k) kvs)).
Proof.
  intros fold kvs k v F A AK NK. destruct (fields_unknown kvs AK) as [N I]. pose proof AK as AK'. rewrite Forall_forall in AK'.
  assert (KN : field_index header_names k = None).
  { destruct (field_index header_names k) as [i|] eqn:E; [|reflexivity]. exfalso. apply NK. now apply (index_known k i). }
  assert (FI : forall s w, In (s, w) kvs -> ci_eq s k -> field_index header_names s = None).
  { intros s w Q C. rewrite (field_index_ci header_names s k); auto. apply (AK' _ Q). }
  unfold readable, header_get. rewrite KN. cbn [h_unknown]. split.
  - intros (p & P & G). destruct (unknown_get_some fold p k) as [(s & w & Q & E & G')|[Q G']].
    + left. exists s. apply (Permutation_in _ (Permutation_sym P)) in Q. apply I in Q as [_ Q].
      split; [|congruence]. apply (fold_ci fold s k F) in E; [exact E| |exact A]. apply (AK' (s, w)). now apply spelled_in.
    + right. split; [congruence|]. apply Forall_forall. intros [s w] Q' C. cbn [fst] in C.
      destruct (spelled_last kvs s w Q') as (w' & L). assert (IN : In (s, w') p).
      { apply (Permutation_in _ P). apply I. split; [now apply (FI s w)|exact L]. }
      rewrite Forall_forall in Q. apply Q in IN. cbn [fst] in IN. apply (fold_ci fold s k F) in C; [congruence| |exact A]. apply (AK' _ Q').
  - intros [(s & C & L)|[-> NO]].
    + assert (IN : In (s, v) (h_unknown (set_fields kvs))).
      { apply I. split; [|exact L]. apply (FI s v); [now apply spelled_in|exact C]. }
      apply in_split in IN as (a & b & E). exists ((s, v) :: a ++ b). split; [rewrite E; symmetry; apply Permutation_middle|].
      cbn [unknown_get]. assert (EF : equal_fold fold s k = true).
      { apply (fold_ci fold s k F); [|exact A|exact C]. apply (AK' (s, v)). now apply spelled_in. }
      now rewrite EF.
    + exists (h_unknown (set_fields kvs)). split; [reflexivity|].
      destruct (unknown_get_some fold (h_unknown (set_fields kvs)) k) as [(s & w & Q & E & _)|[_ G]]; [|exact G].
      exfalso. apply I in Q as [_ Q]. apply spelled_in in Q. rewrite Forall_forall in NO. apply (NO _ Q). cbn [fst].
      apply (fold_ci fold s k F); [|exact A|exact E]. apply (AK' _ Q).
Qed.
