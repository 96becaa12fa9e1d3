(** Header.Set and Header.Get. *)
From Coq Require Import String Ascii List ZArith Bool Lia ZifyBool.
From Verif Require Import Base BaseProofs Utf8Model Utf8Proofs StrModel PoStrProofs PoFileModel PoFileSpec TrimProofs.
Import ListNotations.
Open Scope Z_scope.

Lemma upper_lower : forall a b, upper a = upper b <-> lower a = lower b.
Proof.
  assert (X : forall c, bval (upper c) = if (97 <=? bval c) && (bval c <=? 122) then bval c - 32 else bval c).
  { intro c. unfold upper, is_lower. pose proof (bval_range c). destruct (_ && _) eqn:E; [|reflexivity].
    now rewrite byte_of_val by lia. }
  assert (Y : forall c, bval (lower c) = if (65 <=? bval c) && (bval c <=? 90) then bval c + 32 else bval c).
  { intro c. unfold lower, is_upper. pose proof (bval_range c). destruct (_ && _) eqn:E; [|reflexivity].
    now rewrite byte_of_val by lia. }
  intros a b. pose proof (X a) as Xa. pose proof (X b) as Xb. pose proof (Y a) as Ya. pose proof (Y b) as Yb.
  pose proof (bval_range a). pose proof (bval_range b). split; intro E; apply (f_equal bval) in E.
  - rewrite <- (byte_of_bval (lower a)), <- (byte_of_bval (lower b)). f_equal.
    destruct ((97 <=? bval a) && _) eqn:A1, ((97 <=? bval b) && _) eqn:B1, ((65 <=? bval a) && _) eqn:A2, ((65 <=? bval b) && _) eqn:B2; lia.
  - rewrite <- (byte_of_bval (upper a)), <- (byte_of_bval (upper b)). f_equal.
    destruct ((97 <=? bval a) && _) eqn:A1, ((97 <=? bval b) && _) eqn:B1, ((65 <=? bval a) && _) eqn:A2, ((65 <=? bval b) && _) eqn:B2; lia.
Qed.
Lemma kw_upper_ascii : forall s, ascii_text s -> kw_upper s = map upper s.
Proof.
  induction 1 as [|a s A S IH]; [reflexivity|]. cbn [kw_upper map]. destruct s as [|b s]; [reflexivity|].
  destruct (Z.eqb_spec (bval a) 196); [lia|]. destruct (Z.eqb_spec (bval a) 197); [lia|]. cbn [andb].
  now rewrite IH.
Qed.
Lemma map_upper_lower : forall a b, map upper a = map upper b <-> map lower a = map lower b.
Proof.
  induction a as [|x a IH]; intros [|y b]; cbn [map]; try (split; discriminate); [split; reflexivity|].
  split; intro E; injection E as E1 E2; apply upper_lower in E1; apply IH in E2; congruence.
Qed.
Lemma kw_ci : forall a b, ascii_text a -> ascii_text b -> (kw_upper a = kw_upper b <-> ci_eq a b).
Proof. intros a b A B. rewrite !kw_upper_ascii by assumption. apply map_upper_lower. Qed.

Lemma runes_ascii : forall s, ascii_text s -> runes s = map bval s.
Proof.
  intros s A. assert (E : s = encode_all (map bval s)).
  { induction A as [|c s C S IH]; [reflexivity|]. cbn [map]. unfold encode_all in *. cbn [map concat].
    rewrite encode_byte by exact C. cbn [app]. now rewrite <- IH. }
  rewrite E at 1. rewrite <- (app_nil_r (encode_all _)), runes_encode.
  - change (runes []) with (@nil rune). now rewrite app_nil_r.
  - apply Forall_map. eapply Forall_impl; [|exact A]. intros c C. now apply solid_scalar.
Qed.
Lemma fold_ci : forall fold a b, ascii_fold fold -> ascii_text a -> ascii_text b ->
  (equal_fold fold a b = true <-> ci_eq a b).
Proof.
  intros fold a b F A. revert b. unfold equal_fold, ci_eq.
  assert (X : forall b, ascii_text b -> runes b = map bval b) by exact runes_ascii.
  intros b B. rewrite (X a A), (X b B). clear X. revert b B.
  induction A as [|x a XA A IH]; intros b B; destruct B as [|y b YB B]; cbn [map]; try (split; discriminate); [split; reflexivity|].
  rewrite andb_true_iff, Z.eqb_eq, (F x y XA YB), (IH b B). split.
  - intros [-> ->]. reflexivity.
  - intro E. injection E as -> ->. auto.
Qed.

(** position in the list of names *)
Lemma field_index_ci : forall names k k', ascii_text k -> ascii_text k' -> ci_eq k k' ->
  field_index names k = field_index names k'.
Proof.
  intros names k k' A B C. apply kw_ci in C; [|assumption|assumption].
  induction names as [|n names IH]; [reflexivity|]. cbn [field_index]. now rewrite C, IH.
Qed.
Lemma field_index_same : forall names k k' i, field_index names k = Some i -> field_index names k' = Some i ->
  kw_upper k = kw_upper k'.
Proof.
  induction names as [|n names IH]; intros k k' i H H'; [discriminate|]. cbn [field_index] in *.
  destruct (beq (kw_upper k) (kw_upper n)) eqn:E; destruct (beq (kw_upper k') (kw_upper n)) eqn:E'.
  - apply beq_eq in E, E'. congruence.
  - injection H as <-. destruct (field_index names k'); discriminate.
  - injection H' as <-. destruct (field_index names k); discriminate.
  - destruct (field_index names k) eqn:F; [|discriminate]. destruct (field_index names k') eqn:F'; [|discriminate].
    cbn [option_map] in *. injection H as <-. injection H' as E2. subst. eapply IH; eauto.
Qed.
Lemma field_index_lt : forall names k i, field_index names k = Some i -> (i < length names)%nat.
Proof.
  induction names as [|n names IH]; intros k i H; [discriminate|]. cbn [field_index length] in *.
  destruct (beq _ _); [injection H as <-; lia|]. destruct (field_index names k) eqn:F; [|discriminate].
  injection H as <-. apply IH in F. lia.
Qed.
Lemma set_nth_length : forall A n (v : A) l, length (set_nth n v l) = length l.
Proof. intros A n v l. revert n. induction l as [|x l IH]; intros [|n]; cbn; auto. Qed.
Lemma nth_set_same : forall A n (v d : A) l, (n < length l)%nat -> nth n (set_nth n v l) d = v.
Proof. intros A n v d l. revert n. induction l as [|x l IH]; intros [|n] L; cbn in *; try lia; [reflexivity|]. apply IH. lia. Qed.
Lemma nth_set_other : forall A n m (v d : A) l, n <> m -> nth m (set_nth n v l) d = nth m l d.
Proof. intros A n m v d l. revert n m. induction l as [|x l IH]; intros [|n] [|m] N; cbn; auto; try congruence. Qed.

Lemma smap_in : forall m k v e, In e (smap_set m k v) -> e = (k, v) \/ In e m.
Proof.
  induction m as [|[j w] m IH]; intros k v e I; cbn [smap_set] in I.
  - destruct I as [I|[]]. now left.
  - destruct (beq j k); destruct I as [I|I]; auto; [right; now right|right; now left|].
    apply IH in I as [I|I]; [now left|right; now right].
Qed.

(** one Set, then Get *)
Lemma get_set_known : forall fold h k k' v i, length (h_known h) = length header_names ->
  field_index header_names k = Some i ->
  header_get fold (header_set h k v) k' =
  if match field_index header_names k' with Some j => Nat.eqb j i | None => false end then v else header_get fold h k'.
Proof.
  intros fold h k k' v i L H. unfold header_get, header_set. rewrite H.
  destruct (field_index header_names k') as [j|] eqn:E; [|reflexivity]. cbn [h_known].
  destruct (Nat.eqb_spec j i) as [->|N].
  - apply nth_set_same. rewrite L. eapply field_index_lt; eauto.
  - apply nth_set_other. congruence.
Qed.
Lemma get_set_unknown_known : forall fold h k k' v, field_index header_names k = None ->
  field_index header_names k' <> None -> header_get fold (header_set h k v) k' = header_get fold h k'.
Proof.
  intros fold h k k' v H N. unfold header_get, header_set. rewrite H.
  destruct (field_index header_names k'); [reflexivity|congruence].
Qed.
(** unknown fields: every spelling of a name in the map is the same *)
Lemma unknown_get_set : forall fold m k v k', ascii_fold fold -> ascii_text k -> ascii_text k' ->
  Forall (fun e => ascii_text (fst e)) m -> Forall (fun e => ci_eq (fst e) k -> fst e = k) m ->
  unknown_get fold (smap_set m k v) k' = if equal_fold fold k k' then v else unknown_get fold m k'.
Proof.
  intros fold m k v k' F A A' AM C. induction m as [|[j w] m IH]; cbn [smap_set].
  - reflexivity.
  - pose proof (Forall_inv AM) as AJ. pose proof (Forall_inv C) as CJ. cbn [fst] in AJ, CJ.
    specialize (IH (Forall_inv_tail AM) (Forall_inv_tail C)).
    destruct (beq j k) eqn:E.
    + apply beq_eq in E. subst j. cbn [unknown_get]. destruct (equal_fold fold k k'); reflexivity.
    + cbn [unknown_get]. rewrite IH. destruct (equal_fold fold j k') eqn:EJ; [|reflexivity].
      destruct (equal_fold fold k k') eqn:EK; [|reflexivity]. exfalso.
      apply fold_ci in EJ; [|assumption..]. apply fold_ci in EK; [|assumption..].
      assert (j = k) by (apply CJ; unfold ci_eq in *; congruence). subst. rewrite (proj2 (beq_eq k k) eq_refl) in E. discriminate.
Qed.

Definition set_all (kvs : list (bytes * bytes)) (h : header) : header :=
  fold_left (fun h e => header_set h (fst e) (snd e)) kvs h.
Lemma header_set_length : forall h k v, length (h_known (header_set h k v)) = length (h_known h).
Proof. intros h k v. unfold header_set. destruct (field_index header_names k); cbn [h_known]; [apply set_nth_length|reflexivity]. Qed.
Lemma header_set_unknown : forall h k v e, In e (h_unknown (header_set h k v)) -> fst e = k \/ In e (h_unknown h).
Proof.
  intros h k v e I. unfold header_set in I. destruct (field_index header_names k); cbn [h_unknown] in I; [now right|].
  apply smap_in in I as [->|I]; auto.
Qed.
Lemma names_ascii : Forall ascii_text header_names.
Proof. apply Forall_forall. intros n N. apply Forall_forall. intros c C.
  assert (X : forallb (fun n => forallb (fun c => bval c <? 128) n) header_names = true) by (vm_compute; reflexivity).
  rewrite forallb_forall in X. apply X in N. rewrite forallb_forall in N. apply N in C. lia.
Qed.

Lemma unknown_index : forall k, ascii_text k -> field_index header_names k = None -> ~ known_name k.
Proof.
  intros k A. unfold known_name. pose proof names_ascii as NA. revert NA. generalize header_names.
  induction l as [|n l IH]; intros NA H (m & I & C); [destruct I|]. cbn [field_index] in H.
  destruct (beq (kw_upper k) (kw_upper n)) eqn:E; [discriminate|].
  destruct (field_index l k) eqn:F; [discriminate|]. destruct I as [->|I].
  - apply kw_ci in C; [|exact A|now apply Forall_inv in NA]. apply beq_eq in C. congruence.
  - apply (IH (Forall_inv_tail NA) eq_refl). now exists m.
Qed.

Lemma get_set : forall fold h k v k', ascii_fold fold -> ascii_text k -> ascii_text k' ->
  length (h_known h) = length header_names ->
  Forall (fun e => ascii_text (fst e)) (h_unknown h) ->
  (field_index header_names k = None -> Forall (fun e => ci_eq (fst e) k -> fst e = k) (h_unknown h)) ->
  header_get fold (header_set h k v) k' = if equal_fold fold k k' then v else header_get fold h k'.
Proof.
  intros fold h k v k' F A A' L AU C. destruct (field_index header_names k) as [i|] eqn:E.
  - rewrite (get_set_known fold h k k' v i L E).
    destruct (equal_fold fold k k') eqn:EF.
    + apply fold_ci in EF; [|assumption..]. rewrite <- (field_index_ci header_names k k' A A' EF), E, Nat.eqb_refl. reflexivity.
    + destruct (field_index header_names k') as [j|] eqn:E'; [|reflexivity].
      destruct (Nat.eqb_spec j i) as [->|]; [|reflexivity]. exfalso.
      pose proof (field_index_same _ _ _ _ E E') as K. apply kw_ci in K; [|assumption..].
      apply (fold_ci fold k k' F A A') in K. congruence.
  - destruct (field_index header_names k') as [j|] eqn:E'.
    + rewrite get_set_unknown_known by congruence. destruct (equal_fold fold k k') eqn:EF; [|reflexivity]. exfalso.
      apply fold_ci in EF; [|assumption..]. rewrite (field_index_ci header_names k k' A A' EF) in E. congruence.
    + unfold header_get, header_set. rewrite E, E'. cbn [h_unknown]. apply unknown_get_set; auto.
Qed.

Theorem set_all_get : forall fold kvs k, ascii_fold fold -> ascii_text k ->
  Forall (fun e => ascii_text (fst e)) kvs -> one_spelling (map fst kvs) ->
  exists v, last_value kvs k v /\ header_get fold (set_all kvs new_header) k = v.
Proof.
  intros fold kvs k F A AK OS.
  assert (G : length (h_known (set_all kvs new_header)) = length header_names /\
    (forall e, In e (h_unknown (set_all kvs new_header)) -> In (fst e) (map fst kvs)) /\
    exists v, last_value kvs k v /\ header_get fold (set_all kvs new_header) k = v).
  { induction kvs as [|[j w] kvs IH] using rev_ind.
    - split; [reflexivity|]. split; [intros e []|]. exists []. split; [constructor; constructor|].
      unfold set_all, header_get, new_header. cbn [fold_left h_known h_unknown unknown_get].
      destruct (field_index header_names k) as [i|]; [|reflexivity]. generalize (length header_names). intro n.
      revert i. induction n as [|n IH]; intros [|i]; cbn; auto.
    - apply Forall_app in AK as [AK AJ]. apply Forall_inv in AJ. cbn [fst] in AJ.
      assert (OS' : one_spelling (map fst kvs)).
      { intros a b IA IB. apply OS; rewrite map_app; apply in_or_app; now left. }
      destruct (IH AK OS') as (L & U & v & LV & GV). clear IH.
      unfold set_all. rewrite fold_left_app. cbn [fold_left fst snd]. fold (set_all kvs new_header).
      split; [now rewrite header_set_length|]. split.
      { intros e I. rewrite map_app. apply in_or_app. apply header_set_unknown in I as [I|I]; [right; cbn; auto|left; auto]. }
      rewrite get_set; [|exact F|exact AJ|exact A|exact L| |].
      + destruct (equal_fold fold j k) eqn:E.
        * exists w. split; [|reflexivity]. apply fold_ci in E; [|assumption..]. apply lv_some; [exact E|constructor].
        * assert (NE : ~ ci_eq j k) by (intro X; apply (fold_ci fold j k F AJ A) in X; congruence).
          exists v. split; [|exact GV]. destruct LV as [kvs k FN|kvs k k' v rest CK FN].
          -- apply lv_none. apply Forall_app. split; [exact FN|]. constructor; [exact NE|constructor].
          -- rewrite <- app_assoc. cbn [app]. apply lv_some; [exact CK|]. apply Forall_app. split; [exact FN|].
             constructor; [exact NE|constructor].
      + apply Forall_forall. intros e I. apply U in I. apply in_map_iff in I as (e' & <- & I).
        rewrite Forall_forall in AK. now apply AK.
      + intro N. apply Forall_forall. intros e I CE. apply U in I. symmetry. apply OS.
        * rewrite map_app. apply in_or_app. right. now left.
        * rewrite map_app. apply in_or_app. now left.
        * unfold ci_eq in *. congruence.
        * now apply unknown_index. }
  tauto.
Qed.

(** the twelve fields, however the others are spelled *)
Theorem set_all_known : forall fold kvs k, ascii_text k -> known_name k ->
  Forall (fun e => ascii_text (fst e)) kvs ->
  exists v, last_value kvs k v /\ header_get fold (set_all kvs new_header) k = v.
Proof.
  intros fold kvs k A K AK.
  assert (KI : exists i, field_index header_names k = Some i).
  { destruct (field_index header_names k) as [i|] eqn:E; [eauto|]. exfalso. now apply (unknown_index k A E). }
  destruct KI as (i & KI).
  assert (G : length (h_known (set_all kvs new_header)) = length header_names /\
    exists v, last_value kvs k v /\ header_get fold (set_all kvs new_header) k = v).
  { induction kvs as [|[j w] kvs IH] using rev_ind.
    - split; [reflexivity|]. exists []. split; [constructor; constructor|].
      unfold set_all, header_get, new_header. cbn [fold_left h_known h_unknown unknown_get]. rewrite KI.
      generalize (length header_names). intro n. clear KI. revert i. induction n as [|n IH]; intros [|i]; cbn; auto.
    - apply Forall_app in AK as [AK AJ]. apply Forall_inv in AJ. cbn [fst] in AJ.
      destruct (IH AK) as (L & v & LV & GV). clear IH.
      unfold set_all. rewrite fold_left_app. cbn [fold_left fst snd]. fold (set_all kvs new_header).
      split; [now rewrite header_set_length|].
      assert (SAME : ci_eq j k -> field_index header_names j = Some i).
      { intro C. rewrite (field_index_ci header_names j k AJ A C). exact KI. }
      assert (LAST : ~ ci_eq j k -> last_value (kvs ++ [(j, w)]) k v).
      { intro NE. destruct LV as [kvs k FN|kvs k k' v rest CK FN].
        - apply lv_none. apply Forall_app. split; [exact FN|]. constructor; [exact NE|constructor].
        - rewrite <- app_assoc. cbn [app]. apply lv_some; [exact CK|]. apply Forall_app. split; [exact FN|].
          constructor; [exact NE|constructor]. }
      destruct (field_index header_names j) as [p|] eqn:E.
      + rewrite (get_set_known fold _ j k w p L E), KI. destruct (Nat.eqb_spec i p) as [->|N].
        * exists w. split; [|reflexivity]. apply lv_some; [|constructor].
          pose proof (field_index_same _ _ _ _ E KI) as Q. now apply kw_ci in Q.
        * exists v. split; [|exact GV]. apply LAST. intro C. apply SAME in C. congruence.
      + rewrite get_set_unknown_known by congruence. exists v. split; [|exact GV]. apply LAST. intro C. apply SAME in C. discriminate. }
  tauto.
Qed.
