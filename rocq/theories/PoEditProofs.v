(** Proofs about building PO files. *)
From Coq Require Import String Ascii List ZArith Bool Lia ZifyBool Permutation.
From Verif Require Import Base BaseProofs Utf8Model Utf8Proofs StrModel PoStrModel PoStrSpec PoStrProofs PoFileModel PoFileSpec
  TrimProofs PoItemProofs PoSortProofs PoMergeProofs PoParseProofs PoOutcomeProofs PoEncodeProofs PoRoundProofs PoExamples
  PoWriteSpec PoWriteProofs PoEditModel PoEditSpec.
Import ListNotations.
Open Scope Z_scope.

(** ** Merging messages *)
Lemma message_flags : forall m o f, In f (the_flags (merge_message m o)) <-> In f (the_flags m) \/ In f (the_flags o).
Proof.
  intros [c x i p s] [oc ox oi op os] f. unfold the_flags, merge_message. cbn [m_com the_comment].
  destruct oc as [oc|].
  - cbn [the_comment]. rewrite flags_union. destruct c; cbn; tauto.
  - cbn [merge_comment]. destruct c; cbn; tauto.
Qed.
Lemma message_refs : forall m o r, In r (the_refs (merge_message m o)) <-> In r (the_refs m) \/ In r (the_refs o).
Proof.
  intros [c x i p s] [oc ox oi op os] f. unfold the_refs, merge_message. cbn [m_com the_comment].
  destruct oc as [oc|].
  - cbn [the_comment]. rewrite refs_union. destruct c; cbn; tauto.
  - cbn [merge_comment]. destruct c; cbn; tauto.
Qed.
Lemma message_prev : forall m o, cm_pctx (the_comment (m_com (merge_message m o))) = cm_pctx (the_comment (m_com m)) /\
  cm_pid (the_comment (m_com (merge_message m o))) = cm_pid (the_comment (m_com m)).
Proof. intros [c x i p s] [oc ox oi op os]. destruct c, oc; split; reflexivity. Qed.
Lemma message_tidy : forall m o, tidy m -> tidy o -> tidy (merge_message m o).
Proof.
  intros [c x i p s] [oc ox oi op os] T _. unfold tidy, the_flags, the_refs, merge_message in *. cbn [m_com the_comment] in *.
  destruct oc as [oc|].
  - split; [apply sort_bytes_ordered|]. split; [apply flags_nodup|]. split; [apply sort_refs_ordered|]. apply refs_nodup.
    destruct c as [c|]; [apply T|constructor].
  - cbn [merge_comment]. destruct c as [c|]; exact T.
Qed.

(** ** Adding a message *)
Lemma key_dec : forall a b : bytes * bytes, {a = b} + {a <> b}.
Proof. decide equality; apply list_eq_dec, ascii_dec. Qed.
Lemma get_found : forall ms k r, get_message ms (fst k) (snd k) = Some r -> key r = k.
Proof.
  intros ms [c i] r H. apply find_some in H as [_ B]. apply andb_prop in B as [B C]. apply beq_eq in B, C. unfold key. cbn in *. congruence.
Qed.
Lemma get_add : forall ms m k, get_message (add_to ms m) (fst k) (snd k) =
  if key_dec (key m) k then Some (match get_message ms (fst k) (snd k) with None => m | Some r => merge_message r m end)
  else get_message ms (fst k) (snd k).
Proof.
  intros ms m [c i]. cbn [fst snd]. unfold get_message. induction ms as [|x ms IH].
  - cbn [add_to find]. destruct (key_dec (key m) (c, i)) as [E|E].
    + unfold key in E. injection E as -> ->. now rewrite !(proj2 (beq_eq _ _) eq_refl).
    + destruct (beq (m_ctx m) c && beq (m_id m) i) eqn:B; [|reflexivity]. exfalso. apply E.
      apply andb_prop in B as [B C]. apply beq_eq in B, C. unfold key. congruence.
  - cbn [add_to]. destruct (same_key x m) eqn:S.
    + apply same_key_iff in S. cbn [find]. change (m_ctx (merge_message x m)) with (m_ctx x). change (m_id (merge_message x m)) with (m_id x).
      destruct (beq (m_ctx x) c && beq (m_id x) i) eqn:B.
      * apply andb_prop in B as [B C]. apply beq_eq in B, C. destruct (key_dec (key m) (c, i)) as [E|E]; [reflexivity|].
        exfalso. apply E. rewrite <- S. unfold key. congruence.
      * destruct (key_dec (key m) (c, i)) as [E|E]; [|reflexivity]. exfalso. rewrite <- S in E. unfold key in E. injection E as E1 E2. subst c i.
        rewrite !(proj2 (beq_eq _ _) eq_refl) in B. discriminate.
    + cbn [find]. destruct (beq (m_ctx x) c && beq (m_id x) i) eqn:B; [|exact IH].
      destruct (key_dec (key m) (c, i)) as [E|E]; [|reflexivity]. exfalso.
      apply andb_prop in B as [B C]. apply beq_eq in B, C.
      assert (K : same_key x m = true) by (apply same_key_iff; unfold key in *; congruence). congruence.
Qed.

Lemma snoc_in : forall (ms : list message) m (P : message -> Prop),
  (exists x, In x (ms ++ [m]) /\ P x) <-> (exists x, In x ms /\ P x) \/ P m.
Proof.
  intros ms m P. split.
  - intros (x & I & H). apply in_app_or in I as [I|[->|[]]]; [left; eauto|now right].
  - intros [(x & I & H)|H]; [exists x|exists m]; (split; [apply in_or_app|assumption]); [now left|right; now left].
Qed.
Lemma gathered_new : forall ms m k, (forall x, In x ms -> key x <> k) -> key m = k -> gathered (ms ++ [m]) k m.
Proof.
  intros ms m k N K. split; [exact K|]. split; [|split; [|split]].
  - intro f. rewrite snoc_in. split; [auto|]. intros [(x & I & E & _)|[_ H]]; [now apply N in I|exact H].
  - intro f. rewrite snoc_in. split; [auto|]. intros [(x & I & E & _)|[_ H]]; [now apply N in I|exact H].
  - exists ms, m, []. split; [reflexivity|]. split; [exact K|]. split; [now apply Forall_forall|auto].
  - assert (F : Forall (fun x => key x = k -> m_pl x = []) ms) by (apply Forall_forall; intros x I E; now apply N in I).
    destruct (m_pl m) eqn:E.
    + right. split; [|reflexivity]. apply Forall_app. split; [exact F|]. constructor; [auto|constructor].
    + left. exists ms, m, []. rewrite E. repeat split; auto. discriminate.
Qed.
Lemma gathered_skip : forall ms m k r, key m <> k -> gathered ms k r -> gathered (ms ++ [m]) k r.
Proof.
  intros ms m k r N (K & FL & RF & (a & x & b & E & X) & PL). split; [exact K|]. split; [|split; [|split]].
  - intro f. rewrite snoc_in, FL. tauto.
  - intro f. rewrite snoc_in, RF. tauto.
  - exists a, x, (b ++ [m]). split; [rewrite E, <- app_assoc; reflexivity|exact X].
  - destruct PL as [(a' & x' & b' & E' & X')|[F P]].
    + left. exists a', x', (b' ++ [m]). split; [rewrite E', <- app_assoc; reflexivity|exact X'].
    + right. split; [|exact P]. apply Forall_app. split; [exact F|]. constructor; [intro; contradiction|constructor].
Qed.
Lemma gathered_merge : forall ms m k r, key m = k -> gathered ms k r -> gathered (ms ++ [m]) k (merge_message r m).
Proof.
  intros ms m k r KM (K & FL & RF & (a & x & b & E & KX & FX & SX & PX & IX) & PL). split; [exact K|]. split; [|split; [|split]].
  - intro f. rewrite snoc_in, message_flags, FL. tauto.
  - intro f. rewrite snoc_in, message_refs, RF. tauto.
  - exists a, x, (b ++ [m]). split; [rewrite E, <- app_assoc; reflexivity|]. destruct (message_prev r m) as [P1 P2].
    rewrite P1, P2. auto.
  - cbn [merge_message m_pl]. destruct PL as [(a' & x' & b' & E' & KX' & F' & N' & P')|[F P]].
    + left. exists a', x', (b' ++ [m]). split; [rewrite E', <- app_assoc; reflexivity|]. rewrite P'. destruct (m_pl x'); [congruence|]. auto.
    + rewrite P. cbn [is_nil]. destruct (m_pl m) eqn:EM.
      * right. split; [|reflexivity]. apply Forall_app. split; [exact F|]. constructor; [auto|constructor].
      * left. exists ms, m, []. rewrite EM. repeat split; auto. discriminate.
Qed.

(** ** Adding messages one after another *)
Definition added (ms : list message) : pofile := fold_left file_add ms new_file.
Lemma added_snoc : forall ms m, added (ms ++ [m]) = file_add (added ms) m.
Proof. intros. unfold added. now rewrite fold_left_app. Qed.
Lemma keys_to : forall ms m, NoDup (map key ms) -> NoDup (map key (add_to ms m)) /\
  forall k, In k (map key (add_to ms m)) <-> In k (map key ms) \/ k = key m.
Proof.
  induction ms as [|x ms IH]; intros m N.
  - cbn. split; [constructor; [intros []|constructor]|]. intro k. intuition.
  - cbn [add_to]. cbn [map] in N. inversion N as [|? ? NI N']; subst. destruct (same_key x m) eqn:S.
    + apply same_key_iff in S. cbn [map]. change (key (merge_message x m)) with (key x). split; [exact N|].
      intro k. cbn [In]. rewrite S. intuition.
    + destruct (IH m N') as [D I]. cbn [map]. split.
      * constructor; [|exact D]. rewrite I. intros [X|X]; [contradiction|]. apply same_key_iff in X. congruence.
      * intro k. cbn [In]. rewrite I. tauto.
Qed.
Theorem added_keys : forall ms, NoDup (map key (f_messages (added ms))) /\
  forall k, In k (map key (f_messages (added ms))) <-> exists m, In m ms /\ m_id m <> [] /\ key m = k.
Proof.
  induction ms as [|m ms [N K]] using rev_ind.
  - split; [constructor|]. intro k. split; [intros []|]. intros (m & [] & _).
  - rewrite added_snoc. cbn [file_add f_messages]. unfold add_message. destruct (m_id m) as [|c i] eqn:E; cbn [is_nil].
    + split; [exact N|]. intro k. rewrite K, snoc_in. intuition.
    + destruct (keys_to (f_messages (added ms)) m N) as [D I]. split; [exact D|]. intro k. rewrite I, K, snoc_in, E.
      split; [intros [H|H]; [auto|right; split; [discriminate|auto]]|intros [H|[_ H]]; auto].
Qed.
Theorem added_found : forall ms k, match get_message (f_messages (added ms)) (fst k) (snd k) with
  | Some r => snd k <> [] /\ gathered ms k r
  | None => snd k = [] \/ forall m, In m ms -> key m <> k
  end.
Proof.
  intros ms k. induction ms as [|m ms IH] using rev_ind; [right; intros m []|]. rewrite added_snoc. cbn [file_add f_messages].
  unfold add_message. destruct (m_id m) as [|c i] eqn:E; cbn [is_nil].
  - destruct (get_message (f_messages (added ms)) (fst k) (snd k)) as [r|].
    + destruct IH as [N G]. split; [exact N|]. apply gathered_skip; [|exact G]. intro X. rewrite <- X in N. unfold key in N. cbn in N. congruence.
    + destruct (snd k) eqn:EK; [now left|]. right. intros x I. apply in_app_or in I as [I|[<-|[]]].
      * destruct IH as [IH|IH]; [discriminate|now apply IH].
      * intro X. rewrite <- X in EK. cbn in EK. congruence.
  - rewrite get_add. destruct (key_dec (key m) k) as [K|K].
    + assert (N : snd k <> []) by (rewrite <- K; cbn; rewrite E; discriminate).
      destruct (get_message (f_messages (added ms)) (fst k) (snd k)) as [r|].
      * split; [exact N|]. apply gathered_merge; [exact K|apply IH].
      * split; [exact N|]. apply gathered_new; [|exact K]. destruct IH as [IH|IH]; [contradiction|exact IH].
    + destruct (get_message (f_messages (added ms)) (fst k) (snd k)) as [r|].
      * split; [apply IH|]. apply gathered_skip; [exact K|apply IH].
      * destruct IH as [IH|IH]; [now left|]. right. intros x I. apply in_app_or in I as [I|[<-|[]]]; [now apply IH|exact K].
Qed.
Lemma added_tidy : forall ms k r, Forall tidy ms -> get_message (f_messages (added ms)) (fst k) (snd k) = Some r -> tidy r.
Proof.
  intros ms k. induction ms as [|m ms IH] using rev_ind; intros r F H; [discriminate|].
  apply Forall_app in F as [F FM]. apply Forall_inv in FM. rewrite added_snoc in H. cbn [file_add f_messages] in H.
  unfold add_message in H. destruct (is_nil (m_id m)); [now apply IH|]. rewrite get_add in H.
  destruct (key_dec (key m) k); [|now apply IH]. injection H as <-.
  destruct (get_message (f_messages (added ms)) (fst k) (snd k)) as [r'|]; [|exact FM]. apply message_tidy; [now apply IH|exact FM].
Qed.
Lemma same_elements : forall A (l l' : list A), NoDup l -> NoDup l' -> (forall x, In x l <-> In x l') -> Permutation l l'.
Proof. intros. now apply NoDup_Permutation. Qed.
Theorem added_order : forall ms ms' k, Permutation ms ms' -> Forall tidy ms ->
  match get_message (f_messages (added ms)) (fst k) (snd k), get_message (f_messages (added ms')) (fst k) (snd k) with
  | Some r, Some r' => the_flags r = the_flags r' /\ the_refs r = the_refs r'
  | None, None => True
  | _, _ => False
  end.
Proof.
  intros ms ms' k P T. assert (T' : Forall tidy ms') by exact (Permutation_Forall P T).
  assert (IFF : forall (Q : message -> Prop), (exists m, In m ms /\ Q m) <-> (exists m, In m ms' /\ Q m)).
  { intro Q. split; intros (m & I & H); exists m; (split; [|exact H]); [exact (Permutation_in _ P I)|exact (Permutation_in _ (Permutation_sym P) I)]. }
  pose proof (added_found ms k) as A. pose proof (added_found ms' k) as B.
  destruct (get_message (f_messages (added ms)) (fst k) (snd k)) as [r|] eqn:E1;
    destruct (get_message (f_messages (added ms')) (fst k) (snd k)) as [r'|] eqn:E2.
  - destruct A as (_ & _ & FL & RF & _). destruct B as (_ & _ & FL' & RF' & _).
    pose proof (added_tidy ms k r T E1) as (O1 & N1 & O2 & N2). pose proof (added_tidy ms' k r' T' E2) as (O1' & N1' & O2' & N2').
    split.
    + rewrite <- (sort_bytes_id _ O1). apply (sort_unique _ (fun _ => True) bytes_lt); [apply bcmp_ok|now apply Forall_forall| |exact O1'].
      apply same_elements; auto. intro f. rewrite FL, FL'. apply IFF.
    + rewrite <- (sort_refs_id _ O2). apply (sort_unique _ (fun _ => True) ref_lt); [apply ref_cmp_ok|now apply Forall_forall| |exact O2'].
      apply same_elements; auto. intro f. rewrite RF, RF'. apply IFF.
  - destruct A as (N & K & _ & _ & (a & x & b & E & KX & _) & _). destruct B as [B|B]; [contradiction|].
    apply (B x); [|exact KX]. apply (Permutation_in _ P). rewrite E. apply in_or_app. right. now left.
  - destruct B as (N & K & _ & _ & (a & x & b & E & KX & _) & _). destruct A as [A|A]; [contradiction|].
    apply (A x); [|exact KX]. apply (Permutation_in _ (Permutation_sym P)). rewrite E. apply in_or_app. right. now left.
  - exact I.
Qed.

(** ** Comment texts *)
Lemma lines_inj : forall a b, tlines a -> tlines b -> lines_text a = lines_text b -> a = b.
Proof.
  intros a b [_ A] [_ B] E. destruct a as [|x a].
  - symmetry. apply lines_text_nil; [exact B|now symmetry].
  - destruct b as [|y b]; [now apply lines_text_nil|]. rewrite <- (tl_split (x :: a)), E, tl_split by (assumption || discriminate). reflexivity.
Qed.
Lemma line_in_text : forall t l, tlines t -> (line_in (lines_text t) l <-> In l t).
Proof.
  intros t l T. split; [|intro I; exists t; auto]. intros (ls & T' & E & I). apply lines_inj in E; [|assumption..]. now subst.
Qed.
Section Text.
  Variable pr : comment -> bytes.
  Hypothesis pr_empty : pr (Com [] [] [] [] [] []) = [].
  Hypothesis pr_merge : forall c o, pr (merge_comment c (Some o)) = merge_text (pr c) (pr o).
  Definition txt (m : message) : bytes := pr (the_comment (m_com m)).
  Lemma message_text : forall m o, exists_lines (txt m) -> exists_lines (txt o) ->
    exists t, tlines t /\ txt (merge_message m o) = lines_text t /\ forall l, In l t <-> line_in (txt m) l \/ line_in (txt o) l.
  Proof.
    intros [c x i p s] [oc ox oi op os] (a & A & EA) (b & B & EB). unfold txt, merge_message in *. cbn [m_com the_comment] in *.
    assert (EC : pr (match c with Some c => c | None => new_comment end) = lines_text a) by (destruct c; [exact EA|rewrite <- EA; reflexivity]).
    exists (union_lines a b). split; [now apply union_tlines|]. rewrite EA, EB. split.
    - destruct oc as [oc|]; cbn [the_comment] in EB.
      + rewrite pr_merge, EC, EB. now apply merge_text_lines.
      + cbn [merge_comment]. rewrite EC. rewrite pr_empty in EB. symmetry in EB. destruct B as [_ B]. apply lines_text_nil in EB; [|exact B]. subst b.
        destruct A as [NA A]. unfold union_lines, merge_strings. cbn [fold_left]. now rewrite (add_all_new a []) by exact NA.
    - intro l. rewrite !line_in_text by assumption. apply merge_strings_spec.
  Qed.
  Theorem added_text : forall ms k r, Forall (fun m => exists_lines (txt m)) ms ->
    get_message (f_messages (added ms)) (fst k) (snd k) = Some r ->
    exists t, tlines t /\ txt r = lines_text t /\ forall l, In l t <-> exists m, In m ms /\ key m = k /\ line_in (txt m) l.
  Proof.
    intros ms k. induction ms as [|m ms IH] using rev_ind; intros r F H; [discriminate|].
    apply Forall_app in F as [F FM]. apply Forall_inv in FM. rewrite added_snoc in H. cbn [file_add f_messages] in H.
    unfold add_message in H.
    assert (SK : key m <> k -> get_message (f_messages (added ms)) (fst k) (snd k) = Some r ->
      exists t, tlines t /\ txt r = lines_text t /\ forall l, In l t <-> exists x, In x (ms ++ [m]) /\ key x = k /\ line_in (txt x) l).
    { intros N G. destruct (IH r F G) as (t & T & E & I). exists t. split; [exact T|]. split; [exact E|]. intro l. rewrite snoc_in, I. tauto. }
    destruct (is_nil (m_id m)) eqn:EN.
    - apply SK; [|exact H]. intro X. pose proof (added_found ms k) as AF. rewrite H in AF. destruct AF as [AF _].
      rewrite <- X in AF. apply AF. cbn. destruct (m_id m); [reflexivity|discriminate].
    - rewrite get_add in H. destruct (key_dec (key m) k) as [K|K]; [|now apply SK]. injection H as <-.
      pose proof (added_found ms k) as AF. destruct (get_message (f_messages (added ms)) (fst k) (snd k)) as [r'|].
      + destruct (IH r' F eq_refl) as (t & T & E & I). destruct (message_text r' m) as (u & U & EU & IU); [now exists t|exact FM|].
        exists u. split; [exact U|]. split; [exact EU|]. intro l. rewrite IU, E, line_in_text, I, snoc_in by exact T. tauto.
      + destruct FM as (t & T & E). exists t. split; [exact T|]. split; [exact E|]. intro l. rewrite snoc_in, E, line_in_text by exact T.
        split; [auto|]. intros [(x & IX & KX & _)|[_ X]]; [|exact X]. exfalso. destruct AF as [AF|AF]; [|now apply (AF x)].
        rewrite <- K in AF. cbn in AF. rewrite AF in EN. discriminate.
  Qed.
End Text.

(** ** Flags and references *)
Lemma add_flag_in : forall c f x, In x (cm_flags (add_flag c f)) <-> In x (cm_flags c) \/ x = f.
Proof.
  intros c f x. unfold add_flag, has_flag. destruct (mem_bytes f (cm_flags c)) eqn:M.
  - apply mem_iff in M. split; [auto|]. intros [H| ->]; assumption.
  - cbn [cm_flags]. rewrite sort_in, in_app_iff. cbn. intuition.
Qed.
Lemma add_flag_nodup : forall c f, NoDup (cm_flags c) -> NoDup (cm_flags (add_flag c f)).
Proof.
  intros c f N. unfold add_flag, has_flag. destruct (mem_bytes f (cm_flags c)) eqn:M; [exact N|]. cbn [cm_flags].
  apply sort_nodup, NoDup_snoc; [exact N|]. rewrite <- mem_iff. congruence.
Qed.
Lemma add_flag_ordered : forall c f, ordered bytes_le (cm_flags c) -> ordered bytes_le (cm_flags (add_flag c f)).
Proof.
  intros c f N. unfold add_flag. destruct (has_flag c f); [exact N|]. apply sort_bytes_ordered.
Qed.
Lemma add_ref_perm : forall c r, Permutation (r :: cm_refs c) (cm_refs (add_reference c r)).
Proof.
  intros c r. unfold add_reference. cbn [cm_refs]. destruct (cm_refs c) as [|x rs]; [reflexivity|].
  rewrite <- sort_perm. apply Permutation_cons_append.
Qed.
Lemma add_ref_ordered : forall c r, ordered ref_le (cm_refs (add_reference c r)).
Proof.
  intros c r. unfold add_reference. cbn [cm_refs]. destruct (cm_refs c) as [|x rs]; [|apply sort_refs_ordered].
  intros a y b z d E. destruct a as [|? [|]]; try discriminate. destruct b; discriminate.
Qed.

(** ** The placeholder header *)
Theorem placeholder_ok : forall w now package holder bugs, w <= 0 ->
  plain_text now -> plain_text package -> package <> [] -> plain_text bugs ->
  clean holder -> holder <> [] -> ~ In LF holder ->
  can_write_header w (placeholder_header now package holder bugs).
Proof.
  intros w now package holder bugs W PN PP NP PB CH NH LH. unfold can_write_header, placeholder_header.
  cbn [h_com h_known h_unknown the_comment]. split; [|split; [reflexivity|split; [|split; constructor]]].
  - unfold can_write_comment. cbn [cm_tr cm_ex cm_refs cm_flags]. split; [|split; [now left|split; [constructor|]]].
    + right. right. split; [exact W|].
      exists (bs "SOME DESCRIPTIVE TITLE."),
        [bs "Copyright (C) YEAR " ++ holder;
         bs "This file is distributed under the same license as the " ++ package ++ bs " package.";
         bs "FIRST AUTHOR <EMAIL@ADDRESS>, YEAR."; []].
      split; [|split; [discriminate|]].
      * cbn [lines_text]. rewrite <- !app_assoc. reflexivity.
      * assert (LP : ~ In LF package) by (apply plain_lf; exact PP).
        constructor; [split; [solve_clean|split; [vm_compute; intuition discriminate|discriminate]]|].
        constructor.
        { split; [exact (clean_after (bs "Copyright (C) YEAR ") [] holder ltac:(discriminate) eq_refl NH CH)|]. split; [|discriminate].
          intro I. apply in_app_or in I as [I|I]; [vm_compute in I; intuition discriminate|contradiction]. }
        constructor.
        { split; [|split; [|discriminate]].
          - replace (bs "This file is distributed under the same license as the " ++ package ++ bs " package.")
              with ("T"%char :: (bs "his file is distributed under the same license as the " ++ package ++ bs " package") ++ ["."%char]).
            + apply clean_ascii; reflexivity.
            + rewrite <- !app_assoc. reflexivity.
          - intro I. apply in_app_or in I as [I|I]; [vm_compute in I; intuition discriminate|].
            apply in_app_or in I as [I|I]; [contradiction|vm_compute in I; intuition discriminate]. }
        constructor; [split; [solve_clean|split; [vm_compute; intuition discriminate|discriminate]]|].
        constructor; [|constructor]. split; [now left|]. split; [intros []|discriminate].
    + constructor; [|constructor]. split; [|vm_compute; intuition discriminate].
      solve_word.
  - repeat (constructor; [first [assumption|apply plain_ascii; [solve_clean|reflexivity]]|]). constructor.
Qed.

Lemma itoa_whole : forall z, whole_number (itoa z) z.
Proof.
  intro z. unfold itoa. destruct (z <? 0) eqn:E.
  - destruct (utoa_spec (- z) ltac:(lia)) as (A & B & C). exists (utoa (- z)). split; [exact A|].
    split; [apply Forall_forall; now apply forallb_forall|]. right. split; [reflexivity|lia].
  - destruct (utoa_spec z ltac:(lia)) as (A & B & C). exists (utoa z). split; [exact A|].
    split; [apply Forall_forall; now apply forallb_forall|]. left. split; [reflexivity|lia].
Qed.
Lemma itoa_no_colon : forall z, ~ In ":"%char (itoa z).
Proof.
  intros z I. destruct (itoa_whole z) as (d & _ & F & [[E _]|[E _]]); rewrite E in I.
  - rewrite Forall_forall in F. specialize (F _ I). discriminate.
  - destruct I as [I|I]; [discriminate|]. rewrite Forall_forall in F. specialize (F _ I). discriminate.
Qed.
Lemma whole_number_unique : forall s z z', whole_number s z -> whole_number s z' -> z = z'.
Proof.
  intros s z z' (d & N & F & H) (d' & N' & F' & H').
  destruct H as [[E V]|[E V]], H' as [[E' V']|[E' V']].
  - congruence.
  - rewrite E' in E. subst d. inversion F as [|? ? X _]. discriminate.
  - rewrite E in E'. subst d'. inversion F' as [|? ? X _]. discriminate.
  - rewrite E in E'. injection E' as E'. congruence.
Qed.
Lemma last_colon : forall a b x y : bytes, ~ In ":"%char x -> ~ In ":"%char y ->
  a ++ ":"%char :: x = b ++ ":"%char :: y -> a = b /\ x = y.
Proof.
  induction a as [|c a IH]; intros b x y X Y E; destruct b as [|d b]; cbn [app] in E.
  - injection E as E. auto.
  - injection E as _ E. exfalso. apply X. rewrite E. apply in_or_app. right. now left.
  - injection E as _ E. exfalso. apply Y. rewrite <- E. apply in_or_app. right. now left.
  - injection E as -> E. destruct (IH _ _ _ X Y E) as [-> ->]. auto.
Qed.
Lemma ref_string_injective : forall r r', 0 < r_line r -> 0 < r_line r' -> ref_string r = ref_string r' -> r = r'.
Proof.
  intros [p l c] [p' l' c'] L L' E. cbn [r_line] in *. unfold ref_string in E. cbn [r_line r_path r_col] in E.
  replace (0 <? l) with true in E by lia. replace (0 <? l') with true in E by lia.
  rewrite !app_comm_cons, !app_assoc in E.
  apply last_colon in E; [|apply itoa_no_colon|apply itoa_no_colon]. destruct E as [E C].
  apply last_colon in E; [|apply itoa_no_colon|apply itoa_no_colon]. destruct E as [P Q].
  f_equal; [exact P| |].
  - apply (whole_number_unique (itoa l)); [apply itoa_whole|rewrite Q; apply itoa_whole].
  - apply (whole_number_unique (itoa c)); [apply itoa_whole|rewrite C; apply itoa_whole].
Qed.
