(** Lemmas about the grouping of languages by their rules. *)
From Coq Require Import String Ascii List ZArith Bool Lia ZifyBool Permutation.
From Verif Require Import Base BaseProofs PopModel PoFileModel PoFileSpec PoSortProofs PoMergeProofs
  PopSpec PopBuiltinProofs CldrModel CldrSpec GenModel GenSpec GenPopProofs GenFileProofs GroupModel GroupSpec.
Import ListNotations.
Open Scope Z_scope.

Lemma in_case_labels : forall canon langs s,
  In s (case_labels canon langs) <-> exists m, In m langs /\ (s = m \/ s = canon m).
Proof.
  assert (O : forall l x, In x (once l) <-> In x l).
  { induction l as [|y l IH]; intro x; [tauto|]. cbn [once].
    destruct (existsb (beq y) l) eqn:E; cbn [In]; rewrite IH; [|tauto].
    apply existsb_exists in E as (z & I & E). apply beq_eq in E. subst z. split; [tauto|]. intros [->|]; auto. }
  intros canon langs s. unfold case_labels. rewrite sort_in, O, in_flat_map.
  split; intros (m & I & H); exists m; (split; [exact I|]).
  - destruct (beq m (canon m)); cbn in H; intuition.
  - destruct (beq m (canon m)) eqn:E; cbn; [apply beq_eq in E|]; intuition congruence.
Qed.
Lemma nodup_case_labels : forall canon langs, NoDup (case_labels canon langs).
Proof.
  assert (O : forall l x, In x (once l) -> In x l).
  { induction l as [|y l IH]; intro x; [tauto|]. cbn [once]. destruct (existsb (beq y) l); cbn; intuition. }
  intros. unfold case_labels. apply sort_nodup. generalize (flat_map (fun l => if beq l (canon l) then [l] else [l; canon l]) langs).
  induction l as [|y l IH]; [constructor|]. cbn [once]. destruct (existsb (beq y) l) eqn:E; [exact IH|].
  constructor; [|exact IH]. intro I. apply O in I.
  assert (existsb (beq y) l = true) by (apply existsb_exists; exists y; split; [exact I|now apply beq_eq]). congruence.
Qed.

Lemma NoDup_app_intro : forall A (l m : list A), NoDup l -> NoDup m -> (forall x, In x l -> In x m -> False) -> NoDup (l ++ m).
Proof.
  intros A l m L M D. induction L as [|x l NI L IH]; [exact M|]. cbn [app]. constructor.
  - intro I. apply in_app_or in I as [I|I]; [now apply NI|]. apply (D x); [now left|exact I].
  - apply IH. intros y I J. apply (D y); [now right|exact J].
Qed.

Section Group.
  Context {V : Type}.
  Variable key : V -> bytes.
  Definition members (l : list (bytes * V)) (k : bytes) : list bytes :=
    map fst (filter (fun x => beq (key (snd x)) k) l).
  Lemma in_members : forall l k a, In a (members l k) <-> exists v, In (a, v) l /\ key v = k.
  Proof.
    intros l k a. unfold members. rewrite in_map_iff. split.
    - intros ([a' v] & E & I). cbn in E. subst a'. apply filter_In in I as [I K]. apply beq_eq in K. eauto.
    - intros (v & I & K). exists (a, v). split; [reflexivity|]. apply filter_In. split; [exact I|now apply beq_eq].
  Qed.

  Lemma add_fst : forall k a (v : V) acc, map fst (add_lang k a v acc) =
    if existsb (beq k) (map fst acc) then map fst acc else (map fst acc ++ [k])%list.
  Proof.
    intros k a v. induction acc as [|[k' [ls v']] acc IH]; [reflexivity|]. cbn [add_lang map fst existsb].
    destruct (beq k k') eqn:E; cbn [map fst orb]; [reflexivity|]. rewrite IH.
    destruct (existsb (beq k) (map fst acc)); reflexivity.
  Qed.
  Lemma add_in : forall k a (v : V) acc k' ls v', NoDup (map fst acc) -> In (k', (ls, v')) (add_lang k a v acc) ->
    (k' <> k /\ In (k', (ls, v')) acc) \/ (k' = k /\ exists ls0, ls = (ls0 ++ [a])%list /\ In (k, (ls0, v')) acc) \/
    (k' = k /\ ls = [a] /\ v' = v /\ ~ In k (map fst acc)).
  Proof.
    intros k a v acc k' ls v'. induction acc as [|[k0 [ls0 v0]] acc IH]; intros ND I.
    - destruct I as [E|[]]. injection E as <- <- <-. right. right. cbn. tauto.
    - cbn [map fst] in ND. inversion ND as [|? ? NI ND']; subst. cbn [add_lang] in I. destruct (beq k k0) eqn:E.
      + apply beq_eq in E. subst k0. destruct I as [E|I].
        * injection E as <- <- <-. right. left. split; [reflexivity|]. exists ls0. cbn. auto.
        * left. split; [|right; exact I]. intros ->. apply NI. change k with (fst (k, (ls, v'))). now apply in_map.
      + assert (N : k <> k0) by (intros ->; rewrite (proj2 (beq_eq k0 k0) eq_refl) in E; discriminate).
        destruct I as [I|I].
        * injection I as <- <- <-. left. split; [congruence|now left].
        * destruct (IH ND' I) as [[A B]|[[A (l1 & B & C)]|(A & B & C & D)]].
          -- left. split; [exact A|now right].
          -- right. left. split; [exact A|]. exists l1. split; [exact B|now right].
          -- right. right. repeat split; auto. cbn. intros [X|X]; congruence.
  Qed.
  Lemma group_snoc : forall (l : list (bytes * V)) x,
    group key (l ++ [x]) = add_lang (key (snd x)) (fst x) (snd x) (group key l).
  Proof. intros. unfold group. now rewrite fold_left_app. Qed.

  Lemma group_spec : forall l : list (bytes * V),
    NoDup (map fst (group key l)) /\
    (forall k, In k (map fst (group key l)) <-> exists a v, In (a, v) l /\ key v = k) /\
    (forall k ls v, In (k, (ls, v)) (group key l) -> ls = members l k /\ exists a, In (a, v) l /\ key v = k).
  Proof.
    induction l as [|[a v] l (ND & K & E)] using rev_ind.
    - split; [constructor|]. split; [|intros ? ? ? []]. intro k. split; [intros []|intros (a & v & [] & _)].
    - rewrite group_snoc. cbn [fst snd].
      assert (EX : existsb (beq (key v)) (map fst (group key l)) = true <-> In (key v) (map fst (group key l))).
      { rewrite existsb_exists. split; [intros (x & I & X); apply beq_eq in X; now subst x|].
        intro I. exists (key v). split; [exact I|now apply beq_eq]. }
      split; [|split].
      + rewrite add_fst. destruct (existsb _ _) eqn:B; [exact ND|]. apply NoDup_snoc; [exact ND|].
        intro I. apply EX in I. congruence.
      + intro k. rewrite add_fst. destruct (existsb _ _) eqn:B.
        * rewrite K. split; intros (a' & v' & I & KV); [exists a', v'; split; [apply in_or_app; now left|exact KV]|].
          apply in_app_or in I as [I|[I|[]]]; [exists a', v'; auto|]. injection I as <- <-.
          subst k. apply K. now apply EX.
        * rewrite in_app_iff, K. split.
          -- intros [(a' & v' & I & KV)|[<-|[]]]; [exists a', v'|exists a, v]; rewrite in_app_iff; cbn; auto.
          -- intros (a' & v' & I & KV). apply in_app_or in I as [I|[I|[]]]; [left; exists a', v'; auto|].
             injection I as <- <-. right. now left.
      + intros k ls v' I. assert (M : members (l ++ [(a, v)]) k = (members l k ++ if beq (key v) k then [a] else [])%list).
        { unfold members. rewrite filter_app, map_app. cbn [filter snd]. destruct (beq (key v) k); reflexivity. }
        rewrite M. destruct (add_in _ _ _ _ _ _ _ ND I) as [[A B]|[[A (l0 & B & C)]|(A & B & C & D)]].
        * destruct (E _ _ _ B) as (-> & a' & I' & KV).
          destruct (beq (key v) k) eqn:X; [apply beq_eq in X; congruence|]. rewrite app_nil_r. split; [reflexivity|].
          exists a'. split; [apply in_or_app; now left|exact KV].
        * subst k. destruct (E _ _ _ C) as (-> & a' & I' & KV). rewrite (proj2 (beq_eq _ _) eq_refl).
          split; [exact B|]. exists a'. split; [apply in_or_app; now left|exact KV].
        * subst. rewrite (proj2 (beq_eq _ _) eq_refl). split.
          -- destruct (members l (key v)) as [|m ms] eqn:MM; [reflexivity|]. exfalso. apply D, K.
             assert (IM : In m (members l (key v))) by (rewrite MM; now left). apply in_members in IM as (w & IW & KW). eauto.
          -- exists a. split; [apply in_or_app; right; now left|reflexivity].
  Qed.

  Lemma group_entry : forall l a v, In (a, v) l -> exists w, In (key v, (members l (key v), w)) (group key l).
  Proof.
    intros l a v I. destruct (group_spec l) as (_ & K & E).
    assert (IK : In (key v) (map fst (group key l))) by (apply K; eauto).
    apply in_map_iff in IK as ([k [ls w]] & X & IK). cbn in X. subst k. destruct (E _ _ _ IK) as (-> & _). eauto.
  Qed.

  (** One language, one entry. *)
  Variable canon : bytes -> bytes.
  Lemma entry_of_label : forall l, consistent canon (fun v w => key v = key w) l ->
    forall a v s e, In (a, v) l -> s = a \/ s = canon a -> In e (group key l) ->
    In s (case_labels canon (fst (snd e))) -> fst e = key v.
  Proof.
    intros l C a v s [k [ls w]] I S IE IL. cbn [fst snd] in *. destruct (group_spec l) as (_ & _ & E).
    destruct (E _ _ _ IE) as (-> & _). apply in_case_labels in IL as (m & IM & SM).
    apply in_members in IM as (u & IU & <-). apply (C m u a v IU I). unfold alike. destruct S, SM; subst; auto.
  Qed.
  Lemma labels_disjoint : forall l, consistent canon (fun v w => key v = key w) l ->
    NoDup (concat (map (fun e => case_labels canon (fst (snd e))) (group key l))).
  Proof.
    intros l C. destruct (group_spec l) as (ND & _ & E).
    assert (D : forall e e' s, In e (group key l) -> In e' (group key l) ->
      In s (case_labels canon (fst (snd e))) -> In s (case_labels canon (fst (snd e'))) -> fst e = fst e').
    { intros [k [ls w]] e' s IE IE' S S'. cbn [fst snd] in S. destruct (E _ _ _ IE) as (-> & _).
      apply in_case_labels in S as (m & IM & SM). apply in_members in IM as (u & IU & KU).
      rewrite (entry_of_label l C m u s e' IU SM IE' S'). cbn. now rewrite KU. }
    revert ND D. generalize (group key l). clear. induction l as [|e g IH]; intros ND D; [constructor|].
    cbn [map concat] in *. inversion ND as [|? ? NI ND']; subst. apply NoDup_app_intro.
    - apply nodup_case_labels.
    - apply IH; [exact ND'|]. intros. eapply D; eauto; now right.
    - intros s S S'. apply in_concat in S' as (x & IX & S'). apply in_map_iff in IX as (e' & <- & IE').
      apply NI. rewrite (D e e' s); auto; [now apply in_map|now left|now right].
  Qed.
End Group.

(** ** The sets of the CLDR generator *)
Definition determined (sum : bytes -> bytes) (l : list (bytes * (category -> bytes))) : Prop :=
  forall a j b j', In (a, j) l -> In (b, j') l -> json_hash sum j = json_hash sum j' -> same_rules j j'.

Lemma same_data : forall j j', same_rules j j' -> to_data j = to_data j'.
Proof. intros j j' S. unfold to_data. cbn [map]. now rewrite !S. Qed.
Lemma same_hash : forall sum j j', same_rules j j' -> json_hash sum j = json_hash sum j'.
Proof. intros sum j j' S. unfold json_hash, json_text. now rewrite !S. Qed.

Lemma sort_labels : forall canon ls, case_labels canon (sort bcmp ls) = case_labels canon ls.
Proof.
  assert (U : forall l m, NoDup l -> NoDup m -> (forall x, In x l <-> In x m) -> sort bcmp l = sort bcmp m).
  { intros l m L M E. apply (sort_permutation _ (fun _ => True) bytes_lt); [apply bcmp_ok|now apply Forall_forall|].
    now apply NoDup_Permutation. }
  intros canon ls. pose proof (nodup_case_labels canon ls) as N. pose proof (nodup_case_labels canon (sort bcmp ls)) as N'.
  assert (X : forall x, In x (case_labels canon (sort bcmp ls)) <-> In x (case_labels canon ls)).
  { intro x. rewrite !in_case_labels. split; intros (m & I & H); exists m; (split; [|exact H]); now apply sort_in in I || now apply sort_in. }
  specialize (U _ _ N' N X). assert (Q : forall l, sort bcmp (case_labels canon l) = case_labels canon l).
  { intro l. unfold case_labels. apply sort_bytes_id, sort_bytes_ordered. }
  now rewrite !Q in U.
Qed.

Section Cldr.
  Variable sum : bytes -> bytes.
  Variable canon : bytes -> bytes.
  Variable l : list (bytes * (category -> bytes)).
  Hypothesis DET : determined sum l.
  Hypothesis CON : consistent canon same_rules l.
  Lemma con_key : consistent canon (fun v w => json_hash sum v = json_hash sum w) l.
  Proof. intros a v b w I J A. apply same_hash. eapply CON; eauto. Qed.

  Lemma set_of : forall d, In d (cldr_sets sum l) -> exists k v, In (k, (members (json_hash sum) l k, v)) (group (json_hash sum) l) /\
    d = DS (sort bcmp (members (json_hash sum) l k)) (to_data v) /\
    forall a j, In (a, j) l -> json_hash sum j = k -> to_data v = to_data j.
  Proof.
    intros d I. unfold cldr_sets in I. apply in_map_iff in I as ([k [ls v]] & <- & I). cbn [fst snd].
    destruct (group_spec (json_hash sum) l) as (_ & _ & E). destruct (E _ _ _ I) as (-> & a & IA & KA).
    exists k, v. split; [exact I|]. split; [reflexivity|]. intros b j IJ KJ. apply same_data. apply (DET a v b j IA IJ). congruence.
  Qed.
  Lemma own_set : forall a j, In (a, j) l -> In (DS (sort bcmp (members (json_hash sum) l (json_hash sum j))) (to_data j)) (cldr_sets sum l).
  Proof.
    intros a j I. destruct (group_entry (json_hash sum) l a j I) as (w & IW).
    assert (ID : In (DS (sort bcmp (members (json_hash sum) l (json_hash sum j))) (to_data w)) (cldr_sets sum l)).
    { unfold cldr_sets. apply in_map_iff. eexists. split; [|exact IW]. reflexivity. }
    replace (to_data j) with (to_data w); [exact ID|]. destruct (group_spec (json_hash sum) l) as (_ & _ & E).
    destruct (E _ _ _ IW) as (_ & b & IB & KB). apply same_data. now apply (DET b w a j IB I).
  Qed.

  Lemma lookup_own : forall out, Permutation (cldr_sets sum l) out -> forall a j s, In (a, j) l -> s = a \/ s = canon a ->
    cldr_lookup canon out s = Some (DS (sort bcmp (members (json_hash sum) l (json_hash sum j))) (to_data j)).
  Proof.
    intros out P a j s I S. unfold cldr_lookup.
    assert (AL : forall d, In d out -> existsb (beq s) (case_labels canon (ds_langs d)) = true ->
      d = DS (sort bcmp (members (json_hash sum) l (json_hash sum j))) (to_data j)).
    { intros d ID X. apply existsb_exists in X as (s' & IS & X). apply beq_eq in X. subst s'.
      apply (Permutation_in _ (Permutation_sym P)) in ID. destruct (set_of d ID) as (k & v & IV & -> & TD).
      cbn [ds_langs] in IS. rewrite sort_labels in IS.
      pose proof (entry_of_label (json_hash sum) canon l con_key a j s _ I S IV IS) as K. cbn in K. subst k.
      now rewrite (TD a j I eq_refl). }
    destruct (find _ out) as [d|] eqn:F.
    - apply find_some in F as [ID X]. now rewrite <- (AL d ID X).
    - exfalso. pose proof (own_set a j I) as ID. apply (Permutation_in _ P) in ID.
      apply (find_none _ _ F) in ID. cbn [ds_langs] in ID. rewrite sort_labels in ID.
      assert (X : existsb (beq s) (case_labels canon (members (json_hash sum) l (json_hash sum j))) = true).
      { apply existsb_exists. exists s. split; [|now apply beq_eq]. apply in_case_labels. exists a. split; [|exact S].
        apply in_members. eauto. }
      congruence.
  Qed.
  Lemma lookup_none : forall out, Permutation (cldr_sets sum l) out -> forall s,
    (forall a j, In (a, j) l -> s <> a /\ s <> canon a) -> cldr_lookup canon out s = None.
  Proof.
    intros out P s N. unfold cldr_lookup. destruct (find _ out) as [d|] eqn:F; [|reflexivity].
    exfalso. apply find_some in F as [ID X]. apply existsb_exists in X as (s' & IS & X). apply beq_eq in X. subst s'.
    apply (Permutation_in _ (Permutation_sym P)) in ID. destruct (set_of d ID) as (k & v & IV & -> & TD).
    cbn [ds_langs] in IS. rewrite sort_labels in IS. apply in_case_labels in IS as (m & IM & S).
    apply in_members in IM as (u & IU & _). destruct (N m u IU). intuition.
  Qed.
  Lemma cldr_labels : forall out, Permutation (cldr_sets sum l) out ->
    NoDup (concat (map (fun d => case_labels canon (ds_langs d)) out)).
  Proof.
    intros out P. assert (Q : Permutation (concat (map (fun e => case_labels canon (fst (snd e))) (group (json_hash sum) l)))
      (concat (map (fun d => case_labels canon (ds_langs d)) out))).
    { rewrite <- (Permutation_map (fun d => case_labels canon (ds_langs d)) P). unfold cldr_sets. rewrite map_map. cbn [ds_langs].
      erewrite map_ext; [reflexivity|]. intros [k [ls v]]. cbn [fst snd]. symmetry. apply sort_labels. }
    eapply Permutation_NoDup; [exact Q|]. apply labels_disjoint, con_key.
  Qed.
End Cldr.

(** ** The order of the iteration *)
Lemma members_perm : forall V (key : V -> bytes) l l' k, Permutation l l' -> Permutation (members key l k) (members key l' k).
Proof.
  intros V key l l' k P. unfold members. apply Permutation_map.
  induction P; cbn [filter]; [constructor|..].
  - destruct (beq (key (snd x)) k); [now constructor|assumption].
  - destruct (beq (key (snd x)) k), (beq (key (snd y)) k); try constructor; reflexivity.
  - etransitivity; eauto.
Qed.
Lemma sort_members : forall V (key : V -> bytes) l l' k, Permutation l l' -> sort bcmp (members key l k) = sort bcmp (members key l' k).
Proof.
  intros. apply (sort_permutation _ (fun _ => True) bytes_lt); [apply bcmp_ok|now apply Forall_forall|]. now apply members_perm.
Qed.
Lemma groups_perm : forall V (key : V -> bytes) D (F : bytes * (list bytes * V) -> D) l l', Permutation l l' ->
  (forall k v v', (exists a, In (a, v) l /\ key v = k) -> (exists a, In (a, v') l /\ key v' = k) ->
     F (k, (members key l k, v)) = F (k, (members key l' k, v'))) ->
  Permutation (map F (group key l)) (map F (group key l')).
Proof.
  intros V key D F l l' P H.
  destruct (group_spec key l) as (ND & K & E). destruct (group_spec key l') as (ND' & K' & E').
  assert (PK : Permutation (map fst (group key l)) (map fst (group key l'))).
  { apply NoDup_Permutation; auto. intro k. rewrite K, K'. split; intros (a & v & I & KV); exists a, v; (split; [|exact KV]).
    - eapply Permutation_in; eauto.
    - eapply Permutation_in; [symmetry|]; eauto. }
  assert (E2 : forall k ls v, In (k, (ls, v)) (group key l') -> ls = members key l' k /\ exists a, In (a, v) l /\ key v = k).
  { intros k ls v I. destruct (E' _ _ _ I) as (-> & a & IA & KA). split; [reflexivity|]. exists a. split; [|exact KA].
    eapply Permutation_in; [symmetry|]; eauto. }
  clear E' K K' ND. revert PK ND' E E2. generalize (group key l'). generalize (group key l).
  induction l0 as [|[k [ls v]] g IH]; intros g' PK ND' E E2.
  - cbn in PK. apply Permutation_nil in PK. destruct g'; [constructor|discriminate].
  - assert (IK : In k (map fst g')) by (eapply Permutation_in; [exact PK|now left]).
    apply in_map_iff in IK as ([k' [ls' v']] & X & IK). cbn in X. subst k'. apply in_split in IK as (u & w & ->).
    destruct (E _ _ _ (or_introl eq_refl)) as (-> & EV).
    destruct (E2 k ls' v') as (-> & EV'); [apply in_or_app; right; now left|].
    rewrite map_app. cbn [map]. rewrite (H k v v' EV EV'). apply Permutation_cons_app. rewrite <- map_app.
    rewrite map_app in PK, ND'. cbn [map fst] in PK, ND'. apply IH.
    + apply Permutation_cons_app_inv in PK. now rewrite map_app.
    + rewrite map_app. now apply NoDup_remove_1 in ND'.
    + intros. apply E. now right.
    + intros k0 ls0 v0 I. apply E2. apply in_app_or in I as [I|I]; apply in_or_app; [now left|right; now right].
Qed.
Lemma cldr_sets_perm : forall sum l l', determined sum l -> Permutation l l' -> Permutation (cldr_sets sum l) (cldr_sets sum l').
Proof.
  intros sum l l' DET P. apply groups_perm; [exact P|]. intros k v v' (a & I & KV) (b & J & KW). cbn [fst snd].
  rewrite (sort_members _ _ l l' k P). f_equal. apply same_data. apply (DET a v b v' I J). congruence.
Qed.

(** ** Names *)
Lemma upper_small : forall c, small c -> bval (upper c) = bval c - 32.
Proof.
  intros c S. unfold small in S. unfold upper. replace ((97 <=? bval c) && (bval c <=? 122)) with true by lia.
  apply byte_of_val. lia.
Qed.
Lemma plain_name : forall w, Forall (fun c => small c \/ capital c) w ->
  map (fun c => if (c =? "-")%char then "_"%char else c) (filter (fun c => negb (c =? SP)%char) w) = w.
Proof.
  induction 1 as [|c w H F IH]; [reflexivity|]. cbn [filter].
  assert (N : (c =? SP)%char = false /\ (c =? "-")%char = false).
  { split; apply Ascii.eqb_neq; intros ->; unfold small, capital in H; vm_compute in H; intuition congruence. }
  destruct N as [N1 N2]. rewrite N1. cbn [negb map]. now rewrite N2, IH.
Qed.
Lemma tag_name : forall s, is_tag s -> exists c w r r', s = c :: w ++ r /\ lang_name s = upper c :: w ++ r' /\
  small c /\ Forall small w /\
  (r = [] /\ r' = [] \/ exists a b, r = ["-"%char; a; b] /\ r' = ["_"%char; a; b] /\ capital a /\ capital b).
Proof.
  intros s (c & w & r & -> & C & W & R). exists c, w, r.
  exists (match r with [] => [] | _ :: t => "_"%char :: t end).
  split; [reflexivity|]. split; [|split; [exact C|split; [exact W|]]].
  - unfold lang_name. rewrite app_comm_cons, filter_app, map_app.
    rewrite (plain_name (upper c :: w)).
    + cbn [app]. f_equal. f_equal. destruct R as [->|(a & b & -> & A & B)]; [reflexivity|].
      cbn [filter]. change ("-" =? SP)%char with false. cbn [negb map]. change ("-" =? "-")%char with true. cbn iota.
      f_equal. apply (plain_name [a; b]). apply Forall_cons; [now right|]. apply Forall_cons; [now right|constructor].
    + constructor; [right; unfold capital; rewrite (upper_small c C); unfold small in C; lia|].
      eapply Forall_impl; [|exact W]. auto.
  - destruct R as [->|(a & b & -> & A & B)]; [left; auto|]. right. exists a, b. auto.
Qed.
Lemma small_split : forall w w' y y', Forall small w -> Forall small w' ->
  match y with c :: _ => ~ small c | [] => True end -> match y' with c :: _ => ~ small c | [] => True end ->
  (w ++ y = w' ++ y')%list -> w = w' /\ y = y'.
Proof.
  induction w as [|c w IH]; intros [|c' w'] y y' W W' Y Y' E; cbn in E.
  - auto.
  - subst y. inversion W'; contradiction.
  - subst y'. inversion W; contradiction.
  - injection E as -> E. inversion W; inversion W'; subst. destruct (IH w' y y') as [-> ->]; auto.
Qed.
Lemma names_start : forall ts, Forall is_tag ts -> match set_name ts with c :: _ => capital c | [] => ts = [] end.
Proof.
  intros [|t ts] F; [reflexivity|]. inversion F as [|? ? T _]; subst. destruct (tag_name t T) as (c & w & r & r' & _ & E & S & _).
  unfold set_name. cbn [map concat]. rewrite E. cbn [app]. unfold capital. rewrite (upper_small c S). unfold small in S. lia.
Qed.
Lemma set_name_inj : forall ts ts', Forall is_tag ts -> Forall is_tag ts' -> set_name ts = set_name ts' -> ts = ts'.
Proof.
  induction ts as [|t ts IH]; intros ts' F F' E.
  - pose proof (names_start ts' F') as H. rewrite <- E in H. now cbn in H.
  - destruct ts' as [|t' ts'].
    { pose proof (names_start (t :: ts) F) as H. rewrite E in H. now cbn in H. }
    inversion F as [|? ? T FT]; inversion F' as [|? ? T' FT']; subst.
    destruct (tag_name t T) as (c & w & r & r' & ET & EN & C & W & R).
    destruct (tag_name t' T') as (c2 & w2 & r2 & r2' & ET2 & EN2 & C2 & W2 & R2).
    pose proof (names_start ts FT) as NS. pose proof (names_start ts' FT') as NS'.
    unfold set_name in E. cbn [map concat] in E. rewrite EN, EN2 in E. cbn [app] in E. injection E as E1 E.
    change (concat (map lang_name ts)) with (set_name ts) in E. change (concat (map lang_name ts')) with (set_name ts') in E.
    assert (c = c2).
    { apply bval_inj. pose proof (upper_small c C). pose proof (upper_small c2 C2). rewrite E1 in H. lia. }
    subst c2. rewrite <- !app_assoc in E.
    assert (ST : forall x, match x with h :: _ => capital h | [] => True end ->
      forall q, (q = [] \/ exists a b, q = ["_"%char; a; b] /\ capital a /\ capital b) -> match (q ++ x)%list with h :: _ => ~ small h | [] => True end).
    { intros x X q [->|(a & b & -> & _)]; [destruct x; [exact I|]; cbn; unfold small, capital in *; lia|].
      cbn. unfold small. vm_compute. intuition congruence. }
    edestruct (small_split w w2) as [-> E']; [exact W|exact W2| | |exact E|].
    { apply ST; [destruct (set_name ts); auto|]. destruct R as [[_ ->]|(a & b & _ & -> & ?)]; [auto|right; eauto]. }
    { apply ST; [destruct (set_name ts'); auto|]. destruct R2 as [[_ ->]|(a & b & _ & -> & ?)]; [auto|right; eauto]. }
    assert (U : capital "_"%char -> False) by (unfold capital; vm_compute; intuition congruence).
    destruct R as [[-> ->]|(a & b & -> & -> & A & B)], R2 as [[-> ->]|(a2 & b2 & -> & -> & A2 & B2)]; cbn [app] in E'.
    + rewrite ET, ET2. f_equal. now apply IH.
    + rewrite E' in NS. contradiction.
    + rewrite <- E' in NS'. contradiction.
    + injection E' as -> -> E'. rewrite ET, ET2. f_equal. now apply IH.
Qed.

Definition set_lt (a b : data_set) : Prop :=
  (length (ds_rules a) < length (ds_rules b))%nat \/
  length (ds_rules a) = length (ds_rules b) /\ bytes_lt (set_name (ds_langs a)) (set_name (ds_langs b)).
Lemma set_cmp_ok : forall P : data_set -> Prop, (forall a b, P a -> P b -> set_name (ds_langs a) = set_name (ds_langs b) -> a = b) -> cmp_ok P set_lt set_cmp.
Proof.
  intros P H. apply cmp_ok_of_cases.
  - intros x y z _ _ _ [A|[A A']] [B|[B B']]; unfold set_lt; try (left; lia). right. split; [lia|]. eapply bytes_lt_trans; eauto.
  - intros x _ [A|[_ A]]; [lia|now apply bytes_lt_irrefl in A].
  - intros x y X Y. unfold set_cmp, or_cmp, set_lt.
    destruct (zcmp_spec (Z.of_nat (length (ds_rules x))) (Z.of_nat (length (ds_rules y)))) as [[L E]|[[L E]|[L E]]]; rewrite E; cbn [Z.eqb].
    + left. split; [left; lia|lia].
    + destruct (Z.lt_trichotomy (bcmp (set_name (ds_langs x)) (set_name (ds_langs y))) 0) as [B|[B|B]].
      * left. split; [right; split; [lia|now apply bcmp_lt]|exact B].
      * right. left. split; [|exact B]. apply H; auto. now apply bcmp_eq.
      * right. right. split; [right; split; [lia|now apply bcmp_gt]|exact B].
    + right. right. split; [left; lia|lia].
Qed.
Lemma arranged_ordered : forall A (P : A -> Prop) lt cmp l, cmp_ok P lt cmp -> Forall P l ->
  arranged (fun a b => cmp a b < 0) l -> ordered (fun x y => lt x y \/ x = y) l.
Proof.
  intros A P lt cmp l OK F AR a x b y c E. pose proof (AR a x b y c E) as H.
  assert (PX : P x /\ P y).
  { rewrite Forall_forall in F. split; apply F; rewrite E; apply in_or_app; right; [now left|right; apply in_or_app; right; now left]. }
  destruct PX as [PX PY]. destruct (Z.lt_trichotomy (cmp x y) 0) as [C|[C|C]].
  - left. now apply (ck_lt _ _ _ OK).
  - right. now apply (ck_eq _ _ _ OK).
  - exfalso. apply H. apply (ck_lt _ _ _ OK); auto. now apply (ck_gt _ _ _ OK).
Qed.

Lemma cldr_deterministic : forall sum l l' out out', determined sum l -> Permutation l l' -> NoDup (map fst l) -> Forall is_tag (map fst l) ->
  Permutation (cldr_sets sum l) out -> Permutation (cldr_sets sum l') out' ->
  arranged (fun a b => set_cmp a b < 0) out -> arranged (fun a b => set_cmp a b < 0) out' -> out = out'.
Proof.
  intros sum l l' out out' DET P ND TG PO PO' A A'.
  assert (OK : cmp_ok (fun d => In d (cldr_sets sum l)) set_lt set_cmp).
  { apply set_cmp_ok. intros a b IA IB E. destruct (set_of sum l DET a IA) as (k & v & IV & -> & TD).
    destruct (set_of sum l DET b IB) as (k' & v' & IV' & -> & TD'). cbn [ds_langs] in E.
    assert (TM : forall k, Forall is_tag (sort bcmp (members (json_hash sum) l k))).
    { intro q. rewrite Forall_forall in *. intros x IX. apply sort_in, in_members in IX as (u & IU & _). apply TG.
      change x with (fst (x, u)). now apply in_map. }
    apply set_name_inj in E; auto.
    destruct (group_spec (json_hash sum) l) as (_ & _ & EE). destruct (EE _ _ _ IV) as (_ & m & IM & KM).
    assert (IX : In m (sort bcmp (members (json_hash sum) l k'))).
    { rewrite <- E. apply sort_in, in_members. eauto. }
    apply sort_in, in_members in IX as (u & IU & KU).
    assert (u = v).
    { clear - ND IU IM. induction l as [|[a w] l0 IH]; [contradiction|]. cbn in ND. inversion ND as [|? ? NI ND']; subst.
      destruct IU as [X|IU], IM as [Y|IM]; try congruence; auto.
      - injection X as -> ->. exfalso. apply NI. change m with (fst (m, v)). now apply in_map.
      - injection Y as -> ->. exfalso. apply NI. change m with (fst (m, u)). now apply in_map. }
    subst u. assert (k = k') by congruence. subst k'.
    rewrite (TD' m v IM eq_refl), H. reflexivity. }
  assert (FO : Forall (fun d => In d (cldr_sets sum l)) out).
  { apply Forall_forall. intros d I. eapply Permutation_in; [symmetry|]; eauto. }
  assert (PP : Permutation out out') by (rewrite <- PO, <- PO'; now apply cldr_sets_perm).
  apply (ordered_unique _ _ _ _ out out' OK FO PP).
  - eapply arranged_ordered; eauto.
  - eapply arranged_ordered; eauto. now apply (Permutation_Forall PP).
Qed.

(** ** The rules of the gettext generator *)
Lemma pop_sets_members : forall g sets, pop_sets_of g = Ok sets ->
  Forall2 (fun e s => pop_set_of (fst (snd e)) (snd (snd e)) = Ok s) g sets.
Proof.
  induction g as [|[k [ls v]] g IH]; intros sets E; cbn [pop_sets_of] in E; [injection E as <-; constructor|].
  destruct (pop_set_of ls v) as [s| | |] eqn:S; try discriminate. cbn [rbind] in E.
  destruct (pop_sets_of g) as [r| | |] eqn:R; try discriminate. injection E as <-. constructor; auto.
Qed.
Lemma pop_set_shape : forall ls v s, pop_set_of ls v = Ok s -> exists n,
  gen_rule (pop_text v) = Ok (ps_body s, ps_key s, n) /\ ps_langs s = sort bcmp ls /\ ps_raw s = pop_text v /\ ps_count s = snd v.
Proof.
  intros ls v s E. unfold pop_set_of in E. destruct (gen_rule (pop_text v)) as [[[b k] n]| | |]; try discriminate.
  injection E as <-. eauto 6.
Qed.
Lemma extra_set_langs : forall l sets s, extra_sets l = Ok sets -> In s sets -> ps_langs s = [] /\
  exists raw, In raw l /\ ps_raw s = raw /\ gen_rule raw = Ok (ps_body s, ps_key s, ps_count s).
Proof.
  induction l as [|raw l IH]; intros sets s E I; cbn [extra_sets] in E; [injection E as <-; contradiction|].
  destruct (gen_rule raw) as [[[b k] n]| | |] eqn:G; try discriminate. cbn [rbind] in E.
  destruct (extra_sets l) as [r| | |] eqn:R; try discriminate. injection E as <-. destruct I as [<-|I].
  - cbn. split; [reflexivity|]. exists raw. auto.
  - destruct (IH r s eq_refl I) as (A & raw' & B & C). split; [exact A|]. exists raw'. split; [now right|exact C].
Qed.
Lemma Forall2_in_r : forall A B (R : A -> B -> Prop) l m y, Forall2 R l m -> In y m -> exists x, In x l /\ R x y.
Proof. intros A B R l m y F. induction F; [intros []|]. intros [<-|I]; [eexists; split; [now left|assumption]|]. destruct (IHF I) as (z & J & H'). exists z. split; [now right|exact H']. Qed.
Lemma Forall2_in_l : forall A B (R : A -> B -> Prop) l m x, Forall2 R l m -> In x l -> exists y, In y m /\ R x y.
Proof. intros A B R l m x F. induction F; [intros []|]. intros [<-|I]; [eexists; split; [now left|assumption]|]. destruct (IHF I) as (z & J & H'). exists z. split; [now right|exact H']. Qed.

Section Pop.
  Variable canon : bytes -> bytes.
  Variable l : list (bytes * (bytes * Z)).
  Hypothesis DET : forall a v b w, In (a, v) l -> In (b, w) l -> fst v = fst w -> v = w.
  Hypothesis CON : consistent canon eq l.
  Variable sets : list pop_set.
  Hypothesis OK : pop_sets l = Ok sets.

  Lemma pop_con : consistent canon (fun v w : bytes * Z => fst v = fst w) l.
  Proof. intros a v b w I J A. now rewrite (CON a v b w I J A). Qed.
  Lemma pop_split : exists a b, pop_sets_of (group fst l) = Ok a /\ extra_sets extra_rules = Ok b /\ sets = (a ++ b)%list.
  Proof.
    unfold pop_sets in OK. revert OK. generalize (extra_sets extra_rules). intros [b| | |];
    destruct (pop_sets_of (group fst l)) as [a| | |]; cbn [rbind]; intro E; try discriminate. injection E as <-. eauto.
  Qed.
  Lemma pop_from : forall s, In s sets ->
    (exists v, (exists a, In (a, v) l) /\ ps_langs s = sort bcmp (members fst l (fst v)) /\ ps_raw s = pop_text v /\ ps_count s = snd v /\
       In (fst v, (members fst l (fst v), v)) (group fst l) /\
       exists n, gen_rule (pop_text v) = Ok (ps_body s, ps_key s, n)) \/
    (ps_langs s = [] /\ exists raw, In raw extra_rules /\ ps_raw s = raw /\ gen_rule raw = Ok (ps_body s, ps_key s, ps_count s)).
  Proof.
    intros s I. destruct pop_split as (a & b & A & B & ->). apply in_app_or in I as [I|I].
    - left. destruct (Forall2_in_r _ _ _ _ _ _ (pop_sets_members _ _ A) I) as ([k [ls v]] & IE & E). cbn [fst snd] in E.
      destruct (group_spec fst l) as (_ & _ & G). destruct (G _ _ _ IE) as (-> & x & IX & <-).
      destruct (pop_set_shape _ _ _ E) as (n & GR & L & R & C). exists v. eauto 10.
    - right. eapply extra_set_langs; eauto.
  Qed.
  Lemma pop_own : forall a v, In (a, v) l -> exists s, In s sets /\ ps_langs s = sort bcmp (members fst l (fst v)).
  Proof.
    intros a v I. destruct pop_split as (x & b & A & B & ->). destruct (group_entry fst l a v I) as (w & IW).
    destruct (Forall2_in_l _ _ _ _ _ _ (pop_sets_members _ _ A) IW) as (s & IS & E). cbn [fst snd] in E.
    destruct (pop_set_shape _ _ _ E) as (n & _ & L & _). exists s. split; [apply in_or_app; now left|exact L].
  Qed.
  Lemma pop_lookup_own : forall out, Permutation sets out -> forall a v s, In (a, v) l -> s = a \/ s = canon a ->
    exists d n, pop_lookup canon out s = Some d /\ In a (ps_langs d) /\ ps_raw d = pop_text v /\ ps_count d = snd v /\
      gen_rule (pop_text v) = Ok (ps_body d, ps_key d, n).
  Proof.
    intros out P a v s I S. unfold pop_lookup. destruct (find _ out) as [d|] eqn:F.
    - apply find_some in F as [ID X]. apply existsb_exists in X as (s' & IS & X). apply beq_eq in X. subst s'.
      apply (Permutation_in _ (Permutation_sym P)) in ID. destruct (pop_from d ID) as [(w & (b & IB) & L & R & C & IE & n & G)|(L & _)].
      + rewrite L, sort_labels in IS.
        pose proof (entry_of_label fst canon l pop_con a v s _ I S IE IS) as K. cbn in K.
        rewrite (DET b w a v IB I K) in *. exists d, n. repeat split; auto. rewrite L. apply sort_in, in_members. eauto.
      + rewrite L in IS. contradiction.
    - exfalso. destruct (pop_own a v I) as (d & ID & L). apply (Permutation_in _ P) in ID. apply (find_none _ _ F) in ID.
      rewrite L, sort_labels in ID.
      assert (X : existsb (beq s) (case_labels canon (members fst l (fst v))) = true).
      { apply existsb_exists. exists s. split; [|now apply beq_eq]. apply in_case_labels. exists a. split; [|exact S].
        apply in_members. eauto. }
      congruence.
  Qed.
  Lemma pop_lookup_none : forall out, Permutation sets out -> forall s,
    (forall a v, In (a, v) l -> s <> a /\ s <> canon a) -> pop_lookup canon out s = None.
  Proof.
    intros out P s N. unfold pop_lookup. destruct (find _ out) as [d|] eqn:F; [|reflexivity].
    exfalso. apply find_some in F as [ID X]. apply existsb_exists in X as (s' & IS & X). apply beq_eq in X. subst s'.
    apply (Permutation_in _ (Permutation_sym P)) in ID. destruct (pop_from d ID) as [(w & _ & L & _)|(L & _)]; rewrite L in IS; [|contradiction].
    rewrite sort_labels in IS. apply in_case_labels in IS as (m & IM & S).
    apply in_members in IM as (u & IU & _). destruct (N m u IU). intuition.
  Qed.
  Lemma pop_labels : forall out, Permutation sets out -> NoDup (concat (map (fun d => case_labels canon (ps_langs d)) out)).
  Proof.
    intros out P. destruct pop_split as (x & b & A & B & ->).
    assert (NB : concat (map (fun d => case_labels canon (ps_langs d)) b) = []).
    { assert (H : forall d, In d b -> ps_langs d = []) by (intros d I; now apply (extra_set_langs extra_rules b d B)).
      clear - H. induction b as [|d b IH]; [reflexivity|]. cbn [map concat]. rewrite (H d (or_introl eq_refl)), IH; [reflexivity|].
      intros. apply H. now right. }
    assert (NA : concat (map (fun d => case_labels canon (ps_langs d)) x) = concat (map (fun e => case_labels canon (fst (snd e))) (group fst l))).
    { pose proof (pop_sets_members _ _ A) as F. clear - F. induction F as [|e d g ds E F IH]; [reflexivity|].
      cbn [map concat]. rewrite IH. destruct (pop_set_shape _ _ _ E) as (n & _ & L & _). now rewrite L, sort_labels. }
    rewrite <- (Permutation_map (fun d => case_labels canon (ps_langs d)) P). rewrite map_app, concat_app, NB, NA, app_nil_r.
    apply labels_disjoint, pop_con.
  Qed.
End Pop.

(** ** The hypotheses of the theorems *)
Lemma json_text_all : forall j, json_text j = all_texts j.
Proof. intro j. unfold json_text, all_texts. cbn [map concat]. now rewrite app_nil_r. Qed.
Lemma told_determined : forall sum l, collision_free sum l -> told_apart l -> determined sum l.
Proof.
  intros sum l C T a j b j' I J H. unfold json_hash in H. rewrite !json_text_all in H.
  apply (T a j b j' I J). now apply (C a j b j' I J).
Qed.
Lemma lang_rules_data : forall j rules, lang_rules j rules ->
  to_data j = (map (fun r => (fst r, j (fst r))) rules ++ [(Other, j Other)])%list /\
  Forall2 (fun r t => fst r = fst t /\ rule_line (snd r) (snd t)) rules (map (fun r => (fst r, j (fst r))) rules).
Proof.
  intros j rules (M & F & S). split.
  - assert (NE : exists c r, j Other = c :: r).
    { destruct S as (z & r & _ & ->). destruct z; cbn; eauto. }
    destruct NE as (c0 & r0 & NE). transitivity (map (fun c => (c, j c)) (map fst rules) ++ [(Other, j Other)])%list.
    + rewrite M. unfold to_data. change [Zero; One; Two; Few; Many; Other] with ([Zero; One; Two; Few; Many] ++ [Other])%list.
      rewrite map_app, filter_app. change (map (fun c => (c, j c)) [Other]) with [(Other, j Other)].
      generalize [Zero; One; Two; Few; Many]. intro l. rewrite NE. cbn [filter snd]. f_equal. induction l as [|c l IH]; [reflexivity|]. cbn [map filter snd].
      rewrite IH. destruct (j c) eqn:EC; [reflexivity|]. cbn [map]. now rewrite EC.
    + now rewrite map_map.
  - clear M S. induction F as [|r rules H F IH]; [constructor|]. cbn [map]. constructor; [auto|exact IH].
Qed.
Lemma extra_sets_ok : exists b, extra_sets extra_rules = Ok b.
Proof. eexists. vm_compute. reflexivity. Qed.

Lemma able_header : forall f np, (able_text (pop_text (f, np)) && match parse_forms (pop_text (f, np)) with Ok x => f_nplurals x =? np | _ => false end)%bool = true ->
  exists e, header_text (pop_text (f, np)) (snd (f, np)) e /\ go_able (snd (f, np)) e = true.
Proof.
  intros f np A. cbn [snd]. generalize dependent (pop_text (f, np)). intros t A. apply andb_true_iff in A as [A N].
  unfold able_text in A. apply andb_true_iff in A as [C A].
  destruct (parse_forms t) as [x| | |] eqn:P; try discriminate. apply Z.eqb_eq in N. subst np.
  destruct (witness_header t x P C) as [e [HT CE]]. exists e. split; [exact HT|].
  rewrite <- (ceq_able _ _ _ CE). exact A.
Qed.

(** ** The recognised headers *)
Lemma extra_sets_in : forall l sets t, extra_sets l = Ok sets -> In t l -> exists s, In s sets /\ gen_rule t = Ok (ps_body s, ps_key s, ps_count s).
Proof.
  induction l as [|raw l IH]; intros sets t E I; [contradiction|]. cbn [extra_sets] in E.
  destruct (gen_rule raw) as [[[b k] n]| | |] eqn:G; try discriminate. cbn [rbind] in E.
  destruct (extra_sets l) as [r| | |] eqn:R; try discriminate. cbn [rbind] in E. injection E as <-. destruct I as [<-|I].
  - eexists. split; [left; reflexivity|]. exact G.
  - destruct (IH r t eq_refl I) as (s & IS & GS). exists s. split; [now right|exact GS].
Qed.
Lemma extra_set_in : forall l sets, pop_sets l = Ok sets -> forall t, In t extra_rules ->
  exists s, In s sets /\ gen_rule t = Ok (ps_body s, ps_key s, ps_count s).
Proof.
  intros l sets OK t I. destruct (pop_split l sets OK) as (a & b & _ & B & ->).
  destruct (extra_sets_in _ _ _ B I) as (s & IS & G). exists s. split; [apply in_or_app; now right|exact G].
Qed.
Lemma pop_set_in : forall l sets, pop_sets l = Ok sets ->
  (forall a v b w, In (a, v) l -> In (b, w) l -> fst v = fst w -> v = w) ->
  forall a v, In (a, v) l -> exists s n, In s sets /\ ps_count s = snd v /\ gen_rule (pop_text v) = Ok (ps_body s, ps_key s, n).
Proof.
  intros l sets OK D a v I. destruct (pop_split l sets OK) as (x & b & A & B & ->). destruct (group_entry fst l a v I) as (w & IW).
  destruct (Forall2_in_l _ _ _ _ _ _ (pop_sets_members _ _ A) IW) as (s & IS & E). cbn [fst snd] in E.
  destruct (group_spec fst l) as (_ & _ & G). destruct (G _ _ _ IW) as (_ & y & IY & KY). rewrite <- (D a v y w I IY (eq_sym KY)) in *.
  destruct (pop_set_shape _ _ _ E) as (n & GR & _ & _ & C). exists s, n. split; [apply in_or_app; now left|]. auto.
Qed.
Lemma pop_source_of : forall l sets, pop_sets l = Ok sets -> forall d, In d sets ->
  exists t n, (In t extra_rules \/ exists a v, In (a, v) l /\ t = pop_text v) /\ gen_rule t = Ok (ps_body d, ps_key d, n).
Proof.
  intros l sets OK d I. destruct (pop_from l sets OK d I) as [(v & (a & IA) & _ & _ & _ & _ & n & G)|(_ & raw & IR & _ & G)].
  - exists (pop_text v), n. split; [right; eauto|exact G].
  - exists raw, (ps_count d). split; [left; exact IR|exact G].
Qed.
