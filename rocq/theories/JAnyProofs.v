(** Files whose messages have names that differ in letter case only. *)
From Coq Require Import String Ascii List ZArith Bool Lia Permutation.
From Verif Require Import Base BaseProofs PoStrModel PoStrSpec CldrModel GettextModel GettextProofs JsonModel JsonSpec JsonProofs JsonRoundProofs
  JFileSpec JFileProofs JTextModel JTextSpec JTextProofs JTextWriteProofs JAnySpec.
Import ListNotations.
Open Scope Z_scope.

Lemma text_value_fun v s s' : text_value v s -> text_value v s' -> s = s'.
Proof. intros [->|[-> ->]] [X|[X ->]]; congruence. Qed.
Lemma lastk_one l n : match lastk l n with
  | Some s => exists k, In (k, s) l /\ to_lower k = n
  | None => forall k s, In (k, s) l -> to_lower k <> n
  end.
Proof.
  unfold lastk. destruct (find _ (rev l)) as [[k s]|] eqn:F.
  - apply find_some in F as [I B]. apply in_rev in I. apply beq_eq in B. eauto.
  - intros k s I E. apply in_rev in I. apply find_none with (x := (k, s)) in F; [|exact I]. cbn [fst] in F. rewrite E, beq_refl in F. discriminate.
Qed.
Lemma members_field l mm pm n : Forall2 (fun x y => fst x = fst y /\ text_value (snd x) (snd y)) l mm -> Permutation (to_map mm) pm ->
  one_of l n (lastk pm n).
Proof.
  intros F P. pose proof (lastk_one pm n) as H. destruct (lastk pm n) as [s|]; cbn [one_of].
  - destruct H as (k & I & L). apply (Permutation_in _ (Permutation_sym P)) in I. apply to_map_last in I.
    apply (proj2 (last_member_map _ _ _ _ _ F)) in I as (v & I & T). exists k, v. auto.
  - intros s (k & v & I & L & T). apply (proj1 (last_member_map _ _ _ _ _ F)) in I as (s' & I & T').
    apply (H k s'); [|exact L]. apply (Permutation_in _ P). now apply to_map_last.
Qed.
Lemma unmarshal_may perm v m : (forall x, Permutation x (perm x)) -> unmarshal_message perm v = Ok m -> may_read v m /\ NoDup (map fst (tr_of m)).
Proof.
  intros P H. destruct v as [| | |s|l|l]; try discriminate; cbn [unmarshal_message] in H.
  - injection H as <-. split; [|repeat constructor; intros []]. constructor; try reflexivity. intros c x. cbn [tr_of j_tr cat_get].
    destruct (cat_eqb Other c) eqn:E; [apply cat_eqb_eq in E; subst; intuition congruence|]. split; [discriminate|]. intros [-> _]. discriminate.
  - apply rbind_ok in H as (mm & E & H). pose proof (proj1 (str_members_ok l mm) E) as F. injection H as <-.
    pose proof (fun n => members_field l mm _ n F (P (to_map mm))) as FI.
    pose proof (members_spec (perm (to_map mm)) (JMsg [] [] (Some []))) as (A & B & _ & C & D). cbv zeta in A, B, C, D.
    split; [|apply D; constructor].
    apply (mr_object _ _ (lastk (perm (to_map mm)) (bs "comment")) (lastk (perm (to_map mm)) (bs "context"))).
    + intros k v I. clear - F I. induction F as [|x y t u [E T] F IH]; [destruct I|]. destruct I as [->|I]; [cbn in T; eauto|auto].
    + apply FI.
    + rewrite A. destruct (lastk _ _); reflexivity.
    + apply FI.
    + rewrite B. destruct (lastk _ _); reflexivity.
    + intro c. rewrite C. specialize (FI (cat_name c)). destruct (lastk _ _); exact FI.
Qed.
Lemma texts_members l : (forall k v, In (k, v) l -> exists s, text_value v s) ->
  exists mm, str_members l = Ok mm /\ Forall2 (fun x y => fst x = fst y /\ text_value (snd x) (snd y)) l mm.
Proof.
  intros T. assert (X : exists mm, Forall2 (fun x y => fst x = fst y /\ text_value (snd x) (snd y)) l mm).
  { induction l as [|[k v] l IH]; [exists []; constructor|]. destruct IH as (mm & F); [intros; eapply T; right; eassumption|].
    destruct (T k v (or_introl eq_refl)) as (s & S). exists ((k, s) :: mm). constructor; [auto|exact F]. }
  destruct X as (mm & F). exists mm. split; [|exact F]. now apply str_members_ok.
Qed.
Lemma may_read_ok perm v m : may_read v m -> exists m', unmarshal_message perm v = Ok m'.
Proof.
  intros H. destruct H as [s m|l m o o' T _ _ _ _ _]; [eexists; reflexivity|]. cbn [unmarshal_message].
  destruct (texts_members l T) as (mm & E & _). rewrite E. cbn [rbind]. eauto.
Qed.
Lemma unmarshal_members_may perm l : (forall x, Permutation x (perm x)) ->
  match unmarshal_members perm l with
  | Ok ms => Forall2 (fun x y => fst x = fst y /\ (may_entry (snd x) (snd y) /\ forall m, snd y = Some m -> NoDup (map fst (tr_of m)))) l ms
  | Err => unreadable l
  | _ => False
  end.
Proof.
  intros P. induction l as [|[k v] l IH]; cbn [unmarshal_members]; [constructor|].
  set (e := match v with JNull => Ok None | _ => do m <- unmarshal_message perm v; Ok (Some m) end).
  assert (X : match e with Ok o => may_entry v o /\ forall m, o = Some m -> NoDup (map fst (tr_of m)) | Err => forall o, ~ may_entry v o | _ => False end).
  { assert (Y : match (do m <- unmarshal_message perm v; Ok (Some m)) with
        Ok o => may_entry v o /\ forall m, o = Some m -> NoDup (map fst (tr_of m)) | Err => forall m, ~ may_read v m | _ => False end).
    { destruct (unmarshal_message_fin perm v) as [N1 N2]. destruct (unmarshal_message perm v) as [m| | |] eqn:U; try congruence; cbn [rbind].
      - apply unmarshal_may in U as [A B]; [|exact P]. split; [exact A|]. intros m' Q. now injection Q as <-.
      - intros m M. destruct (may_read_ok perm v m M). congruence. }
    unfold e. destruct v; try (split; [reflexivity|discriminate]);
      (destruct (do m <- unmarshal_message perm _; Ok (Some m)); try exact Y; intros [m|] M; [exact (Y m M)|discriminate]). }
  destruct e as [o| | |]; cbn [rbind]; try contradiction.
  - destruct (unmarshal_members perm l) as [r| | |]; cbn [rbind]; try contradiction.
    + constructor; [|exact IH]. cbn [fst snd]. split; [reflexivity|exact X].
    + destruct IH as (k' & v' & I & N). exists k', v'. split; [now right|exact N].
  - exists k, v. split; [now left|exact X].
Qed.
Lemma to_map_may perm l ms : (forall x, Permutation x (perm x)) -> unmarshal_members perm l = Ok ms -> may_messages l (to_map ms).
Proof.
  intros P U. pose proof (unmarshal_members_may perm l P) as F. rewrite U in F.
  pose proof (last_member_map _ _ (fun v o => may_entry v o /\ forall m, o = Some m -> NoDup (map fst (tr_of m))) l ms F) as [L1 L2].
  split; [split; [apply to_map_nodup|]|split].
  - apply Forall_forall. intros [k o] I m E. apply to_map_last in I. apply L2 in I as (v & _ & _ & N). now apply N.
  - intros k v L. apply L1 in L as (o & L & E & _). exists o. split; [now apply to_map_last|exact E].
  - intros k o I. apply to_map_last in I. apply L2 in I as (v & L & E & _). eauto.
Qed.
Lemma may_nonempty l ms : may_messages l ms -> (ms = [] <-> l = []).
Proof.
  intros (_ & A & B). split; intros ->.
  - destruct l as [|[k v] l]; [reflexivity|]. exfalso.
    assert (I : In k (map fst (to_map ((k, v) :: l)))) by (apply to_map_keys; now left). apply in_map_iff in I as ([k' w] & _ & I). apply to_map_last in I.
    apply A in I as (o & [] & _).
  - destruct ms as [|[k o] ms]; [reflexivity|]. destruct (B k o (or_introl eq_refl)) as (v & L & _). apply last_member_in in L. destruct L.
Qed.
Lemma readable_shallow l : (forall k v, In (k, v) l -> exists o, may_entry v o) -> shallow (JObj l).
Proof.
  intros E. apply (small_shallow 2 _ (le_n 2)). constructor. intros k v I. destruct (E k v I) as ([m|] & H); cbn [may_entry] in H.
  - destruct H as [s m _ _ _|l' m o o' T _ _ _ _ _]; constructor. intros k' v' I'. destruct (T k' v' I') as (s & [->|[-> _]]); constructor.
  - rewrite H. constructor.
Qed.
Lemma deep_unreadable l : ~ shallow (JObj l) -> unreadable l.
Proof.
  intros N. pose proof (unmarshal_members_may (fun x => x) l (fun x => Permutation_refl x)) as H.
  destruct (unmarshal_members (fun x => x) l) as [ms| | |]; [|exact H|contradiction|contradiction].
  exfalso. apply N, readable_shallow. intros k v I. clear - H I.
  induction H as [|x y t u [_ [T _]] F IH]; [destruct I|]. destruct I as [->|I]; [cbn in T; eauto|auto].
Qed.

(** ** An order for every reading *)
Lemma partition_perm A (f : A -> bool) l : Permutation l (filter (fun x => negb (f x)) l ++ filter f l).
Proof.
  induction l as [|x l IH]; [constructor|]. cbn [filter]. destruct (f x); cbn [negb].
  - etransitivity; [apply perm_skip, IH|]. apply Permutation_middle.
  - cbn [app]. now constructor.
Qed.
Lemma lastk_app_only a b n s : (exists k, In (k, s) b /\ to_lower k = n) -> (forall k s', In (k, s') b -> to_lower k = n -> s' = s) ->
  lastk (a ++ b) n = Some s.
Proof.
  intros (k & I & E) U. unfold lastk. rewrite rev_app_distr.
  assert (F : forall x y, find (fun e : bytes * bytes => beq (to_lower (fst e)) n) (x ++ y) = match find (fun e => beq (to_lower (fst e)) n) x with Some e => Some e | None => find (fun e => beq (to_lower (fst e)) n) y end).
  { induction x as [|e x IH]; intro y; [reflexivity|]. cbn [app find]. destruct (beq _ _); [reflexivity|apply IH]. }
  rewrite F. destruct (find _ (rev b)) as [[k' s']|] eqn:Q.
  - apply find_some in Q as [J B]. apply in_rev in J. apply beq_eq in B. cbn [fst snd] in *. f_equal. exact (U _ _ J B).
  - exfalso. apply in_rev in I. apply find_none with (x := (k, s)) in Q; [|exact I]. cbn [fst] in Q. rewrite E, beq_refl in Q. discriminate.
Qed.
(** chosen texts of some names: an order in which they come last *)
Lemma order_for (pm : list (bytes * bytes)) (ch : bytes -> option bytes) (ns : list bytes) :
  (forall n, In n ns -> match ch n with Some s => exists k, In (k, s) pm /\ to_lower k = n | None => forall k s, In (k, s) pm -> to_lower k <> n end) ->
  exists pm', Permutation pm pm' /\ forall n, In n ns -> lastk pm' n = ch n.
Proof.
  intros H.
  set (f := fun e : bytes * bytes => existsb (fun n => beq (to_lower (fst e)) n && match ch n with Some s => beq (snd e) s | None => false end) ns).
  exists (filter (fun x => negb (f x)) pm ++ filter f pm). split; [apply partition_perm|].
  intros n I. specialize (H n I). destruct (ch n) as [s|] eqn:C.
  - destruct H as (k & J & E). apply lastk_app_only.
    + exists k. split; [|exact E]. apply filter_In. split; [exact J|]. apply existsb_exists. exists n. split; [exact I|].
      cbn [fst snd]. rewrite C, E, !beq_refl. reflexivity.
    + intros k' s' J' E'. apply filter_In in J' as [_ J']. apply existsb_exists in J' as (n' & _ & B). apply andb_prop in B as [B1 B2].
      apply beq_eq in B1. cbn [fst snd] in *. assert (n' = n) as -> by congruence. rewrite C in B2. now apply beq_eq.
  - pose proof (lastk_one (filter (fun x => negb (f x)) pm ++ filter f pm) n) as L. destruct (lastk _ n) as [s|]; [|reflexivity].
    destruct L as (k & J & E). exfalso. apply (H k s); [|exact E]. apply in_app_or in J as [J|J]; apply filter_In in J; apply J.
Qed.
Lemma reading_order v m : may_read v m -> exists perm m', (forall x, Permutation x (perm x)) /\ unmarshal_message perm v = Ok m' /\ same_message m' m.
Proof.
  intros H. destruct H as [s m A B C|l m o o' T CO1 CO2 CX1 CX2 CA].
  - exists (fun x => x). eexists. split; [intros; apply Permutation_refl|]. split; [reflexivity|]. split; [now symmetry|]. split; [now symmetry|].
    intro c. cbn [tr_of j_tr cat_get]. destruct (cat_eqb Other c) eqn:E.
    + apply cat_eqb_eq in E. subst c. symmetry. apply C. auto.
    + destruct (cat_get (tr_of m) c) as [x|] eqn:G; [|reflexivity]. apply C in G as [-> _]. discriminate.
  - destruct (texts_members l T) as (mm & E & F).
    set (ch := fun n => if beq n (bs "comment") then o else if beq n (bs "context") then o'
                        else match find (fun c => beq n (cat_name c)) all_categories with Some c => cat_get (tr_of m) c | None => None end).
    assert (CC : forall c, ch (cat_name c) = cat_get (tr_of m) c) by (intros []; reflexivity).
    assert (ON : forall n w, one_of l n w -> match w with Some s => exists k, In (k, s) (to_map mm) /\ to_lower k = n
                              | None => forall k s, In (k, s) (to_map mm) -> to_lower k <> n end).
    { intros n [s|]; cbn [one_of].
      - intros (k & v & L & Q & X). apply (proj1 (last_member_map _ _ _ _ _ F)) in L as (s' & L & X'). rewrite (text_value_fun _ _ _ X X').
        exists k. split; [now apply to_map_last|exact Q].
      - intros N k s I Q. apply to_map_last in I. apply (proj2 (last_member_map _ _ _ _ _ F)) in I as (v & L & X). apply (N s). exists k, v. auto. }
    destruct (order_for (to_map mm) ch (bs "comment" :: bs "context" :: map cat_name all_categories)) as (pm & P & L).
    { intros n I. apply ON. destruct I as [<-|[<-|I]]; [exact CO1|exact CX1|]. apply in_map_iff in I as (c & <- & _). rewrite CC. apply CA. }
    exists (fun x => if list_eq_dec (fun a b : bytes * bytes => ltac:(decide equality; apply (list_eq_dec ascii_dec))) x (to_map mm) then pm else x).
    eexists. split; [|split].
    + intro x. destruct (list_eq_dec _ x (to_map mm)) as [->|_]; [exact P|apply Permutation_refl].
    + cbn [unmarshal_message]. rewrite E. cbn [rbind]. destruct (list_eq_dec _ (to_map mm) (to_map mm)) as [_|N]; [reflexivity|congruence].
    + pose proof (members_spec pm (JMsg [] [] (Some []))) as (A & B & _ & C & _). cbv zeta in A, B, C.
      split; [|split].
      * rewrite A, L by (now left). change (ch (bs "comment")) with o. rewrite CO2. destruct o; reflexivity.
      * rewrite B, L by (right; now left). change (ch (bs "context")) with o'. rewrite CX2. destruct o'; reflexivity.
      * intro c. rewrite C, L by (right; right; apply in_map; destruct c; cbn; tauto). rewrite CC. destruct (cat_get (tr_of m) c); reflexivity.
Qed.
