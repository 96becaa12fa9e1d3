(** Lemmas about single messages in memory. *)
From Coq Require Import String Ascii List ZArith Bool Lia Permutation.
From Verif Require Import Base BaseProofs StrModel PoStrModel CldrModel GettextModel GettextProofs JsonModel JsonSpec JsonProofs JsonRoundProofs JsonHeapModel JsonHeapSpec JsonHeapProofs JsonMsgModel JsonMsgSpec.
Import ListNotations.

Lemma update_same : forall A (l : list A) i f x, nth_error l i = Some x -> nth_error (update l i f) i = Some (f x).
Proof. intros A l. induction l as [|y l IH]; intros [|i] f x H; cbn in *; try discriminate; [congruence|auto]. Qed.
Lemma update_other : forall A (l : list A) i j f, i <> j -> nth_error (update l i f) j = nth_error l j.
Proof. intros A l. induction l as [|y l IH]; intros [|i] [|j] f N; cbn; try reflexivity; [congruence|]. apply IH. congruence. Qed.

Lemma view_inv : forall h a m, view h a = Some m -> exists c, nth_error (h_msgs h) a = Some c /\ mc_comment c = j_comment m /\ mc_context c = j_context m /\
  match mc_tr c with None => j_tr m = None | Some p => exists t, nth_error (h_maps h) p = Some t /\ j_tr m = Some t end.
Proof.
  intros h a m V. unfold view in V. destruct (nth_error (h_msgs h) a) as [c|]; [|discriminate]. exists c. split; [reflexivity|].
  destruct (mc_tr c) as [p|]; [|injection V as <-; auto]. destruct (nth_error (h_maps h) p) as [t|] eqn:T; [|discriminate]. injection V as <-.
  split; [reflexivity|]. split; [reflexivity|]. exists t. auto.
Qed.
Lemma view_intro : forall h a c, nth_error (h_msgs h) a = Some c -> forall t, match mc_tr c with None => t = None | Some p => nth_error (h_maps h) p = t /\ t <> None end ->
  view h a = Some (JMsg (mc_comment c) (mc_context c) t).
Proof.
  intros h a c E t T. unfold view. rewrite E. destruct (mc_tr c) as [p|]; [|now subst]. destruct T as [T N]. rewrite T. destruct t; [reflexivity|congruence].
Qed.

(** ** One map changed *)
Lemma set_view : forall h a m p t f, view h a = Some m -> map_of h a = Some p -> nth_error (h_maps h) p = Some t ->
  view (Heap (h_msgs h) (update (h_maps h) p f)) a = Some (JMsg (j_comment m) (j_context m) (Some (f t))).
Proof.
  intros h a m p t f V P T. destruct (view_inv _ _ _ V) as (c & E & C & X & _). unfold map_of in P. rewrite E in P.
  rewrite <- C, <- X. apply view_intro; [exact E|]. rewrite P. cbn [h_maps]. rewrite (update_same _ _ _ _ _ T). split; [reflexivity|discriminate].
Qed.
Lemma set_view_other : forall h b p f, map_of h b <> Some p -> view (Heap (h_msgs h) (update (h_maps h) p f)) b = view h b.
Proof.
  intros h b p f N. unfold map_of in N. unfold view. cbn [h_msgs h_maps]. destruct (nth_error (h_msgs h) b) as [c|]; [|reflexivity].
  destruct (mc_tr c) as [q|]; [|reflexivity]. rewrite update_other by congruence. reflexivity.
Qed.

(** ** Fitting *)
Lemma fitted_twice : forall cats t t' t'', NoDup (map fst t) -> fitted cats t t' -> NoDup (map fst t') -> fitted cats t' t'' -> forall c, cat_get t'' c = cat_get t' c.
Proof.
  intros cats t t' t'' ND [F1 F2] ND' [G1 G2] c. destruct (singular_dec t' ND') as [S'|S']; [now apply G1|].
  destruct (singular_dec t ND) as [S|S].
  { elim S'. intro d. unfold has_cat. rewrite (F1 S). apply S. }
  destruct (in_dec cat_dec c cats) as [I|I].
  - rewrite (proj1 (G2 S' c) I), (proj1 (F2 S c) I). reflexivity.
  - rewrite (proj2 (G2 S' c) I), (proj2 (F2 S c) I). reflexivity.
Qed.

(** ** The members of an object *)
Lemma str_members_texts : forall l, texts l -> exists mm, str_members l = Ok mm /\ Forall2 (fun e e' => fst e = fst e' /\ text_value (snd e) (snd e')) l mm.
Proof.
  induction l as [|[k v] l IH]; intro T; [exists []; split; [reflexivity|constructor]|]. cbn [str_members].
  destruct IH as (mm & E & F); [intros a b I; apply (T a b); now right|]. rewrite E. cbn [rbind].
  destruct (T k v (or_introl eq_refl)) as (s & [->|[-> ->]]); eexists; (split; [reflexivity|]); constructor; auto; split; auto; [now left|right; auto].
Qed.
Lemma str_members_other : forall l, ~ texts l -> str_members l = Err.
Proof.
  induction l as [|[k v] l IH]; intro N; [elim N; intros a b []|]. cbn [str_members].
  assert (D : (exists s, text_value v s) \/ (forall s, ~ text_value v s)).
  { destruct v; try (left; eexists; (now left) || (right; split; reflexivity)); right; intros s [X|[X _]]; discriminate. }
  destruct D as [(s & D)|D].
  - rewrite IH; [reflexivity|]. intro T. apply N. intros a b [X|I]; [injection X as <- <-; eauto|eauto].
  - assert (R : exists r, str_members l = r /\ (r = Err \/ exists mm, r = Ok mm)).
    { clear. induction l as [|[k v] l (r & R & O)]; [eexists; split; [reflexivity|right; eexists; reflexivity]|]. cbn [str_members]. rewrite R.
      destruct O as [->|(mm & ->)]; cbn [rbind]; [eexists; split; [reflexivity|now left]|]. destruct v; eexists; (split; [reflexivity|]); ((now left) || (right; eexists; reflexivity)). }
    destruct R as (r & -> & [->|(mm & ->)]); cbn [rbind]; [reflexivity|].
    destruct v; try reflexivity; [elim (D []); right; auto|elim (D s); now left].
Qed.

Lemma members_said : forall perm l mm m, (forall x, Permutation x (perm x)) -> distinct_names l -> str_members l = Ok mm ->
  Forall2 (fun e e' => fst e = fst e' /\ text_value (snd e) (snd e')) l mm ->
  let r := fold_left set_member (perm (to_map mm)) m in
  forall n, (forall s, names l n s -> lastk (perm (to_map mm)) n = Some s) /\ (silent l n -> lastk (perm (to_map mm)) n = None).
Proof.
  intros perm l mm m P D E F r n.
  assert (K : map (fun e => to_lower (fst e)) mm = map (fun e => to_lower (fst e)) l).
  { clear - F. induction F as [|a b x y [A _] F IH]; [reflexivity|]. cbn [map]. now rewrite A, IH. }
  assert (ND : NoDup (map (fun e : bytes * bytes => to_lower (fst e)) mm)) by (rewrite K; exact D).
  assert (N1 : NoDup (map fst mm)) by (apply (NoDup_map_inv to_lower); rewrite map_map; exact ND).
  rewrite to_map_id by exact N1.
  assert (LP : lastk (perm mm) n = lastk mm n) by (symmetry; apply lastk_perm; auto). rewrite LP. split.
  - intros s (k & v & I & L & T). apply lastk_iff; [exact ND|].
    assert (X : exists s', In (k, s') mm /\ text_value v s').
    { clear - F I. induction F as [|a b x y [A B] F IH]; [destruct I|]. destruct I as [->|I]; [exists (snd b); cbn [fst snd] in *; subst k; split; [left; now destruct b|exact B]|].
      destruct (IH I) as (s' & X & Y). exists s'. split; [now right|exact Y]. }
    destruct X as (s' & X & Y). exists k. split; [|exact L]. replace s with s'; [exact X|]. destruct T as [->|[-> ->]], Y as [Y|[Y Z]]; congruence.
  - intro S. destruct (lastk mm n) as [s|] eqn:L; [|reflexivity]. exfalso. apply (lastk_iff mm n s ND) in L as (k & I & L).
    assert (X : exists v, In (k, v) l).
    { clear - F I. induction F as [|a b x y [A B] F IH]; [destruct I|]. destruct I as [->|I]; [exists (snd a); left; destruct a; cbn [fst snd] in *; congruence|].
      destruct (IH I) as (v & X). exists v. now right. }
    destruct X as (v & X). now apply (S k v X).
Qed.

(** ** Reading: the message has a map afterwards *)
Definition ensured (h : heap) (a : nat) : heap * nat :=
  match map_of h a with
  | Some p => (h, p)
  | None => (Heap (update (h_msgs h) a (fun x => MCell (mc_comment x) (mc_context x) (Some (length (h_maps h))))) (h_maps h ++ [[]]), length (h_maps h))
  end.
Lemma ensured_spec : forall h a m, view h a = Some m -> let (h1, p) := ensured h a in
  nth_error (h_maps h1) p = Some (tr_of m) /\ map_of h1 a = Some p /\ view h1 a = Some (JMsg (j_comment m) (j_context m) (Some (tr_of m))) /\
  forall b mb, apart h a b -> view h b = Some mb -> view h1 b = Some mb /\ map_of h1 b <> Some p.
Proof.
  intros h a m V. destruct (view_inv _ _ _ V) as (c & E & C & X & T). unfold ensured, map_of. rewrite E. destruct (mc_tr c) as [p|] eqn:Q.
  - destruct T as (t & T & J). unfold tr_of. rewrite J. split; [exact T|]. rewrite E. split; [exact Q|]. split; [rewrite V; destruct m; cbn in *; congruence|].
    intros b mb (N & A) Vb. split; [exact Vb|]. destruct (view_inv _ _ _ Vb) as (cb & Eb & _). rewrite Eb. unfold map_of in A. rewrite E, Eb in A. rewrite <- Q. destruct A as [A|A]; congruence.
  - unfold tr_of. rewrite T. cbn [h_maps h_msgs]. rewrite nth_last. split; [reflexivity|]. rewrite (update_same _ _ _ _ _ E). cbn [mc_tr]. split; [reflexivity|]. split.
    + rewrite <- C, <- X.
      apply (view_intro (Heap (update (h_msgs h) a (fun x => MCell (mc_comment x) (mc_context x) (Some (length (h_maps h))))) (h_maps h ++ [[]])) a
               (MCell (mc_comment c) (mc_context c) (Some (length (h_maps h)))) (update_same _ _ _ _ _ E)).
      cbn [mc_tr h_maps]. rewrite nth_last. split; [reflexivity|discriminate].
    + intros b mb (N & _) Vb. destruct (view_inv _ _ _ Vb) as (cb & Eb & Cb & Xb & Tb). rewrite update_other by exact N. rewrite Eb.
      assert (LT : forall p, mc_tr cb = Some p -> (p < length (h_maps h))%nat).
      { intros p P. rewrite P in Tb. destruct Tb as (t & Tb & _). apply nth_error_Some. congruence. }
      split; [|destruct (mc_tr cb) as [p|]; [|discriminate]; specialize (LT p eq_refl); injection 1; lia].
      unfold view. cbn [h_msgs h_maps]. rewrite update_other by exact N. rewrite Eb. destruct (mc_tr cb) as [p|] eqn:P.
      * destruct Tb as (t & Tb & Jb). rewrite (nth_app_some _ _ _ _ _ Tb). destruct mb; cbn in *; congruence.
      * destruct mb; cbn in *; congruence.
Qed.
Lemma unmarshal_eq : forall perm h a v m, view h a = Some m -> h_unmarshal perm h a v =
  let (h1, p) := ensured h a in
  match v with
  | JStr s => Ok (set_map h1 p (cat_set (tr_of m) Other s), true)
  | JNull => Ok (set_map h1 p (cat_set (tr_of m) Other []), true)
  | JObj l =>
      match str_members l with
      | Ok mm =>
          let r := fold_left set_member (perm (to_map mm)) (JMsg (j_comment m) (j_context m) (Some (tr_of m))) in
          Ok (Heap (update (h_msgs h1) a (fun x => MCell (j_comment r) (j_context r) (mc_tr x))) (update (h_maps h1) p (fun _ => tr_of r)), true)
      | _ => Ok (h1, false)
      end
  | _ => Ok (h1, false)
  end.
Proof.
  intros perm h a v m V. pose proof (ensured_spec h a m V) as S. destruct (view_inv _ _ _ V) as (c & E & C & X & _). unfold h_unmarshal. rewrite E.
  unfold ensured, map_of in *. rewrite E in *. destruct (mc_tr c) as [p|].
  - destruct S as (N & _). rewrite N, C, X. reflexivity.
  - destruct S as (N & _). rewrite N, C, X. reflexivity.
Qed.
Lemma set_cell : forall h a p t r, nth_error (h_maps h) p = Some t -> map_of h a = Some p -> j_tr r <> None ->
  view (Heap (update (h_msgs h) a (fun x => MCell (j_comment r) (j_context r) (mc_tr x))) (update (h_maps h) p (fun _ => tr_of r))) a = Some r.
Proof.
  intros h a p t r T P J. unfold map_of in P. destruct (nth_error (h_msgs h) a) as [c|] eqn:E; [|discriminate].
  unfold view. cbn [h_msgs h_maps]. rewrite (update_same _ _ _ _ _ E). cbn [mc_tr mc_comment mc_context]. rewrite P, (update_same _ _ _ _ _ T).
  unfold tr_of. destruct r as [x y [z|]]; cbn in *; [reflexivity|congruence].
Qed.
Lemma set_cell_other : forall h a b p f g, a <> b -> map_of h b <> Some p ->
  view (Heap (update (h_msgs h) a f) (update (h_maps h) p g)) b = view h b.
Proof.
  intros h a b p f g N M. unfold map_of in M. unfold view. cbn [h_msgs h_maps]. rewrite update_other by exact N. destruct (nth_error (h_msgs h) b) as [c|]; [|reflexivity].
  destruct (mc_tr c) as [q|]; [|reflexivity]. rewrite update_other by congruence. reflexivity.
Qed.
