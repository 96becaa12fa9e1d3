(** The catalog in memory shows the catalog of JsonModel and owns its cells. *)
From Coq Require Import String Ascii List ZArith Bool Lia.
From Verif Require Import Base BaseProofs StrModel PoStrModel CldrModel GettextModel GettextProofs JsonModel JsonSpec JsonProofs JsonRoundProofs JsonHeapModel JsonHeapSpec.
Import ListNotations.

Lemma extends_refl : forall h, extends h h.
Proof. intro h. split; exists []; now rewrite app_nil_r. Qed.
Lemma extends_trans : forall a b c, extends a b -> extends b c -> extends a c.
Proof.
  intros a b c [(x & X) (y & Y)] [(x' & X') (y' & Y')]. split; [exists (x ++ x'); rewrite X', X|exists (y ++ y'); rewrite Y', Y]; now rewrite app_assoc.
Qed.
Lemma extends_len : forall h h', extends h h' -> (length (h_msgs h) <= length (h_msgs h') /\ length (h_maps h) <= length (h_maps h'))%nat.
Proof. intros h h' [(x & X) (y & Y)]. rewrite X, Y, !app_length. lia. Qed.
Lemma nth_app_some : forall A (l l' : list A) i x, nth_error l i = Some x -> nth_error (l ++ l') i = Some x.
Proof. intros A l l' i x H. rewrite nth_error_app1; [exact H|]. apply nth_error_Some. congruence. Qed.
Lemma nth_last : forall A (l : list A) x, nth_error (l ++ [x]) (length l) = Some x.
Proof. intros. rewrite nth_error_app2 by lia. now rewrite Nat.sub_diag. Qed.
Lemma update_last : forall A (l : list A) x f, update (l ++ [x]) (length l) f = l ++ [f x].
Proof. intros A. induction l as [|y l IH]; intros x f; [reflexivity|]. cbn. now rewrite IH. Qed.
Lemma view_ext : forall h h' a m, extends h h' -> view h a = Some m -> view h' a = Some m.
Proof.
  intros h h' a m [(x & X) (y & Y)] V. unfold view in *. destruct (nth_error (h_msgs h) a) as [c|] eqn:E; [|discriminate].
  rewrite X, (nth_app_some _ _ _ _ _ E). destruct (mc_tr c) as [p|]; [|exact V].
  destruct (nth_error (h_maps h) p) as [t|] eqn:F; [|discriminate]. rewrite Y, (nth_app_some _ _ _ _ _ F). exact V.
Qed.
Lemma fresh_ext : forall h h1 h2 a m, extends h1 h2 -> view h1 a = Some m -> fresh_in h h1 a -> fresh_in h h2 a.
Proof.
  intros h h1 h2 a m [(x & X) _] V [F1 F2]. split; [exact F1|]. intros c p N T. unfold view in V.
  destruct (nth_error (h_msgs h1) a) as [c'|] eqn:E; [|discriminate]. rewrite X, (nth_app_some _ _ _ _ _ E) in N. injection N as <-.
  now apply (F2 _ _ eq_refl).
Qed.
Lemma fresh_base : forall h h' h2 a, extends h h' -> fresh_in h' h2 a -> fresh_in h h2 a.
Proof. intros h h' h2 a E [F1 F2]. apply extends_len in E. split; [lia|]. intros m p N T. specialize (F2 m p N T). lia. Qed.

Lemma clone_spec : forall h a m, view h a = Some m -> exists h' b, clone h a = Ok (h', b) /\ extends h h' /\
  b = length (h_msgs h) /\ view h' b = Some m /\ fresh_in h h' b.
Proof.
  intros h a m V. unfold view in V. unfold clone. destruct (nth_error (h_msgs h) a) as [c|] eqn:E; [|discriminate].
  destruct (mc_tr c) as [p|] eqn:T.
  - destruct (nth_error (h_maps h) p) as [t|] eqn:F; [|discriminate]. injection V as <-. eexists _, _. split; [reflexivity|].
    split; [split; cbn [h_msgs h_maps]; eexists; reflexivity|]. split; [reflexivity|]. split.
    + unfold view. cbn [h_msgs h_maps]. rewrite nth_last. cbn [mc_tr]. rewrite nth_last. reflexivity.
    + split; [lia|]. cbn [h_msgs]. rewrite nth_last. intros x q X Q. injection X as <-. cbn [mc_tr] in Q. injection Q as <-. lia.
  - injection V as <-. eexists _, _. split; [reflexivity|].
    split; [split; cbn [h_msgs h_maps]; eexists; [reflexivity|symmetry; apply app_nil_r]|]. split; [reflexivity|]. split.
    + unfold view. cbn [h_msgs h_maps]. rewrite nth_last. reflexivity.
    + split; [lia|]. cbn [h_msgs]. rewrite nth_last. intros x q X Q. injection X as <-. discriminate.
Qed.

(** ** Related maps *)
Definition rel {A B} (R : A -> B -> Prop) (x : bytes * A) (y : bytes * B) : Prop := fst x = fst y /\ R (snd x) (snd y).
Lemma rel_set : forall A B (R : A -> B -> Prop) m m' k v v', Forall2 (rel R) m m' -> R v v' -> Forall2 (rel R) (map_set m k v) (map_set m' k v').
Proof.
  intros A B R m m' k v v' F RV. induction F as [|[a x] [b y] m m' [E X] F IH]; cbn [map_set]; [repeat constructor; auto|].
  cbn [fst snd] in *. subst b. destruct (beq a k); constructor; auto; split; auto.
Qed.
Lemma rel_get : forall A B (R : A -> B -> Prop) m m' k, Forall2 (rel R) m m' ->
  match map_get m k, map_get m' k with Some x, Some y => R x y | None, None => True | _, _ => False end.
Proof.
  intros A B R m m' k F. induction F as [|[a x] [b y] m m' [E X] F IH]; cbn [map_get]; [exact I|]. cbn [fst snd] in *. subst b.
  destruct (beq a k); [exact X|exact IH].
Qed.
Lemma rel_mono : forall A B (R R' : A -> B -> Prop) m m', (forall x y, R x y -> R' x y) -> Forall2 (rel R) m m' -> Forall2 (rel R') m m'.
Proof. intros A B R R' m m' H F. induction F as [|x y m m' [E X] F IH]; constructor; [split; auto|exact IH]. Qed.

Section H.
  Variable tag : Type.
  (** [owner] is the memory before the catalog was made *)
  Definition cell_of (owner h : heap) (a : nat) (m : jmsg) : Prop := view h a = Some m /\ fresh_in owner h a.
  Definition shows (owner h : heap) (hc : hcat tag) (c : jcat tag) : Prop :=
    hc_lang hc = jc_lang c /\ hc_domain hc = jc_domain c /\ hc_rules hc = jc_rules c /\
    Forall2 (rel (Forall2 (rel (cell_of owner h)))) (hc_map hc) (jc_map c).
  Lemma cell_ext : forall owner h h' a m, extends h h' -> cell_of owner h a m -> cell_of owner h' a m.
  Proof. intros owner h h' a m E [V F]. split; [eapply view_ext; eauto|eapply fresh_ext; eauto]. Qed.
  Lemma shows_ext : forall owner h h' hc c, extends h h' -> shows owner h hc c -> shows owner h' hc c.
  Proof.
    intros owner h h' hc c E (A & B & C & D). split; [exact A|]. split; [exact B|]. split; [exact C|].
    eapply rel_mono; [|exact D]. intros x y F. eapply rel_mono; [|exact F]. intros a m. now apply cell_ext.
  Qed.
  Lemma set_message_shows : forall order owner h hc c k src m, extends owner h -> shows owner h hc c -> input_views h (k, src) (k, m) ->
    match set_message tag order c k m with
    | Ok c' => exists h' hc', h_set_message tag order h hc k src = Ok (h', hc') /\ extends h h' /\ shows owner h' hc' c'
    | r => h_set_message tag order h hc k src = match r with Err => Err | Panic => Panic | _ => OutOfFuel end
    end.
  Proof.
    intros order owner h hc c k src m EX SH [_ IV]. cbn [snd] in IV. unfold set_message, h_set_message.
    destruct (is_nil k); [reflexivity|]. destruct src as [a|], m as [m|]; try contradiction; [|reflexivity].
    pose proof IV as V. unfold view in V. destruct (nth_error (h_msgs h) a) as [mc|] eqn:NA; [|discriminate].
    assert (CM : mc_context mc = j_context m /\ mc_comment mc = j_comment m).
    { destruct (mc_tr mc) as [p|]; [destruct (nth_error (h_maps h) p); [|discriminate]|]; injection V as <-; auto. }
    destruct CM as [CX CC]. rewrite CX. destruct (negb (is_nil (j_context m)) && _); [reflexivity|].
    unfold clone. rewrite NA. destruct (mc_tr mc) as [p|] eqn:T.
    - destruct (nth_error (h_maps h) p) as [t|] eqn:NP; [|discriminate]. injection V as V. rewrite <- V. cbn [j_tr].
      cbn [rbind]. cbn [h_msgs h_maps]. rewrite nth_last. cbn [mc_tr rbind]. cbn [h_msgs h_maps]. rewrite nth_last.
      destruct (cat_get t Other) as [o|]; [|reflexivity].
      eexists _, _. split; [reflexivity|]. rewrite update_last.
      match goal with |- extends h ?x /\ _ => set (h' := x) end.
      assert (EH : extends h h') by (split; cbn [h' h_msgs h_maps]; eexists; reflexivity).
      split; [exact EH|]. destruct (shows_ext owner h h' hc c EH SH) as (A & B & C & D).
      split; [exact A|]. split; [exact B|]. split; [exact C|]. cbn [hc_map jc_map].
      replace (j_context {| j_comment := mc_comment mc; j_context := mc_context mc; j_tr := Some t |}) with (j_context m) by (rewrite V; reflexivity).
      apply rel_set; [exact D|]. pose proof (rel_get _ _ _ _ _ (j_context m) D) as G.
      assert (CE : cell_of owner h' (length (h_msgs h)) (JMsg (j_comment m) (j_context m) (Some (apply_categories order (rs_categories (hc_rules hc)) t)))).
      { split.
        - unfold view. cbn [h' h_msgs h_maps]. rewrite nth_last. cbn [mc_tr mc_comment mc_context]. rewrite nth_last, CC, CX. reflexivity.
        - apply extends_len in EX. split; [lia|]. cbn [h' h_msgs]. rewrite nth_last. intros x q X Q. injection X as <-. cbn [mc_tr] in Q. injection Q as <-. lia. }
      cbn [hc_rules]. rewrite <- C in *. cbn [j_comment j_context]. rewrite CX, CC in *.
      destruct (map_get (hc_map hc) (j_context m)) as [x|], (map_get (jc_map c) (j_context m)) as [y|]; try contradiction;
        apply rel_set; auto.
    - injection V as V. rewrite <- V. cbn [j_tr cat_get]. cbn [rbind h_msgs h_maps]. rewrite nth_last. cbn [mc_tr rbind]. cbn [h_msgs h_maps].
      rewrite nth_last. reflexivity.
  Qed.
  Lemma input_ext : forall h h' l l', extends h h' -> Forall2 (input_views h) l l' -> Forall2 (input_views h') l l'.
  Proof.
    intros h h' l l' E F. induction F as [|[k a] [k' m] l l' [X Y] F IH]; constructor; [|exact IH]. split; [exact X|]. cbn [snd] in *.
    destruct a, m; auto. eapply view_ext; eauto.
  Qed.
  Lemma set_messages_shows : forall order owner l l' h hc c, extends owner h -> shows owner h hc c -> Forall2 (input_views h) l l' ->
    match set_messages tag order c l' with
    | Ok c' => exists h' hc', h_set_messages tag order h hc l = Ok (h', hc') /\ extends h h' /\ shows owner h' hc' c'
    | r => h_set_messages tag order h hc l = match r with Err => Err | Panic => Panic | _ => OutOfFuel end
    end.
  Proof.
    intros order owner l l' h hc c EX SH F. revert h hc c EX SH F. revert l'.
    induction l as [|[k a] l IH]; intros l' h hc c EX SH F; inversion F as [|? [k' m] ? l2 X F']; subst.
    - cbn [set_messages h_set_messages]. exists h, hc. split; [reflexivity|]. split; [apply extends_refl|exact SH].
    - pose proof X as [E _]. cbn [fst] in E. subst k'. cbn [set_messages h_set_messages].
      pose proof (set_message_shows order owner h hc c k a m EX SH X) as S1.
      destruct (set_message tag order c k m) as [c1| | |]; cbn [rbind]; try (rewrite S1; reflexivity).
      destruct S1 as (h1 & hc1 & -> & E1 & SH1). cbn [rbind].
      specialize (IH l2 h1 hc1 c1 (extends_trans _ _ _ EX E1) SH1 (input_ext _ _ _ _ E1 F')).
      destruct (set_messages tag order c1 l2); try exact IH. destruct IH as (h2 & hc2 & A & B & C). exists h2, hc2.
      split; [exact A|]. split; [eapply extends_trans; eauto|exact C].
  Qed.

  (** ** Copies *)
  Lemma copy_shows : forall owner base l l' h acc acc', extends base h ->
    Forall2 (rel (cell_of owner h)) l l' -> Forall2 (rel (cell_of base h)) acc acc' ->
    exists h' out, h_copy h l acc = Ok (h', out) /\ extends h h' /\
      Forall2 (rel (cell_of base h')) out (fold_left (fun a km => map_set a (fst km) (snd km)) l' acc').
  Proof.
    intros owner base l l' h acc acc' EX F FA. revert h acc acc' EX F FA. revert l'.
    induction l as [|[k a] l IH]; intros l' h acc acc' EX F FA; inversion F as [|? [k' m] ? l2 [E [V _]] F']; subst; cbn [h_copy fold_left].
    - exists h, acc. split; [reflexivity|]. split; [apply extends_refl|exact FA].
    - cbn [fst snd] in *. subst k'. destruct (clone_spec h a m V) as (h1 & b & C & E1 & _ & V1 & F1). rewrite C. cbn [rbind].
      edestruct (IH l2 h1 (map_set acc k b) (map_set acc' k m)) as (h2 & out & R & E2 & FO).
      + eapply extends_trans; eauto.
      + eapply rel_mono; [|exact F']. intros x y. now apply cell_ext.
      + apply rel_set; [eapply rel_mono; [|exact FA]; intros x y; now apply cell_ext|]. split; [exact V1|]. eapply fresh_base; eauto.
      + exists h2, out. split; [exact R|]. split; [eapply extends_trans; eauto|exact FO].
  Qed.
  Lemma copies_shows : forall owner base l l' h acc acc', extends base h ->
    Forall2 (rel (Forall2 (rel (cell_of owner h)))) l l' -> Forall2 (rel (cell_of base h)) acc acc' ->
    exists h' out, h_copies h l acc = Ok (h', out) /\ extends h h' /\
      Forall2 (rel (cell_of base h')) out
        (fold_left (fun acc ctx => fold_left (fun a km => map_set a (fst km) (snd km)) (snd ctx) acc) l' acc').
  Proof.
    intros owner base l l' h acc acc' EX F FA. revert h acc acc' EX F FA. revert l'.
    induction l as [|[k ms] l IH]; intros l' h acc acc' EX F FA; inversion F as [|? [k' ms'] ? l2 [E V] F']; subst; cbn [h_copies fold_left].
    - exists h, acc. split; [reflexivity|]. split; [apply extends_refl|exact FA].
    - cbn [fst snd] in *. subst k'. destruct (copy_shows owner base ms ms' h acc acc' EX V FA) as (h1 & out1 & C & E1 & FO1). rewrite C. cbn [rbind].
      edestruct (IH l2 h1 out1) as (h2 & out & R & E2 & FO).
      + eapply extends_trans; eauto.
      + eapply rel_mono; [|exact F']. intros x y. apply rel_mono. intros a m. now apply cell_ext.
      + exact FO1.
      + exists h2, out. split; [exact R|]. split; [eapply extends_trans; eauto|exact FO].
  Qed.
  Lemma messages_shows : forall owner h hc c, shows owner h hc c -> exists h' out, h_messages tag h hc = Ok (h', out) /\ extends h h' /\
    Forall2 (rel (cell_of h h')) out (j_messages tag c).
  Proof.
    intros owner h hc c (_ & _ & _ & D). unfold h_messages, j_messages.
    eapply (copies_shows owner h _ _ h [] []); [apply extends_refl|exact D|constructor].
  Qed.

  (** ** Lookups see only the catalog's own cells *)
  Lemma translation_shows : forall owner h h3 hc c, shows owner h hc c -> same_between owner h h h3 ->
    forall ctx key cat, h_translation tag h3 hc ctx key cat = Ok (j_translation tag c ctx key cat).
  Proof.
    intros owner h h3 hc c (A & B & C & D) [SM SP] ctx key cat. unfold h_translation, j_translation. rewrite A, B.
    set (key' := if is_nil ctx then key else key ++ bs "_" ++ ctx). clearbody key'.
    pose proof (rel_get _ _ _ _ _ ctx D) as G. destruct (map_get (hc_map hc) ctx) as [ms|], (map_get (jc_map c) ctx) as [ms'|]; try contradiction; [|reflexivity].
    pose proof (rel_get _ _ _ _ _ key' G) as G2. destruct (map_get ms key') as [a|], (map_get ms' key') as [m|]; try contradiction; [|reflexivity].
    destruct G2 as [V [F1 F2]]. unfold view in V. destruct (nth_error (h_msgs h) a) as [mc|] eqn:NA; [|discriminate].
    assert (LA : (a < length (h_msgs h))%nat) by (apply nth_error_Some; congruence).
    rewrite (SM a (conj F1 LA)), NA. destruct (mc_tr mc) as [p|] eqn:T.
    - destruct (nth_error (h_maps h) p) as [t|] eqn:NP; [|discriminate]. injection V as <-. cbn [j_tr].
      assert (LP : (p < length (h_maps h))%nat) by (apply nth_error_Some; congruence).
      rewrite (SP p (conj (F2 mc p eq_refl T) LP)), NP. cbn [rbind]. destruct (cat_get t cat) as [[|x v]|]; reflexivity.
    - injection V as <-. cbn [j_tr rbind cat_get]. reflexivity.
  Qed.
End H.
