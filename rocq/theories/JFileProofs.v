(** Reading the value of a JSON catalog file. *)
From Coq Require Import String Ascii List ZArith Bool Lia Permutation.
From Verif Require Import Base BaseProofs PoStrModel PoStrSpec CldrModel GettextModel GettextProofs JsonModel JsonSpec JsonProofs JsonRoundProofs JFileSpec JTextModel JTextSpec JTextProofs JTextWriteProofs.
Import ListNotations.
Open Scope Z_scope.

Lemma nodup_map_in : forall A B (f : A -> B) l, (forall x y, In x l -> In y l -> f x = f y -> x = y) -> NoDup l -> NoDup (map f l).
Proof.
  intros A B f l H N. induction N as [|x l NI N IH]; [constructor|]. cbn [map]. constructor.
  - intro I. apply in_map_iff in I as (y & E & I). apply NI. replace x with y; [exact I|]. apply H; [now right|now left|exact E].
  - apply IH. intros. apply H; [now right|now right|assumption].
Qed.
Lemma last_member_in : forall V (l : list (bytes * V)) k v, last_member l k v -> In (k, v) l.
Proof. intros V l k v (a & b & -> & _). apply in_or_app. right. now left. Qed.
Lemma last_member_snoc : forall V (l : list (bytes * V)) j w k v, last_member (l ++ [(j, w)]) k v <-> (k = j /\ v = w) \/ (k <> j /\ last_member l k v).
Proof.
  intros V l j w k v. split.
  - intros (a & b & E & N). destruct b as [|x b] using rev_ind.
    + apply app_inj_tail in E as [_ E]. injection E as -> ->. now left.
    + clear IHb. rewrite app_comm_cons, app_assoc in E. apply app_inj_tail in E as [-> <-]. rewrite map_app, in_app_iff in N. cbn in N. right. split; [intuition|].
      exists a, b. split; [reflexivity|tauto].
  - intros [[-> ->]|[N (a & b & -> & M)]]; [exists l, []; auto|]. exists a, (b ++ [(j, w)]). split; [now rewrite <- app_assoc|]. rewrite map_app, in_app_iff. cbn. intuition.
Qed.
Lemma map_set_in_iff : forall V (m : list (bytes * V)) k v x w, NoDup (map fst m) -> (In (x, w) (map_set m k v) <-> x = k /\ w = v \/ x <> k /\ In (x, w) m).
Proof.
  intros V. induction m as [|[j u] m IH]; intros k v x w ND; cbn [map_set]; cbn [map fst] in ND.
  - cbn. split; [intros [E|[]]; injection E as <- <-; auto|intros [[-> ->]|[_ []]]; auto].
  - inversion ND as [|? ? N ND']; subst. destruct (beq j k) eqn:B; cbn [In].
    + apply beq_eq in B. subst j. split.
      * intros [E|I]; [injection E as <- <-; auto|]. right. split; [|auto]. intros ->. apply N. apply in_map_iff. exists (k, w). auto.
      * intros [[-> ->]|[NE [E|I]]]; [auto|congruence|auto].
    + rewrite IH by exact ND'. split.
      * intros [E|[[-> ->]|[NE I]]]; [|auto|auto]. injection E as <- <-. right. split; [intros ->; rewrite beq_refl in B; discriminate|auto].
      * intros [[-> ->]|[NE [E|I]]]; auto.
Qed.
Lemma to_map_last : forall V (l : list (bytes * V)) k v, In (k, v) (to_map l) <-> last_member l k v.
Proof.
  intros V l. induction l as [|[j w] l IH] using rev_ind; intros k v.
  - split; [intros []|intros (a & b & E & _); destruct a; discriminate].
  - rewrite to_map_snoc, map_set_in_iff by apply to_map_nodup. cbn [fst snd]. rewrite last_member_snoc, IH. tauto.
Qed.
Lemma last_member_map : forall A B (R : A -> B -> Prop) (l : list (bytes * A)) (l' : list (bytes * B)),
  Forall2 (fun x y => fst x = fst y /\ R (snd x) (snd y)) l l' ->
  (forall k v, last_member l k v -> exists w, last_member l' k w /\ R v w) /\ (forall k w, last_member l' k w -> exists v, last_member l k v /\ R v w).
Proof.
  intros A B R l l' F.
  assert (K : forall (x : list (bytes * A)) (y : list (bytes * B)), Forall2 (fun x y => fst x = fst y /\ R (snd x) (snd y)) x y -> map fst x = map fst y).
  { induction 1 as [|? ? ? ? [E _] _ IH]; [reflexivity|]. cbn. now rewrite E, IH. }
  split.
  - intros k v (a & b & -> & N). apply Forall2_app_inv_l in F as (a' & t & FA & F & ->). inversion F as [|? [k' w] ? b' [E Q] FB]; subst. cbn [fst snd] in *. subst k'.
    exists w. split; [|exact Q]. exists a', b'. split; [reflexivity|]. now rewrite <- (K _ _ FB).
  - intros k w (a & b & -> & N). apply Forall2_app_inv_r in F as (a' & t & FA & F & ->). inversion F as [|[k' v] ? b' ? [E Q] FB]; subst. cbn [fst snd] in *. subst k'.
    exists v. split; [|exact Q]. exists a', b'. split; [reflexivity|]. now rewrite (K _ _ FB).
Qed.

Lemma str_members_ok : forall l mm, str_members l = Ok mm <-> Forall2 (fun x y => fst x = fst y /\ text_value (snd x) (snd y)) l mm.
Proof.
  induction l as [|[k v] l IH]; intro mm; cbn [str_members].
  - split; [intro E; injection E as <-; constructor|intro F; inversion F; reflexivity].
  - split.
    + intro H. apply rbind_ok in H as (r & E & H). apply IH in E. destruct v; try discriminate; injection H as <-; (constructor; [|exact E]); (split; [reflexivity|]); cbn; unfold text_value; auto.
    + intro F. inversion F as [|? [k' s] ? r [E T] F']; subst. cbn [fst snd] in *. subst k'. apply IH in F'. rewrite F'. cbn [rbind].
      destruct T as [->|[-> ->]]; reflexivity.
Qed.
Lemma str_members_fin : forall l, str_members l <> Panic /\ str_members l <> OutOfFuel.
Proof.
  induction l as [|[k v] l [A B]]; cbn [str_members]; [split; discriminate|]. destruct (str_members l); cbn [rbind]; try (split; congruence). destruct v; split; discriminate.
Qed.
Lemma unmarshal_message_fin : forall perm v, unmarshal_message perm v <> Panic /\ unmarshal_message perm v <> OutOfFuel.
Proof. intros perm [| | | |l|l]; cbn [unmarshal_message]; try (split; discriminate). destruct (str_members_fin l). destruct (str_members l); cbn; split; congruence. Qed.

Lemma field_fun : forall l n s t, plain_names (JObj l) -> field l n s -> field l n t -> s = t.
Proof.
  intros l n s t P (k & v & L & E & T) (k' & v' & L' & E' & T').
  assert (k = k') by (apply (P k k'); [apply in_map_iff; exists (k, v); split; [reflexivity|now apply last_member_in]|apply in_map_iff; exists (k', v'); split; [reflexivity|now apply last_member_in]|congruence]).
  subst k'. apply to_map_last in L, L'. assert (v = v') by (eapply key_unique; [apply (to_map_nodup _ l)|exact L|exact L']). subst v'.
  destruct T as [->|[-> ->]], T' as [X|[X ->]]; congruence.
Qed.
Lemma unmarshal_message_of : forall perm v m, (forall x, Permutation x (perm x)) -> plain_names v -> unmarshal_message perm v = Ok m ->
  message_of v m /\ NoDup (map fst (tr_of m)).
Proof.
  intros perm v m P PN H. destruct v as [| | |s|l|l]; try discriminate; cbn [unmarshal_message] in H.
  - injection H as <-. split; [|repeat constructor; intros []]. constructor; try reflexivity. intros c x. cbn [tr_of j_tr cat_get].
    destruct (cat_eqb Other c) eqn:E; [apply cat_eqb_eq in E; subst; intuition congruence|]. split; [discriminate|]. intros [-> _]. discriminate.
  - apply rbind_ok in H as (mm & E & H). pose proof (str_members_ok l mm) as [F _]. specialize (F E). injection H as <-.
    set (pm := perm (to_map mm)). pose proof (members_spec pm (JMsg [] [] (Some []))) as (A & B & _ & C & D). cbv zeta in A, B, C, D.
    assert (MK : map fst mm = map fst l) by (clear - F; induction F as [|? ? ? ? [E _] _ IH]; [reflexivity|]; cbn; now rewrite E, IH).
    assert (ND : NoDup (map (fun e => to_lower (fst e)) pm)).
    { eapply Permutation_NoDup; [apply Permutation_map; apply P|]. rewrite <- (map_map fst to_lower). apply nodup_map_in; [|apply to_map_nodup].
      intros x y X Y. apply (to_map_keys _ mm) in X. apply (to_map_keys _ mm) in Y. rewrite MK in X, Y. now apply PN. }
    assert (LK : forall n s, lastk pm n = Some s <-> field l n s).
    { intros n s. rewrite lastk_iff by exact ND. unfold pm. split.
      - intros (k & I & L). apply (Permutation_in _ (Permutation_sym (P _))) in I. apply to_map_last in I.
        apply (proj2 (last_member_map _ _ _ _ _ F)) in I as (v & I & T). exists k, v. auto.
      - intros (k & v & I & L & T). apply (proj1 (last_member_map _ _ _ _ _ F)) in I as (s' & I & T').
        assert (s' = s) by (destruct T as [->|[-> ->]], T' as [X|[X ->]]; congruence). subst s'.
        exists k. split; [|exact L]. apply (Permutation_in _ (P _)). now apply to_map_last. }
    assert (FO : forall n, field_or_empty l n (match lastk pm n with Some v => v | None => [] end)).
    { intro n. destruct (lastk pm n) as [s|] eqn:L; [left; now apply LK|]. right. split; [reflexivity|]. intros x X. apply LK in X. congruence. }
    split.
    + constructor.
      * intros k v I. clear - F I. induction F as [|x y t u [E T] F IH]; [destruct I|]. destruct I as [->|I]; [cbn in T; eauto|auto].
      * rewrite A. apply FO.
      * rewrite B. apply FO.
      * intros c x. rewrite C. rewrite <- LK. destruct (lastk pm (cat_name c)); [reflexivity|]. cbn. split; discriminate.
    + apply D. constructor.
Qed.
Lemma message_of_ok : forall perm v m, message_of v m -> exists m', unmarshal_message perm v = Ok m'.
Proof.
  intros perm v m H. destruct H as [s m|l m T]; [eexists; reflexivity|]. cbn [unmarshal_message].
  assert (X : exists mm, Forall2 (fun x y => fst x = fst y /\ text_value (snd x) (snd y)) l mm).
  { clear H H0 H1. induction l as [|[k v] l IH]; [exists []; constructor|]. destruct IH as (mm & F); [intros; eapply T; right; eassumption|].
    destruct (T k v (or_introl eq_refl)) as (s & S). exists ((k, s) :: mm). constructor; [auto|exact F]. }
  destruct X as (mm & F). apply str_members_ok in F. rewrite F. cbn [rbind]. eauto.
Qed.
Lemma unmarshal_members_ok : forall perm l ms, (forall x, Permutation x (perm x)) -> Forall (fun kv => plain_names (snd kv)) l -> unmarshal_members perm l = Ok ms ->
  Forall2 (fun x y => fst x = fst y /\ entry_of (snd x) (snd y) /\ forall m, snd y = Some m -> NoDup (map fst (tr_of m))) l ms.
Proof.
  intros perm. induction l as [|[k v] l IH]; intros ms P PN H; cbn [unmarshal_members] in H; [injection H as <-; constructor|].
  inversion PN as [|? ? PV PN']; subst. cbn [snd] in PV. apply rbind_ok in H as (o & E & H). apply rbind_ok in H as (r & U & H). injection H as <-.
  constructor; [|now apply IH]. cbn [fst snd]. split; [reflexivity|].
  assert (X : (v = JNull /\ o = None) \/ exists m, o = Some m /\ unmarshal_message perm v = Ok m).
  { destruct v; try (apply rbind_ok in E as (m & E & Q); injection Q as <-; right; exists m; split; [reflexivity|exact E]). injection E as <-. left. auto. }
  destruct X as [[-> ->]|(m & -> & UM)]; [split; [reflexivity|discriminate]|]. apply unmarshal_message_of in UM as [M N]; [|exact P|exact PV].
  split; [exact M|]. intros m' Q. now injection Q as <-.
Qed.
Lemma unmarshal_members_total : forall perm l, (forall k v, In (k, v) l -> exists o, entry_of v o) -> exists ms, unmarshal_members perm l = Ok ms.
Proof.
  intros perm. induction l as [|[k v] l IH]; intro H; [eexists; reflexivity|]. destruct IH as (ms & E); [intros; eapply H; right; eassumption|].
  cbn [unmarshal_members]. destruct (H k v (or_introl eq_refl)) as (o & EO). destruct o as [m|]; cbn [entry_of] in EO.
  - destruct (message_of_ok perm v m EO) as (m' & U). destruct v; try discriminate; rewrite U; cbn [rbind]; rewrite E; cbn; eauto.
  - subst v. cbn [rbind]. rewrite E. cbn. eauto.
Qed.
Lemma unmarshal_members_fin : forall perm l, unmarshal_members perm l <> Panic /\ unmarshal_members perm l <> OutOfFuel.
Proof.
  intros perm. induction l as [|[k v] l [A B]]; cbn [unmarshal_members]; [split; discriminate|].
  assert (X : (match v with JNull => Ok None | _ => do m <- unmarshal_message perm v; Ok (Some m) end) <> Panic /\ (match v with JNull => Ok None | _ => do m <- unmarshal_message perm v; Ok (Some m) end) <> OutOfFuel).
  { destruct (unmarshal_message_fin perm v) as [C D]. destruct v; try (split; discriminate); destruct (unmarshal_message _ _); cbn; split; congruence. }
  destruct X as [C D]. apply rbind_fin; [exact C|exact D|]. intros o _. apply rbind_fin; [exact A|exact B|]. split; discriminate.
Qed.

(** The map the decoder builds is the one the file stands for. *)
Theorem to_map_file : forall perm l ms, (forall x, Permutation x (perm x)) -> Forall (fun kv => plain_names (snd kv)) l -> unmarshal_members perm l = Ok ms ->
  file_messages l (to_map ms).
Proof.
  intros perm l ms P PN U. pose proof (unmarshal_members_ok perm l ms P PN U) as F.
  assert (F' : Forall2 (fun x y => fst x = fst y /\ (entry_of (snd x) (snd y) /\ forall m, snd y = Some m -> NoDup (map fst (tr_of m)))) l ms) by exact F.
  pose proof (last_member_map _ _ (fun v o => entry_of v o /\ forall m, o = Some m -> NoDup (map fst (tr_of m))) l ms F') as [L1 L2].
  split; [split; [apply to_map_nodup|]|split; [|split]].
  - apply Forall_forall. intros [k o] I m E. apply to_map_last in I. apply L2 in I as (v & _ & _ & N). now apply N.
  - intros k v I. clear - F I. induction F as [|x y t u [E [T _]] F IH]; [destruct I|]. destruct I as [->|I]; [cbn in T; eauto|auto].
  - intros k v L. apply L1 in L as (o & L & E & _). exists o. split; [now apply to_map_last|exact E].
  - intros k o I. apply to_map_last in I. apply L2 in I as (v & L & E & _). eauto.
Qed.
Lemma same_texts : forall v m m', plain_names v -> message_of v m -> message_of v m' ->
  j_comment m = j_comment m' /\ j_context m = j_context m' /\ forall c, cat_get (tr_of m) c = cat_get (tr_of m') c.
Proof.
  intros v m m' P A B.
  assert (O : forall (x y : option bytes) Q, (forall s, x = Some s <-> Q s) -> (forall s, y = Some s <-> Q s) -> x = y).
  { intros [x|] y Q X Y; symmetry; [apply Y, X; reflexivity|]. destruct y as [y|]; [|reflexivity]. symmetry. apply X, Y. reflexivity. }
  destruct A as [s m A1 A2 A3|l m A0 A1 A2 A3]; inversion B as [s' m1 B1 B2 B3|l' m1 B0 B1 B2 B3]; subst.
  - split; [congruence|]. split; [congruence|]. intro c. eapply O; [apply A3|]. intro x. apply B3.
  - assert (X : forall n s t, field_or_empty l n s -> field_or_empty l n t -> s = t).
    { intros n s t [S|[-> S]] [T|[-> T]]; [eapply field_fun; eassumption|destruct (T _ S)|destruct (S _ T)|reflexivity]. }
    split; [eapply X; eassumption|]. split; [eapply X; eassumption|]. intro c. eapply O; [apply A3|]. intro x. apply B3.
Qed.
Lemma last_member_fun : forall V (l : list (bytes * V)) k v w, last_member l k v -> last_member l k w -> v = w.
Proof. intros V l k v w A B. apply to_map_last in A, B. eapply key_unique; [apply (to_map_nodup _ l)|exact A|exact B]. Qed.
(** Two maps of one file: acceptable together. *)
Lemma file_valid : forall l ms ms', Forall (fun kv => plain_names (snd kv)) l -> file_messages l ms -> file_messages l ms' -> Forall valid ms -> Forall valid ms'.
Proof.
  intros l ms ms' PN (_ & _ & A1 & _) (_ & _ & _ & B2) V. apply Forall_forall. intros [k o'] I'. destruct (B2 k o' I') as (v & L & E').
  destruct (A1 k v L) as (o & I & E). rewrite Forall_forall in V. destruct (V _ I) as (NE & m & Q & O & C). cbn [fst snd] in *. subst o. split; [exact NE|].
  assert (PV : plain_names v) by (rewrite Forall_forall in PN; apply (PN (k, v)); now apply last_member_in).
  destruct o' as [m'|]; cbn [entry_of] in *; [|subst v; inversion E]. exists m'. split; [reflexivity|].
  destruct (same_texts v m m' PV E E') as (_ & X & Y). split; [destruct O as (x & O); exists x; now rewrite <- Y|]. now rewrite <- X.
Qed.
Lemma file_nonempty : forall l ms, file_messages l ms -> (ms = [] <-> l = []).
Proof.
  intros l ms (_ & _ & A & B). split; intros ->.
  - destruct l as [|[k v] l]; [reflexivity|]. exfalso.
    assert (I : In k (map fst (to_map ((k, v) :: l)))) by (apply to_map_keys; now left). apply in_map_iff in I as ([k' w] & _ & I). apply to_map_last in I.
    apply A in I as (o & [] & _).
  - destruct ms as [|[k o] ms]; [reflexivity|]. destruct (B k o (or_introl eq_refl)) as (v & L & _). apply last_member_in in L. destruct L.
Qed.

(** ** UTF-8 of texts *)
Lemma valid_ascii : forall s, Forall (fun c => bval c < 128) s -> valid_utf8 s.
Proof.
  intros s F. exists (map bval s). split.
  - apply Forall_forall. intros r I. apply in_map_iff in I as (c & <- & I). rewrite Forall_forall in F. specialize (F c I). pose proof (bval_range c). unfold Utf8Model.scalar, Utf8Model.in_rng. lia.
  - induction F as [|c s C F IH]; [reflexivity|]. unfold Utf8Model.encode_all. cbn [map concat]. rewrite PoStrProofs.encode_ascii by (pose proof (bval_range c); lia). rewrite byte_of_bval.
    cbn [app]. f_equal. exact IH.
Qed.
Lemma valid_cons : forall c s, bval c < 128 -> valid_utf8 s -> valid_utf8 (c :: s).
Proof. intros c s C S. apply (valid_app [c] s); [|exact S]. apply valid_ascii. now repeat constructor. Qed.
Lemma valid_white : forall w, white w -> valid_utf8 w.
Proof. intros w W. apply valid_ascii. revert W. apply Forall_impl. intros c I. cbn [In] in I. repeat destruct I as [<-|I]; try reflexivity. destruct I. Qed.
Lemma valid_hex : forall h x, hex4 h x -> valid_utf8 h.
Proof.
  intros h x [a b c d w x' y z A B C D]. apply hex_not_quote in A, B, C, D. apply valid_ascii. repeat constructor; lia.
Qed.
Lemma valid_piece_text : forall p v, piece p v -> valid_utf8 p.
Proof.
  intros p v P. assert (U : valid_utf8 (bs "\u")) by (apply valid_ascii; repeat constructor).
  destruct P as [r S R N1 N2|e z I|h x X H1 H2|h x k y X H1 Y H2]; [apply valid_rune| | |].
  - apply valid_ascii. cbn [In json_escapes] in I. repeat destruct I as [I|I]; try (injection I as <- _; repeat constructor). destruct I.
  - apply valid_app; [exact U|now apply (valid_hex h x)].
  - repeat apply valid_app; auto; [now apply (valid_hex h x)|now apply (valid_hex k y)].
Qed.
Lemma valid_nil : valid_utf8 []. Proof. apply valid_ascii. constructor. Qed.
Lemma valid_strict_text : forall b v, strict b v -> valid_utf8 b.
Proof. induction 1; [apply valid_nil|]. apply valid_app; [eapply valid_piece_text; eassumption|assumption]. Qed.
Lemma strict_text_utf8 : (forall v s, jtext strict v s -> valid_utf8 s) /\ (forall l s, elements strict l s -> valid_utf8 s) /\ (forall l s, members strict l s -> valid_utf8 s).
Proof.
  assert (W := valid_white).
  apply (jtext_mutual strict (fun _ s _ => valid_utf8 s) (fun _ s _ => valid_utf8 s) (fun _ s _ => valid_utf8 s)); intros;
    try (apply valid_ascii; repeat constructor; fail);
    try (repeat first [apply valid_cons; [reflexivity|] | apply valid_app]; auto; try apply valid_nil; try (eapply valid_strict_text; eassumption); fail).
  apply valid_ascii. apply number_copied in n0. revert n0. apply Forall_impl. intros c ((_ & _ & _ & L) & _). exact L.
Qed.
Lemma document_utf8 : forall v s, document strict v s -> valid_utf8 s.
Proof. intros v s [w x t w' W J W']. repeat apply valid_app; try now apply valid_white. now apply (proj1 strict_text_utf8 x). Qed.

Lemma marshal_message_utf8 : forall m, valid_utf8 (j_comment m) -> valid_utf8 (j_context m) -> (forall c v, cat_get (tr_of m) c = Some v -> valid_utf8 v) ->
  all_utf8 (marshal_message m).
Proof.
  intros m A B C. unfold marshal_message. fold (tr_of m). set (tr := if Nat.eqb _ 0 then _ else _).
  assert (T : forall c v, cat_get tr c = Some v -> valid_utf8 v).
  { intros c v. unfold tr. destruct (Nat.eqb (length (tr_of m)) 0); [|apply C]. rewrite cat_get_set. destruct (cat_eqb Other c); [|apply C]. intro E. injection E as <-. apply valid_nil. }
  clearbody tr. destruct (_ && _ && _).
  - constructor. destruct (cat_get tr Other) eqn:E; [eapply T; exact E|apply valid_nil].
  - assert (K : forall k v, In (k, v) ((if is_nil (j_comment m) then [] else [(bs "comment", JStr (j_comment m))]) ++
       (if is_nil (j_context m) then [] else [(bs "context", JStr (j_context m))]) ++
       flat_map (fun c => match cat_get tr c with Some s => [(cat_name c, JStr s)] | None => [] end) all_categories) -> valid_utf8 k /\ all_utf8 v).
    { intros k v I. rewrite !in_app_iff in I. destruct I as [I|[I|I]].
      - destruct (is_nil (j_comment m)); [destruct I|]. destruct I as [I|[]]. injection I as <- <-. split; [apply valid_ascii; repeat constructor|now constructor].
      - destruct (is_nil (j_context m)); [destruct I|]. destruct I as [I|[]]. injection I as <- <-. split; [apply valid_ascii; repeat constructor|now constructor].
      - apply in_flat_map in I as (c & _ & I). destruct (cat_get tr c) eqn:E; [|destruct I]. destruct I as [I|[]]. injection I as <- <-.
        split; [apply valid_ascii; destruct c; repeat constructor|constructor; eapply T; exact E]. }
    constructor; apply Forall_forall; intros [k v] I; now apply K in I.
Qed.
Lemma cat_in_dec : forall (c : category) l, In c l \/ ~ In c l.
Proof. intros c l. destruct (in_dec cat_dec c l); auto. Qed.
Lemma fitted_utf8 : forall cats t t', NoDup (map fst t) -> fitted cats t t' -> (forall c v, In (c, v) t -> valid_utf8 v) -> forall c v, cat_get t' c = Some v -> valid_utf8 v.
Proof.
  intros cats t t' ND [F1 F2] H c v E. destruct (singular_dec t ND) as [S|S].
  - rewrite (F1 S) in E. eapply H. apply cat_get_in. exact E.
  - destruct (F2 S c) as [G1 G2]. destruct (cat_in_dec c cats) as [I|I]; [|rewrite (G2 I) in E; discriminate].
    rewrite (G1 I) in E. injection E as <-. destruct (cat_get t c) eqn:Q; [eapply H; apply cat_get_in; exact Q|apply valid_nil].
Qed.

(** a file that has messages has two levels *)
Lemma file_shallow : forall l ms, file_messages l ms -> shallow (JObj l).
Proof.
  intros l ms (_ & E & _). apply (small_shallow 2 _ (le_n 2)). constructor. intros k v I. destruct (E k v I) as ([m|] & H); cbn [entry_of] in H.
  - destruct H as [s m _ _ _|l' m T _ _ _]; constructor. intros k' v' I'. destruct (T k' v' I') as (s & [->|[-> _]]); constructor.
  - rewrite H. constructor.
Qed.
