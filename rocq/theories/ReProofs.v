(** The derivative matcher decides the language of a regular expression. *)
From Coq Require Import String Ascii List ZArith Bool Lia.
From Verif Require Import Base ReModel.
Import ListNotations.

Inductive lang : re -> bytes -> Prop :=
| LEmpty : lang REmpty []
| LSet p c : p c = true -> lang (RSet p) [c]
| LSeq a b s t : lang a s -> lang b t -> lang (RSeq a b) (s ++ t)
| LAltL a b s : lang a s -> lang (RAlt a b) s
| LAltR a b s : lang b s -> lang (RAlt a b) s
| LStar0 a : lang (RStar a) []
| LStarS a s t : lang a s -> lang (RStar a) t -> lang (RStar a) (s ++ t).

Lemma lang_seq : forall a b s, lang (RSeq a b) s <->
  exists x y, s = x ++ y /\ lang a x /\ lang b y.
Proof.
  split.
  - intro H; inversion H; subst. eauto.
  - intros (x & y & E & A & B). subst. constructor; assumption.
Qed.
Lemma lang_alt : forall a b s, lang (RAlt a b) s <-> lang a s \/ lang b s.
Proof.
  split.
  - intro H; inversion H; auto.
  - intros [H|H]; [apply LAltL|apply LAltR]; exact H.
Qed.
Lemma lang_set : forall p s, lang (RSet p) s <-> exists c, s = [c] /\ p c = true.
Proof.
  split.
  - intro H; inversion H; subst; eauto.
  - intros (c & E & P); subst; constructor; exact P.
Qed.
Lemma lang_empty : forall s, lang REmpty s <-> s = [].
Proof. split; intro H; [inversion H; reflexivity|subst; constructor]. Qed.

Lemma nullable_lang : forall r, nullable r = true <-> lang r [].
Proof.
  induction r; simpl.
  - split; [discriminate|intro H; inversion H].
  - split; [constructor|reflexivity].
  - split; [discriminate|intro H; inversion H].
  - rewrite andb_true_iff, IHr1, IHr2. split.
    + intros [A B]. exact (LSeq _ _ [] [] A B).
    + intro H. apply lang_seq in H. destruct H as (x & y & E & A & B).
      symmetry in E. apply app_eq_nil in E. destruct E; subst. auto.
  - rewrite orb_true_iff, IHr1, IHr2. split.
    + intros [A|A]; [apply LAltL|apply LAltR]; exact A.
    + intro H; inversion H; subst; auto.
  - split; [constructor|reflexivity].
Qed.

Lemma star_cons : forall a c s, lang (RStar a) (c :: s) ->
  exists s1 s2, s = s1 ++ s2 /\ lang a (c :: s1) /\ lang (RStar a) s2.
Proof.
  intros a c s H. remember (RStar a) as r. remember (c :: s) as w.
  revert c s Heqw. induction H; intros; try discriminate.
  inversion Heqr; subst a0. destruct s as [|x s].
  - simpl in Heqw. exact (IHlang2 eq_refl _ _ Heqw).
  - simpl in Heqw. inversion Heqw; subst. eauto.
Qed.

Lemma deriv_lang : forall r c s, lang (deriv c r) s <-> lang r (c :: s).
Proof.
  induction r; intros c s; simpl.
  - split; intro H; inversion H.
  - split; intro H; inversion H.
  - destruct (p c) eqn:P; split; intro H; inversion H; subst.
    + constructor; exact P.
    + constructor.
    + congruence.
  - assert (D : lang (RSeq (deriv c r1) r2) s -> lang (RSeq r1 r2) (c :: s)).
    { intro H. apply lang_seq in H. destruct H as (x & y & E & A & B). subst.
      apply IHr1 in A. exact (LSeq _ _ (c :: x) y A B). }
    assert (E : lang (RSeq r1 r2) (c :: s) ->
                lang (RSeq (deriv c r1) r2) s \/ (lang r1 [] /\ lang r2 (c :: s))).
    { intro H. apply lang_seq in H. destruct H as (x & y & E & A & B).
      destruct x as [|d x].
      - right. simpl in E; subst. auto.
      - left. simpl in E. inversion E; subst. apply LSeq; [apply IHr1|]; auto. }
    destruct (nullable r1) eqn:N.
    + apply nullable_lang in N. split.
      * intro H. apply lang_alt in H. destruct H as [H|H]; [auto|].
        apply IHr2 in H. exact (LSeq _ _ [] _ N H).
      * intro H. destruct (E H) as [A|[_ A]]; [apply LAltL; exact A|].
        apply LAltR, IHr2, A.
    + split; [exact D|]. intro H. destruct (E H) as [A|[A _]]; [exact A|].
      apply nullable_lang in A. congruence.
  - split; intro H; inversion H; subst.
    + apply LAltL, IHr1; assumption.
    + apply LAltR, IHr2; assumption.
    + apply LAltL, IHr1; assumption.
    + apply LAltR, IHr2; assumption.
  - split.
    + intro H. apply lang_seq in H. destruct H as (x & y & E & A & B). subst.
      apply IHr in A. exact (LStarS _ (c :: x) y A B).
    + intro H. apply star_cons in H. destruct H as (s1 & s2 & E & A & B). subst.
      apply LSeq; [apply IHr; exact A|exact B].
Qed.

Theorem rmatch_lang : forall s r, rmatch r s = true <-> lang r s.
Proof.
  induction s as [|c s IH]; intro r; simpl.
  - apply nullable_lang.
  - rewrite IH. apply deriv_lang.
Qed.

Lemma lang_star_set : forall p s, lang (RStar (RSet p)) s <-> forallb p s = true.
Proof.
  intros p s; split.
  - intro H. remember (RStar (RSet p)) as r. induction H; try discriminate; [reflexivity|].
    inversion Heqr; subst. apply lang_set in H. destruct H as (c & E & P); subst.
    simpl. rewrite P. apply IHlang2. reflexivity.
  - induction s as [|c s IH]; intro H.
    + constructor.
    + simpl in H. apply andb_true_iff in H. destruct H as [P Q].
      apply (LStarS _ [c] s); [constructor; exact P|auto].
Qed.

Lemma lang_rlit : forall l s, lang (rlit l) s <-> s = l.
Proof.
  induction l as [|c l IH]; intro s; simpl.
  - apply lang_empty.
  - rewrite lang_seq. split.
    + intros (x & y & E & A & B). apply IH in B. apply lang_set in A.
      destruct A as (d & E2 & P). apply Ascii.eqb_eq in P. subst. reflexivity.
    + intro E. subst. exists [c], l. split; [reflexivity|]. split.
      * apply lang_set. exists c. split; [reflexivity|apply Ascii.eqb_refl].
      * apply IH. reflexivity.
Qed.
