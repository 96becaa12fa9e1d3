(** Parser and evaluator of Plural-Forms headers: soundness, completeness and
    termination with respect to PopSpec. *)
From Coq Require Import String Ascii List ZArith Bool Lia.
From Verif Require Import Base BaseProofs PopModel PopSpec PopScanProofs.
Import ListNotations.
Open Scope Z_scope.

(** ** Termination *)

Definition fin {A} (r : res A) : Prop := r <> OutOfFuel /\ r <> Panic.

Definition rlen (st : pst) : nat := length (lx_rest st).

Lemma scan_next_fin : forall st,
  fin (scan_next st) /\ forall st', scan_next st = Ok st' -> (rlen st' < rlen st)%nat.
Proof.
  intro st. unfold scan_next, rlen.
  destruct (scan_iw_length (lx_rest st)) as [_ H].
  split.
  - split; destruct (lx_tok _); discriminate.
  - intros st' E. destruct (lx_tok (scan_iw (lx_rest st))) eqn:T;
      try discriminate; injection E as <-; apply H; congruence.
Qed.

(** A parser step that never runs out of fuel and consumes input. *)
Definition pfin (p : pst -> res (node * pst)) (k : nat) : Prop :=
  forall st, (rlen st < k)%nat ->
    fin (p st) /\ forall a st', p st = Ok (a, st') -> (rlen st' < rlen st)%nat.

Ltac step_next st st1 E H :=
  let H0 := fresh in
  destruct (scan_next_fin st) as [H0 H];
  destruct (scan_next st) as [st1| | |] eqn:E;
  [ specialize (H st1 eq_refl); clear H0
  | split; [split; discriminate | discriminate]
  | now destruct H0
  | now destruct H0 ].

Ltac step_p p st a st1 P E H :=
  let H0 := fresh in
  destruct (P st) as [H0 H]; [lia|];
  destruct (p st) as [[a st1]| | |] eqn:E;
  [ specialize (H a st1 eq_refl); clear H0
  | split; [split; discriminate | discriminate]
  | now destruct H0
  | now destruct H0 ].

Ltac done_fin := split; [split; discriminate | intros ? ? HH; try discriminate HH; injection HH as <- <-; lia].

Section Fin.
  Variable pe : pst -> res (node * pst).
  Variable k : nat.
  Hypothesis PE : pfin pe k.

  Lemma p_pm_fin : pfin (p_pm pe) (S k).
  Proof.
    intros st Hl. unfold p_pm.
    destruct (lx_tok st); try done_fin.
    - step_next st st1 E H. simpl. done_fin.
    - step_next st st1 E H. simpl. done_fin.
    - step_next st st1 E H. simpl rbind.
      step_p pe st1 e st2 PE E2 H2. simpl rbind.
      destruct (lx_tok st2); try done_fin.
      step_next st2 st3 E3 H3. simpl. done_fin.
  Qed.

  Lemma p_mul_fin : pfin (p_mul pe) (S k).
  Proof.
    intros st Hl. unfold p_mul. pose proof p_pm_fin as PM.
    step_p (p_pm pe) st x st1 PM E H. simpl rbind.
    destruct (lx_tok st1); try done_fin.
    step_next st1 st2 E2 H2. simpl rbind.
    step_p (p_pm pe) st2 y st3 PM E3 H3. simpl. done_fin.
  Qed.

  Lemma p_rel_fin : pfin (p_rel pe) (S k).
  Proof.
    intros st Hl. unfold p_rel. pose proof p_mul_fin as PM.
    step_p (p_mul pe) st x st1 PM E H. simpl rbind.
    destruct (rel_op (lx_tok st1)); try done_fin.
    step_next st1 st2 E2 H2. simpl rbind.
    step_p (p_mul pe) st2 y st3 PM E3 H3. simpl. done_fin.
  Qed.

  Lemma p_eq_fin : pfin (p_eq pe) (S k).
  Proof.
    intros st Hl. unfold p_eq. pose proof p_rel_fin as PM.
    step_p (p_rel pe) st x st1 PM E H. simpl rbind.
    destruct (eq_op (lx_tok st1)); try done_fin.
    step_next st1 st2 E2 H2. simpl rbind.
    step_p (p_rel pe) st2 y st3 PM E3 H3. simpl. done_fin.
  Qed.

  Lemma p_and_fin : forall f, (f <= S k)%nat -> pfin (p_and pe f) f.
  Proof.
    induction f as [|f IH]; intros Hf st Hl; [lia|]. simpl.
    pose proof p_eq_fin as PM.
    step_p (p_eq pe) st x st1 PM E H. simpl rbind.
    destruct (lx_tok st1); try done_fin.
    step_next st1 st2 E2 H2. simpl rbind.
    assert (IH' := IH ltac:(lia)).
    step_p (p_and pe f) st2 y st3 IH' E3 H3. simpl. done_fin.
  Qed.

  Lemma p_or_fin : forall f, (f <= S k)%nat -> pfin (p_or pe f) f.
  Proof.
    induction f as [|f IH]; intros Hf st Hl; [lia|].
    cbn [p_or].
    pose proof (p_and_fin (S f) Hf) as PM.
    step_p (p_and pe (S f)) st x st1 PM E H. simpl rbind.
    destruct (lx_tok st1); try done_fin.
    step_next st1 st2 E2 H2. simpl rbind.
    assert (IH' := IH ltac:(lia)).
    step_p (p_or pe f) st2 y st3 IH' E3 H3. simpl. done_fin.
  Qed.
End Fin.

Lemma p_expr_fin : forall f, pfin (p_expr f) f.
Proof.
  induction f as [|f IH]; intros st Hl; [lia|].
  cbn [p_expr].
  pose proof (p_or_fin (p_expr f) f IH (S f) (le_n _)) as PO.
  step_p (p_or (p_expr f) (S f)) st c st1 PO E H. simpl rbind.
  destruct (lx_tok st1); try done_fin.
  step_next st1 st2 E2 H2. simpl rbind.
  step_p (p_expr f) st2 t st3 IH E3 H3. simpl rbind.
  destruct (lx_tok st3); try done_fin.
  step_next st3 st4 E4 H4. simpl rbind.
  step_p (p_expr f) st4 e st5 IH E5 H5. simpl. done_fin.
Qed.

Lemma expect_fin : forall t s, fin (expect t s).
Proof. intros. unfold expect. destruct (tok_eqb _ _); split; discriminate. Qed.

Lemma expect_len : forall t s l, t <> TEof -> expect t s = Ok l ->
  (length (lx_rest l) <= length s)%nat.
Proof.
  intros t s l Ht. unfold expect. destruct (scan_iw_length s) as [H _].
  destruct (tok_eqb _ _); [|discriminate]. intro E. injection E as <-. assumption.
Qed.

Lemma parse_forms_fin : forall s, fin (parse_forms s).
Proof.
  intro s. unfold parse_forms.
  Ltac ex t s l E :=
    let F := fresh in
    pose proof (expect_fin t s) as F;
    destruct (expect t s) as [l| | |] eqn:E; cbn [rbind];
    [clear F | split; discriminate | now destruct F | now destruct F];
    apply expect_len in E; [|discriminate].
  ex TNPlurals s l1 E1.
  ex TAssign (lx_rest l1) l2 E2.
  ex TValue (lx_rest l2) l3 E3.
  ex TSemi (lx_rest l3) l4 E4.
  ex TPlural (lx_rest l4) l5 E5.
  ex TAssign (lx_rest l5) l6 E6.
  destruct (scan_next_fin l6) as [F H].
  destruct (scan_next l6) as [st| | |]; cbn [rbind];
    [specialize (H st eq_refl) | split; discriminate | now destruct F | now destruct F].
  destruct (p_expr_fin (S (length s)) st) as [F2 H2]; [unfold rlen in *; lia|].
  destruct (p_expr _ st) as [[n st']| | |]; cbn [rbind];
    [| split; discriminate | now destruct F2 | now destruct F2].
  destruct (lx_tok st'); try (split; discriminate).
  pose proof (expect_fin TEof (lx_rest st')) as F3.
  destruct (expect TEof (lx_rest st')); cbn [rbind];
    [split; discriminate | split; discriminate | now destruct F3 | now destruct F3].
Qed.

(** ** Meaning of trees *)

(** Expressions equal up to the grouping of && and || chains. *)
Inductive ceq : cexp -> cexp -> Prop :=
| ceq_refl : forall e, ceq e e
| ceq_sym : forall a b, ceq a b -> ceq b a
| ceq_trans : forall a b c, ceq a b -> ceq b c -> ceq a c
| and_assoc_c : forall a b c,
    ceq (CBin CAnd (CBin CAnd a b) c) (CBin CAnd a (CBin CAnd b c))
| or_assoc_c : forall a b c,
    ceq (CBin COr (CBin COr a b) c) (CBin COr a (CBin COr b c))
| bin_cong : forall o a a' b b', ceq a a' -> ceq b b' ->
    ceq (CBin o a b) (CBin o a' b')
| cond_cong : forall c c' t t' f f', ceq c c' -> ceq t t' -> ceq f f' ->
    ceq (CCond c t f) (CCond c' t' f').

Lemma tobool_b2z : forall b, tobool (b2z b) = b.
Proof. now destruct b. Qed.

Lemma b2z_01 : forall b, b2z b = 0 \/ b2z b = 1.
Proof. destruct b; auto. Qed.

Lemma b2z_is1 : forall b, (b2z b =? 1) = b.
Proof. now destruct b. Qed.

Lemma zero_one_and : forall a b n, zero_one (CBin CAnd a b) n.
Proof.
  intros a b n v. simpl. destruct (csem a n) as [x|]; [|discriminate].
  destruct (tobool x); [|intro H; injection H as <-; auto].
  destruct (csem b n) as [y|]; [|discriminate].
  intro H; injection H as <-. apply b2z_01.
Qed.

Lemma zero_one_or : forall a b n, zero_one (CBin COr a b) n.
Proof.
  intros a b n v. simpl. destruct (csem a n) as [x|]; [|discriminate].
  destruct (tobool x); [intro H; injection H as <-; auto|].
  destruct (csem b n) as [y|]; [|discriminate].
  intro H; injection H as <-. apply b2z_01.
Qed.

Lemma zero_one_ceq : forall a b n, csem a n = csem b n -> zero_one a n -> zero_one b n.
Proof. intros a b n H Z v Hv. apply Z. now rewrite H. Qed.

Lemma ceq_sem : forall e e', ceq e e' ->
  forall n, csem e n = csem e' n /\ (conds01 e n <-> conds01 e' n).
Proof.
  induction 1; intro n.
  - tauto.
  - destruct (IHceq n) as [A B]. split; [now rewrite A|tauto].
  - destruct (IHceq1 n) as [A B], (IHceq2 n) as [C D]. split; [congruence|tauto].
  - split.
    + simpl. destruct (csem a n) as [x|]; [|reflexivity].
      destruct (tobool x); [|reflexivity].
      destruct (csem b n) as [y|]; [|reflexivity].
      rewrite tobool_b2z. destruct (tobool y); [|reflexivity].
      destruct (csem c n) as [z|]; [|reflexivity].
      now rewrite tobool_b2z.
    + pose proof (zero_one_and a b n). pose proof (zero_one_and b c n).
      simpl. tauto.
  - split.
    + simpl. destruct (csem a n) as [x|]; [|reflexivity].
      destruct (tobool x); [reflexivity|].
      destruct (csem b n) as [y|]; [|reflexivity].
      rewrite tobool_b2z. destruct (tobool y); [reflexivity|].
      destruct (csem c n) as [z|]; [|reflexivity].
      now rewrite tobool_b2z.
    + pose proof (zero_one_or a b n). pose proof (zero_one_or b c n).
      simpl. tauto.
  - destruct (IHceq1 n) as [H1 H2], (IHceq2 n) as [G1 G2].
    pose proof (zero_one_ceq a a' n H1). pose proof (zero_one_ceq a' a n (eq_sym H1)).
    pose proof (zero_one_ceq b b' n G1). pose proof (zero_one_ceq b' b n (eq_sym G1)).
    destruct o; simpl; (split; [now rewrite H1, G1|tauto]).
  - destruct (IHceq1 n) as [A1 A2], (IHceq2 n) as [B1 B2], (IHceq3 n) as [C1 C2].
    pose proof (zero_one_ceq _ _ _ A1). pose proof (zero_one_ceq _ _ _ (eq_sym A1)).
    simpl. rewrite A1, B1, C1. tauto.
Qed.

Definition cop_of (o : bop) : cop :=
  match o with
  | BAnd => CAnd | BOr => COr | BEq => CEq | BNe => CNe | BGt => CGt
  | BGe => CGe | BLt => CLt | BLe => CLe | BRem => CRem
  end.

(** The C expression a tree stands for. *)
Fixpoint cx (a : node) : cexp :=
  match a with
  | NVal v => CV v
  | NOp => CN
  | NBin o x y => CBin (cop_of o) (cx x) (cx y)
  | NCond c t f => CCond (cx c) (cx t) (cx f)
  end.

(** The tree [a] stands for an expression equivalent to [e]. *)
Definition rep (a : node) (e : cexp) : Prop := ceq (cx a) e.

Lemma rep_ceq : forall a e e', rep a e -> ceq e e' -> rep a e'.
Proof. intros a e e'. intros. eapply ceq_trans; eauto. Qed.

Lemma rep_bin : forall o x y a b, rep x a -> rep y b ->
  rep (NBin o x y) (CBin (cop_of o) a b).
Proof. intros o x y a b Hx Hy. unfold rep. simpl. now apply bin_cong. Qed.

Lemma rep_cond : forall c t f c' t' f', rep c c' -> rep t t' -> rep f f' ->
  rep (NCond c t f) (CCond c' t' f').
Proof. intros. unfold rep. simpl. now apply cond_cong. Qed.

Lemma rep_chain : forall o x y a b, o = BAnd \/ o = BOr -> rep x a -> rep y b ->
  rep (mk_chain o x y) (CBin (cop_of o) a b).
Proof.
  intros o x y a b Ho Hx Hy.
  apply rep_ceq with (CBin (cop_of o) (cx x) (cx y)).
  2: now apply bin_cong.
  destruct Ho as [-> | ->]; destruct y as [| |[] y1 y2|]; try apply ceq_refl.
  - apply and_assoc_c.
  - apply or_assoc_c.
Qed.

Lemma tobool_is1 : forall v, v = 0 \/ v = 1 -> (v =? 1) = tobool v.
Proof. intros v [-> | ->]; reflexivity. Qed.

(** The evaluator computes the C value of the expression its tree stands
    for. *)
Lemma eval_cx : forall a n v, conds01 (cx a) n -> csem (cx a) n = Some v ->
  eval_node a n = v.
Proof.
  induction a as [v|  |o x Hx y Hy|c Hc t Ht f Hf]; intros n w C S.
  - simpl in S. now injection S.
  - simpl in S. now injection S.
  - destruct o; simpl in C, S |- *.
    1,2: destruct C as [Z1 [Z2 [C1 C2]]];
      destruct (csem (cx x) n) as [p|] eqn:Ea; [|discriminate];
      rewrite (Hx n p C1 Ea), tobool_is1 by auto;
      destruct (tobool p); simpl; try congruence;
      destruct (csem (cx y) n) as [q|] eqn:Eb; [|discriminate];
      rewrite (Hy n q C2 Eb), tobool_is1 by auto; congruence.
    all: destruct C as [C1 C2];
      destruct (csem (cx x) n) as [p|] eqn:Ea; [|discriminate];
      destruct (csem (cx y) n) as [q|] eqn:Eb; [|discriminate];
      rewrite (Hx n p C1 Ea), (Hy n q C2 Eb);
      rewrite ?Z.gtb_ltb, ?Z.geb_leb; try congruence.
    destruct (q =? 0); congruence.
  - destruct C as [Z [C1 [C2 C3]]]. simpl in *.
    destruct (csem (cx c) n) as [p|] eqn:E; [|discriminate].
    rewrite (Hc n p C1 E), tobool_is1 by (apply Z; assumption).
    destruct (tobool p); [now apply Ht | now apply Hf].
Qed.

Lemma rep_eval : forall a e, rep a e -> forall n v, conds01 e n -> csem e n = Some v ->
  eval_node a n = v.
Proof.
  intros a e H n v C S. destruct (ceq_sem _ _ H n) as [H1 H2].
  apply eval_cx; [tauto|congruence].
Qed.

(** ** Right recursion versus left associativity *)

Lemma gram_and_right : forall lv ts2 b, gram lv ts2 b -> lv = 4%nat ->
  forall ts1 a, gram 3 ts1 a ->
  exists e, gram 4 (ts1 ++ LAnd :: ts2) e /\ ceq e (CBin CAnd a b).
Proof.
  induction 1; intros Hlv ts1' a' HG; try discriminate.
  - subst. injection Hlv as ->. exists (CBin CAnd a' e). split; [|apply ceq_refl].
    apply g_and; [|assumption]. apply g_up; [lia|assumption].
  - injection Hlv as ->. destruct o; discriminate.
  - destruct (IHgram1 eq_refl ts1' a' HG) as [e' [G C]].
    exists (CBin CAnd e' b). split.
    + replace (ts1' ++ LAnd :: ts1 ++ LAnd :: ts2)
        with ((ts1' ++ LAnd :: ts1) ++ LAnd :: ts2)
        by now rewrite <- app_assoc.
      now apply g_and.
    + eapply ceq_trans; [apply bin_cong; [exact C | apply ceq_refl]|].
      apply and_assoc_c.
Qed.

Lemma gram_or_right : forall lv ts2 b, gram lv ts2 b -> lv = 5%nat ->
  forall ts1 a, gram 4 ts1 a ->
  exists e, gram 5 (ts1 ++ LOr :: ts2) e /\ ceq e (CBin COr a b).
Proof.
  induction 1; intros Hlv ts1' a' HG; try discriminate.
  - subst. injection Hlv as ->. exists (CBin COr a' e). split; [|apply ceq_refl].
    apply g_or; [|assumption]. apply g_up; [lia|assumption].
  - injection Hlv as ->. destruct o; discriminate.
  - destruct (IHgram1 eq_refl ts1' a' HG) as [e' [G C]].
    exists (CBin COr e' b). split.
    + replace (ts1' ++ LOr :: ts1 ++ LOr :: ts2)
        with ((ts1' ++ LOr :: ts1) ++ LOr :: ts2)
        by now rewrite <- app_assoc.
      now apply g_or.
    + eapply ceq_trans; [apply bin_cong; [exact C | apply ceq_refl]|].
      apply or_assoc_c.
Qed.

Lemma gram_mono : forall lv ts e k, gram lv ts e -> (lv + k <= 6)%nat ->
  gram (lv + k) ts e.
Proof.
  induction k as [|k IH]; intros H Hl; [now rewrite Nat.add_0_r|].
  rewrite Nat.add_succ_r. apply g_up; [lia|]. apply IH; [assumption|lia].
Qed.

(** ** Soundness *)

(** [step st x st']: the current lexeme is x, reading on leads to st'. *)
Definition cur (st : pst) (x : lexeme) : Prop :=
  lex_of (lx_tok st) (lx_lit st) = Some x /\ spells x (lx_lit st) /\
  closed x (lx_rest st).

Inductive steps : pst -> list lexeme -> pst -> Prop :=
| steps_nil : forall st, steps st [] st
| steps_cons : forall st x st1 ls st2,
    cur st x -> scan_next st = Ok st1 -> steps st1 ls st2 ->
    steps st (x :: ls) st2.

Lemma steps_app : forall a ls b ls' c, steps a ls b -> steps b ls' c ->
  steps a (ls ++ ls') c.
Proof.
  induction 1; intro G; simpl; [assumption|].
  econstructor; eauto.
Qed.

Lemma steps_one : forall st x st1, cur st x -> scan_next st = Ok st1 ->
  steps st [x] st1.
Proof. intros. econstructor; eauto. constructor. Qed.

Definition good (st : pst) : Prop := clean (lx_rest st) /\ exists x, cur st x.

Lemma scan_next_good : forall st st', clean (lx_rest st) -> scan_next st = Ok st' ->
  good st' /\ exists w, Forall blank w /\
    lx_rest st = w ++ lx_lit st' ++ lx_rest st'.
Proof.
  intros st st' Hc H. unfold scan_next in H.
  pose proof (scan_iw_sound _ Hc) as S. simpl in S.
  destruct (lx_tok (scan_iw (lx_rest st))) eqn:T; try discriminate; injection H as <-;
    try (destruct S as [x [w [S1 [S2 [S3 [S4 S5]]]]]]; split;
      [split; [rewrite S3 in Hc; apply clean_app_r in Hc; now apply clean_app_r in Hc
              | exists x; repeat split; rewrite ?T; assumption]
      | exists w; auto]; fail).
  (* scan_iw never yields white space twice *)
  exfalso. unfold scan_iw in T.
  pose proof (scan_sound _ _ Hc eq_refl) as S'.
  destruct (lx_tok (scan (lx_rest st))) eqn:T1; try congruence.
  destruct S' as [S1 [S2 [S3 S4]]].
  assert (Hc' : clean (lx_rest (scan (lx_rest st)))).
  { rewrite S1 in Hc. now apply clean_app_r in Hc. }
  pose proof (scan_sound _ _ Hc' eq_refl) as S'. rewrite T in S'.
  destruct S' as [R1 [R2 [R3 R4]]].
  rewrite R1 in S4.
  destruct (lx_lit (scan (lx_rest (scan (lx_rest st))))) as [|c q]; [now apply R3|].
  simpl in S4. inversion R2; subst. contradiction.
Qed.

Definition fits (ts : list lexeme) : Prop :=
  forall ds, In (LNum ds) ts -> dec_val ds <= maxInt64.

Lemma fits_app : forall a b, fits (a ++ b) -> fits a /\ fits b.
Proof.
  intros a b H. split; intros ds Hd; apply H; apply in_or_app; auto.
Qed.
Lemma fits_cons : forall a b, fits (a :: b) -> fits b.
Proof. intros a b H ds Hd. apply H. now right. Qed.

(** A parser of grammar level [lv]. *)
Definition psound (p : pst -> res (node * pst)) (lv : nat) : Prop :=
  forall st a st', good st -> p st = Ok (a, st') ->
    good st' /\ exists ts e, steps st ts st' /\ gram lv ts e /\
      (fits ts -> rep a e).

Ltac good_next Hg E :=
  let G := fresh "G" in
  destruct (scan_next_good _ _ (proj1 Hg) E) as [G _].

Lemma bind_ok : forall A B (r : res A) (f : A -> res B) b,
  rbind r f = Ok b -> exists a, r = Ok a /\ f a = Ok b.
Proof. intros A B [a| | |] f b H; try discriminate. now exists a. Qed.

Ltac inv_bind H a E :=
  let H' := fresh in
  apply bind_ok in H; destruct H as [a [E H']]; cbv beta in H'; rename H' into H.

Section Sound.
  Variable pe : pst -> res (node * pst).
  Hypothesis PE : psound pe 6.

  Lemma p_pm_sound : psound (p_pm pe) 0.
  Proof.
    intros st a st' Hg H. unfold p_pm in H.
    destruct Hg as [Hc [x Hx]]. assert (Hg : good st) by (split; [|exists x]; assumption).
    destruct (lx_tok st) eqn:T; try discriminate.
    - inv_bind H st1 E. injection H as <- <-.
      destruct (scan_next_good _ _ Hc E) as [G _]. split; [assumption|].
      pose proof Hx as Hx'. destruct Hx' as [X1 [X2 X3]]. rewrite T in X1. injection X1 as <-.
      exists [LNum (lx_lit st)], (CV (dec_val (lx_lit st))). split; [now apply steps_one|].
      split; [constructor|]. intro F. unfold rep. simpl.
      destruct X2 as [_ [X4 X5]].
      rewrite parse_int_ignore_digits; auto; [apply ceq_refl|]. apply F. now left.
    - inv_bind H st1 E. injection H as <- <-.
      destruct (scan_next_good _ _ Hc E) as [G _]. split; [assumption|].
      pose proof Hx as Hx'. destruct Hx' as [X1 [X2 X3]]. rewrite T in X1. injection X1 as <-.
      exists [LN], CN. split; [now apply steps_one|].
      split; [constructor|]. intros _. apply ceq_refl.
    - inv_bind H st1 E. inv_bind H q E2. destruct q as [e st2].
      destruct (lx_tok st2) eqn:T2; try discriminate.
      inv_bind H st3 E3. injection H as <- <-.
      destruct (scan_next_good _ _ Hc E) as [G1 _].
      destruct (PE _ _ _ G1 E2) as [G2 [ts [e' [S [Gr R]]]]].
      destruct (scan_next_good _ _ (proj1 G2) E3) as [G3 _].
      split; [assumption|].
      pose proof Hx as Hx'. destruct Hx' as [X1 _]. rewrite T in X1. injection X1 as <-.
      destruct G2 as [_ [y Hy]]. pose proof Hy as Hy'. destruct Hy' as [Y1 _].
      rewrite T2 in Y1. injection Y1 as <-.
      exists (LParen :: ts ++ [RParen]), e'. split.
      + econstructor; [exact Hx | exact E|].
        eapply steps_app; [exact S|]. now apply steps_one.
      + split; [now constructor|]. intro F. apply R.
        apply fits_cons in F. apply fits_app in F. tauto.
  Qed.

  (** one optional binary operator between two operands of the level below *)
  Lemma bin_sound : forall (p : pst -> res (node * pst)) lv x st st1 o op l,
    psound p lv -> good st -> p st = Ok (x, st1) -> lex_of (lx_tok st1) (lx_lit st1) = Some l ->
    op_at (S lv) l = Some (cop_of o) -> op = cop_of o ->
    forall st2 y st3, scan_next st1 = Ok st2 -> p st2 = Ok (y, st3) ->
    good st3 /\ exists ts e, steps st ts st3 /\ gram (S lv) ts e /\
      (fits ts -> rep (NBin o x y) e).
  Proof.
    intros p lv x st st1 o op l P Hg E Hl Ho -> st2 y st3 E2 E3.
    destruct (P _ _ _ Hg E) as [G1 [ts1 [e1 [S1 [R1 F1]]]]].
    destruct (scan_next_good _ _ (proj1 G1) E2) as [G2 _].
    destruct (P _ _ _ G2 E3) as [G3 [ts2 [e2 [S2 [R2 F2]]]]].
    split; [assumption|].
    exists (ts1 ++ l :: ts2), (CBin (cop_of o) e1 e2). split.
    - eapply steps_app; [exact S1|]. econstructor; [|exact E2|exact S2].
      destruct G1 as [_ [z Hz]]. pose proof Hz as Hz'. destruct Hz' as [Z1 _].
      rewrite Hl in Z1. injection Z1 as <-. exact Hz.
    - split; [now apply g_bin|].
      intro F. apply fits_app in F as [Fa Fb]. apply fits_cons in Fb.
      apply rep_bin; auto.
  Qed.

  Lemma up_sound : forall (p : pst -> res (node * pst)) lv st x st1, (lv < 6)%nat ->
    psound p lv -> good st -> p st = Ok (x, st1) ->
    good st1 /\ exists ts e, steps st ts st1 /\ gram (S lv) ts e /\ (fits ts -> rep x e).
  Proof.
    intros p lv st x st1 Hlv P Hg E.
    destruct (P _ _ _ Hg E) as [G1 [ts1 [e1 [S1 [R1 F1]]]]].
    split; [assumption|]. exists ts1, e1. split; [assumption|].
    split; [now apply g_up|assumption].
  Qed.

  Lemma p_mul_sound : psound (p_mul pe) 1.
  Proof.
    intros st a st' Hg H. unfold p_mul in H.
    inv_bind H q E. destruct q as [x st1].
    assert (U : Ok (x, st1) = Ok (a, st') ->
      good st' /\ exists ts e, steps st ts st' /\ gram 1 ts e /\ (fits ts -> rep a e)).
    { intro Q. injection Q as <- <-. eapply up_sound; eauto using p_pm_sound. lia. }
    destruct (lx_tok st1) eqn:T; try (now apply U).
    inv_bind H st2 E2. inv_bind H q E3. destruct q as [y st3].
    injection H as <- <-.
    eapply bin_sound with (l := LRem); eauto using p_pm_sound. now rewrite T.
  Qed.

  Lemma p_rel_sound : psound (p_rel pe) 2.
  Proof.
    intros st a st' Hg H. unfold p_rel in H.
    inv_bind H q E. destruct q as [x st1].
    destruct (rel_op (lx_tok st1)) as [o|] eqn:T.
    - inv_bind H st2 E2. inv_bind H q E3. destruct q as [y st3].
      injection H as <- <-.
      destruct (lx_tok st1) eqn:T1; try discriminate; injection T as <-.
      + eapply bin_sound with (l := LGt); eauto using p_mul_sound. now rewrite T1.
      + eapply bin_sound with (l := LGe); eauto using p_mul_sound. now rewrite T1.
      + eapply bin_sound with (l := LLt); eauto using p_mul_sound. now rewrite T1.
      + eapply bin_sound with (l := LLe); eauto using p_mul_sound. now rewrite T1.
    - injection H as <- <-. eapply up_sound; eauto using p_mul_sound. lia.
  Qed.

  Lemma p_eq_sound : psound (p_eq pe) 3.
  Proof.
    intros st a st' Hg H. unfold p_eq in H.
    inv_bind H q E. destruct q as [x st1].
    destruct (eq_op (lx_tok st1)) as [o|] eqn:T.
    - inv_bind H st2 E2. inv_bind H q E3. destruct q as [y st3].
      injection H as <- <-.
      destruct (lx_tok st1) eqn:T1; try discriminate; injection T as <-.
      + eapply bin_sound with (l := LEq); eauto using p_rel_sound. now rewrite T1.
      + eapply bin_sound with (l := LNe); eauto using p_rel_sound. now rewrite T1.
    - injection H as <- <-. exact (up_sound _ 2 _ _ _ ltac:(lia) p_rel_sound Hg E).
  Qed.

  Lemma p_and_sound : forall f, psound (p_and pe f) 4.
  Proof.
    induction f as [|f IH]; intros st a st' Hg H; [discriminate|].
    cbn [p_and] in H. inv_bind H q E. destruct q as [x st1].
    assert (U : Ok (x, st1) = Ok (a, st') ->
      good st' /\ exists ts e, steps st ts st' /\ gram 4 ts e /\ (fits ts -> rep a e)).
    { intro Q. injection Q as <- <-. exact (up_sound _ 3 _ _ _ ltac:(lia) p_eq_sound Hg E). }
    destruct (lx_tok st1) eqn:T; try (now apply U).
    inv_bind H st2 E2. inv_bind H q E3. destruct q as [y st3].
    injection H as <- <-.
    destruct (p_eq_sound _ _ _ Hg E) as [G1 [ts1 [e1 [S1 [R1 F1]]]]].
    destruct (scan_next_good _ _ (proj1 G1) E2) as [G2 _].
    destruct (IH _ _ _ G2 E3) as [G3 [ts2 [e2 [S2 [R2 F2]]]]].
    split; [assumption|].
    destruct (gram_and_right _ _ _ R2 eq_refl _ _ R1) as [e [R C]].
    exists (ts1 ++ LAnd :: ts2), e. split.
    - eapply steps_app; [exact S1|]. econstructor; [|exact E2|exact S2].
      destruct G1 as [_ [z Hz]]. pose proof Hz as Hz'. destruct Hz' as [Z1 _].
      rewrite T in Z1. injection Z1 as <-. exact Hz.
    - split; [assumption|]. intro F. apply fits_app in F as [Fa Fb]. apply fits_cons in Fb.
      eapply rep_ceq; [|apply ceq_sym, C]. apply (rep_chain BAnd); auto.
  Qed.

  Lemma p_or_sound : forall f, psound (p_or pe f) 5.
  Proof.
    induction f as [|f IH]; intros st a st' Hg H; [discriminate|].
    cbn [p_or] in H. inv_bind H q E. destruct q as [x st1].
    assert (U : Ok (x, st1) = Ok (a, st') ->
      good st' /\ exists ts e, steps st ts st' /\ gram 5 ts e /\ (fits ts -> rep a e)).
    { intro Q. injection Q as <- <-. eapply up_sound; [lia|apply (p_and_sound (S f))|auto|auto]. }
    destruct (lx_tok st1) eqn:T; try (now apply U).
    inv_bind H st2 E2. inv_bind H q E3. destruct q as [y st3].
    injection H as <- <-.
    destruct (p_and_sound (S f) _ _ _ Hg E) as [G1 [ts1 [e1 [S1 [R1 F1]]]]].
    destruct (scan_next_good _ _ (proj1 G1) E2) as [G2 _].
    destruct (IH _ _ _ G2 E3) as [G3 [ts2 [e2 [S2 [R2 F2]]]]].
    split; [assumption|].
    destruct (gram_or_right _ _ _ R2 eq_refl _ _ R1) as [e [R C]].
    exists (ts1 ++ LOr :: ts2), e. split.
    - eapply steps_app; [exact S1|]. econstructor; [|exact E2|exact S2].
      destruct G1 as [_ [z Hz]]. pose proof Hz as Hz'. destruct Hz' as [Z1 _].
      rewrite T in Z1. injection Z1 as <-. exact Hz.
    - split; [assumption|]. intro F. apply fits_app in F as [Fa Fb]. apply fits_cons in Fb.
      eapply rep_ceq; [|apply ceq_sym, C]. apply (rep_chain BOr); auto.
  Qed.
End Sound.

Lemma p_expr_sound : forall f, psound (p_expr f) 6.
Proof.
  induction f as [|f IH]; intros st a st' Hg H; [discriminate|].
  cbn [p_expr] in H. inv_bind H q E. destruct q as [c st1].
  pose proof (p_or_sound _ IH (S f)) as PO.
  assert (U : Ok (c, st1) = Ok (a, st') ->
    good st' /\ exists ts e, steps st ts st' /\ gram 6 ts e /\ (fits ts -> rep a e)).
  { intro Q. injection Q as <- <-. eapply up_sound; [lia|apply PO|auto|auto]. }
  destruct (lx_tok st1) eqn:T; try (now apply U).
  inv_bind H st2 E2. inv_bind H q E3. destruct q as [t st3].
  destruct (lx_tok st3) eqn:T3; try discriminate.
  inv_bind H st4 E4. inv_bind H q E5. destruct q as [e st5].
  injection H as <- <-.
  destruct (PO _ _ _ Hg E) as [G1 [ts1 [e1 [S1 [R1 F1]]]]].
  destruct (scan_next_good _ _ (proj1 G1) E2) as [G2 _].
  destruct (IH _ _ _ G2 E3) as [G3 [ts2 [e2 [S2 [R2 F2]]]]].
  destruct (scan_next_good _ _ (proj1 G3) E4) as [G4 _].
  destruct (IH _ _ _ G4 E5) as [G5 [ts3 [e3 [S3 [R3 F3]]]]].
  split; [assumption|].
  exists (ts1 ++ LQuestion :: ts2 ++ LColon :: ts3), (CCond e1 e2 e3). split.
  - eapply steps_app; [exact S1|]. econstructor; [|exact E2|].
    { destruct G1 as [_ [z Hz]]. pose proof Hz as Hz'. destruct Hz' as [Z1 _].
      rewrite T in Z1. injection Z1 as <-. exact Hz. }
    eapply steps_app; [exact S2|]. econstructor; [|exact E4|exact S3].
    destruct G3 as [_ [z Hz]]. pose proof Hz as Hz'. destruct Hz' as [Z1 _].
    rewrite T3 in Z1. injection Z1 as <-. exact Hz.
  - split; [now constructor|].
    intro F. apply fits_app in F as [Fa Fb]. apply fits_cons in Fb.
    apply fits_app in Fb as [Fb Fc]. apply fits_cons in Fc.
    apply rep_cond; auto.
Qed.

(** Text read by a sequence of steps. *)
Lemma steps_lays : forall st ls st', steps st ls st' -> clean (lx_rest st) ->
  forall y ls', cur st' y -> lays ls' (lx_rest st') ->
  exists z ls2, cur st z /\ z :: ls2 = ls ++ y :: ls' /\ lays ls2 (lx_rest st).
Proof.
  induction 1; intros Hc y ls' Hy Hl.
  - exists y, ls'. auto.
  - destruct (scan_next_good _ _ Hc H0) as [[Gc _] [w [Hw Ew]]].
    destruct (IHsteps Gc y ls' Hy Hl) as [z [ls2 [Hz [Ez Lz]]]].
    exists x, (ls ++ y :: ls'). split; [assumption|]. split; [reflexivity|].
    rewrite Ew. rewrite <- Ez. destruct Hz as [Z1 [Z2 Z3]].
    now constructor.
Qed.

Lemma expect_sound : forall t s l, clean s -> expect t s = Ok l -> t <> TWs ->
  t <> TFail -> t <> TEof ->
  lx_tok l = t /\ clean (lx_rest l) /\
  exists x w, lex_of t (lx_lit l) = Some x /\ Forall blank w /\
    s = w ++ lx_lit l ++ lx_rest l /\ spells x (lx_lit l) /\ closed x (lx_rest l).
Proof.
  intros t s l Hc H N1 N2 N3. unfold expect in H.
  pose proof (scan_iw_sound _ Hc) as S. simpl in S.
  assert (tok_eqb_eq : forall a b, tok_eqb a b = true -> a = b)
    by (intros [] []; simpl; congruence).
  destruct (tok_eqb (lx_tok (scan_iw s)) t) eqn:E; [|discriminate].
  apply tok_eqb_eq in E. injection H as <-. split; [assumption|].
  rewrite E in S.
  assert (S' : exists x w, lex_of t (lx_lit (scan_iw s)) = Some x /\ Forall blank w /\
    s = w ++ lx_lit (scan_iw s) ++ lx_rest (scan_iw s) /\
    spells x (lx_lit (scan_iw s)) /\ closed x (lx_rest (scan_iw s))).
  { destruct t; try congruence; exact S. }
  split; [|assumption].
  destruct S' as [x [w [_ [_ [Es _]]]]]. rewrite Es in Hc.
  apply clean_app_r in Hc. now apply clean_app_r in Hc.
Qed.

Theorem parse_sound : forall s f, clean s -> parse_forms s = Ok f ->
  exists ls np e, lays ls s /\ header ls np e /\
    (nums_fit ls -> f_nplurals f = np /\ rep (f_root f) e).
Proof.
  intros s f Hc H. unfold parse_forms in H.
  inv_bind H l1 E1. inv_bind H l2 E2. inv_bind H l3 E3. cbv zeta in H.
  inv_bind H l4 E4. inv_bind H l5 E5. inv_bind H l6 E6.
  inv_bind H st E7. inv_bind H q E8. destruct q as [n st'].
  destruct (lx_tok st') eqn:T; try discriminate.
  inv_bind H l9 E9. injection H as <-.
  Ltac es E Hc C x w := apply expect_sound in E; [|assumption|discriminate|discriminate|discriminate];
    destruct E as [_ [C [x [w E]]]].
  es E1 Hc C1 x1 w1. es E2 C1 C2 x2 w2. es E3 C2 C3 x3 w3.
  es E4 C3 C4 x4 w4. es E5 C4 C5 x5 w5. es E6 C5 C6 x6 w6.
  destruct (scan_next_good _ _ C6 E7) as [G7 [w7 [B7 T7]]].
  destruct (p_expr_sound _ _ _ _ G7 E8) as [G8 [ts [e [S8 [R8 F8]]]]].
  assert (L9 : lays [] (lx_rest st')).
  { unfold expect in E9. destruct G8 as [C8 _].
    pose proof (scan_iw_sound _ C8) as S. simpl in S.
    destruct (lx_tok (scan_iw (lx_rest st'))); try discriminate.
    now constructor. }
  destruct G8 as [C8 [y Hy]]. pose proof Hy as Hy'. destruct Hy' as [Y1 _].
  rewrite T in Y1. injection Y1 as <-.
  destruct (steps_lays _ _ _ S8 (proj1 G7) _ _ Hy L9) as [z [ls2 [Hz [Ez Lz]]]].
  destruct E1 as [X1 [W1 [Q1 [P1 K1]]]]. injection X1 as <-.
  destruct E2 as [X2 [W2 [Q2 [P2 K2]]]]. injection X2 as <-.
  destruct E3 as [X3 [W3 [Q3 [P3 K3]]]]. injection X3 as <-.
  destruct E4 as [X4 [W4 [Q4 [P4 K4]]]]. injection X4 as <-.
  destruct E5 as [X5 [W5 [Q5 [P5 K5]]]]. injection X5 as <-.
  destruct E6 as [X6 [W6 [Q6 [P6 K6]]]]. injection X6 as <-.
  exists ([LNplurals; LAssign; LNum (lx_lit l3); LSemi; LPlural; LAssign] ++ ts ++ [LSemi]),
    (dec_val (lx_lit l3)), e.
  split; [|split].
  - rewrite <- Ez. simpl.
    rewrite Q1. constructor; auto. rewrite Q2. constructor; auto.
    rewrite Q3. constructor; auto. rewrite Q4. constructor; auto.
    rewrite Q5. constructor; auto. rewrite Q6. constructor; auto.
    rewrite T7. destruct Hz as [Z1 [Z2 Z3]]. now constructor.
  - exists (lx_lit l3), ts. auto.
  - intro F. split.
    + simpl. destruct P3 as [_ [P3 P3']]. apply parse_int_ignore_digits; auto.
      apply F. simpl. tauto.
    + simpl. apply F8. intros ds Hd. apply F. simpl.
      do 6 right. apply in_or_app. now left.
Qed.
