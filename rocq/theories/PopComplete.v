(** Completeness of the Plural-Forms parser: every header of the grammar is
    accepted, with the meaning of PopSpec. *)
From Coq Require Import String Ascii List ZArith Bool Lia.
From Verif Require Import Base BaseProofs PopModel PopSpec PopScanProofs PopProofs.
Import ListNotations.
Open Scope Z_scope.

Lemma spells_no_nul : forall x s, spells x s -> ~ In NUL s.
Proof.
  intros x s H C.
  assert (L : forall w, to_lower s = w -> In NUL w).
  { intros w <-. unfold to_lower. apply in_map_iff. now exists NUL. }
  destruct x; simpl in H;
    try (specialize (L _ H); simpl in L; intuition discriminate);
    try (subst s; simpl in C; intuition discriminate).
  destruct H as [<- [_ H]]. rewrite forallb_forall in H. specialize (H _ C). discriminate.
Qed.

Lemma lays_no_nul : forall ls t, lays ls t -> ~ In NUL t.
Proof.
  assert (B : forall w, Forall blank w -> ~ In NUL w).
  { intros w H C. rewrite Forall_forall in H. specialize (H _ C).
    unfold blank in H. intuition discriminate. }
  induction 1; [now apply B|].
  intro C. apply in_app_or in C as [C|C]; [now apply (B w)|].
  apply in_app_or in C as [C|C]; [now apply (spells_no_nul l s)|contradiction].
Qed.

(** The parser stands at the first lexeme of ls. *)
Inductive at_ (st : pst) : list lexeme -> Prop :=
| at_intro : forall x ls, lx_tok st = tok_lex x -> spells x (lx_lit st) ->
    lays ls (lx_rest st) -> at_ st (x :: ls).

Lemma at_next : forall st x y ls, at_ st (x :: y :: ls) ->
  exists st', scan_next st = Ok st' /\ at_ st' (y :: ls).
Proof.
  intros st x y ls H. inversion H as [x' ls' H1 H2 H3]; subst.
  destruct (lays_cons_scan _ _ _ H3 (lays_no_nul _ _ H3)) as [s [rest [E [S [L [N Le]]]]]].
  exists (Lexed (tok_lex y) s rest). split.
  - unfold scan_next. rewrite E. now destruct y.
  - now constructor.
Qed.

(** precedence of the lexeme as an infix operator *)
Definition lev (x : lexeme) : nat :=
  match x with
  | LRem => 1 | LLt | LLe | LGt | LGe => 2 | LEq | LNe => 3
  | LAnd => 4 | LOr => 5 | LQuestion => 6 | _ => 7
  end%nat.

Definition pcomp (p : pst -> res (node * pst)) (lv k : nat) : Prop :=
  forall ts e st x ls, gram lv ts e -> (length ts <= k)%nat ->
    (lv < lev x)%nat -> at_ st (ts ++ x :: ls) ->
    exists a st', p st = Ok (a, st') /\ at_ st' (x :: ls) /\
      (fits ts -> rep a e).

Lemma gram_ne : forall lv ts e, gram lv ts e -> (1 <= length ts)%nat.
Proof.
  induction 1; simpl; rewrite ?app_length; simpl; lia.
Qed.

Lemma gram0_inv : forall ts e, gram 0 ts e ->
  (ts = [LN] /\ e = CN) \/
  (exists ds, ts = [LNum ds] /\ e = CV (dec_val ds)) \/
  (exists ts', ts = LParen :: ts' ++ [RParen] /\ gram 6 ts' e).
Proof.
  intros ts e H. inversion H; subst; [now left|right; left; eauto|right; right; eauto].
Qed.

Lemma gramS_inv : forall lv ts e, (lv < 3)%nat -> gram (S lv) ts e ->
  gram lv ts e \/
  exists o op ts1 ts2 a b, op_at (S lv) o = Some op /\ gram lv ts1 a /\ gram lv ts2 b /\
    ts = ts1 ++ o :: ts2 /\ e = CBin op a b.
Proof.
  intros lv ts e Hl H. inversion H; subst; try lia.
  - now left.
  - right. repeat eexists; eauto.
Qed.

Lemma tok_inj : forall st x ls, at_ st (x :: ls) -> lx_tok st = tok_lex x.
Proof. intros st x ls H. inversion H; subst. assumption. Qed.

Section Complete.
  Variable pe : pst -> res (node * pst).
  Variable k : nat.
  Hypothesis PE : pcomp pe 6 k.

  Lemma p_pm_comp : pcomp (p_pm pe) 0 (S k).
  Proof.
    intros ts e st x ls G Hl Hx Hat. unfold p_pm.
    destruct (gram0_inv _ _ G) as [[-> ->] | [[ds [-> ->]] | [ts' [-> G']]]].
    - rewrite (tok_inj _ _ _ Hat). simpl tok_lex. cbv iota.
      destruct (at_next _ _ _ _ Hat) as [st' [E A]]. rewrite E. simpl.
      exists NOp, st'. split; [reflexivity|]. split; [assumption|]. intros _. apply ceq_refl.
    - rewrite (tok_inj _ _ _ Hat). simpl tok_lex. cbv iota.
      destruct (at_next _ _ _ _ Hat) as [st' [E A]]. rewrite E. simpl.
      eexists _, st'. split; [reflexivity|]. split; [assumption|].
      inversion Hat as [? ? H1 H2 H3]; subst. destruct H2 as [H2 [H4 H5]].
      intro F. unfold rep. simpl. rewrite H2.
      rewrite parse_int_ignore_digits; auto; [apply ceq_refl|]. apply F. now left.
    - rewrite (tok_inj _ _ _ Hat). simpl tok_lex. cbv iota.
      simpl in Hat. rewrite <- app_assoc in Hat. simpl in Hat.
      pose proof (gram_ne _ _ _ G') as Hne.
      destruct ts' as [|y ts']; [simpl in Hne; lia|].
      destruct (at_next _ _ _ _ Hat) as [st1 [E1 A1]]. rewrite E1. simpl rbind.
      destruct (PE (y :: ts') e st1 RParen (x :: ls)) as [a [st2 [E2 [A2 R2]]]]; auto.
      + simpl in Hl. rewrite app_length in Hl. simpl in Hl |- *. lia.
      + rewrite E2. simpl rbind. rewrite (tok_inj _ _ _ A2). simpl tok_lex. cbv iota.
        destruct (at_next _ _ _ _ A2) as [st3 [E3 A3]]. rewrite E3. simpl.
        exists a, st3. split; [reflexivity|]. split; [assumption|].
        intro F. apply R2. apply fits_cons in F.
        apply (fits_app (y :: ts') [RParen]) in F. tauto.
  Qed.

  (** one optional binary operator *)
  Lemma bin_comp : forall p lv (opt : tok -> option bop) q, (lv < 3)%nat ->
    pcomp p lv (S k) ->
    (forall l, option_map cop_of (opt (tok_lex l)) = op_at (S lv) l) ->
    (forall st, q st = do (x, st1) <- p st;
      match opt (lx_tok st1) with
      | Some o => do st2 <- scan_next st1; do (y, st3) <- p st2; Ok (NBin o x y, st3)
      | None => Ok (x, st1)
      end) ->
    pcomp q (S lv) (S k).
  Proof.
    intros p lv opt q Hlv P Hopt Hq ts e st x ls G Hl Hx Hat.
    rewrite Hq. destruct (gramS_inv _ _ _ Hlv G) as [G1 | [o [op [ts1 [ts2 [a [b [Ho [G1 [G2 [-> ->]]]]]]]]]]].
    - destruct (P ts e st x ls) as [n [st' [E [A R]]]]; auto; try (simpl in *; lia).
      rewrite E. simpl rbind. rewrite (tok_inj _ _ _ A).
      specialize (Hopt x).
      destruct (opt (tok_lex x)) as [o'|]; simpl in Hopt.
      + exfalso. assert (lev x = S lv); [|lia].
        destruct lv as [|[|[|lv]]]; try lia; destruct x; simpl in Hopt; try discriminate; reflexivity.
      + exists n, st'. auto.
    - rewrite app_length in Hl. simpl in Hl.
      pose proof (gram_ne _ _ _ G2) as N2.
      rewrite <- app_assoc in Hat. simpl in Hat.
      destruct (P ts1 a st o (ts2 ++ x :: ls)) as [n [st1 [E [A R]]]]; auto; try (simpl in *; lia).
      { destruct lv as [|[|[|lv]]]; try lia; destruct o; simpl in Ho; try discriminate;
          simpl; lia. }
      rewrite E. simpl rbind. rewrite (tok_inj _ _ _ A).
      specialize (Hopt o). rewrite Ho in Hopt.
      destruct (opt (tok_lex o)) as [o'|]; simpl in Hopt; [|discriminate].
      injection Hopt as <-.
      destruct ts2 as [|y ts2]; [simpl in N2; lia|].
      destruct (at_next _ _ _ _ A) as [st2 [E2 A2]]. rewrite E2. simpl rbind.
      destruct (P (y :: ts2) b st2 x ls) as [m [st3 [E3 [A3 R3]]]]; auto; try (simpl in *; lia).
      rewrite E3. simpl. exists (NBin o' n m), st3. split; [reflexivity|]. split; [assumption|].
      intro F; apply fits_app in F as [F1 F2]; apply fits_cons in F2. apply rep_bin; auto.
  Qed.

  Lemma p_mul_comp : pcomp (p_mul pe) 1 (S k).
  Proof.
    apply bin_comp with (p := p_pm pe)
      (opt := fun t => match t with TRem => Some BRem | _ => None end); [lia| | |].
    - exact p_pm_comp.
    - now destruct l.
    - intro st. unfold p_mul. destruct (p_pm pe st) as [[x st1]| | |]; try reflexivity.
      simpl. now destruct (lx_tok st1).
  Qed.

  Lemma p_rel_comp : pcomp (p_rel pe) 2 (S k).
  Proof.
    apply bin_comp with (p := p_mul pe) (opt := rel_op); [lia|exact p_mul_comp|now destruct l|reflexivity].
  Qed.

  Lemma p_eq_comp : pcomp (p_eq pe) 3 (S k).
  Proof.
    apply bin_comp with (p := p_rel pe) (opt := eq_op); [lia|exact p_rel_comp|now destruct l|reflexivity].
  Qed.

  (** A left-associated conjunction, seen from its first conjunct. *)
  Lemma and_first : forall lv ts e, gram lv ts e -> lv = 4%nat ->
    (gram 3 ts e) \/
    exists ts1 ts2 a b, gram 3 ts1 a /\ gram 4 ts2 b /\ ts = ts1 ++ LAnd :: ts2 /\
      ceq (CBin CAnd a b) e.
  Proof.
    induction 1; intro Hlv; try discriminate.
    - injection Hlv as ->. now left.
    - injection Hlv as ->. destruct o; discriminate.
    - right. destruct (IHgram1 eq_refl) as [G1 | [t1 [t2 [a1 [b1 [G1 [G2 [-> C]]]]]]]].
      + exists ts1, ts2, a, b. split; [assumption|]. split; [apply g_up; [lia|assumption]|].
        split; [reflexivity|apply ceq_refl].
      + exists t1, (t2 ++ LAnd :: ts2), a1, (CBin CAnd b1 b). split; [assumption|].
        split; [now apply g_and|]. split; [now rewrite <- app_assoc|].
        eapply ceq_trans; [apply ceq_sym, and_assoc_c|].
        apply bin_cong; [assumption|apply ceq_refl].
  Qed.

  Lemma or_first : forall lv ts e, gram lv ts e -> lv = 5%nat ->
    (gram 4 ts e) \/
    exists ts1 ts2 a b, gram 4 ts1 a /\ gram 5 ts2 b /\ ts = ts1 ++ LOr :: ts2 /\
      ceq (CBin COr a b) e.
  Proof.
    induction 1; intro Hlv; try discriminate.
    - injection Hlv as ->. now left.
    - injection Hlv as ->. destruct o; discriminate.
    - right. destruct (IHgram1 eq_refl) as [G1 | [t1 [t2 [a1 [b1 [G1 [G2 [-> C]]]]]]]].
      + exists ts1, ts2, a, b. split; [assumption|]. split; [apply g_up; [lia|assumption]|].
        split; [reflexivity|apply ceq_refl].
      + exists t1, (t2 ++ LOr :: ts2), a1, (CBin COr b1 b). split; [assumption|].
        split; [now apply g_or|]. split; [now rewrite <- app_assoc|].
        eapply ceq_trans; [apply ceq_sym, or_assoc_c|].
        apply bin_cong; [assumption|apply ceq_refl].
  Qed.

  Lemma p_and_comp : forall f, (f <= S k)%nat -> pcomp (p_and pe f) 4 f.
  Proof.
    induction f as [|f IH]; intros Hf ts e st x ls G Hl Hx Hat;
      pose proof (gram_ne _ _ _ G) as Hne; [lia|].
    cbn [p_and].
    destruct (and_first _ _ _ G eq_refl) as [G1 | [ts1 [ts2 [a [b [G1 [G2 [-> C]]]]]]]].
    - destruct (p_eq_comp ts e st x ls) as [n [st' [E [A R]]]]; auto; try (simpl in *; lia).
      rewrite E. simpl rbind. rewrite (tok_inj _ _ _ A).
      destruct x; simpl in Hx; try lia; simpl; exists n, st'; auto.
    - rewrite app_length in Hl. simpl in Hl. pose proof (gram_ne _ _ _ G2) as N2.
      rewrite <- app_assoc in Hat. simpl in Hat.
      destruct (p_eq_comp ts1 a st LAnd (ts2 ++ x :: ls)) as [n [st1 [E [A R]]]];
        auto; try (simpl in *; lia).
      rewrite E. simpl rbind. rewrite (tok_inj _ _ _ A). simpl tok_lex. cbv iota.
      destruct ts2 as [|y ts2]; [simpl in N2; lia|].
      destruct (at_next _ _ _ _ A) as [st2 [E2 A2]]. rewrite E2. simpl rbind.
      destruct (IH ltac:(lia) (y :: ts2) b st2 x ls) as [m [st3 [E3 [A3 R3]]]];
        auto; try (simpl in *; lia).
      rewrite E3. cbn [rbind]. exists (mk_chain BAnd n m), st3. split; [reflexivity|]. split; [assumption|].
      intro F; apply fits_app in F as [F1 F2]; apply fits_cons in F2. 
      eapply rep_ceq; [|exact C]. apply (rep_chain BAnd); auto.
  Qed.

  Lemma p_or_comp : forall f, (f <= S k)%nat -> pcomp (p_or pe f) 5 f.
  Proof.
    induction f as [|f IH]; intros Hf ts e st x ls G Hl Hx Hat;
      pose proof (gram_ne _ _ _ G) as Hne; [lia|].
    cbn [p_or].
    destruct (or_first _ _ _ G eq_refl) as [G1 | [ts1 [ts2 [a [b [G1 [G2 [-> C]]]]]]]].
    - destruct (p_and_comp (S f) Hf ts e st x ls) as [n [st' [E [A R]]]]; auto; try (simpl in *; lia).
      rewrite E. cbn [rbind]. rewrite (tok_inj _ _ _ A).
      destruct x; simpl in Hx; try lia; simpl; exists n, st'; auto.
    - rewrite app_length in Hl. simpl in Hl. pose proof (gram_ne _ _ _ G2) as N2.
      rewrite <- app_assoc in Hat. simpl in Hat.
      destruct (p_and_comp (S f) Hf ts1 a st LOr (ts2 ++ x :: ls)) as [n [st1 [E [A R]]]];
        auto; try (simpl in *; lia).
      rewrite E. cbn [rbind]. rewrite (tok_inj _ _ _ A). simpl tok_lex. cbv iota.
      destruct ts2 as [|y ts2]; [simpl in N2; lia|].
      destruct (at_next _ _ _ _ A) as [st2 [E2 A2]]. rewrite E2. cbn [rbind].
      destruct (IH ltac:(lia) (y :: ts2) b st2 x ls) as [m [st3 [E3 [A3 R3]]]];
        auto; try (simpl in *; lia).
      rewrite E3. cbn [rbind]. exists (mk_chain BOr n m), st3. split; [reflexivity|]. split; [assumption|].
      intro F; apply fits_app in F as [F1 F2]; apply fits_cons in F2. 
      eapply rep_ceq; [|exact C]. apply (rep_chain BOr); auto.
  Qed.
End Complete.

Lemma gram6_inv : forall ts e, gram 6 ts e ->
  gram 5 ts e \/
  exists tc tt tf c t f, gram 5 tc c /\ gram 6 tt t /\ gram 6 tf f /\
    ts = tc ++ LQuestion :: tt ++ LColon :: tf /\ e = CCond c t f.
Proof.
  intros ts e H. inversion H as [| | |lv ts' e' Hl G|lv o op ts1 ts2 a b Ho|?|?|]; subst.
  - now left.
  - destruct o; discriminate.
  - right. repeat eexists; eauto.
Qed.

Lemma p_expr_comp : forall f, pcomp (p_expr f) 6 f.
Proof.
  induction f as [|f IH]; intros ts e st x ls G Hl Hx Hat;
    pose proof (gram_ne _ _ _ G) as Hne; [lia|].
  cbn [p_expr]. pose proof (p_or_comp (p_expr f) f IH (S f) (le_n _)) as PO.
  destruct (gram6_inv _ _ G) as [G1 | [tc [tt [tf [c [t [g [G1 [G2 [G3 [-> ->]]]]]]]]]]].
  - destruct (PO ts e st x ls) as [n [st' [E [A R]]]]; auto; try (simpl in *; lia).
    rewrite E. cbn [rbind]. rewrite (tok_inj _ _ _ A).
    destruct x; simpl in Hx; try lia; simpl; exists n, st'; auto.
  - rewrite app_length in Hl. simpl in Hl. rewrite app_length in Hl. simpl in Hl.
    pose proof (gram_ne _ _ _ G2) as N2. pose proof (gram_ne _ _ _ G3) as N3.
    rewrite <- app_assoc in Hat. simpl in Hat. rewrite <- app_assoc in Hat. simpl in Hat.
    destruct (PO tc c st LQuestion (tt ++ LColon :: tf ++ x :: ls)) as [n [st1 [E [A R]]]];
      auto; try (simpl in *; lia).
    rewrite E. cbn [rbind]. rewrite (tok_inj _ _ _ A). simpl tok_lex. cbv iota.
    destruct tt as [|y tt]; [simpl in N2; lia|].
    destruct (at_next _ _ _ _ A) as [st2 [E2 A2]]. rewrite E2. cbn [rbind].
    destruct (IH (y :: tt) t st2 LColon (tf ++ x :: ls)) as [m [st3 [E3 [A3 R3]]]];
      auto; try (simpl in *; lia).
    rewrite E3. cbn [rbind]. rewrite (tok_inj _ _ _ A3). simpl tok_lex. cbv iota.
    destruct tf as [|z tf]; [simpl in N3; lia|].
    destruct (at_next _ _ _ _ A3) as [st4 [E4 A4]]. rewrite E4. cbn [rbind].
    destruct (IH (z :: tf) g st4 x ls) as [q [st5 [E5 [A5 R5]]]]; auto; try (simpl in *; lia).
    rewrite E5. cbn [rbind]. exists (NCond n m q), st5. split; [reflexivity|]. split; [assumption|].
    intro F; apply fits_app in F as [F1 F2]; apply fits_cons in F2. 
    apply fits_app in F2 as [F2 F3]. apply fits_cons in F3.
    apply rep_cond; auto.
Qed.

Lemma expect_comp : forall x ls t, lays (x :: ls) t ->
  exists l, expect (tok_lex x) t = Ok l /\ lx_tok l = tok_lex x /\
    spells x (lx_lit l) /\ lays ls (lx_rest l).
Proof.
  intros x ls t H.
  destruct (lays_cons_scan _ _ _ H (lays_no_nul _ _ H)) as [s [rest [E [S [L _]]]]].
  exists (Lexed (tok_lex x) s rest). unfold expect. rewrite E.
  split; [destruct x; reflexivity | auto].
Qed.

Lemma lays_len : forall ls t, lays ls t -> (length ls <= length t)%nat.
Proof.
  induction 1 as [|w l s ls rest Hw Hs Hc Hl IH]; simpl; [lia|].
  rewrite !app_length. pose proof (spells_nonempty _ _ Hs).
  destruct s; [contradiction|]. simpl. lia.
Qed.

Theorem parse_accepts : forall t ls np e, lays ls t -> header ls np e ->
  exists f, parse_forms t = Ok f /\
    (nums_fit ls -> f_nplurals f = np /\ rep (f_root f) e).
Proof.
  intros t ls np e L [ds [ts [-> [-> G]]]].
  pose proof (lays_len _ _ L) as Len.
  unfold parse_forms. simpl app in L.
  destruct (expect_comp _ _ _ L) as [l1 [E1 [_ [_ L1]]]]. simpl tok_lex in E1.
  rewrite E1. cbn [rbind].
  destruct (expect_comp _ _ _ L1) as [l2 [E2 [_ [_ L2]]]]. simpl tok_lex in E2.
  rewrite E2. cbn [rbind].
  destruct (expect_comp _ _ _ L2) as [l3 [E3 [_ [S3 L3]]]]. simpl tok_lex in E3.
  rewrite E3. cbn [rbind]. cbv zeta.
  destruct (expect_comp _ _ _ L3) as [l4 [E4 [_ [_ L4]]]]. simpl tok_lex in E4.
  rewrite E4. cbn [rbind].
  destruct (expect_comp _ _ _ L4) as [l5 [E5 [_ [_ L5]]]]. simpl tok_lex in E5.
  rewrite E5. cbn [rbind].
  destruct (expect_comp _ _ _ L5) as [l6 [E6 [T6 [S6 L6]]]]. simpl tok_lex in E6.
  rewrite E6. cbn [rbind].
  pose proof (gram_ne _ _ _ G) as Hne.
  assert (Hat : at_ l6 (LAssign :: ts ++ [LSemi])) by now constructor.
  destruct ts as [|y ts]; [simpl in Hne; lia|].
  destruct (at_next _ _ _ _ Hat) as [st [E7 A7]]. rewrite E7. cbn [rbind].
  destruct (p_expr_comp (S (length t)) (y :: ts) e st LSemi []) as [a [st' [E8 [A8 R8]]]]; auto.
  - rewrite app_length in Len. simpl in *. rewrite app_length in Len. simpl in *. lia.
  - rewrite E8. cbn [rbind]. rewrite (tok_inj _ _ _ A8). simpl tok_lex. cbv iota.
    inversion A8 as [? ? H1 H2 H3]; subst.
    unfold expect. rewrite (lays_nil_scan _ H3). simpl.
    eexists. split; [reflexivity|]. simpl. intro F. split.
    2: { apply R8. intros d Hd. apply F. simpl. do 6 right.
         apply (in_or_app (y :: ts) [LSemi]). now left. }
    destruct S3 as [-> [S3 S3']]. apply parse_int_ignore_digits; auto.
    apply F. simpl. tauto.
Qed.

Theorem parse_complete : forall t np e, header_text t np e ->
  exists f, parse_forms t = Ok f /\ f_nplurals f = np /\ rep (f_root f) e.
Proof.
  intros t np e [ls [L [F H]]].
  destruct (parse_accepts _ _ _ _ L H) as [f [E R]]. exists f. split; [assumption|].
  now apply R.
Qed.

(** Lexing is unambiguous. *)
Lemma tok_lex_inj : forall x y s, tok_lex x = tok_lex y -> spells x s -> spells y s -> x = y.
Proof.
  intros x y s H Hx Hy. destruct x, y; simpl in H; try discriminate; try reflexivity.
  simpl in Hx, Hy. destruct Hx as [-> _], Hy as [-> _]. reflexivity.
Qed.

Theorem lays_unique : forall ls t, lays ls t -> forall ls', lays ls' t -> ls = ls'.
Proof.
  induction ls as [|x ls IH]; intros t H ls' H'.
  - destruct ls' as [|y ls']; [reflexivity|].
    destruct (lays_cons_scan _ _ _ H' (lays_no_nul _ _ H')) as [s [rest [E _]]].
    pose proof (lays_nil_scan _ H) as E2. rewrite E in E2. now destruct y.
  - destruct (lays_cons_scan _ _ _ H (lays_no_nul _ _ H)) as [s [rest [E [S [L _]]]]].
    destruct ls' as [|y ls'].
    + pose proof (lays_nil_scan _ H') as E2. rewrite E in E2. now destruct x.
    + destruct (lays_cons_scan _ _ _ H' (lays_no_nul _ _ H')) as [s' [rest' [E' [S' [L' _]]]]].
      rewrite E in E'. injection E' as E1 E2 E3. subst s' rest'.
      rewrite (tok_lex_inj x y s E1 S S'). f_equal. now apply (IH rest).
Qed.

(** Executable lexer, used to compute the lexemes of concrete headers. *)
Fixpoint lex_all (fuel : nat) (t : bytes) : option (list lexeme) :=
  match fuel with
  | O => None
  | S f =>
      let l := scan_iw t in
      match lx_tok l with
      | TEof => Some []
      | _ => match lex_of (lx_tok l) (lx_lit l) with
             | Some x => option_map (cons x) (lex_all f (lx_rest l))
             | None => None
             end
      end
  end.

Lemma lex_all_sound : forall fuel t ls, clean t -> lex_all fuel t = Some ls -> lays ls t.
Proof.
  induction fuel as [|f IH]; intros t ls Hc H; [discriminate|]. simpl in H.
  pose proof (scan_iw_sound t Hc) as S. cbv zeta in S.
  set (l := scan_iw t) in *. clearbody l. cbv zeta in H.
  destruct (lx_tok (l)) eqn:T; try discriminate;
    try (destruct S as [x [w [S1 [S2 [S3 [S4 S5]]]]]]; injection S1 as <-; cbn [lex_of] in H;
      destruct (lex_all f (lx_rest (l))) as [ls'|] eqn:E; [|discriminate];
      injection H as <-; rewrite S3; constructor; auto; apply IH; auto;
      rewrite S3 in Hc; apply clean_app_r in Hc; now apply clean_app_r in Hc).
  injection H as <-. now constructor.
Qed.
