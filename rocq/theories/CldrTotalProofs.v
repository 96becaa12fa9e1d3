(** Termination and absence of panics of the rule parser and evaluator, and
    independence of the iteration order. *)
From Coq Require Import String Ascii List ZArith QArith Bool Lia ZifyBool Permutation.
From Verif Require Import Base BaseProofs Utf8Model Utf8Proofs StrModel PopModel NumModel NumProofs F64Model
  ReModel ReProofs CldrModel CldrSpec CldrEvalProofs CldrOperandProofs CldrBuiltinProofs CldrParseProofs
  CldrSampleProofs.
Import ListNotations.
Open Scope Z_scope.

(** ** Results that are a value or an error *)

Definition good {A} (r : res A) (P : A -> Prop) : Prop :=
  match r with Ok x => P x | Err => True | Panic | OutOfFuel => False end.

Lemma good_bind : forall A B (r : res A) (k : A -> res B) P Q,
  good r P -> (forall x, P x -> good (k x) Q) -> good (rbind r k) Q.
Proof. intros A B [x| | |] k P Q G H; cbn in *; auto; contradiction. Qed.

Lemma good_impl : forall A (r : res A) (P Q : A -> Prop), good r P -> (forall x, P x -> Q x) -> good r Q.
Proof. intros A [x| | |] P Q G H; cbn in *; auto. Qed.

(** ** Scanner *)

Lemma cscan_shape : forall ts t l r, cscan ts = (t, l, r) ->
  (exists d, ts = d ++ r) /\ (t <> KEof -> (length r < length ts)%nat).
Proof.
  induction ts as [|lit ts IH]; intros t l r H.
  - inversion H; subst. split; [exists []; reflexivity|congruence].
  - assert (ONE : r = ts -> (exists d, lit :: ts = d ++ r) /\ (t <> KEof -> (length r < length (lit :: ts))%nat)).
    { intros ->. split; [exists [lit]; reflexivity|]. intros _. simpl. lia. }
    cbn [cscan] in H.
    repeat match type of H with
    | (if ?c then _ else _) = _ => destruct c; [solve [inversion H; subst; apply ONE; reflexivity]|]
    | (if ?c then _ else _) = _ => destruct c
    end.
    + destruct (IH _ _ _ H) as [(d & E) L]. split; [exists (lit :: d); rewrite E; reflexivity|].
      intro N. specialize (L N). simpl. lia.
    + destruct ts as [|nx r2]; [inversion H; subst; apply ONE; reflexivity|].
      destruct (mem_b nx [bs ".."; bs "~"]); [|inversion H; subst; apply ONE; reflexivity].
      destruct r2 as [|n3 r3]; inversion H; subst.
      * split; [exists [lit; nx]; reflexivity|]. intros _. simpl. lia.
      * split; [exists [lit; nx; n3]; reflexivity|]. intros _. simpl. lia.
Qed.

Lemma cscan_lit : forall (P : bytes -> Prop), P [] -> P (bs "%") -> P (bs "!=") ->
  (forall a b, P a -> P b -> P (a ++ b)) ->
  forall ts t l r, cscan ts = (t, l, r) -> Forall P ts -> P l /\ Forall P r.
Proof.
  intros P P0 P1 P2 PA ts. induction ts as [|lit ts IH]; intros t l r H F.
  - inversion H; subst. auto.
  - inversion F as [|? ? PL PT]; subst.
    cbn [cscan] in H.
    repeat match type of H with
    | (if ?c then _ else _) = _ => destruct c; [solve [inversion H; subst; auto]|]
    | (if ?c then _ else _) = _ => destruct c
    end.
    + exact (IH _ _ _ H PT).
    + destruct ts as [|nx r2]; [inversion H; subst; auto|].
      destruct (mem_b nx [bs ".."; bs "~"]); [|inversion H; subst; auto].
      inversion PT as [|? ? PN PT2]; subst.
      destruct r2 as [|n3 r3]; inversion H; subst; [auto|].
      inversion PT2; subst. split; auto.
Qed.

Lemma cscan_srange : forall ts l r, cscan ts = (KSampleRange, l, r) -> rmatch re_sample_range l = true.
Proof.
  assert (CL : forall x, classify x = KSampleRange -> rmatch re_sample_range x = true).
  { intros x H. unfold classify in H. destruct (rmatch re_value x); [discriminate|].
    destruct (rmatch re_sample_value x); [discriminate|]. destruct (rmatch re_range x); [discriminate|].
    destruct (rmatch re_sample_range x); [reflexivity|discriminate]. }
  induction ts as [|lit ts IH]; intros l r H; [discriminate|].
  cbn [cscan] in H.
  repeat match type of H with
  | (if ?c then _ else _) = _ => destruct c; [discriminate|]
  | (if ?c then _ else _) = _ => destruct c
  end.
  - exact (IH _ _ H).
  - destruct ts as [|nx r2]; [inversion H; subst; apply CL; assumption|].
    destruct (mem_b nx [bs ".."; bs "~"]); [|inversion H; subst; apply CL; assumption].
    destruct r2 as [|n3 r3]; inversion H; subst. apply CL. assumption.
Qed.

Lemma srange_tilde : forall s, rmatch re_sample_range s = true -> In "~"%char s.
Proof.
  intros s H. apply rmatch_lang in H. unfold re_sample_range in H. cbn [rseq] in H.
  apply lang_seq in H. destruct H as (a & b & E & _ & H). subst.
  apply lang_seq in H. destruct H as (c & d & E & _ & H). subst.
  apply lang_seq in H. destruct H as (e & f & E & H & _). subst.
  apply lang_set in H. destruct H as (x & E & H). subst. apply Ascii.eqb_eq in H. subst.
  apply in_app_iff. right. apply in_app_iff. right. left. reflexivity.
Qed.

Definition operand_lit (l : bytes) : Prop :=
  In l [bs "n"; bs "i"; bs "v"; bs "w"; bs "f"; bs "t"; bs "c"; bs "e"].

Lemma mem_b_in : forall x l, mem_b x l = true -> In x l.
Proof.
  intros x l H. unfold mem_b in H. apply existsb_exists in H. destruct H as (y & I & E).
  apply beq_eq in E. subst. exact I.
Qed.

Lemma classify_not_operand : forall x, classify x <> KOperand.
Proof.
  intro x. unfold classify. destruct (rmatch re_value x); [discriminate|].
  destruct (rmatch re_sample_value x); [discriminate|]. destruct (rmatch re_range x); [discriminate|].
  destruct (rmatch re_sample_range x); discriminate.
Qed.

Lemma cscan_operand : forall ts l r, cscan ts = (KOperand, l, r) -> operand_lit (kw_lower l).
Proof.
  induction ts as [|lit ts IH]; intros l r H; [discriminate|].
  cbn [cscan] in H. destruct (beq (kw_lower lit) []); [discriminate|].
  match type of H with (if ?c then _ else _) = _ => destruct c eqn:M end.
  - inversion H; subst. apply mem_b_in. exact M.
  - repeat match type of H with
    | (if ?c then _ else _) = _ => destruct c; [discriminate|]
    | (if ?c then _ else _) = _ => destruct c
    end.
    + exact (IH _ _ H).
    + destruct ts as [|nx r2]; [inversion H; exfalso; eapply classify_not_operand; eassumption|].
      destruct (mem_b nx [bs ".."; bs "~"]); [|inversion H; exfalso; eapply classify_not_operand; eassumption].
      destruct r2 as [|n3 r3]; inversion H. exfalso; eapply classify_not_operand; eassumption.
Qed.

(** ** Parser *)

Definition mu (st : pst) : nat := match p_tok st with KEof => 0%nat | _ => S (length (p_rest st)) end.

Fixpoint node_ops (P : bytes -> Prop) (n : cnode) : Prop :=
  match n with
  | CRel _ e _ => P (ce_operand e)
  | CAnd a b | COr a b => node_ops P a /\ node_ops P b
  end.

Section Invariant.
  (** An invariant of the parser state kept by the scanner, and what it says
      about operands. *)
  Variable J : pst -> Prop.
  Variable P : bytes -> Prop.
  Hypothesis J_next : forall st st', J st -> pnext st = Ok st' -> J st'.
  Hypothesis J_oper : forall st, J st -> p_tok st = KOperand -> P (p_lit st).

  Lemma pnext_good : forall st, J st ->
    good (pnext st) (fun st' => (mu st' <= length (p_rest st))%nat /\ J st').
  Proof.
    intros st HJ. destruct (pnext st) as [st'| | |] eqn:E; cbn [good]; auto.
    - split; [|exact (J_next _ _ HJ E)]. unfold pnext in E.
      destruct (cscan (p_rest st)) as [[t l] r] eqn:C. destruct (cscan_shape _ _ _ _ C) as [_ L].
      destruct t; try discriminate; inversion E; subst; unfold mu; cbn [p_tok p_rest]; try lia;
        specialize (L ltac:(discriminate)); lia.
    - unfold pnext in E. destruct (cscan (p_rest st)) as [[t l] r]. destruct t; discriminate.
    - unfold pnext in E. destruct (cscan (p_rest st)) as [[t l] r]. destruct t; discriminate.
  Qed.

  Lemma p_value_good : forall st, J st ->
    good (p_value st) (fun vs => (mu (snd vs) < mu st)%nat /\ J (snd vs)).
  Proof.
    intros st HJ. unfold p_value. destruct (p_tok st) eqn:T; try exact I. cbv zeta.
    eapply good_bind; [apply pnext_good; exact HJ|]. intros st' [L H]. cbn [good snd].
    unfold mu at 2. rewrite T. split; [lia|exact H].
  Qed.

  Lemma parse_int_err_good : forall s, good (parse_int_err s) (fun _ => True).
  Proof. intro s. unfold parse_int_err. destruct (parse_int s); exact I. Qed.

  Lemma p_range_good : forall st, J st ->
    good (p_range st) (fun vs => (mu (snd vs) < mu st)%nat /\ J (snd vs)).
  Proof.
    intros st HJ. unfold p_range. destruct (p_tok st) eqn:T; try exact I.
    destruct (split_dots (p_lit st)) as [|a [|b [|]]]; try exact I.
    eapply good_bind; [apply parse_int_err_good|]. intros l _.
    eapply good_bind; [apply parse_int_err_good|]. intros r _.
    destruct (r <? l); [exact I|].
    eapply good_bind; [apply pnext_good; exact HJ|]. intros st' [L H]. cbn [good snd].
    unfold mu at 2. rewrite T. split; [lia|exact H].
  Qed.

  Lemma p_list_good : forall fuel st, J st -> (mu st < fuel)%nat ->
    good (p_list fuel st) (fun ls => (mu (snd ls) < mu st)%nat /\ J (snd ls)).
  Proof.
    induction fuel as [|f IH]; intros st HJ L; [lia|]. cbn [p_list].
    eapply good_bind with (P := fun xs => (mu (snd xs) < mu st)%nat /\ J (snd xs)).
    - destruct (p_tok st) eqn:T; try exact I.
      + eapply good_bind; [apply p_value_good; exact HJ|]. intros vs H. cbn [good snd]. exact H.
      + apply p_range_good. exact HJ.
    - intros [x st'] [L' H]. cbn [fst snd] in *.
      destruct (p_tok st') eqn:T; cbn [good snd]; auto;
        (eapply good_bind; [apply IH; [exact H|lia]|]; intros [ls st2] [L2 H2]; cbn [good snd] in *;
         split; [lia|exact H2]).
  Qed.

  Lemma p_expression_good : forall st, J st ->
    good (p_expression st) (fun es => (mu (snd es) < mu st)%nat /\ J (snd es) /\ P (ce_operand (fst es))).
  Proof.
    intros st HJ. unfold p_expression. destruct (p_tok st) eqn:T; try exact I.
    pose proof (J_oper st HJ T) as PO. cbv zeta.
    eapply good_bind; [apply pnext_good; exact HJ|]. intros st1 [L1 H1].
    assert (M : mu st = S (length (p_rest st))) by (unfold mu; rewrite T; reflexivity).
    destruct (p_tok st1) eqn:T1; cbn [good fst snd ce_operand]; try (split; [lia|split; assumption]).
    eapply good_bind; [apply pnext_good; exact H1|]. intros st2 [L2 H2].
    eapply good_bind; [apply p_value_good; exact H2|]. intros [v st3] [L3 H3]. cbn [good fst snd ce_operand] in *.
    assert (M1 : mu st1 = S (length (p_rest st1))) by (unfold mu; rewrite T1; reflexivity).
    split; [lia|split; assumption].
  Qed.

  Lemma p_relation_good : forall fuel st, J st -> (mu st < fuel)%nat ->
    good (p_relation fuel st) (fun ls => (mu (snd ls) < mu st)%nat /\ J (snd ls) /\ node_ops P (fst ls)).
  Proof.
    intros fuel st HJ L. unfold p_relation.
    eapply good_bind; [apply p_expression_good; exact HJ|]. intros [e st1] (L1 & H1 & PE).
    cbn [fst snd] in *.
    assert (M : p_tok st1 <> KEof -> mu st1 = S (length (p_rest st1))) by (unfold mu; destruct (p_tok st1); congruence).
    destruct (p_tok st1) eqn:T1; try exact I; specialize (M ltac:(discriminate));
      (eapply good_bind; [apply pnext_good; exact H1|]; intros st2 [L2 H2];
       eapply good_bind; [apply p_list_good; [exact H2|lia]|]; intros [l st3] [L3 H3];
       cbn [good fst snd node_ops] in *; split; [lia|split; assumption]).
  Qed.

  Lemma p_andc_good : forall fuel st, J st -> (mu st < fuel)%nat ->
    good (p_andc fuel st) (fun ls => (mu (snd ls) < mu st)%nat /\ J (snd ls) /\ node_ops P (fst ls)).
  Proof.
    induction fuel as [|f IH]; intros st HJ L; [lia|]. cbn [p_andc].
    eapply good_bind; [apply p_relation_good; [exact HJ|lia]|]. intros [n st1] (L1 & H1 & N1). cbn [fst snd] in *.
    destruct (p_tok st1) eqn:T; cbn [good fst snd]; auto.
    assert (M : mu st1 = S (length (p_rest st1))) by (unfold mu; rewrite T; reflexivity).
    eapply good_bind; [apply pnext_good; exact H1|]. intros st2 [L2 H2].
    eapply good_bind; [apply IH; [exact H2|lia]|]. intros [n3 st3] (L3 & H3 & N3).
    cbn [good fst snd node_ops] in *. split; [lia|]. split; auto.
  Qed.

  Lemma p_cond_good : forall fuel st, J st -> (mu st < fuel)%nat ->
    good (p_cond fuel st) (fun ls => (mu (snd ls) < mu st)%nat /\ J (snd ls) /\ node_ops P (fst ls)).
  Proof.
    induction fuel as [|f IH]; intros st HJ L; [lia|]. cbn [p_cond].
    eapply good_bind; [apply p_andc_good; [exact HJ|lia]|]. intros [n st1] (L1 & H1 & N1). cbn [fst snd] in *.
    destruct (p_tok st1) eqn:T; cbn [good fst snd]; auto.
    assert (M : mu st1 = S (length (p_rest st1))) by (unfold mu; rewrite T; reflexivity).
    eapply good_bind; [apply pnext_good; exact H1|]. intros st2 [L2 H2].
    eapply good_bind; [apply IH; [exact H2|lia]|]. intros [n3 st3] (L3 & H3 & N3).
    cbn [good fst snd node_ops] in *. split; [lia|]. split; auto.
  Qed.

  (** The state in which the samples begin. *)
  Lemma head_good : forall ts, J (PSt KEof [] ts) ->
    good (do st <- pnext (PSt KEof [] ts) ;
          match p_tok st with
          | KSample => Ok (None, st)
          | _ => do r <- p_cond (S (length ts)) st ; Ok (Some (fst r), snd r)
          end)
      (fun ns => (mu (snd ns) <= length ts)%nat /\ J (snd ns) /\
         match fst ns with Some n => node_ops P n | None => True end).
  Proof.
    intros ts HJ. eapply good_bind; [apply pnext_good; exact HJ|]. intros st [L H]. cbn [p_rest] in L.
    destruct (p_tok st) eqn:T; cbn [good fst snd];
      try (split; [lia|split; [assumption|exact I]]);
      (eapply good_bind; [apply p_cond_good; [exact H|lia]|]; intros [n st2] (L2 & H2 & N2);
       cbn [good fst snd] in *; split; [lia|split; assumption]).
  Qed.
End Invariant.

Lemma rbind_assoc : forall A B C (r : res A) (f : A -> res B) (g : B -> res C),
  rbind (rbind r f) g = rbind r (fun x => rbind (f x) g).
Proof. intros A B C [x| | |] f g; reflexivity. Qed.

Lemma parse_rule_head : forall fuel s, parse_rule fuel s =
  (do ns <- (do st <- pnext (PSt KEof [] (generate_tokens s)) ;
             match p_tok st with
             | KSample => Ok (None, st)
             | _ => do r <- p_cond (S (length (generate_tokens s))) st ; Ok (Some (fst r), snd r)
             end) ;
   do sm <- p_samples fuel (S (length (generate_tokens s))) (snd ns) ;
   Ok (CRule (fst ns) sm)).
Proof. intros. unfold parse_rule. cbv zeta. rewrite rbind_assoc. reflexivity. Qed.

(** No panic, whatever the text. *)
Lemma samples_no_panic : forall fuel steps st, samples_loop fuel steps st <> Panic.
Proof.
  intros fuel steps. induction steps as [|n IH]; intros st; cbn [samples_loop].
  - destruct (p_tok st); discriminate.
  - assert (PN : forall k : pst -> res (list bytes), (forall st', k st' <> Panic) -> rbind (pnext st) k <> Panic).
    { intros k H. unfold pnext. destruct (cscan (p_rest st)) as [[t l] r]. destruct t; cbn [rbind]; auto; discriminate. }
    assert (AP : forall st' f, (do l <- samples_loop fuel n st' ; Ok (f l)) <> (Panic : res (list bytes))).
    { intros st' f. specialize (IH st'). destruct (samples_loop fuel n st'); cbn [rbind]; congruence. }
    destruct (p_tok st); try discriminate.
    + apply PN. intro st'. apply AP.
    + apply PN. intro st'. apply IH.
    + apply PN. intro st'. apply AP.
    + unfold parse_sample_range.
      assert (Q : forall r : res (list bytes), r <> Panic ->
        (do rs <- r ; do st' <- pnext st ; do l <- samples_loop fuel n st' ; Ok (rs ++ l)) <> Panic).
      { intros [rs| | |] N; cbn [rbind]; try congruence. apply PN. intro st'. apply AP. }
      apply Q. destruct (split_on "~" (p_lit st)) as [|a [|b [|]]]; try discriminate.
      apply sample_loop_never_err.
Qed.

Lemma parse_rule_no_panic : forall fuel s, parse_rule fuel s <> Panic.
Proof.
  intros fuel s. rewrite parse_rule_head.
  pose proof (head_good (fun _ => True) (fun _ => True) (fun _ _ _ _ => I) (fun _ _ _ => I)
    (generate_tokens s) I) as G.
  match goal with |- rbind ?r _ <> _ => destruct r as [ns| | |] end; cbn [good rbind] in *; try discriminate;
    try contradiction.
  unfold p_samples. destruct (p_tok (snd ns)); try discriminate.
  pose proof (samples_no_panic fuel (S (length (generate_tokens s))) (snd ns)) as N.
  destruct (samples_loop fuel (S (length (generate_tokens s))) (snd ns)); cbn [rbind]; congruence.
Qed.

(** Characters of the tokens are characters of the text. *)
Lemma segs_fuel_in : forall f s c x, In x (segs_fuel f s) -> In c (snd x) -> In c s.
Proof.
  induction f as [|f IH]; intros s c x I1 I2; [destruct I1|].
  destruct s as [|a s]; [destruct I1|]. cbn [segs_fuel] in I1.
  destruct (decode_rune (a :: s)) as [r w]. destruct I1 as [E|I1].
  - subst x. cbn [snd] in I2. rewrite <- (firstn_skipn w (a :: s)). apply in_app_iff. left. exact I2.
  - rewrite <- (firstn_skipn w (a :: s)). apply in_app_iff. right. exact (IH _ _ _ I1 I2).
Qed.
Lemma fields_in : forall p l cur t c, In t (fields p l cur) -> In c t ->
  In c cur \/ exists x, In x l /\ In c (snd x).
Proof.
  intros p. induction l as [|[r b] l IH]; intros cur t c I1 I2; cbn [fields] in I1.
  - destruct cur as [|a cur]; [destruct I1|]. destruct I1 as [E|[]]. subst. left. exact I2.
  - assert (R : forall cur', In t (fields p l cur') -> In c cur' \/ exists x, In x ((r, b) :: l) /\ In c (snd x)).
    { intros cur' H. destruct (IH cur' t c H I2) as [H1|(x & H1 & H2)]; [left; exact H1|].
      right. exists x. split; [right; exact H1|exact H2]. }
    destruct (p r).
    + destruct cur as [|a cur].
      * apply R. exact I1.
      * destruct I1 as [E|I1]; [subst; left; exact I2|]. destruct (R [] I1) as [[]|H]. right. exact H.
    + destruct (R _ I1) as [H|H]; [|right; exact H]. apply in_app_iff in H. destruct H as [H|H]; [left; exact H|].
      right. exists (r, b). split; [left; reflexivity|exact H].
Qed.
Lemma tokens_in : forall s t c, In t (generate_tokens s) -> In c t -> In c s.
Proof.
  intros s t c I1 I2. unfold generate_tokens in I1. destruct (fields_in _ _ _ _ _ I1 I2) as [[]|(x & H1 & H2)].
  exact (segs_fuel_in _ _ _ _ H1 H2).
Qed.

(** Without '~' every parse ends. *)
Definition no_tilde (t : bytes) : Prop := ~ In "~"%char t.
Definition Jtilde (st : pst) : Prop := Forall no_tilde (p_rest st) /\ p_tok st <> KSampleRange.

Lemma Jtilde_next : forall st st', Jtilde st -> pnext st = Ok st' -> Jtilde st'.
Proof.
  intros st st' [F _] E. unfold pnext in E. destruct (cscan (p_rest st)) as [[t l] r] eqn:C.
  assert (E' : st' = PSt t l r) by (destruct t; try discriminate; inversion E; reflexivity).
  subst st'. unfold Jtilde. cbn [p_tok p_rest].
  assert (PR : no_tilde l /\ Forall no_tilde r).
  { apply (cscan_lit no_tilde) with (ts := p_rest st) (t := t); auto; unfold no_tilde.
    - intros [].
    - intros [H|[]]; discriminate.
    - intros [H|[H|[]]]; discriminate.
    - intros a b A B I. apply in_app_iff in I. tauto. }
  destruct PR as [PL PR]. split; [exact PR|]. intro T. subst t.
  apply PL. apply srange_tilde. exact (cscan_srange _ _ _ C).
Qed.

Lemma samples_no_tilde : forall fuel steps st, Jtilde st -> (mu st <= steps)%nat ->
  samples_loop fuel steps st <> OutOfFuel.
Proof.
  intros fuel steps. induction steps as [|n IH]; intros st HJ L.
  - unfold mu in L. cbn [samples_loop]. destruct (p_tok st); try lia; discriminate.
  - cbn [samples_loop].
    pose proof (pnext_good Jtilde (fun _ => True) Jtilde_next (fun _ _ _ => I) st HJ) as G.
    assert (LE : p_tok st <> KEof -> (length (p_rest st) <= n)%nat)
      by (unfold mu in L; destruct (p_tok st); try congruence; lia).
    destruct HJ as [_ NR].
    destruct (p_tok st) eqn:T; try discriminate; try congruence; specialize (LE ltac:(discriminate));
      destruct (pnext st) as [st'| | |]; cbn [good rbind] in *; try discriminate; try contradiction;
      destruct G as [G1 G2]; specialize (IH st' G2 ltac:(lia));
      destruct (samples_loop fuel n st'); cbn [rbind]; congruence.
Qed.

Lemma parse_rule_terminates : forall fuel s, ~ In "~"%char s -> parse_rule fuel s <> OutOfFuel.
Proof.
  intros fuel s N. rewrite parse_rule_head.
  assert (HJ : Jtilde (PSt KEof [] (generate_tokens s))).
  { split; [|discriminate]. cbn [p_rest]. apply Forall_forall. intros t I1 I2. apply N.
    exact (tokens_in s t _ I1 I2). }
  pose proof (head_good Jtilde (fun _ => True) Jtilde_next (fun _ _ _ => I) (generate_tokens s) HJ) as G.
  match goal with |- rbind ?r _ <> _ => destruct r as [ns| | |] end; cbn [good rbind] in *; try discriminate;
    try contradiction.
  destruct G as (L & HS & _). unfold p_samples. destruct (p_tok (snd ns)) eqn:T; try discriminate.
  pose proof (samples_no_tilde fuel (S (length (generate_tokens s))) (snd ns) HS ltac:(lia)) as H.
  destruct (samples_loop fuel (S (length (generate_tokens s))) (snd ns)); cbn [rbind]; congruence.
Qed.

(** More fuel gives the same result. *)
Lemma sample_loop_mono : forall f g a b l, sample_loop f a b = Ok l -> (f <= g)%nat -> sample_loop g a b = Ok l.
Proof.
  induction f as [|f IH]; intros g a b l H L; [discriminate|]. destruct g as [|g]; [lia|].
  cbn [sample_loop] in *. destruct (beq a b); [exact H|].
  destruct (sample_loop f (increment a) b) as [l2| | |] eqn:E; try discriminate.
  rewrite (IH g _ _ _ E) by lia. exact H.
Qed.

(** ** Evaluation *)

Fixpoint node_safe (n : cnode) : Prop :=
  match n with
  | CRel _ e l =>
      operand_lit (ce_operand e) /\ ce_mod e <> Some 0 /\
      Forall (fun x => match x with RRange _ b => b <> maxInt64 | RVal _ => True end) l
  | CAnd a b | COr a b => node_safe a /\ node_safe b
  end.

Lemma eval_safe : forall n o, node_safe n -> exists b, eval_cnode n o = Ok b.
Proof.
  induction n as [neg e l|a IHa b IHb|a IHa b IHb]; intros o S; cbn [eval_cnode node_safe] in *.
  - destruct S as (S1 & S2 & S3). destruct e as [lit m]. cbn [ce_operand ce_mod] in *.
    assert (X : exists x, eval_expr (CExpr lit m) o = Ok x).
    { unfold eval_expr. cbn [ce_operand ce_mod]. unfold operand_lit in S1.
      assert (IR : forall z, exists x, match m with
          | None => Ok (Some (inject_Z (f64_of_int z)))
          | Some m0 => do r <- irem z m0 ; Ok (Some (inject_Z (f64_of_int r)))
          end = Ok (x : option Q)).
      { intro z. destruct m as [m|]; [|eauto]. unfold irem. destruct (m =? 0) eqn:E; [|cbn [rbind]; eauto].
        exfalso. apply S2. f_equal. lia. }
      cbn [In] in S1.
      repeat (destruct S1 as [S1|S1]); try (subst lit; exact (IR _)); [|contradiction].
      subst lit. change (beq (bs "n") (bs "n")) with true. cbv iota. destruct m; eauto. }
    destruct X as (x & X). rewrite X. cbn [rbind].
    assert (Y : exists b, list_matches x l = Ok b).
    { clear X. induction S3 as [|r l HR S3 IH]; [exists false; reflexivity|]. cbn [list_matches].
      assert (Z1 : exists b, elem_matches x r = Ok b).
      { unfold elem_matches. destruct x as [q|]; [|eauto]. destruct r as [v|u w]; [eauto|].
        destruct (in_range1 q u w); [eauto|]. destruct (w =? maxInt64) eqn:E; [lia|]. cbn [andb]. eauto. }
      destruct Z1 as (b1 & Z1). destruct IH as (b2 & IH). rewrite Z1, IH. cbn [rbind]. eauto. }
    destruct Y as (b & Y). rewrite Y. cbn [rbind]. eauto.
  - destruct S as [S1 S2]. destruct (IHa o S1) as (x & X). destruct (IHb o S2) as (y & Y).
    rewrite X, Y. cbn [rbind]. eauto.
  - destruct S as [S1 S2]. destruct (IHa o S1) as (x & X). destruct (IHb o S2) as (y & Y).
    rewrite X, Y. cbn [rbind]. eauto.
Qed.

(** Text in lower-case ASCII gives only the eight operands. *)
Definition lower_text (t : bytes) : Prop := Forall (fun c => asciic c = true /\ is_upper c = false) t.
Definition Jlow (st : pst) : Prop :=
  Forall lower_text (p_rest st) /\ (p_tok st = KOperand -> operand_lit (p_lit st)).

Lemma kw_lower_id : forall s, lower_text s -> kw_lower s = s.
Proof.
  induction s as [|a s IH]; intro F; [reflexivity|]. inversion F as [|? ? [A U] F']; subst.
  assert (L : lower a = a) by (unfold lower; rewrite U; reflexivity).
  specialize (IH F'). destruct s as [|b t]; cbn [kw_lower] in *; [rewrite L; reflexivity|].
  unfold asciic in A. destruct ((bval a =? 196) && (bval b =? 176)) eqn:E; [lia|]. rewrite L, IH. reflexivity.
Qed.

Lemma Jlow_next : forall st st', Jlow st -> pnext st = Ok st' -> Jlow st'.
Proof.
  intros st st' [F _] E. unfold pnext in E. destruct (cscan (p_rest st)) as [[t l] r] eqn:C.
  assert (E' : st' = PSt t l r) by (destruct t; try discriminate; inversion E; reflexivity).
  subst st'. unfold Jlow. cbn [p_tok p_rest p_lit].
  assert (PR : lower_text l /\ Forall lower_text r).
  { refine (cscan_lit lower_text _ _ _ _ _ _ _ _ C F); unfold lower_text.
    - constructor.
    - repeat constructor.
    - repeat constructor.
    - intros a b A B. apply Forall_app. auto. }
  destruct PR as [PL PR]. split; [exact PR|]. intro T. subst t.
  pose proof (cscan_operand _ _ _ C) as O. rewrite kw_lower_id in O by exact PL. exact O.
Qed.

Lemma parse_rule_operands : forall fuel s r, lower_text s -> parse_rule fuel s = Ok r ->
  match cr_root r with Some n => node_ops operand_lit n | None => True end.
Proof.
  intros fuel s r LT. rewrite parse_rule_head.
  assert (HJ : Jlow (PSt KEof [] (generate_tokens s))).
  { split; [|discriminate]. cbn [p_rest]. apply Forall_forall. intros t I1. apply Forall_forall. intros c I2.
    unfold lower_text in LT. rewrite Forall_forall in LT. apply LT. exact (tokens_in s t _ I1 I2). }
  pose proof (head_good Jlow operand_lit Jlow_next (fun st H => proj2 H) (generate_tokens s) HJ) as G.
  match goal with |- rbind ?r _ = _ -> _ => destruct r as [ns| | |] end; cbn [good rbind] in *; try discriminate.
  destruct G as (_ & _ & N).
  destruct (p_samples fuel (S (length (generate_tokens s))) (snd ns)); cbn [rbind]; try discriminate.
  intro H. inversion H; subst. cbn [cr_root]. exact N.
Qed.

(** ** Order of the rules *)

Lemma form_rules_in : forall l o c, form_rules l o = Ok c -> In c (map fst l) \/ c = Other.
Proof.
  induction l as [|[c r] l IH]; intros o k H; cbn [form_rules] in H; [inversion H; auto|].
  destruct (eval_rule r o) as [b| | |]; cbn [rbind] in H; try discriminate. destruct b.
  - inversion H; subst. left. left. reflexivity.
  - destruct (IH o k H) as [I|I]; [left; right; exact I|right; exact I].
Qed.

Definition matches (o : ops) (e : category * crule) : Prop := eval_rule (snd e) o = Ok true.

Lemma form_rules_match : forall l o, (forall e, In e l -> exists b, eval_rule (snd e) o = Ok b) ->
  (exists e, In e l /\ matches o e /\ form_rules l o = Ok (fst e)) \/
  ((forall e, In e l -> ~ matches o e) /\ form_rules l o = Ok Other).
Proof.
  induction l as [|[c r] l IH]; intros o V.
  - right. split; [intros e []|reflexivity].
  - destruct (V (c, r) (or_introl eq_refl)) as (b & B). cbn [snd] in B. cbn [form_rules]. rewrite B. cbn [rbind].
    destruct b.
    + left. exists (c, r). split; [left; reflexivity|]. split; [exact B|reflexivity].
    + destruct (IH o (fun e I => V e (or_intror I))) as [(e & I & M & E)|[N E]].
      * left. exists e. split; [right; exact I|]. auto.
      * right. split; [|exact E]. intros e [I|I]; [|apply N; exact I]. subst e. unfold matches. cbn [snd].
        rewrite B. congruence.
Qed.

Lemma form_rules_perm : forall l l' o, Permutation l l' ->
  (forall e, In e l -> exists b, eval_rule (snd e) o = Ok b) ->
  (forall e e', In e l -> In e' l -> matches o e -> matches o e' -> fst e = fst e') ->
  form_rules l o = form_rules l' o.
Proof.
  intros l l' o PM V U.
  assert (V' : forall e, In e l' -> exists b, eval_rule (snd e) o = Ok b)
    by (intros e I; apply V; eapply Permutation_in; [apply Permutation_sym; exact PM|exact I]).
  destruct (form_rules_match l o V) as [(e & I & M & E)|[N E]];
    destruct (form_rules_match l' o V') as [(e' & I' & M' & E')|[N' E']]; rewrite E, E'.
  - f_equal. apply U; auto. eapply Permutation_in; [apply Permutation_sym; exact PM|exact I'].
  - exfalso. apply (N' e); [eapply Permutation_in; eauto|exact M].
  - exfalso. apply (N e'); [eapply Permutation_in; [apply Permutation_sym; exact PM|exact I']|exact M'].
  - reflexivity.
Qed.

Lemma parse_all_in : forall fuel raw rs, parse_all fuel raw = Ok rs ->
  Forall2 (fun a b => fst a = fst b /\ parse_rule fuel (snd a) = Ok (snd b)) raw rs.
Proof.
  intros fuel. induction raw as [|[c s] raw IH]; intros rs H; cbn [parse_all] in H.
  - inversion H. constructor.
  - destruct (parse_rule fuel s) as [r| | |] eqn:E; cbn [rbind] in H; try discriminate.
    destruct (parse_all fuel raw) as [rs'| | |]; cbn [rbind] in H; try discriminate.
    inversion H; subst. constructor; [split; [reflexivity|exact E]|]. apply IH. reflexivity.
Qed.

Lemma parse_all_perm : forall fuel raw raw', Permutation raw raw' -> forall rs,
  parse_all fuel raw = Ok rs -> exists rs', parse_all fuel raw' = Ok rs' /\ Permutation rs rs'.
Proof.
  intros fuel raw raw' PM. induction PM as [|[c s] a b PM IH|[c s] [d t] a|a b d P1 IH1 P2 IH2]; intros rs H.
  - exists rs. split; [exact H|apply Permutation_refl].
  - cbn [parse_all] in *. destruct (parse_rule fuel s) as [r| | |]; cbn [rbind] in *; try discriminate.
    destruct (parse_all fuel a) as [ra| | |]; cbn [rbind] in *; try discriminate. inversion H; subst.
    destruct (IH ra eq_refl) as (rb & E & P). rewrite E. cbn [rbind]. eexists. split; [reflexivity|].
    apply perm_skip. exact P.
  - cbn [parse_all] in *. destruct (parse_rule fuel s) as [r| | |]; cbn [rbind] in *;
      destruct (parse_rule fuel t) as [r2| | |]; cbn [rbind] in *; try discriminate.
    destruct (parse_all fuel a) as [ra| | |]; cbn [rbind] in *; try discriminate. inversion H; subst.
    eexists. split; [reflexivity|]. apply perm_swap.
  - destruct (IH1 rs H) as (rb & E & P). destruct (IH2 rb E) as (rd & E2 & P3).
    exists rd. split; [exact E2|]. eapply Permutation_trans; eauto.
Qed.
