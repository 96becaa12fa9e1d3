(** The scanner model agrees with the lexical layout of PopSpec. *)
From Coq Require Import String Ascii List ZArith Bool Lia.
From Verif Require Import Base BaseProofs PopModel PopSpec.
Import ListNotations.
Open Scope Z_scope.

(** lexeme carried by a token and its literal *)
Definition lex_of (t : tok) (lit : bytes) : option lexeme :=
  match t with
  | TEof | TWs | TFail => None
  | TValue => Some (LNum lit)
  | TOperand => Some LN
  | TPlural => Some LPlural
  | TNPlurals => Some LNplurals
  | TEq => Some LEq
  | TAssign => Some LAssign
  | TGt => Some LGt
  | TGe => Some LGe
  | TLt => Some LLt
  | TLe => Some LLe
  | TRem => Some LRem
  | TNe => Some LNe
  | TAnd => Some LAnd
  | TOr => Some LOr
  | TQuestion => Some LQuestion
  | TColon => Some LColon
  | TSemi => Some LSemi
  | TLB => Some LParen
  | TRB => Some RParen
  end.

Definition clean (s : bytes) : Prop := ~ In NUL s /\ ~ In "_"%char s.

Lemma take_run_sound : forall p s a r, ~ In NUL s -> take_run p s = (a, r) ->
  s = a ++ r /\ forallb p a = true /\
  match r with [] => True | c :: _ => p c = false end.
Proof.
  induction s as [|c s IH]; intros a r Hn H; simpl in H.
  - injection H as <- <-. repeat split.
  - destruct (Ascii.eqb c NUL) eqn:E.
    + apply Ascii.eqb_eq in E. subst. exfalso. apply Hn. now left.
    + destruct (p c) eqn:P.
      * destruct (take_run p s) as [a' r'] eqn:T. injection H as <- <-.
        destruct (IH a' r') as [H1 [H2 H3]]; [intro; apply Hn; now right | reflexivity|].
        subst s. repeat split; simpl; [now rewrite P | assumption].
      * injection H as <- <-. repeat split. assumption.
Qed.

Lemma take_run_complete : forall p a r,
  p NUL = false -> forallb p a = true ->
  match r with [] => True | c :: _ => p c = false /\ c <> NUL end ->
  take_run p (a ++ r) = (a, r).
Proof.
  induction a as [|c a IH]; intros r Hp Ha Hr; simpl.
  - destruct r as [|c r]; [reflexivity|]. destruct Hr as [Hr1 Hr2]. simpl.
    destruct (Ascii.eqb c NUL) eqn:E; [apply Ascii.eqb_eq in E; contradiction|].
    now rewrite Hr1.
  - simpl in Ha. apply andb_true_iff in Ha as [Hc Ha].
    destruct (Ascii.eqb c NUL) eqn:E.
    + apply Ascii.eqb_eq in E. subst. congruence.
    + rewrite Hc. rewrite IH; [reflexivity | assumption..].
Qed.

Lemma peek_cons : forall s d, d <> NUL -> peek s = d -> s = d :: tl s.
Proof. intros [|c s] d H E; simpl in *; congruence. Qed.

Lemma peek_cons2 : forall s d, peek s = d -> d <> NUL -> s = d :: tl s.
Proof. intros. now apply peek_cons. Qed.

Lemma sc_ws_blank : forall c, sc_ws c = true <-> blank c.
Proof.
  intro c. unfold sc_ws, blank. rewrite !orb_true_iff, !Ascii.eqb_eq. tauto.
Qed.

Lemma forallb_blank : forall w, forallb sc_ws w = true <-> Forall blank w.
Proof.
  intro w. rewrite forallb_forall, Forall_forall.
  split; intros H x Hx; apply sc_ws_blank; auto.
Qed.

Ltac eqb_case c k :=
  let E := fresh "E" in
  destruct (Ascii.eqb c k) eqn:E;
  [apply Ascii.eqb_eq in E; subst c|].

Ltac two_case c d k :=
  let E := fresh "E" in
  destruct (beq [c; d] k) eqn:E;
  [apply beq_eq in E; injection E as -> E|].

(** What a scanned token says about the text. *)
Lemma scan_sound : forall s l, clean s -> scan s = l ->
  match lx_tok l with
  | TEof => s = []
  | TFail => True
  | TWs => s = lx_lit l ++ lx_rest l /\ Forall blank (lx_lit l) /\
           lx_lit l <> [] /\
           match lx_rest l with [] => True | c :: _ => ~ blank c end
  | t => exists x, lex_of t (lx_lit l) = Some x /\
           s = lx_lit l ++ lx_rest l /\ spells x (lx_lit l) /\
           closed x (lx_rest l)
  end.
Proof.
  intros s l [Hn Hu] <-. destruct s as [|c s]; [reflexivity|].
  assert (Hn' : ~ In NUL s) by (intro; apply Hn; now right).
  assert (Hu' : ~ In "_"%char s) by (intro; apply Hu; now right).
  unfold scan.
  eqb_case c NUL. { exfalso. apply Hn. now left. }
  destruct (sc_ws c) eqn:W.
  { destruct (take_run sc_ws s) as [a r] eqn:T. cbn [lx_tok lx_lit lx_rest].
    destruct (take_run_sound _ _ _ _ Hn' T) as [H1 [H2 H3]]. subst s.
    repeat split.
    - constructor; [now apply sc_ws_blank | now apply forallb_blank].
    - discriminate.
    - destruct r; [exact I|]. intro B. apply sc_ws_blank in B. congruence. }
  destruct (is_letter c) eqn:L.
  { destruct (take_run _ s) as [a r] eqn:T. cbn [lx_tok lx_lit lx_rest].
    destruct (take_run_sound _ _ _ _ Hn' T) as [H1 [H2 H3]].
    assert (Hcl : match r with [] => True | c0 :: _ =>
                    is_letter c0 = false /\ c0 <> "_"%char end).
    { destruct r as [|c0 r]; [exact I|]. apply orb_false_iff in H3 as [H3 H4].
      split; [assumption|]. now apply Ascii.eqb_neq. }
    unfold word_tok.
    destruct (beq (to_lower (c :: a)) (bs "nplurals")) eqn:E1.
    { apply beq_eq in E1. exists LNplurals. repeat split; [now subst s|assumption|exact Hcl]. }
    destruct (beq (to_lower (c :: a)) (bs "plural")) eqn:E2.
    { apply beq_eq in E2. exists LPlural. repeat split; [now subst s|assumption|exact Hcl]. }
    destruct (beq (to_lower (c :: a)) (bs "n")) eqn:E3.
    { apply beq_eq in E3. exists LN. repeat split; [now subst s|assumption|exact Hcl]. }
    exact I. }
  destruct (is_digit c) eqn:D.
  { destruct (take_run _ s) as [a r] eqn:T. cbn [lx_tok lx_lit lx_rest].
    destruct (take_run_sound _ _ _ _ Hn' T) as [H1 [H2 H3]].
    exists (LNum (c :: a)). repeat split.
    - now subst s.
    - discriminate.
    - simpl. rewrite D. simpl. rewrite forallb_forall in *. intros x Hx.
      specialize (H2 x Hx). simpl in H2. apply orb_true_iff in H2 as [H2|H2]; [assumption|].
      apply Ascii.eqb_eq in H2. subst x. exfalso. apply Hu'. subst s.
      apply in_or_app. now left.
    - destruct r as [|c0 r]; [exact I|]. apply orb_false_iff in H3 as [H3 H4].
      split; [assumption|]. now apply Ascii.eqb_neq. }
  eqb_case c "%"%char. { exists LRem. repeat split. now destruct s. }
  eqb_case c "?"%char. { exists LQuestion. repeat split. now destruct s. }
  eqb_case c ":"%char. { exists LColon. repeat split. now destruct s. }
  eqb_case c ";"%char. { exists LSemi. repeat split. now destruct s. }
  eqb_case c "("%char. { exists LParen. repeat split. now destruct s. }
  eqb_case c ")"%char. { exists RParen. repeat split. now destruct s. }
  cbv zeta.
  two_case c (peek s) (bs "!=").
  { cbn [lx_tok lx_lit lx_rest]. exists LNe. rewrite E6.
    rewrite (peek_cons2 s _ E6) at 1 by discriminate.
    repeat split. now destruct (tl s). }
  two_case c (peek s) (bs "&&").
  { cbn [lx_tok lx_lit lx_rest]. exists LAnd. rewrite E7.
    rewrite (peek_cons2 s _ E7) at 1 by discriminate.
    repeat split. now destruct (tl s). }
  two_case c (peek s) (bs "==").
  { cbn [lx_tok lx_lit lx_rest]. exists LEq. rewrite E8.
    rewrite (peek_cons2 s _ E8) at 1 by discriminate.
    repeat split. now destruct (tl s). }
  two_case c (peek s) (bs "||").
  { cbn [lx_tok lx_lit lx_rest]. exists LOr. rewrite E9.
    rewrite (peek_cons2 s _ E9) at 1 by discriminate.
    repeat split. now destruct (tl s). }
  two_case c (peek s) (bs ">=").
  { cbn [lx_tok lx_lit lx_rest]. exists LGe. rewrite E10.
    rewrite (peek_cons2 s _ E10) at 1 by discriminate.
    repeat split. now destruct (tl s). }
  two_case c (peek s) (bs "<=").
  { cbn [lx_tok lx_lit lx_rest]. exists LLe. rewrite E11.
    rewrite (peek_cons2 s _ E11) at 1 by discriminate.
    repeat split. now destruct (tl s). }
  eqb_case c "<"%char.
  { exists LLt. repeat split. simpl. destruct s as [|c0 s]; [exact I|].
    intros ->. apply beq_neq in E11. now apply E11. }
  eqb_case c ">"%char.
  { exists LGt. repeat split. simpl. destruct s as [|c0 s]; [exact I|].
    intros ->. apply beq_neq in E10. now apply E10. }
  eqb_case c "="%char.
  { exists LAssign. repeat split. simpl. destruct s as [|c0 s]; [exact I|].
    intros ->. apply beq_neq in E8. now apply E8. }
  exact I.
Qed.

Lemma clean_app_r : forall a b, clean (a ++ b) -> clean b.
Proof.
  intros a b [H1 H2]. split; intro H; [apply H1 | apply H2]; apply in_or_app; now right.
Qed.

Lemma scan_iw_sound : forall s, clean s ->
  let l := scan_iw s in
  match lx_tok l with
  | TEof => Forall blank s
  | TFail | TWs => True
  | t => exists x w, lex_of t (lx_lit l) = Some x /\ Forall blank w /\
           s = w ++ lx_lit l ++ lx_rest l /\ spells x (lx_lit l) /\
           closed x (lx_rest l)
  end.
Proof.
  intros s Hc l. subst l. unfold scan_iw.
  pose proof (scan_sound s _ Hc eq_refl) as H.
  destruct (lx_tok (scan s)) eqn:T; rewrite ?T; auto;
    try (destruct H as [x [H1 [H2 [H3 H4]]]]; exists x, []; repeat split; auto; fail).
  - subst s. constructor.
  - destruct H as [H1 [H2 [H3 H4]]].
    assert (Hc' : clean (lx_rest (scan s))).
    { rewrite H1 in Hc. now apply clean_app_r in Hc. }
    pose proof (scan_sound _ _ Hc' eq_refl) as H'.
    set (l2 := scan (lx_rest (scan s))) in *.
    destruct (lx_tok l2) eqn:T2; auto;
      try (destruct H' as [x [G1 [G2 [G3 G4]]]]; exists x, (lx_lit (scan s));
           repeat split; auto; rewrite H1 at 1; f_equal; assumption).
    rewrite H1, H'. now rewrite app_nil_r.
Qed.

(** ** Completeness *)

Lemma spells_nonempty : forall x s, spells x s -> s <> [].
Proof.
  intros x s H C. subst s. destruct x; simpl in H; try discriminate.
  destruct H as [H1 [H2 _]]. congruence.
Qed.

Lemma lower_letter : forall c, is_letter (lower c) = true -> is_letter c = true.
Proof. intro c. destruct c as [[] [] [] [] [] [] [] []]; vm_compute; congruence. Qed.

Lemma to_lower_letters : forall s w, to_lower s = w -> forallb is_letter w = true ->
  forallb is_letter s = true.
Proof.
  induction s as [|c s IH]; intros w H Hw; [reflexivity|].
  destruct w as [|d w]; [discriminate|]. injection H as H1 H2. subst d.
  simpl in *. apply andb_true_iff in Hw as [Hc Hw].
  apply andb_true_iff; split; [now apply lower_letter | now apply IH with w].
Qed.

Definition tok_lex (x : lexeme) : tok :=
  match x with
  | LNplurals => TNPlurals | LPlural => TPlural | LN => TOperand
  | LNum _ => TValue | LAssign => TAssign | LSemi => TSemi
  | LQuestion => TQuestion | LColon => TColon | LParen => TLB | RParen => TRB
  | LRem => TRem | LLt => TLt | LLe => TLe | LGt => TGt | LGe => TGe
  | LEq => TEq | LNe => TNe | LAnd => TAnd | LOr => TOr
  end.

Lemma letter_facts : forall c, is_letter c = true ->
  Ascii.eqb c NUL = false /\ sc_ws c = false /\ is_digit c = false.
Proof. intros c. destruct c as [[] [] [] [] [] [] [] []]; vm_compute; intuition congruence. Qed.

Lemma digit_facts : forall c, is_digit c = true ->
  Ascii.eqb c NUL = false /\ sc_ws c = false /\ is_letter c = false.
Proof. intros c. destruct c as [[] [] [] [] [] [] [] []]; vm_compute; intuition congruence. Qed.

Lemma scan_word : forall s rest x, forallb is_letter s = true -> s <> [] ->
  ~ In NUL rest ->
  match rest with [] => True | c :: _ => is_letter c = false /\ c <> "_"%char end ->
  word_tok s = x -> scan (s ++ rest) = Lexed x s rest.
Proof.
  intros s rest x Hs Hne Hn Hr Hw. destruct s as [|c s]; [contradiction|].
  simpl in Hs. apply andb_true_iff in Hs as [Hc Hs].
  destruct (letter_facts c Hc) as [F1 [F2 F3]].
  simpl app. unfold scan. rewrite F1, F2, Hc.
  rewrite take_run_complete.
  - now subst x.
  - reflexivity.
  - rewrite forallb_forall in *. intros y Hy. now rewrite (Hs y Hy).
  - destruct rest as [|d rest]; [exact I|]. destruct Hr as [Hr1 Hr2].
    split; [|intros ->; apply Hn; now left].
    rewrite Hr1. simpl. now apply Ascii.eqb_neq.
Qed.

Lemma scan_num : forall s rest, forallb is_digit s = true -> s <> [] ->
  ~ In NUL rest ->
  match rest with [] => True | c :: _ => is_digit c = false /\ c <> "_"%char end ->
  scan (s ++ rest) = Lexed TValue s rest.
Proof.
  intros s rest Hs Hne Hn Hr. destruct s as [|c s]; [contradiction|].
  simpl in Hs. apply andb_true_iff in Hs as [Hc Hs].
  destruct (digit_facts c Hc) as [F1 [F2 F3]].
  simpl app. unfold scan. rewrite F1, F2, F3, Hc.
  rewrite take_run_complete.
  - reflexivity.
  - reflexivity.
  - rewrite forallb_forall in *. intros y Hy. now rewrite (Hs y Hy).
  - destruct rest as [|d rest]; [exact I|]. destruct Hr as [Hr1 Hr2].
    split; [|intros ->; apply Hn; now left].
    rewrite Hr1. simpl. now apply Ascii.eqb_neq.
Qed.

Lemma scan_complete : forall x s rest, ~ In NUL rest -> spells x s -> closed x rest ->
  scan (s ++ rest) = Lexed (tok_lex x) s rest.
Proof.
  intros x s rest Hn Hs Hc.
  destruct x; simpl in Hs;
    try (subst s; reflexivity);
    try (apply scan_word;
         [ now apply to_lower_letters with (1 := Hs)
         | intro C; subst s; discriminate Hs
         | assumption
         | destruct rest; [exact I | exact Hc]
         | unfold word_tok; rewrite Hs; reflexivity ]).
  - destruct Hs as [-> [H1 H2]]. apply scan_num; auto.
  - subst s. destruct rest as [|c rest]; [reflexivity|].
    simpl in Hc. simpl app. unfold scan. cbn -[beq].
    repeat match goal with |- context [beq ?a ?b] =>
      let E := fresh in destruct (beq a b) eqn:E;
      [apply beq_eq in E; congruence|] end. reflexivity.
  - subst s. destruct rest as [|c rest]; [reflexivity|].
    simpl in Hc. simpl app. unfold scan. cbn -[beq].
    repeat match goal with |- context [beq ?a ?b] =>
      let E := fresh in destruct (beq a b) eqn:E;
      [apply beq_eq in E; congruence|] end. reflexivity.
  - subst s. destruct rest as [|c rest]; [reflexivity|].
    simpl in Hc. simpl app. unfold scan. cbn -[beq].
    repeat match goal with |- context [beq ?a ?b] =>
      let E := fresh in destruct (beq a b) eqn:E;
      [apply beq_eq in E; congruence|] end. reflexivity.
Qed.

Lemma spells_head : forall x s, spells x s ->
  match s with [] => False | c :: _ => sc_ws c = false /\ c <> NUL end.
Proof.
  intros x s H. pose proof (spells_nonempty _ _ H) as Hne.
  destruct s as [|c s]; [contradiction|].
  destruct x; simpl in H;
    try (injection H as -> _; split; [reflexivity | discriminate]).
  - apply (to_lower_letters (c :: s)) in H; [|reflexivity]. simpl in H.
    apply andb_true_iff in H as [H _]. apply letter_facts in H as [H1 [H2 _]].
    split; [assumption|now apply Ascii.eqb_neq].
  - apply (to_lower_letters (c :: s)) in H; [|reflexivity]. simpl in H.
    apply andb_true_iff in H as [H _]. apply letter_facts in H as [H1 [H2 _]].
    split; [assumption|now apply Ascii.eqb_neq].
  - apply (to_lower_letters (c :: s)) in H; [|reflexivity]. simpl in H.
    apply andb_true_iff in H as [H _]. apply letter_facts in H as [H1 [H2 _]].
    split; [assumption|now apply Ascii.eqb_neq].
  - destruct H as [<- [_ H]]. simpl in H.
    apply andb_true_iff in H as [H _]. apply digit_facts in H as [H1 [H2 _]].
    split; [assumption|now apply Ascii.eqb_neq].
Qed.

Lemma scan_blanks : forall w rest, w <> [] -> Forall blank w ->
  match rest with [] => True | c :: _ => sc_ws c = false /\ c <> NUL end ->
  scan (w ++ rest) = Lexed TWs w rest.
Proof.
  intros w rest Hne Hw Hr. destruct w as [|c w]; [contradiction|].
  inversion Hw as [|? ? Hc Hw' ]; subst.
  simpl app. unfold scan.
  assert (E : Ascii.eqb c NUL = false).
  { destruct Hc as [ -> | [ -> | -> ]]; reflexivity. }
  rewrite E. rewrite (proj2 (sc_ws_blank c) Hc).
  rewrite take_run_complete; auto. now apply forallb_blank.
Qed.

Lemma lays_cons_scan : forall x ls t, lays (x :: ls) t -> ~ In NUL t ->
  exists s rest, scan_iw t = Lexed (tok_lex x) s rest /\ spells x s /\
    lays ls rest /\ ~ In NUL rest /\ (length rest < length t)%nat.
Proof.
  intros x ls t H Hn. inversion H as [|w x' s ls' rest Hw Hs Hc Hl]; subst.
  exists s, rest.
  assert (Hn' : ~ In NUL rest).
  { intro C. apply Hn. apply in_or_app. right. apply in_or_app. now right. }
  split.
  - unfold scan_iw. destruct w as [|c w].
    + simpl app. rewrite scan_complete with (x := x) by assumption.
      simpl. now destruct x.
    + rewrite scan_blanks; [|discriminate|assumption|].
      * simpl. now apply scan_complete.
      * pose proof (spells_head _ _ Hs) as Hh. destruct s; [contradiction|exact Hh].
  - split; [assumption|]. split; [assumption|]. split; [assumption|].
    pose proof (spells_nonempty _ _ Hs). rewrite !app_length.
    destruct s; [contradiction|]. simpl. lia.
Qed.

Lemma lays_nil_scan : forall t, lays [] t -> lx_tok (scan_iw t) = TEof.
Proof.
  intros t H. inversion H as [w Hw|]; subst.
  unfold scan_iw. destruct t as [|c t]; [reflexivity|].
  rewrite <- (app_nil_r (c :: t)).
  rewrite scan_blanks; [reflexivity | discriminate | assumption | exact I].
Qed.

(** Every scan that yields a real token consumes input. *)
Lemma take_run_length : forall p s a r, take_run p s = (a, r) ->
  (length r <= length s)%nat.
Proof.
  induction s as [|c s IH]; intros a r H; simpl in H.
  - injection H as <- <-. lia.
  - destruct (Ascii.eqb c NUL); [injection H as <- <-; simpl; lia|].
    destruct (p c); [|injection H as <- <-; lia].
    destruct (take_run p s) as [a' r'] eqn:T. injection H as <- <-.
    specialize (IH a' r' eq_refl). simpl. lia.
Qed.

Lemma scan_length : forall s,
  (length (lx_rest (scan s)) <= length s)%nat /\
  (lx_tok (scan s) <> TEof -> (length (lx_rest (scan s)) < length s)%nat).
Proof.
  intros [|c s]; [split; [simpl; lia | intro H; now destruct H]|].
  assert (Ht : (length (tl s) <= length s)%nat) by (destruct s; simpl; lia).
  unfold scan.
  destruct (Ascii.eqb c NUL); [split; [simpl; lia | intro H; now destruct H]|].
  destruct (sc_ws c); [destruct (take_run _ s) eqn:T; apply take_run_length in T; simpl; lia|].
  destruct (is_letter c); [destruct (take_run _ s) eqn:T; apply take_run_length in T; simpl; lia|].
  destruct (is_digit c); [destruct (take_run _ s) eqn:T; apply take_run_length in T; simpl; lia|].
  cbv zeta.
  repeat match goal with
  | |- context [if ?b then _ else _] => destruct b; [cbn [lx_tok lx_rest length]; lia|]
  end.
  cbn [lx_tok lx_rest length]. lia.
Qed.

Lemma scan_iw_length : forall s,
  (length (lx_rest (scan_iw s)) <= length s)%nat /\
  (lx_tok (scan_iw s) <> TEof -> (length (lx_rest (scan_iw s)) < length s)%nat).
Proof.
  intro s. unfold scan_iw.
  destruct (scan_length s) as [H1 H2].
  destruct (scan_length (lx_rest (scan s))) as [H3 H4].
  destruct (lx_tok (scan s)) eqn:E; split; try lia; intro H; rewrite ?E in *;
    try (apply H2; assumption).
  specialize (H2 ltac:(discriminate)). lia.
Qed.
