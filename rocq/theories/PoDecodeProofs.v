From Coq Require Import String Ascii List ZArith Bool Lia ZifyBool.
From Verif Require Import Base BaseProofs Utf8Model Utf8Proofs StrModel PoStrModel PoStrSpec PoStrProofs.
Import ListNotations.
Open Scope Z_scope.

Lemma dangling_snoc : forall s p c,
  dangling p (s ++ [c]) = if Ascii.eqb c BSLASH then negb (dangling p s) else false.
Proof.
  induction s as [|a s IH]; intros p c; [reflexivity|].
  cbn [app]. rewrite !dangling_cons. apply IH.
Qed.

Definition ends_other (p : bytes) := p = [] \/ exists q c, p = q ++ [c] /\ c <> BSLASH.

Lemma dangling_repeat : forall p n, ends_other p ->
  dangling false (p ++ repeat BSLASH n) = Nat.odd n.
Proof.
  intros p n H. induction n as [|n IH].
  - rewrite app_nil_r. destruct H as [->|[q [c [-> N]]]]; [reflexivity|].
    rewrite dangling_snoc. destruct (Ascii.eqb_spec c BSLASH); [congruence|reflexivity].
  - replace (repeat BSLASH (S n)) with (repeat BSLASH n ++ [BSLASH])
      by (symmetry; apply (repeat_cons n)).
    rewrite app_assoc, dangling_snoc, Ascii.eqb_refl, IH.
    rewrite Nat.odd_succ, <- Nat.negb_odd. reflexivity.
Qed.

Lemma tail_decomp : forall s, exists p n, s = p ++ repeat BSLASH n /\ ends_other p.
Proof.
  induction s as [|c s [p [n [E H]]]] using rev_ind.
  - exists [], 0%nat. split; [reflexivity|now left].
  - destruct (Ascii.eqb_spec c BSLASH) as [->|N].
    + exists p, (S n). split; [|assumption]. rewrite E, <- app_assoc. f_equal.
      symmetry. apply (repeat_cons n).
    + exists (s ++ [c]), 0%nat. split; [now rewrite app_nil_r|]. right. eauto.
Qed.

Lemma dangling_odd : forall s, dangling false s = true <-> odd_tail s.
Proof.
  intro s. split.
  - intro D. destruct (tail_decomp s) as [p [n [E H]]]. exists p, n.
    split; [assumption|]. split; [assumption|]. rewrite <- (dangling_repeat p n H). now rewrite <- E.
  - intros [p [n [-> [H O]]]]. now rewrite dangling_repeat.
Qed.

(** ** Lines of a text *)
Lemma split_ne : forall c s, split_on c s <> [].
Proof.
  induction s as [|a s IH]; cbn [split_on]; [discriminate|].
  destruct (Ascii.eqb a c); [discriminate|]. now destruct (split_on c s).
Qed.

Definition eol (w : bytes) := w = [] \/ exists w', w = LF :: w'.
Definition first_line (t l : bytes) := ~ In LF l /\ exists w, t = l ++ w /\ eol w.
Definition later_line (t l : bytes) :=
  ~ In LF l /\ exists u w, t = u ++ LF :: l ++ w /\ eol w.

Lemma is_line_cases : forall t l, is_line t l <-> first_line t l \/ later_line t l.
Proof.
  intros t l. split.
  - intros [N [u [w [E [[->|[u' ->]] W]]]]].
    + left. split; [assumption|]. exists w. auto.
    + right. split; [assumption|]. exists u', w. rewrite <- app_assoc in E. auto.
  - intros [[N [w [E W]]]|[N [u [w [E W]]]]].
    + split; [assumption|]. exists [], w. split; [assumption|]. split; [now left|assumption].
    + split; [assumption|]. exists (u ++ [LF]), w. split; [now rewrite <- app_assoc|].
      split; [right; eauto|assumption].
Qed.

Lemma split_lines : forall t l0 ls, split_on LF t = l0 :: ls ->
  forall l, (first_line t l <-> l = l0) /\ (later_line t l <-> In l ls).
Proof.
  induction t as [|a t IH]; intros l0 ls S l.
  - injection S as <- <-. split; split.
    + intros [N [w [E _]]]. symmetry in E. now apply app_eq_nil in E as [-> _].
    + intros ->. split; [intros []|]. exists []. split; [reflexivity|now left].
    + intros [N [u [w [E _]]]]. destruct u; discriminate.
    + intros [].
  - cbn [split_on] in S. destruct (split_on LF t) as [|l1 ls1] eqn:St; [now apply split_ne in St|].
    destruct (IH l1 ls1 eq_refl l) as [F L].
    destruct (Ascii.eqb_spec a LF) as [->|Na]; injection S as <- <-.
    + split; split.
      * intros [N [w [E _]]]. destruct l as [|c l]; [reflexivity|].
        injection E as <- _. exfalso. apply N. now left.
      * intros ->. split; [intros []|]. exists (LF :: t). split; [reflexivity|right; eauto].
      * intros [N [u [w [E W]]]]. destruct u as [|b u]; injection E as E.
        -- left. symmetry. apply F. split; [assumption|]. eauto.
        -- right. apply L. split; [assumption|]. eauto.
      * intros [H|H].
        -- symmetry in H. apply F in H as [N [w [E W]]]. split; [assumption|].
           exists [], w. rewrite E. auto.
        -- apply L in H as [N [u [w [E W]]]]. split; [assumption|].
           exists (LF :: u), w. rewrite E. auto.
    + split; split.
      * intros [N [w [E W]]]. destruct l as [|c l].
        -- cbn [app] in E. subst w. destruct W as [W|[w' W]]; [discriminate|].
           injection W as -> _. congruence.
        -- injection E as <- E. f_equal. destruct (IH l1 ls1 eq_refl l) as [F' _]. apply F'.
           split; [intro I; apply N; now right|]. eauto.
      * intros ->. destruct (IH l1 ls1 eq_refl l1) as [F' _].
        destruct (proj2 F' eq_refl) as [N [w [E W]]]. split.
        -- intros [I|I]; [congruence|now apply N].
        -- exists w. rewrite E at 1. auto.
      * intros [N [u [w [E W]]]]. destruct u as [|b u]; injection E as Eb E; [congruence|].
        apply L. split; [assumption|]. eauto.
      * intro H. apply L in H as [N [u [w [E W]]]]. split; [assumption|].
        exists (a :: u), w. rewrite E. auto.
Qed.

Lemma split_is_line : forall t l, In l (split_on LF t) <-> is_line t l.
Proof.
  intros t l. rewrite is_line_cases.
  destruct (split_on LF t) as [|l0 ls] eqn:S; [now apply split_ne in S|].
  destruct (split_lines t l0 ls S l) as [F L]. rewrite F, L. simpl. intuition.
Qed.

(** ** One line *)
Lemma index_spec : forall c s i, index_byte c s = Some i ->
  s = firstn i s ++ c :: skipn (S i) s /\ ~ In c (firstn i s) /\ (i < length s)%nat.
Proof.
  induction s as [|a s IH]; intros i H; [discriminate|]. cbn [index_byte] in H.
  destruct (Ascii.eqb_spec a c) as [->|N].
  - injection H as <-. simpl. repeat split; [intros []|lia].
  - destruct (index_byte c s) as [j|]; [|discriminate]. injection H as <-.
    destruct (IH j eq_refl) as [E [NI L]]. cbn [firstn skipn length app]. split.
    + f_equal. exact E.
    + split; [|lia]. intros [I|I]; [congruence|now apply NI].
Qed.

Lemma index_none : forall c s, index_byte c s = None <-> ~ In c s.
Proof.
  induction s as [|a s IH]; cbn [index_byte]; [split; [intros _ []|reflexivity]|].
  destruct (Ascii.eqb_spec a c) as [->|N].
  - split; [discriminate|intro H; exfalso; apply H; now left].
  - destruct (index_byte c s); split; try discriminate.
    + intro H. exfalso. apply H. right. destruct IH as [_ IH]. 
      destruct (in_dec ascii_dec c s); [assumption|]. now apply IH in n0.
    + intros _ [I|I]; [congruence|]. now apply IH in I.
    + reflexivity.
Qed.

Lemma last_index_none : forall c s, last_index_byte c s = None <-> ~ In c s.
Proof.
  induction s as [|a s IH]; cbn [last_index_byte]; [split; [intros _ []|reflexivity]|].
  destruct (last_index_byte c s) as [j|] eqn:E.
  - split; [discriminate|]. intro H. exfalso. 
    assert (Some j = None) by (apply IH; intro; apply H; now right). discriminate.
  - destruct (Ascii.eqb_spec a c) as [->|N].
    + split; [discriminate|intro H; exfalso; apply H; now left].
    + split; [|reflexivity]. intros _ [I|I]; [congruence|]. now apply IH in I.
Qed.

Lemma last_index_spec : forall c s i, last_index_byte c s = Some i ->
  s = firstn i s ++ c :: skipn (S i) s /\ ~ In c (skipn (S i) s) /\ (i < length s)%nat.
Proof.
  induction s as [|a s IH]; intros i H; [discriminate|]. cbn [last_index_byte] in H.
  destruct (last_index_byte c s) as [j|] eqn:E.
  - injection H as <-. destruct (IH j eq_refl) as [Es [NI L]].
    change (firstn (S j) (a :: s)) with (a :: firstn j s).
    change (skipn (S (S j)) (a :: s)) with (skipn (S j) s).
    cbn [length app]. split; [|split; [assumption|lia]]. f_equal. exact Es.
  - destruct (Ascii.eqb_spec a c) as [->|N]; [|discriminate]. injection H as <-.
    cbn [firstn skipn app length]. apply last_index_none in E. repeat split; [assumption|lia].
Qed.

Lemma skipn_skipn : forall A n m (l : list A), skipn n (skipn m l) = skipn (n + m) l.
Proof.
  intros A n m. revert n. induction m as [|m IH]; intros n l; [now rewrite Nat.add_0_r|].
  rewrite Nat.add_succ_r. destruct l; [now rewrite !skipn_nil|]. apply IH.
Qed.

(** the quoted part *)
Lemma quote_part : forall line l r, index_byte QUOTE line = Some l ->
  last_index_byte QUOTE line = Some r -> l <> r ->
  exists a c, line = a ++ QUOTE :: slice (S l) r line ++ QUOTE :: c /\
    ~ In QUOTE a /\ ~ In QUOTE c.
Proof.
  intros line l r Hl Hr N.
  destruct (index_spec _ _ _ Hl) as [El [Nl Ll]].
  destruct (last_index_spec _ _ _ Hr) as [Er [Nr Lr]].
  assert (l < r)%nat.
  { destruct (Nat.lt_trichotomy l r) as [|[|G]]; [assumption|congruence|]. exfalso.
    apply Nr. clear Nr.
    assert (nth_error line l = Some QUOTE).
    { rewrite El. rewrite nth_error_app2; rewrite firstn_length_le by lia; [|lia].
      now rewrite Nat.sub_diag. }
    rewrite <- (firstn_skipn (S r) line) in H. rewrite nth_error_app2 in H.
    - eapply nth_error_In. exact H.
    - rewrite firstn_length_le; lia. }
  exists (firstn l line), (skipn (S r) line). split; [|auto].
  unfold slice. rewrite El at 1. f_equal. f_equal.
  rewrite <- (firstn_skipn (r - S l) (skipn (S l) line)) at 1. f_equal.
  rewrite skipn_skipn. replace (r - S l + S l)%nat with r by lia.
  rewrite Er at 1. rewrite skipn_app, firstn_length_le by lia.
  rewrite skipn_all2 by (rewrite firstn_length_le; lia).
  rewrite Nat.sub_diag. reflexivity.
Qed.

Lemma unique_parts : forall (a b c a' b' c' : bytes),
  a ++ QUOTE :: b ++ QUOTE :: c = a' ++ QUOTE :: b' ++ QUOTE :: c' ->
  ~ In QUOTE a -> ~ In QUOTE a' -> ~ In QUOTE c -> ~ In QUOTE c' -> b = b'.
Proof.
  assert (P : forall a x a' x' : bytes, a ++ QUOTE :: x = a' ++ QUOTE :: x' ->
    ~ In QUOTE a -> ~ In QUOTE a' -> x = x').
  { induction a as [|k a IH]; intros x a' x' E N N'; destruct a' as [|k' a'];
      cbn [app] in E; injection E as E.
    - assumption.
    - subst. exfalso. apply N'. now left.
    - subst. exfalso. apply N. now left.
    - eapply IH; [eassumption| |]; intro; [apply N|apply N']; now right. }
  intros a b c a' b' c' E Na Na' Nc Nc'. apply P in E; [|assumption|assumption].
  apply (f_equal (@rev ascii)) in E. rewrite !rev_app_distr in E. cbn [rev] in E.
  rewrite <- !app_assoc in E. cbn [app] in E.
  apply P in E; [|rewrite <- in_rev; assumption|rewrite <- in_rev; assumption].
  rewrite <- (rev_involutive b), E. apply rev_involutive.
Qed.

Lemma slice_length : forall l r (s : bytes), (length (slice l r s) <= length s)%nat.
Proof. intros. unfold slice. rewrite firstn_length, skipn_length. lia. Qed.

Lemma decode_line_unclosed : forall line f, unclosed line -> decode_line f line = OutOfFuel.
Proof.
  intros line f [a [b [c [E [Na [Nc O]]]]]]. unfold decode_line.
  destruct (index_byte QUOTE line) as [l|] eqn:I.
  2: { apply index_none in I. exfalso. apply I. rewrite E. apply in_or_app. right. now left. }
  destruct (last_index_byte QUOTE line) as [r|] eqn:J.
  2: { apply last_index_none in J. exfalso. apply J. rewrite E. apply in_or_app. right. now left. }
  destruct (Nat.eqb_spec l r) as [->|N].
  - exfalso. destruct (index_spec _ _ _ I) as [E1 [N1 _]].
    destruct (last_index_spec _ _ _ J) as [E2 [N2 _]].
    assert (count_occ ascii_dec line QUOTE = 1)%nat.
    { rewrite E1, count_occ_app. rewrite (proj1 (count_occ_not_In ascii_dec _ _) N1).
      cbn [count_occ]. destruct (ascii_dec QUOTE QUOTE); [|congruence].
      now rewrite (proj1 (count_occ_not_In ascii_dec _ _) N2). }
    rewrite E, count_occ_app in H. cbn [count_occ] in H.
    destruct (ascii_dec QUOTE QUOTE); [|congruence]. rewrite count_occ_app in H.
    cbn [count_occ] in H. destruct (ascii_dec QUOTE QUOTE); [|congruence]. lia.
  - destruct (quote_part line l r I J N) as [a' [c' [E' [Na' Nc']]]].
    assert (slice (S l) r line = b) as ->.
    { rewrite E in E' at 1. symmetry. eapply unique_parts; eassumption. }
    apply unescape_dangling. now apply dangling_odd.
Qed.

Lemma decode_line_total : forall line f, ~ unclosed line -> (length line < f)%nat ->
  exists v, decode_line f line = Ok v.
Proof.
  intros line f U L. unfold decode_line.
  destruct (index_byte QUOTE line) as [l|] eqn:I; [|eauto].
  destruct (last_index_byte QUOTE line) as [r|] eqn:J; [|eauto].
  destruct (Nat.eqb_spec l r) as [->|N]; [eauto|].
  apply unescape_total.
  - destruct (dangling false _) eqn:D; [|reflexivity]. exfalso. apply U.
    destruct (quote_part line l r I J N) as [a [c [E [Na Nc]]]].
    exists a, (slice (S l) r line), c. repeat split; auto. now apply dangling_odd.
  - pose proof (slice_length (S l) r line). lia.
Qed.

(** ** Texts *)
Lemma unescape_outcome : forall s f, (exists v, unescape f s = Ok v) \/ unescape f s = OutOfFuel.
Proof.
  assert (G : forall f s, (exists v, unescape_loop f s = Ok v) \/ unescape_loop f s = OutOfFuel).
  { induction f as [|f IH]; intro s; [now right|]. cbn [unescape_loop].
    destruct s as [|c s1]; [eauto|].
    destruct (Ascii.eqb c BSLASH).
    - destruct s1 as [|e s2]; [apply IH|]. destruct (unescape_char e).
      + destruct (IH s2) as [[v ->]| ->]; cbn [rbind]; eauto.
      + destruct (IH (e :: s2)) as [[v ->]| ->]; cbn [rbind]; eauto.
    - destruct (bval c <? 128).
      + destruct (IH s1) as [[v ->]| ->]; cbn [rbind]; eauto.
      + destruct (decode_rune (c :: s1)) as [r w].
        destruct (IH (skipn w (c :: s1))) as [[v ->]| ->]; cbn [rbind]; eauto. }
  intros s f. unfold unescape. destruct (plain_prefix (length s) s) as [p q].
  destruct q as [|c q]; [eauto|]. destruct (G f (c :: q)) as [[v ->]| ->]; cbn [rbind]; eauto.
Qed.

Lemma decode_line_outcome : forall s f,
  (exists v, decode_line f s = Ok v) \/ decode_line f s = OutOfFuel.
Proof.
  intros s f. unfold decode_line. destruct (index_byte QUOTE s); [|eauto].
  destruct (last_index_byte QUOTE s); [|eauto]. destruct (Nat.eqb _ _); [eauto|].
  apply unescape_outcome.
Qed.

Lemma decode_lines_out : forall f ls l, In l ls -> decode_line f l = OutOfFuel ->
  decode_lines f ls = OutOfFuel.
Proof.
  induction ls as [|x ls IH]; intros l I E; [destruct I|]. cbn [decode_lines].
  destruct I as [->|I]; [now rewrite E|].
  destruct (decode_line_outcome x f) as [[v ->]| ->]; [|reflexivity].
  cbn [rbind]. now rewrite (IH l I E).
Qed.

Lemma decode_lines_ok : forall f ls, (forall l, In l ls -> exists v, decode_line f l = Ok v) ->
  exists vs, decode_lines f ls = Ok vs.
Proof.
  induction ls as [|x ls IH]; intro H; [exists []; reflexivity|]. cbn [decode_lines].
  destruct (H x (or_introl eq_refl)) as [v ->]. cbn [rbind].
  destruct IH as [vs ->]; [intros l I; apply H; now right|]. cbn [rbind]. eauto.
Qed.

Lemma line_length : forall t l, is_line t l -> (length l <= length t)%nat.
Proof. intros t l [_ [u [w [-> _]]]]. rewrite !app_length. lia. Qed.

Lemma unclosed_dec : forall l, unclosed l \/ ~ unclosed l.
Proof.
  intro l. destruct (decode_line_outcome l (S (length l))) as [[v E]|E].
  - right. intro U. rewrite decode_line_unclosed in E by assumption. discriminate.
  - left. unfold decode_line in E.
    destruct (index_byte QUOTE l) as [i|] eqn:I; [|discriminate].
    destruct (last_index_byte QUOTE l) as [j|] eqn:J; [|discriminate].
    destruct (Nat.eqb_spec i j) as [|N]; [discriminate|].
    destruct (quote_part l i j I J N) as [a [c [El [Na Nc]]]].
    exists a, (slice (S i) j l), c. split; [exact El|]. split; [assumption|]. split; [assumption|].
    apply dangling_odd. destruct (dangling false (slice (S i) j l)) eqn:D; [reflexivity|].
    destruct (unescape_total _ (S (length l)) D) as [v V];
      [pose proof (slice_length (S i) j l); lia|congruence].
Qed.

Lemma decode_outcome : forall t,
  ((exists l, is_line t l /\ unclosed l) -> forall f, decode_po_fuel f t = OutOfFuel) /\
  ((forall l, is_line t l -> ~ unclosed l) -> exists v, decode_po t = Ok v).
Proof.
  intro t. split.
  - intros [l [L U]] f. unfold decode_po_fuel. destruct (beq t [QUOTE; QUOTE]) eqn:B.
    + exfalso. apply beq_eq in B. subst t. apply split_is_line in L.
      cbn in L. destruct L as [<-|[]].
      pose proof (decode_line_unclosed _ 3 U) as E. vm_compute in E. discriminate.
    + rewrite (decode_lines_out f _ l); [reflexivity|now apply split_is_line|].
      now apply decode_line_unclosed.
  - intro H. unfold decode_po, decode_po_fuel. destruct (beq t [QUOTE; QUOTE]); [eauto|].
    destruct (decode_lines_ok (S (length t)) (split_on LF t)) as [vs ->]; [|cbn [rbind]; eauto].
    intros l I. apply split_is_line in I. apply decode_line_total; [now apply H|].
    apply line_length in I. lia.
Qed.
