(** Proofs about wrapString for every text (C20). *)
From Coq Require Import List ZArith Bool Lia.
From Verif Require Import Base Utf8Model PoStrModel PoStrSpec PoStrProofs PoLaySpec.
Import ListNotations.
Open Scope Z_scope.

Definition finish (s : cst) : list (list rune) :=
  let s' := if is_nil (c_word s) then s else cflush s in c_lines s' ++ [c_line s'].

Lemma breaking_breakable : forall r, breaking r = breakable r.
Proof. intro r. reflexivity. Qed.

Lemma step_nl : forall w s, cstep w s 10 = CSt (finish s) [] [] [].
Proof.
  intros w [L l x sp]. unfold cstep, finish. cbn [c_word c_lines c_line c_space].
  change (10 =? NL) with true. cbn [orb]. destruct x; cbn [is_nil cflush c_lines c_line c_word c_space app].
  - now rewrite app_nil_r.
  - reflexivity.
Qed.

Lemma rlen_len : forall x, rlen x = len x.
Proof. reflexivity. Qed.
Lemma len_app : forall a b, len (a ++ b) = len a + len b.
Proof. intros. unfold len. rewrite app_length. lia. Qed.
Lemma len_cons : forall r b, len (r :: b) = 1 + len b.
Proof. intros. unfold len. cbn [length]. lia. Qed.
Lemma len_nil : len [] = 0.
Proof. reflexivity. Qed.
Lemma len_pos : forall x, 0 <= len x.
Proof. intro x. unfold len. lia. Qed.
Lemma len_ne : forall x, x <> [] -> 0 < len x.
Proof. intros [|r x] H; [congruence|]. rewrite len_cons. pose proof (len_pos x). lia. Qed.

Lemma not_nl : forall (r : rune) l, ~ In 10 (r :: l) -> (r =? NL) = false.
Proof. intros r l H. apply Z.eqb_neq. intro E. apply H. left. exact E. Qed.

Lemma step_blank : forall w L l x sp b, breakable b = true -> (b =? NL) = false -> x <> [] ->
  cstep w (CSt L l x sp) b = CSt L (l ++ sp ++ x) [] [b].
Proof.
  intros w L l x sp b B N X. unfold cstep. rewrite N, breaking_breakable, B. destruct x; [congruence|]. reflexivity.
Qed.

Lemma fold_blanks : forall w g L l sp, blanks g -> ~ In 10 g ->
  fold_left (cstep w) g (CSt L l [] sp) = CSt L l [] (sp ++ g).
Proof.
  intros w g. induction g as [|b g IH]; intros L l sp B N; [now rewrite app_nil_r|].
  inversion B; subst. cbn [fold_left].
  replace (cstep w (CSt L l [] sp) b) with (CSt L l [] (sp ++ [b])).
  - rewrite IH; [|assumption|intro; apply N; now right]. now rewrite <- app_assoc.
  - unfold cstep. rewrite (not_nl b g N), breaking_breakable, H1. reflexivity.
Qed.

Lemma word_no_nl : forall x, Forall (fun r => breakable r = false) x -> ~ In 10 x.
Proof. intros x F I. rewrite Forall_forall in F. specialize (F _ I). vm_compute in F. discriminate. Qed.

(** the word fits *)
Lemma fold_fits : forall w x L l u sp, Forall (fun r => breakable r = false) x ->
  len l + len sp + len u + len x <= w ->
  fold_left (cstep w) x (CSt L l u sp) = CSt L l (u ++ x) sp.
Proof.
  intros w x. induction x as [|r x IH]; intros L l u sp F E; [now rewrite app_nil_r|].
  pose proof (not_nl r x (word_no_nl _ F)) as N. inversion F; subst. cbn [fold_left].
  rewrite len_cons in E. pose proof (len_pos x).
  replace (cstep w (CSt L l u sp) r) with (CSt L l (u ++ [r]) sp).
  - rewrite IH; [|assumption|rewrite len_app, len_cons, len_nil; lia]. now rewrite <- app_assoc.
  - unfold cstep. rewrite N, breaking_breakable, H1. cbn [c_line c_space c_word c_lines]. change rlen with len.
    destruct (Z.leb_spec w (len l + len sp + len u)); [lia|]. reflexivity.
Qed.

(** a word alone on its line grows *)
Lemma fold_alone : forall w x L u, Forall (fun r => breakable r = false) x ->
  fold_left (cstep w) x (CSt L [] u []) = CSt L [] (u ++ x) [].
Proof.
  intros w x. induction x as [|r x IH]; intros L u F; [now rewrite app_nil_r|].
  pose proof (not_nl r x (word_no_nl _ F)) as N. inversion F; subst. cbn [fold_left].
  replace (cstep w (CSt L [] u []) r) with (CSt L [] (u ++ [r]) []).
  - rewrite IH by assumption. now rewrite <- app_assoc.
  - unfold cstep. rewrite N, breaking_breakable, H1. cbn [c_line c_space c_word c_lines is_nil].
    destruct (w <=? _); reflexivity.
Qed.

(** the word does not fit *)
Lemma fold_next : forall w x L l u sp, Forall (fun r => breakable r = false) x -> l <> [] -> x <> [] ->
  w < len l + len sp + len u + len x ->
  fold_left (cstep w) x (CSt L l u sp) = CSt (L ++ [l]) [] (u ++ x) [].
Proof.
  intros w x. induction x as [|r x IH]; intros L l u sp F NL' NX E; [congruence|].
  pose proof (not_nl r x (word_no_nl _ F)) as N. inversion F; subst. cbn [fold_left]. rewrite len_cons in E.
  unfold cstep at 2. rewrite N, breaking_breakable, H1. cbn [c_line c_space c_word c_lines]. change rlen with len.
  destruct (Z.leb_spec w (len l + len sp + len u)).
  - destruct l as [|l0 l]; [congruence|]. cbn [is_nil c_space c_lines c_line c_word].
    rewrite fold_alone by assumption. now rewrite <- app_assoc.
  - cbn [c_lines c_line c_word c_space]. rewrite IH; [now rewrite <- app_assoc|assumption|assumption| |rewrite len_app, len_cons, len_nil; lia].
    intro X. subst x. rewrite len_nil in E. lia.
Qed.

(** ** The end of a line, from a state within a word *)
Lemma fold_packed : forall w cur rest ls, packed w cur rest ls -> forall L l x sp,
  l ++ sp ++ x = cur -> x <> [] -> ~ In 10 rest -> edge rest ->
  finish (fold_left (cstep w) rest (CSt L l x sp)) = L ++ ls.
Proof.
  intros w cur rest ls P. induction P as [cur g B|cur g y rest ls G B Y E W P IH|cur g y rest ls G B Y E W P IH];
    intros L l x sp C X N ED.
  - destruct g as [|b g].
    + cbn [fold_left]. unfold finish. destruct x; [congruence|]. cbn [is_nil c_word cflush c_lines c_line c_space]. now rewrite C.
    + inversion B; subst. cbn [fold_left]. rewrite step_blank; [|assumption|now apply (not_nl b g)|assumption].
      rewrite fold_blanks; [|assumption|intro; apply N; now right]. reflexivity.
  - destruct g as [|b g]; [congruence|]. inversion B; subst. cbn [app fold_left].
    assert (N' : ~ In 10 g) by (intro; apply N; right; apply in_or_app; now left).
    assert (NR : ~ In 10 rest) by (intro; apply N; right; apply in_or_app; right; apply in_or_app; now right).
    rewrite step_blank; [|assumption|now apply (not_nl b _ N)|assumption].
    rewrite fold_left_app, fold_blanks by assumption. rewrite fold_left_app.
    rewrite fold_fits; [|apply Y|cbn [app]; rewrite len_nil; lia].
    apply IH; [reflexivity|apply Y|exact NR|exact E].
  - destruct g as [|b g]; [congruence|]. inversion B; subst. cbn [app fold_left].
    assert (N' : ~ In 10 g) by (intro; apply N; right; apply in_or_app; now left).
    assert (NR : ~ In 10 rest) by (intro; apply N; right; apply in_or_app; right; apply in_or_app; now right).
    rewrite step_blank; [|assumption|now apply (not_nl b _ N)|assumption].
    rewrite fold_left_app, fold_blanks by assumption. rewrite fold_left_app.
    rewrite fold_next; [|apply Y| |apply Y|cbn [app]; rewrite len_nil; lia].
    2:{ intro Q. apply X. apply app_eq_nil in Q. destruct Q as [_ Q]. now apply app_eq_nil in Q. }
    rewrite IH; [now rewrite <- app_assoc|reflexivity|apply Y|exact NR|exact E].
Qed.

Lemma fold_line : forall w rs ls, laid_line w rs ls -> forall L, ~ In 10 rs ->
  finish (fold_left (cstep w) rs (CSt L [] [] [])) = L ++ ls.
Proof.
  intros w rs ls H L N. destruct H as [g B|g x rest ls B X E C P|g a b rest ls G B X E A2 B2 P].
  - rewrite fold_blanks by assumption. reflexivity.
  - assert (N' : ~ In 10 g) by (intro; apply N; apply in_or_app; now left).
    assert (NR : ~ In 10 rest) by (intro; apply N; apply in_or_app; right; apply in_or_app; now right).
    rewrite fold_left_app, fold_blanks by assumption. rewrite fold_left_app. cbn [app].
    destruct (Z_le_gt_dec (len g + len x) w) as [LE|GT].
    + rewrite fold_fits; [|apply X|rewrite !len_nil; lia].
      apply (fold_packed _ _ _ _ P); [reflexivity|apply X|exact NR|exact E].
    + destruct g as [|g0 g].
      * rewrite fold_alone by apply X. apply (fold_packed _ _ _ _ P); [reflexivity|apply X|exact NR|exact E].
      * set (g1 := g0 :: g) in *. destruct C as [C|C]; [discriminate C|]. destruct X as [X1 X2].
        destruct (exists_last X1) as (a & r & EX). subst x.
        apply Forall_app in X2. destruct X2 as [Xa Xr]. rewrite len_app, len_cons, len_nil in GT, C.
        pose proof (len_pos a). unfold room in C.
        rewrite fold_left_app.
        assert (S : fold_left (cstep w) a (CSt L [] [] g1) = CSt L [] a g1).
        { destruct (Z_le_gt_dec (len g1 + len a) w).
          - now rewrite fold_fits by (rewrite ?len_nil; assumption || lia).
          - assert (len a = 0) by lia. destruct a; [reflexivity|]. rewrite len_cons in *. pose proof (len_pos a). lia. }
        rewrite S. cbn [fold_left]. inversion Xr; subst.
        replace (cstep w (CSt L [] a g1) r) with (CSt L (g1 ++ a) [r] []).
        -- apply (fold_packed _ _ _ _ P); [now rewrite <- app_assoc|discriminate|exact NR|exact E].
        -- unfold cstep. rewrite (not_nl r [] (word_no_nl [r] Xr)), breaking_breakable, H2.
           cbn [c_line c_space c_word c_lines]. change rlen with len; rewrite len_nil.
           destruct (Z.leb_spec w (0 + len g1 + len a)); [|lia]. reflexivity.
  - assert (N' : ~ In 10 g) by (intro; apply N; apply in_or_app; now left).
    assert (NR : ~ In 10 rest) by (intro; apply N; apply in_or_app; right; apply in_or_app; now right).
    destruct X as [X1 X2]. apply Forall_app in X2. destruct X2 as [Xa Xb].
    rewrite fold_left_app, fold_blanks by assumption. rewrite !fold_left_app. cbn [app].
    unfold room in A2. pose proof (len_pos a). destruct g as [|g0 g]; [congruence|]. set (g1 := g0 :: g) in *.
    assert (S : fold_left (cstep w) a (CSt L [] [] g1) = CSt L [] a g1).
    { destruct (Z_le_gt_dec (len g1 + len a) w).
      - now rewrite fold_fits by (rewrite ?len_nil; assumption || lia).
      - assert (len a = 0) by lia. destruct a; [reflexivity|]. rewrite len_cons in *. pose proof (len_pos a). lia. }
    rewrite S. destruct b as [|r [|r2 b]]; rewrite ?len_cons, ?len_nil in B2; [lia|lia|].
    pose proof Xb as Xb'. inversion Xb as [|? ? R1 Xb1]; subst. inversion Xb1 as [|? ? R2 Xb2]; subst. cbn [fold_left].
    replace (cstep w (CSt L [] a g1) r) with (CSt L (g1 ++ a) [r] []).
    2:{ unfold cstep. rewrite (not_nl r _ (word_no_nl _ Xb)), breaking_breakable, R1.
        cbn [c_line c_space c_word c_lines]. change rlen with len; rewrite len_nil.
        destruct (Z.leb_spec w (0 + len g1 + len a)); [|lia]. reflexivity. }
    replace (cstep w (CSt L (g1 ++ a) [r] []) r2) with (CSt (L ++ [g1 ++ a]) [] [r; r2] []).
    2:{ unfold cstep. rewrite (not_nl r2 _ (word_no_nl _ Xb1)), breaking_breakable, R2.
        cbn [c_line c_space c_word c_lines]. change rlen with len; rewrite len_nil, len_cons, len_nil, len_app.
        destruct (Z.leb_spec w (len g1 + len a + 0 + (1 + 0))); [|lia]. reflexivity. }
    rewrite fold_alone by assumption. cbn [app].
    rewrite (fold_packed _ _ _ _ P _ [] (r :: r2 :: b) []); [now rewrite <- app_assoc|reflexivity|discriminate|exact NR|exact E].
Qed.

Lemma fold_text : forall w rs ls, laid_text w rs ls -> forall L,
  finish (fold_left (cstep w) rs (CSt L [] [] [])) = L ++ ls.
Proof.
  intros w rs ls H. induction H as [l ls N H|l rest ls ls' N H H' IH]; intro L.
  - now apply fold_line.
  - rewrite fold_left_app. cbn [fold_left]. rewrite step_nl, (fold_line _ _ _ H _ N), IH. now rewrite <- app_assoc.
Qed.

Lemma laid_wrap : forall w rs ls, laid_text w rs ls -> wrap_words w rs = ls.
Proof. intros w rs ls H. apply (fold_text _ _ _ H []). Qed.

(** ** Every text has a layout *)
Lemma span : forall (f : rune -> bool) l, exists a b, l = a ++ b /\ Forall (fun r => f r = true) a /\
  (b = [] \/ exists r t, b = r :: t /\ f r = false).
Proof.
  intros f l. induction l as [|r l (a & b & E & A & B)].
  - exists [], []. repeat split; auto.
  - destruct (f r) eqn:F.
    + exists (r :: a), b. subst l. repeat split; auto.
    + exists [], (r :: l). repeat split; auto. right. eauto.
Qed.

(** blanks, a word and the rest *)
Lemma next_word : forall l, blanks l \/ exists g x rest, l = g ++ x ++ rest /\ blanks g /\ a_word x /\ edge rest.
Proof.
  intro l. destruct (span breakable l) as (g & b & E & G & [->|(r & t & -> & R)]).
  - left. rewrite E, app_nil_r. exact G.
  - right. destruct (span (fun r => negb (breakable r)) (r :: t)) as (x & rest & E2 & X & D).
    exists g, x, rest. split; [now rewrite E, E2|]. split; [exact G|]. split.
    + split.
      * intro Q. subst x. cbn [app] in E2. destruct D as [->|(r' & t' & -> & D)]; [discriminate E2|].
        injection E2 as -> ->. now rewrite R in D.
      * eapply Forall_impl; [|exact X]. cbv beta. intros c Q. now apply negb_true_iff.
    + destruct D as [->|(r' & t' & -> & D)]; [now left|]. right. exists r', t'. split; [reflexivity|]. now apply negb_false_iff.
Qed.

Lemma packed_exists : forall w n rest cur, (length rest < n)%nat -> edge rest -> exists ls, packed w cur rest ls.
Proof.
  intros w n. induction n as [|n IH]; intros rest cur LT E; [lia|].
  destruct (next_word rest) as [B|(g & x & rest' & -> & G & X & E')].
  - exists [cur]. now constructor.
  - assert (NG : g <> []).
    { intro Q. subst g. cbn [app] in E. destruct X as [X1 X2]. destruct x as [|r x]; [congruence|].
      destruct E as [E|(b & t & E & B)]; [discriminate E|]. cbn [app] in E. injection E as -> _. inversion X2; subst. congruence. }
    rewrite !app_length in LT. assert (length g <> 0)%nat by (destruct g; [congruence|discriminate]).
    destruct (Z_le_gt_dec (len cur + len g + len x) w).
    + destruct (IH rest' (cur ++ g ++ x) ltac:(lia) E') as [ls P]. exists ls. now apply pk_fits.
    + destruct (IH rest' x ltac:(lia) E') as [ls P]. exists (cur :: ls). apply pk_next; auto. lia.
Qed.

Lemma laid_line_exists : forall w l, exists ls, laid_line w l ls.
Proof.
  intros w l. destruct (next_word l) as [B|(g & x & rest & -> & G & X & E)].
  - exists [[]]. now constructor.
  - assert (D : g = [] \/ g <> []) by (destruct g; [now left|right; discriminate]).
    destruct D as [D|D].
    + destruct (packed_exists w _ rest (g ++ x) (Nat.lt_succ_diag_r _) E) as [ls P].
      exists ls. apply ll_first; auto.
    + destruct (Z_le_gt_dec (len x) (room w g + 1)) as [LE|GT].
      * destruct (packed_exists w _ rest (g ++ x) (Nat.lt_succ_diag_r _) E) as [ls P].
        exists ls. apply ll_first; auto.
      * assert (R : 0 <= room w g) by (unfold room; lia).
        set (k := Z.to_nat (room w g)) in *.
        assert (LA : len (firstn k x) = room w g).
        { unfold len in *. rewrite firstn_length_le; lia. }
        assert (LB : 2 <= len (skipn k x)).
        { unfold len in *. rewrite skipn_length. lia. }
        destruct (packed_exists w _ rest (skipn k x) (Nat.lt_succ_diag_r _) E) as [ls P].
        exists ((g ++ firstn k x) :: ls). rewrite <- (firstn_skipn k x) at 1. apply ll_cut; auto.
        now rewrite firstn_skipn.
Qed.

Lemma laid_text_exists : forall w n rs, (length rs < n)%nat -> exists ls, laid_text w rs ls.
Proof.
  intros w n. induction n as [|n IH]; intros rs LT; [lia|].
  destruct (span (fun r => negb (r =? 10)) rs) as (l & b & E & A & B).
  assert (N : ~ In 10 l). { intro I. rewrite Forall_forall in A. specialize (A _ I). discriminate A. }
  destruct (laid_line_exists w l) as [ls P]. destruct B as [->|(r & t & -> & F)].
  - exists ls. rewrite E, app_nil_r. now constructor.
  - apply negb_false_iff, Z.eqb_eq in F. subst r rs. rewrite app_length in LT. cbn [length] in LT.
    destruct (IH t ltac:(lia)) as [ls' P']. exists (ls ++ ls'). now constructor.
Qed.

Lemma wrap_laid : forall w rs, laid_text w rs (wrap_words w rs).
Proof.
  intros w rs. destruct (laid_text_exists w _ rs (Nat.lt_succ_diag_r _)) as [ls P]. now rewrite (laid_wrap _ _ _ P).
Qed.

(** ** How long the lines are *)
Lemma packed_lengths : forall w cur rest ls, packed w cur rest ls -> long_ok w cur -> Forall (long_ok w) ls.
Proof.
  intros w cur rest ls P. induction P as [cur g B|cur g y rest ls G B Y E W P IH|cur g y rest ls G B Y E W P IH]; intro C.
  - now constructor.
  - apply IH. left. rewrite !len_app. lia.
  - constructor; [exact C|]. apply IH. right. left. apply Y.
Qed.

Lemma laid_lengths : forall w rs ls, 0 < w -> laid_text w rs ls -> Forall (long_ok w) ls.
Proof.
  intros w rs ls W H.
  assert (K : forall l ls, laid_line w l ls -> Forall (long_ok w) ls).
  { clear - W. intros l ls H. destruct H as [g B|g x rest ls B X E C P|g a b rest ls G B X E A2 B2 P].
    - constructor; [|constructor]. left. rewrite len_nil. lia.
    - apply (packed_lengths _ _ _ _ P). destruct C as [->|C]; [right; left; apply X|].
      destruct (Z_le_gt_dec (len (g ++ x)) w) as [LE|GT]; [now left|].
      destruct g as [|g0 g]; [right; left; apply X|]. right. right. exists (g0 :: g), x.
      split; [reflexivity|]. split; [discriminate|]. split; [exact B|]. split; [apply X|].
      rewrite len_app in *. unfold room in C. lia.
    - destruct X as [X1 X2]. apply Forall_app in X2. destruct X2 as [Xa Xb]. constructor.
      + destruct (Z_le_gt_dec (len (g ++ a)) w) as [LE|GT]; [now left|]. right. right. exists g, a.
        repeat split; auto. right. rewrite len_app in GT. unfold room in A2. lia.
      + apply (packed_lengths _ _ _ _ P). right. now left. }
  induction H as [l ls N H|l rest ls ls' N H H' IH]; [now apply (K l)|].
  apply Forall_app. split; [now apply (K l)|exact IH].
Qed.
