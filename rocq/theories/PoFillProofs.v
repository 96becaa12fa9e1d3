(** Proofs about encodePoStringWithWrap for every text (C76). *)
From Coq Require Import List ZArith Bool Lia ZifyBool.
From Verif Require Import Base Utf8Model PoStrModel PoStrSpec PoStrProofs PoLayProofs PoFillSpec.
Import ListNotations.
Open Scope Z_scope.

(** The state without its length, which is computed anew for every character. *)
Definition st4 : Type := list (list rune) * list rune * list rune * list rune.
Definition core (s : wst) : st4 := (w_lines s, w_line s, w_word s, w_space s).
Definition step4 (w : Z) (c : st4) (r : rune) : st4 :=
  let '(L, l, x, g) := c in core (wrap_step w (WSt L l x g 0) r).
Definition end4 (c : st4) : list (list rune) * list rune :=
  let '(L, l, x, g) := c in (L, l ++ x ++ g).

Lemma core_step : forall w s r, core (wrap_step w s r) = step4 w (core s) r.
Proof.
  intros w [L l x g n] r. unfold step4, core at 2. cbn [w_lines w_line w_word w_space]. unfold wrap_step.
  cbn [w_lines w_line w_word w_space w_len]. destruct (r =? NL); [reflexivity|]. reflexivity.
Qed.
Lemma core_fold : forall w rs s, core (fold_left (wrap_step w) rs s) = fold_left (step4 w) rs (core s).
Proof. intros w rs. induction rs as [|r rs IH]; intro s; cbn [fold_left]; [reflexivity|]. now rewrite IH, core_step. Qed.

Lemma flen_app : forall a b, flen (a ++ b) = flen a + flen b.
Proof. intros. unfold flen. rewrite app_length. lia. Qed.
Lemma flen_cons : forall r b, flen (r :: b) = 1 + flen b.
Proof. intros. unfold flen. cbn [length]. lia. Qed.
Lemma flen_nil : flen [] = 0.
Proof. reflexivity. Qed.
Lemma flen_pos : forall x, 0 <= flen x.
Proof. intro x. unfold flen. lia. Qed.
Lemma flen_zero : forall x, flen x = 0 -> x = [].
Proof. intros [|r x] H; [reflexivity|]. rewrite flen_cons in H. pose proof (flen_pos x). lia. Qed.
Lemma flen_ne : forall x, x <> [] -> 0 < flen x.
Proof. intros [|r x] H; [congruence|]. rewrite flen_cons. pose proof (flen_pos x). lia. Qed.

Lemma step4_nl : forall w c, step4 w c 10 = (fst (end4 c) ++ [snd (end4 c) ++ [10]], [], [], []).
Proof. intros w [[[L l] x] g]. reflexivity. Qed.

Lemma step4_word : forall w L l x r, breakable r = false -> step4 w (L, l, x, []) r = (L, l, x ++ [r], []).
Proof.
  intros w L l x r B. unfold step4, wrap_step.
  assert (N : (r =? NL) = false) by (apply Z.eqb_neq; intros ->; vm_compute in B; discriminate B).
  rewrite N. change (breaking r) with (breakable r). rewrite B. reflexivity.
Qed.
Lemma fold_word : forall w z L l x, no_blank z -> fold_left (step4 w) z (L, l, x, []) = (L, l, x ++ z, []).
Proof.
  intros w z. induction z as [|r z IH]; intros L l x F; [now rewrite app_nil_r|]. inversion F; subst. cbn [fold_left].
  rewrite step4_word by assumption. rewrite IH by assumption. now rewrite <- app_assoc.
Qed.

(** a blank: the line is broken as soon as it is too long *)
Definition too_long (w : Z) (l x g : list rune) : bool := negb (is_nil l) && (w <? flen l + flen x + flen g).
Lemma space_break_eq : forall w L l x g n, space_break w (WSt L l x g n) =
  if (w <=? n + flen x + flen g - 1) && (0 <? n) then WSt (L ++ [l]) [] x g 0 else WSt L l x g n.
Proof. reflexivity. Qed.
Lemma step4_blank : forall w L l x g b, breakable b = true -> b <> 10 ->
  step4 w (L, l, x, g) b = if too_long w l x (g ++ [b]) then (L ++ [l], [], x, g ++ [b]) else (L, l, x, g ++ [b]).
Proof.
  intros w L l x g b B N. unfold step4, wrap_step.
  replace (b =? NL) with false by (symmetry; now apply Z.eqb_neq). change (breaking b) with (breakable b). rewrite B.
  cbv zeta. cbn [w_lines w_line w_word w_space w_len]. change rlen with flen. rewrite (space_break_eq w L l x g (flen l)).
  unfold too_long. rewrite flen_app, flen_cons, flen_nil. pose proof (flen_pos x). pose proof (flen_pos g).
  destruct l as [|r0 l].
  - cbn [is_nil negb andb]. rewrite flen_nil. change (0 <? 0) with false. rewrite andb_false_r.
    cbn [w_lines w_line w_word w_space w_len]. rewrite space_break_eq. change (0 <? 0) with false. rewrite andb_false_r. reflexivity.
  - cbn [is_nil negb andb]. set (l1 := r0 :: l). assert (P : 0 < flen l1) by (apply flen_ne; discriminate).
    destruct ((w <=? flen l1 + flen x + flen g - 1) && (0 <? flen l1)) eqn:E1; cbn [w_lines w_line w_word w_space w_len]; rewrite space_break_eq.
    + change (0 <? 0) with false. rewrite andb_false_r.
      replace (w <? flen l1 + flen x + (flen g + (1 + 0))) with true by lia. reflexivity.
    + rewrite flen_app, flen_cons, flen_nil.
      replace ((w <=? flen l1 + flen x + (flen g + (1 + 0)) - 1) && (0 <? flen l1)) with (w <? flen l1 + flen x + (flen g + (1 + 0))) by lia.
      destruct (w <? _); reflexivity.
Qed.

Lemma fold_blank : forall w h L l x g, Forall (fun r => breakable r = true) h -> ~ In 10 h -> h <> [] -> (g = [] \/ too_long w l x g = false) ->
  fold_left (step4 w) h (L, l, x, g) = if too_long w l x (g ++ h) then (L ++ [l], [], x, g ++ h) else (L, l, x, g ++ h).
Proof.
  intros w h. induction h as [|b h IH]; intros L l x g F N NE G; [congruence|]. inversion F; subst. cbn [fold_left].
  rewrite step4_blank; [|assumption|intros ->; apply N; now left].
  assert (NH : ~ In 10 h) by (intro; apply N; now right).
  assert (AA : forall L1 l1, (too_long w l1 x (g ++ [b]) = false) ->
     fold_left (step4 w) h (L1, l1, x, g ++ [b]) = if too_long w l1 x (g ++ b :: h) then (L1 ++ [l1], [], x, g ++ b :: h) else (L1, l1, x, g ++ b :: h)).
  { intros L1 l1 T. destruct h as [|b2 h].
    - cbn [fold_left]. now rewrite T.
    - rewrite IH; [|assumption|assumption|discriminate|now right]. now rewrite <- app_assoc. }
  destruct (too_long w l x (g ++ [b])) eqn:T.
  - rewrite AA by reflexivity. cbn [too_long is_nil negb andb].
    replace (too_long w l x (g ++ b :: h)) with true; [reflexivity|]. symmetry.
    unfold too_long in *. destruct l; [discriminate T|]. cbn [is_nil negb andb] in *. rewrite flen_app, !flen_cons in T. rewrite flen_app, !flen_cons. rewrite flen_nil in T.
    pose proof (flen_pos h). lia.
  - now apply AA.
Qed.

(** what happens to a complete chunk when the next word begins *)
Lemma settle : forall w L l x g rest, g <> [] -> fresh rest ->
  end4 (fold_left (step4 w) rest (L, l, x, g)) =
  end4 (fold_left (step4 w) rest
    (if negb (is_nil rest) && is_nil l && (w <=? flen (x ++ g) + 1) then (L ++ [x ++ g], [], [], []) else (L, l ++ x ++ g, [], []))).
Proof.
  intros w L l x g rest G [->|(r & t & -> & B)].
  - cbn [fold_left is_nil negb andb end4]. now rewrite !app_nil_r.
  - cbn [is_nil negb andb fold_left]. f_equal. f_equal.
    transitivity (if is_nil l && (w <=? flen (x ++ g) + 1) then (L ++ [x ++ g], @nil rune, [r], @nil rune) else (L, l ++ x ++ g, [r], [])).
    2:{ destruct (is_nil l && _); now rewrite step4_word. }
    unfold step4, wrap_step.
    assert (N : (r =? NL) = false) by (apply Z.eqb_neq; intros ->; vm_compute in B; discriminate B).
    rewrite N. change (breaking r) with (breakable r). rewrite B. cbv zeta. cbn [w_lines w_line w_word w_space w_len].
    change rlen with flen. pose proof (flen_ne g G). replace (0 <? flen g) with true by lia. rewrite flen_app.
    destruct l as [|r0 l].
    + rewrite flen_nil. change (0 =? 0) with true. rewrite andb_true_r. cbn [is_nil andb].
      replace (0 + flen x + flen g + 1) with (flen x + flen g + 1) by lia. destruct (w <=? _); reflexivity.
    + cbn [is_nil andb]. replace (flen (r0 :: l) =? 0) with false; [|rewrite flen_cons; pose proof (flen_pos l); lia].
      rewrite andb_false_r. reflexivity.
Qed.

Lemma fold_chunk : forall w L l c, chunk l c -> ~ In 10 c -> exists x g, c = x ++ g /\ g <> [] /\
  fold_left (step4 w) c (L, l, [], []) = if too_long w l x g then (L ++ [l], [], x, g) else (L, l, x, g).
Proof.
  intros w L l c (x & g & -> & X & G & F & _) N. exists x, g. split; [reflexivity|]. split; [exact G|].
  rewrite fold_left_app, fold_word by assumption. rewrite fold_blank; [reflexivity|assumption| |assumption|now left].
  intro; apply N; apply in_or_app; now right.
Qed.

Definition lines4 (c : st4) : list (list rune) := fst (end4 c) ++ [snd (end4 c)].

Lemma fold_filled : forall w l rest ls, filled w l rest ls -> forall L, ~ In 10 rest ->
  lines4 (fold_left (step4 w) rest (L, l, [], [])) = L ++ ls.
Proof.
  intros w l rest ls H.
  induction H as [l z Z|l c rest ls NE C F LE H IH|l c rest ls NE C F GT H IH|c rest ls C F R H IH|c rest ls C F R LE H IH]; intros L N.
  - rewrite fold_word by assumption. unfold lines4. cbn [end4 fst snd app]. now rewrite app_nil_r.
  - rewrite fold_left_app.
    assert (NC : ~ In 10 c) by (intro; apply N; apply in_or_app; now left).
    assert (NR : ~ In 10 rest) by (intro; apply N; apply in_or_app; now right).
    destruct (fold_chunk w L l c C NC) as (x & g & -> & G & E). rewrite E.
    rewrite flen_app in LE. unfold too_long. destruct l as [|r0 l]; [congruence|]. cbn [is_nil negb andb].
    replace (w <? flen (r0 :: l) + flen x + flen g) with false by lia.
    unfold lines4. rewrite settle by assumption. cbn [is_nil]. rewrite andb_false_r. cbn [andb].
    apply IH. exact NR.
  - rewrite fold_left_app.
    assert (NC : ~ In 10 c) by (intro; apply N; apply in_or_app; now left).
    specialize (IH (L ++ [l]) N). rewrite fold_left_app in IH.
    destruct C as (x & g & -> & X & G & FG & _).
    assert (NG : ~ In 10 g) by (intro; apply NC; apply in_or_app; now right).
    rewrite !fold_left_app, !fold_word in * by assumption. rewrite fold_blank in * by (auto || now left).
    cbn [app] in *. cbn [too_long is_nil negb andb] in IH. rewrite flen_app in GT.
    unfold too_long. destruct l as [|r0 l]; [congruence|]. cbn [is_nil negb andb].
    replace (w <? flen (r0 :: l) + flen x + flen g) with true by lia.
    rewrite IH. now rewrite <- app_assoc.
  - rewrite fold_left_app.
    assert (NC : ~ In 10 c) by (intro; apply N; apply in_or_app; now left).
    assert (NR : ~ In 10 rest) by (intro; apply N; apply in_or_app; now right).
    destruct (fold_chunk w L [] c C NC) as (x & g & -> & G & E). rewrite E. cbn [too_long is_nil negb andb].
    unfold lines4. rewrite settle by assumption. cbn [is_nil]. rewrite andb_true_r.
    replace (negb (is_nil rest) && (w <=? flen (x ++ g) + 1)) with false.
    + apply IH. exact NR.
    + destruct R as [->|R]; [reflexivity|]. replace (w <=? flen (x ++ g) + 1) with false by lia. now rewrite andb_false_r.
  - rewrite fold_left_app.
    assert (NC : ~ In 10 c) by (intro; apply N; apply in_or_app; now left).
    assert (NR : ~ In 10 rest) by (intro; apply N; apply in_or_app; now right).
    destruct (fold_chunk w L [] c C NC) as (x & g & -> & G & E). rewrite E. cbn [too_long is_nil negb andb].
    unfold lines4. rewrite settle by assumption. cbn [is_nil]. rewrite andb_true_r.
    destruct rest as [|r0 rest]; [congruence|]. cbn [is_nil negb andb]. replace (w <=? flen (x ++ g) + 1) with true by lia.
    change (lines4 (fold_left (step4 w) (r0 :: rest) (L ++ [x ++ g], [], [], [])) = L ++ (x ++ g) :: ls).
    rewrite IH by exact NR. now rewrite <- app_assoc.
Qed.

Lemma filled_ends : forall w l rest ls, filled w l rest ls -> l <> [] \/ rest <> [] -> exists z ls', ls = ls' ++ [z] /\ z <> [].
Proof.
  intros w l rest ls H.
  induction H as [l z Z|l c rest ls NE C F LE H IH|l c rest ls NE C F GT H IH|c rest ls C F R H IH|c rest ls C F R LE H IH]; intro D.
  - exists (l ++ z), []. split; [reflexivity|]. intro E. apply app_eq_nil in E. destruct E, D; congruence.
  - apply IH. left. intro E. apply app_eq_nil in E. destruct E. congruence.
  - destruct IH as (z & ls' & -> & Z).
    { right. destruct C as (x & g & -> & _ & G & _). intro E. apply app_eq_nil in E. destruct E as [E _]. apply app_eq_nil in E. destruct E. congruence. }
    exists z, (l :: ls'). now split.
  - apply IH. left. destruct C as (x & g & -> & _ & G & _). intro E. apply app_eq_nil in E. destruct E. congruence.
  - destruct IH as (z & ls' & -> & Z); [now right|]. exists z, (c :: ls'). now split.
Qed.

Lemma last_line_ne : forall ls z, z <> [] -> last_line ls z = ls ++ [z].
Proof. intros ls [|r z] H; [congruence|]. reflexivity. Qed.

Lemma fold_filled_text : forall w b rs ls, filled_text w b rs ls -> forall L, (b = true <-> L = []) ->
  (let e := end4 (fold_left (step4 w) rs (L, [], [], [])) in last_line (fst e) (snd e)) = L ++ ls.
Proof.
  intros w b rs ls H. induction H as [|b l ls N D H|b l rest ls z ls' N H H' IH]; intros L HL.
  - cbn. destruct L as [|y L]; [destruct HL as [_ HL]; discriminate (HL eq_refl)|]. now rewrite app_nil_r.
  - pose proof (fold_filled _ _ _ _ H L N) as E. unfold lines4 in E. cbv zeta.
    destruct l as [|r0 l].
    + destruct D as [->|D]; [|congruence]. assert (L = []) by now apply HL. subst L. cbn [fold_left] in *. exact E.
    + destruct (filled_ends _ _ _ _ H ltac:(right; discriminate)) as (z & ls' & -> & Z).
      rewrite app_assoc in E. apply app_inj_tail in E. destruct E as [-> ->]. rewrite last_line_ne by exact Z. now rewrite <- app_assoc.
  - pose proof (fold_filled _ _ _ _ H L N) as E. unfold lines4 in E. rewrite app_assoc in E. apply app_inj_tail in E. destruct E as [E1 E2].
    rewrite fold_left_app. cbn [fold_left]. rewrite step4_nl. change (@fold_left st4 Z) with (@fold_left st4 rune). rewrite E1, E2, IH.
    + rewrite <- !app_assoc. reflexivity.
    + split; [discriminate|]. intro E. apply app_eq_nil in E. destruct E. discriminate.
Qed.

Lemma filled_wrap : forall w rs ls, filled_text w true rs ls -> wrap_runes w rs = ls.
Proof.
  intros w rs ls H. pose proof (fold_filled_text _ _ _ _ H [] (conj (fun _ => eq_refl) (fun _ => eq_refl))) as E. cbv zeta in E. cbn [app] in E.
  rewrite <- E. unfold wrap_runes. change (@nil (list rune), @nil rune, @nil rune, @nil rune) with (core (WSt [] [] [] [] 0)).
  rewrite <- core_fold. destruct (fold_left _ _ _) as [L l x g n]. reflexivity.
Qed.

(** ** Every text is broken in this way *)
Lemma next_chunk : forall rs l, l = [] \/ fresh rs -> no_blank rs \/ exists c rest, rs = c ++ rest /\ chunk l c /\ fresh rest.
Proof.
  intros rs l D. destruct (span (fun r => negb (breakable r)) rs) as (x & b & E & X & B).
  assert (X' : no_blank x). { eapply Forall_impl; [|exact X]. cbv beta. intros c Q. now apply negb_true_iff. }
  destruct B as [->|(r & t & -> & R)].
  - left. rewrite E, app_nil_r. exact X'.
  - right. apply negb_false_iff in R. destruct (span breakable (r :: t)) as (g & rest & E2 & G & B2).
    exists (x ++ g), rest. split; [rewrite E, E2; apply app_assoc|]. split.
    + exists x, g. split; [reflexivity|]. split; [exact X'|]. split.
      * intro Q. subst g. cbn [app] in E2. destruct B2 as [->|(r' & t' & -> & B2)]; [discriminate E2|]. injection E2 as -> ->. congruence.
      * split; [exact G|]. intros NL' Q. subst x. destruct D as [D|[D|(r' & t' & D & RR)]]; [congruence| |].
        -- rewrite D in E. discriminate E.
        -- rewrite D in E. cbn [app] in E. injection E as -> _. congruence.
    + exact B2.
Qed.

Lemma filled_exists : forall w n rest l, (2 * length rest + (match l with [] => 0 | _ => 1 end) < n)%nat -> l = [] \/ fresh rest -> exists ls, filled w l rest ls.
Proof.
  intros w n. induction n as [|n IH]; intros rest l LT D; [lia|].
  destruct (next_chunk rest l D) as [B|(c & rest' & -> & C & F)].
  - exists [l ++ rest]. now constructor.
  - assert (LC : (0 < length c)%nat).
    { destruct C as (x & g & -> & _ & G & _). rewrite app_length. destruct g; [congruence|]. cbn [length]. lia. }
    pose proof LT as LT0. rewrite app_length in LT. destruct l as [|r0 l].
    + assert (DD : rest' = [] \/ rest' <> []) by (destruct rest'; [now left|right; discriminate]).
      destruct DD as [R|R].
      * destruct (IH rest' c) as [ls P]; [destruct c; lia|now right|]. exists ls. apply fi_first; auto.
      * destruct (Z_lt_le_dec (flen c + 1) w).
        -- destruct (IH rest' c) as [ls P]; [destruct c; lia|now right|]. exists ls. apply fi_first; auto.
        -- destruct (IH rest' []) as [ls P]; [lia|now left|]. exists (c :: ls). apply fi_alone; auto.
    + destruct (Z_le_gt_dec (flen (r0 :: l) + flen c) w).
      * destruct (IH rest' ((r0 :: l) ++ c)) as [ls P]; [cbn [app]; lia|now right|]. exists ls. apply fi_more; auto. discriminate.
      * destruct (IH (c ++ rest') []) as [ls P]; [rewrite app_length in *; lia|now left|]. exists ((r0 :: l) :: ls). apply fi_next; auto; [discriminate|lia].
Qed.

Lemma filled_nonempty : forall w l rest ls, filled w l rest ls -> exists ls' z, ls = ls' ++ [z].
Proof.
  intros w l rest ls H.
  induction H as [l z Z|l c rest ls NE C F LE H IH|l c rest ls NE C F GT H IH|c rest ls C F R H IH|c rest ls C F R LE H IH].
  - now exists [], (l ++ z).
  - exact IH.
  - destruct IH as (ls' & z & ->). now exists (l :: ls'), z.
  - exact IH.
  - destruct IH as (ls' & z & ->). now exists (c :: ls'), z.
Qed.

Lemma filled_text_exists : forall w n rs b, (length rs < n)%nat -> exists ls, filled_text w b rs ls.
Proof.
  intros w n. induction n as [|n IH]; intros rs b LT; [lia|].
  destruct (span (fun r => negb (r =? 10)) rs) as (l & t & E & A & B).
  assert (N : ~ In 10 l). { intro I. rewrite Forall_forall in A. specialize (A _ I). discriminate A. }
  destruct (filled_exists w _ l [] (Nat.lt_succ_diag_r _) (or_introl eq_refl)) as [ls P].
  destruct B as [->|(r & t' & -> & F)].
  - rewrite app_nil_r in E. subst rs. destruct l as [|r0 l].
    + destruct b; [|exists []; constructor]. exists ls. apply ft_last; auto.
    + exists ls. apply ft_last; auto. right. discriminate.
  - apply negb_false_iff, Z.eqb_eq in F. subst r rs. rewrite app_length in LT. cbn [length] in LT.
    destruct (IH t' false ltac:(lia)) as [ls' P']. destruct (filled_nonempty _ _ _ _ P) as (ls0 & z & ->).
    exists (ls0 ++ [z ++ [10]] ++ ls'). now constructor.
Qed.

Lemma wrap_filled : forall w rs, filled_text w true rs (wrap_runes w rs).
Proof.
  intros w rs. destruct (filled_text_exists w _ rs true (Nat.lt_succ_diag_r _)) as [ls P]. now rewrite (filled_wrap _ _ _ P).
Qed.
