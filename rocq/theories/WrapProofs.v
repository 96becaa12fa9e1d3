From Coq Require Import String Ascii List ZArith Bool Lia ZifyBool.
From Verif Require Import Base BaseProofs Utf8Model Utf8Proofs StrModel PoStrModel PoStrSpec PoStrProofs.
Import ListNotations.
Open Scope Z_scope.

Lemma breaking_breakable : forall r, breaking r = breakable r.
Proof. reflexivity. Qed.

Definition allbr (l : list rune) := Forall (fun r => breakable r = true) l.
Definition nobr (l : list rune) := Forall (fun r => breakable r = false) l.

Lemma is_nil_spec : forall A (l : list A), is_nil l = true <-> l = [].
Proof. destruct l; simpl; split; congruence. Qed.

(** ** Visible characters *)
Lemma visible_app : forall a b, visible (a ++ b) = visible a ++ visible b.
Proof. intros. apply filter_app. Qed.

Lemma visible_br : forall l, allbr l -> visible l = [].
Proof.
  induction 1 as [|r l H _ IH]; [reflexivity|]. unfold visible. simpl. rewrite H. exact IH.
Qed.

Definition vis (s : cst) := visible (concat (c_lines s) ++ c_line s ++ c_word s).

Lemma vis_cflush : forall s, allbr (c_space s) -> vis (cflush s) = vis s.
Proof.
  intros s H. unfold vis, cflush. simpl. rewrite !visible_app, (visible_br (c_space s) H).
  simpl. now rewrite app_nil_r.
Qed.

Lemma cstep_vis : forall w s r, allbr (c_space s) ->
  allbr (c_space (cstep w s r)) /\
  vis (cstep w s r) = vis s ++ visible [r].
Proof.
  intros w s r H. unfold cstep. destruct (Z.eqb_spec r NL) as [->|N].
  - cbv zeta. change (visible [NL]) with (@nil rune). rewrite app_nil_r.
    destruct (is_nil (c_word s)) eqn:E.
    + apply is_nil_spec in E. simpl. split; [constructor|].
      unfold vis. simpl. rewrite E, !app_nil_r, concat_app. simpl. now rewrite app_nil_r.
    + split; [constructor|]. rewrite <- (vis_cflush s H). unfold vis. simpl.
      rewrite concat_app. simpl. now rewrite ?app_nil_r.
  - destruct (breaking r) eqn:B.
    + cbv zeta. rewrite breaking_breakable in B.
      assert (V : visible [r] = []) by (unfold visible; simpl; now rewrite B).
      rewrite V, app_nil_r. destruct (is_nil (c_word s)) eqn:E; simpl.
      * split; [apply Forall_app; split; [assumption|repeat constructor; assumption]|reflexivity].
      * split; [repeat constructor; assumption|]. apply (vis_cflush s H).
    + cbv zeta. match goal with |- allbr (c_space {| c_space := c_space ?x |}) /\ _ => set (s2 := x) end.
      assert (G : allbr (c_space s2) /\ vis s2 = vis s).
      { subst s2. destruct (_ <=? _); [|auto].
        match goal with |- context [is_nil (c_space ?x)] => set (s1 := x) end.
        assert (G : allbr (c_space s1) /\ vis s1 = vis s).
        { subst s1. destruct (is_nil (c_line s)); [auto|]. split; [constructor|].
          unfold vis. simpl. rewrite concat_app. simpl. rewrite app_nil_r. now rewrite <- ?app_assoc. }
        destruct G as [G1 G2]. destruct (is_nil (c_space s1)); [auto|].
        split; [constructor|]. now rewrite vis_cflush. }
      destruct G as [G1 G2]. split; [assumption|]. rewrite <- G2. unfold vis. simpl c_lines.
      simpl c_line. simpl c_word. now rewrite !visible_app, <- ?app_assoc.
Qed.

Lemma cfold_vis : forall w rs s, allbr (c_space s) ->
  allbr (c_space (fold_left (cstep w) rs s)) /\
  vis (fold_left (cstep w) rs s) = vis s ++ visible rs.
Proof.
  induction rs as [|r rs IH]; intros s H; cbn [fold_left]; [now rewrite app_nil_r|].
  destruct (cstep_vis w s r H) as [H1 H2]. destruct (IH _ H1) as [H3 H4].
  split; [assumption|]. rewrite H4, H2, <- app_assoc, <- visible_app. reflexivity.
Qed.

Lemma wrap_words_visible : forall w rs, visible (concat (wrap_words w rs)) = visible rs.
Proof.
  intros w rs. unfold wrap_words. cbv zeta.
  destruct (cfold_vis w rs (CSt [] [] [] []) (Forall_nil _)) as [H V].
  set (s := fold_left (cstep w) rs (CSt [] [] [] [])) in *. simpl in V. rewrite <- V.
  destruct (is_nil (c_word s)) eqn:E.
  - apply is_nil_spec in E. unfold vis. rewrite concat_app, E. simpl. now rewrite !app_nil_r.
  - rewrite <- vis_cflush by assumption. unfold vis. rewrite concat_app. simpl.
    now rewrite !app_nil_r.
Qed.

(** ** Words *)
Notation W := (words breakable).
Notation Wf := (words_from breakable).

Lemma Wf_app : forall a cur r b, breakable r = true ->
  Wf cur (a ++ r :: b) = Wf cur a ++ Wf [] b.
Proof.
  induction a as [|c a IH]; intros cur r b H; cbn [app words_from].
  - rewrite H. destruct cur; reflexivity.
  - destruct (breakable c).
    + destruct cur; cbn [app]; [apply IH; assumption|f_equal; apply IH; assumption].
    + apply IH; assumption.
Qed.

Lemma W_space : forall sp b, allbr sp -> W (sp ++ b) = W b.
Proof.
  induction 1 as [|r sp H _ IH]; [reflexivity|]. unfold words in *. cbn [app words_from].
  now rewrite H.
Qed.

Lemma W_join : forall a sp b, allbr sp -> sp <> [] -> W (a ++ sp ++ b) = W a ++ W b.
Proof.
  intros a sp b H N. destruct sp as [|r sp]; [congruence|]. inversion H; subst.
  unfold words. cbn [app]. rewrite Wf_app by assumption. f_equal. now apply W_space.
Qed.

Lemma Wf_word : forall l cur, nobr l -> Wf cur l = match cur ++ l with [] => [] | x => [x] end.
Proof.
  induction l as [|r l IH]; intros cur H; cbn [words_from].
  - rewrite app_nil_r. now destruct cur.
  - inversion H; subst. rewrite H2, IH by assumption. now rewrite <- app_assoc.
Qed.

Lemma W_word : forall l, nobr l -> W l = match l with [] => [] | x => [x] end.
Proof. intros l H. unfold words. rewrite Wf_word by assumption. now destruct l. Qed.

(** ** Invariant for texts without indented lines *)
Definition okline (w : Z) (l : list rune) : Prop := rlen l <= w \/ nobr l.

Record inv (w : Z) (start : bool) (done : list rune) (s : cst) : Prop := Inv {
  i_space : allbr (c_space s);
  i_word : nobr (c_word s);
  i_line : c_line s = [] <-> c_space s = [];
  i_start : start = false -> c_line s <> [] \/ c_word s <> [];
  i_len : (c_line s = [] /\ c_space s = []) \/ c_word s = [] \/
          rlen (c_line s) + rlen (c_space s) + rlen (c_word s) <= w;
  i_cur : okline w (c_line s);
  i_lines : Forall (okline w) (c_lines s);
  i_words : forall rest, W (done ++ rest) =
              concat (map W (c_lines s)) ++ W (c_line s) ++ Wf (c_word s) rest
}.

Lemma rlen_app : forall a b, rlen (a ++ b) = rlen a + rlen b.
Proof. intros. unfold rlen. rewrite app_length. lia. Qed.
Lemma rlen_nonneg : forall a, 0 <= rlen a.
Proof. intros. unfold rlen. lia. Qed.

Lemma breakable_NL : breakable NL = true.
Proof. reflexivity. Qed.

Lemma Wf_break : forall cur r rest, nobr cur -> breakable r = true ->
  Wf cur (r :: rest) = W cur ++ W rest.
Proof.
  intros cur r rest Hc H. cbn [words_from]. rewrite H. rewrite W_word by assumption.
  destruct cur; reflexivity.
Qed.

(** the line that a flush completes *)
Lemma flush_line : forall w start done s, inv w start done s -> c_word s <> [] ->
  okline w (c_line (cflush s)) /\
  W (c_line (cflush s)) = W (c_line s) ++ W (c_word s).
Proof.
  intros w start done s [A B C D E F G H] N. simpl.
  destruct (c_line s) as [|x l] eqn:L.
  - destruct C as [C _]. rewrite (C eq_refl). cbn [app]. split; [right; assumption|reflexivity].
  - assert (Sp : c_space s <> []) by (intro X; destruct C as [_ C]; discriminate (C X)).
    split; [|apply W_join; assumption]. left.
    destruct E as [[E _]|[E|E]]; [discriminate|congruence|]. rewrite !rlen_app. lia.
Qed.

Lemma cstep_inv : forall w start done s r, 0 < w -> inv w start done s ->
  (start = true -> c_line s = [] /\ c_word s = []) ->
  (r <> NL -> start && breakable r = false) ->
  let s' := cstep w s r in
  let start' := if r =? NL then true else false in
  inv w start' (done ++ [r]) s' /\ (start' = true -> c_line s' = [] /\ c_word s' = []).
Proof.
  intros w start done s r Hw I St Ind. cbv zeta. unfold cstep.
  destruct (Z.eqb_spec r NL) as [->|N].
  - cbv zeta. split; [|intros _; simpl; auto].
    destruct (is_nil (c_word s)) eqn:En.
    + apply is_nil_spec in En. destruct I as [A B C D E F G H]. constructor; simpl; try constructor;
        try tauto; try discriminate.
      * unfold rlen. simpl. lia.
      * apply Forall_app. split; [assumption|]. constructor; [|constructor]. now rewrite En, !app_nil_r.
      * intro rest. rewrite <- app_assoc. cbn [app]. rewrite (H (NL :: rest)).
        rewrite Wf_break by (assumption || reflexivity).
        rewrite map_app, concat_app. simpl. rewrite En, !app_nil_r.
        change (W []) with (@nil (list rune)). cbn [app].
        now rewrite <- app_assoc.
    + assert (Nw : c_word s <> []) by (intro X; rewrite X in En; discriminate).
      destruct (flush_line _ _ _ _ I Nw) as [Fl Wl].
      destruct I as [A B C D E F G H]. constructor; simpl; try constructor;
        try tauto; try discriminate.
      * unfold rlen. simpl. lia.
      * apply Forall_app. split; [assumption|]. constructor; [exact Fl|constructor].
      * intro rest. rewrite <- app_assoc. cbn [app]. rewrite (H (NL :: rest)).
        rewrite Wf_break by (assumption || reflexivity).
        rewrite map_app, concat_app. cbn [map concat]. simpl in Wl. rewrite Wl, app_nil_r.
        change (W []) with (@nil (list rune)). cbn [app]. now rewrite <- !app_assoc.
  - specialize (Ind N). destruct (breaking r) eqn:Br.
    + rewrite breaking_breakable in Br. rewrite Br, andb_true_r in Ind. subst start.
      cbv zeta. split; [|discriminate].
      destruct (is_nil (c_word s)) eqn:En.
      * apply is_nil_spec in En. destruct I as [A B C D E F G H].
        assert (Ln : c_line s <> []) by (destruct (D eq_refl); [assumption|congruence]).
        constructor; simpl; auto.
        -- apply Forall_app. split; [assumption|]. repeat constructor. assumption.
        -- split; [congruence|]. intro X. apply app_eq_nil in X as [_ X]. discriminate.
        -- intro rest. rewrite <- app_assoc. cbn [app]. rewrite (H (r :: rest)), En.
           rewrite Wf_break by (constructor || assumption). reflexivity.
      * assert (Nw : c_word s <> []) by (intro X; rewrite X in En; discriminate).
        destruct (flush_line _ _ _ _ I Nw) as [Fl Wl].
        destruct I as [A B C D E F G H]. simpl in Fl, Wl.
        assert (Ln : c_line s ++ c_space s ++ c_word s <> []).
        { intro X. apply app_eq_nil in X as [_ X]. apply app_eq_nil in X as [_ X]. congruence. }
        constructor; simpl; auto.
        -- repeat constructor. assumption.
        -- constructor.
        -- split; [congruence|discriminate].
        -- intro rest. rewrite <- app_assoc. cbn [app]. rewrite (H (r :: rest)), Wl.
           rewrite Wf_break by assumption. now rewrite <- app_assoc.
    + rewrite breaking_breakable in Br. cbv zeta. split; [|discriminate].
      destruct I as [A B C D E F G H].
      match goal with |- inv _ _ _ {| c_lines := c_lines ?x |} => set (s2 := x) end.
      assert (P : c_word s2 = c_word s /\ allbr (c_space s2) /\
        (c_line s2 = [] <-> c_space s2 = []) /\
        ((c_line s2 = [] /\ c_space s2 = []) \/
          rlen (c_line s2) + rlen (c_space s2) + rlen (c_word s2) < w) /\
        okline w (c_line s2) /\ Forall (okline w) (c_lines s2) /\
        concat (map W (c_lines s2)) ++ W (c_line s2) =
        concat (map W (c_lines s)) ++ W (c_line s)).
      { subst s2. destruct (w <=? _) eqn:T.
        - destruct (is_nil (c_line s)) eqn:Ln.
          + apply is_nil_spec in Ln. destruct C as [C C']. rewrite (C Ln). simpl.
            rewrite Ln, (C Ln). repeat split; auto; constructor. unfold rlen; simpl; lia.
          + simpl. repeat split; auto; try constructor.
            * unfold rlen; simpl; lia.
            * apply Forall_app. split; [assumption|]. constructor; [assumption|constructor].
            * rewrite map_app, concat_app. simpl. rewrite app_nil_r.
              change (W []) with (@nil (list rune)). now rewrite app_nil_r.
        - repeat split; auto; try tauto. right. lia. }
      destruct P as [P1 [P2 [P3 [P4 [P5 [P6 P7]]]]]].
      constructor; simpl; auto.
      * rewrite P1. apply Forall_app. split; [assumption|]. repeat constructor. assumption.
      * intros _. right. intro X. apply app_eq_nil in X as [_ X]. discriminate.
      * destruct P4 as [P4|P4]; [now left|]. right. right. rewrite rlen_app. unfold rlen at 4.
        simpl. lia.
      * intro rest. rewrite <- app_assoc. cbn [app]. rewrite (H (r :: rest)), P1.
        cbn [words_from]. rewrite Br. rewrite !app_assoc, P7. reflexivity.
Qed.

Lemma cfold_inv : forall w rs start done s, 0 < w -> inv w start done s ->
  (start = true -> c_line s = [] /\ c_word s = []) -> indented start rs = false ->
  exists start', inv w start' (done ++ rs) (fold_left (cstep w) rs s).
Proof.
  induction rs as [|r rs IH]; intros start done s Hw I St Ind; cbn [fold_left].
  - exists start. now rewrite app_nil_r.
  - cbn [indented] in Ind.
    assert (Ind1 : r <> NL -> start && breakable r = false).
    { intro N. unfold NL in N. destruct (Z.eqb_spec r 10); [congruence|].
      apply orb_false_iff in Ind as [Ind _]. assumption. }
    destruct (cstep_inv w start done s r Hw I St Ind1) as [I' St'].
    replace (done ++ r :: rs) with ((done ++ [r]) ++ rs) by (now rewrite <- app_assoc).
    eapply IH; [assumption|exact I'|exact St'|].
    change NL with 10. destruct (r =? 10); [assumption|].
    apply orb_false_iff in Ind as [_ Ind]. assumption.
Qed.

Lemma wrap_words_spec : forall w rs, 0 < w -> indented true rs = false ->
  concat (map W (wrap_words w rs)) = W rs /\ Forall (okline w) (wrap_words w rs).
Proof.
  intros w rs Hw Ind. unfold wrap_words. cbv zeta.
  destruct (cfold_inv w rs true [] (CSt [] [] [] []) Hw) as [st I]; auto.
  { constructor; simpl; auto; try constructor; try tauto; try discriminate.
    unfold rlen. simpl. lia. }
  cbn [app] in I. set (s := fold_left (cstep w) rs (CSt [] [] [] [])) in *.
  assert (H := i_words _ _ _ _ I []). rewrite app_nil_r in H.
  assert (Hwd : Wf (c_word s) [] = W (c_word s)).
  { rewrite W_word by apply I. reflexivity. }
  rewrite Hwd in H. destruct (is_nil (c_word s)) eqn:E.
  - apply is_nil_spec in E. rewrite H, E. change (W []) with (@nil (list rune)).
    rewrite map_app, concat_app. simpl. rewrite !app_nil_r. split; [reflexivity|].
    apply Forall_app. split; [apply I|]. constructor; [apply I|constructor].
  - assert (Nw : c_word s <> []) by (intro X; rewrite X in E; discriminate).
    destruct (flush_line _ _ _ _ I Nw) as [Fl Wl].
    rewrite map_app, concat_app. cbn [map concat]. rewrite Wl, app_nil_r, H.
    split; [reflexivity|].
    apply Forall_app. split; [apply I|]. constructor; [exact Fl|constructor].
Qed.

(** lines as strings *)
Lemma cstep_scalar : forall w s r, scalar r = true ->
  Forall allb (c_lines s) /\ allb (c_line s) /\ allb (c_word s) /\ allb (c_space s) ->
  let s' := cstep w s r in
  Forall allb (c_lines s') /\ allb (c_line s') /\ allb (c_word s') /\ allb (c_space s').
Proof.
  intros w s r Hr [A [B [C D]]]. cbv zeta. unfold cstep, cflush.
  assert (Hr1 : allb [r]) by (repeat constructor; assumption).
  unfold allb in *.
  destruct (r =? NL); [destruct (is_nil (c_word s))|destruct (breaking r);
    [destruct (is_nil (c_word s))|destruct (w <=? _);
      [destruct (is_nil (c_line s)); simpl; [destruct (is_nil (c_space s))|]|]]];
    simpl; repeat split; repeat (apply Forall_app; split); repeat constructor; auto;
    try (apply Forall_app; split; auto); try (apply Forall_app; split; auto).
Qed.

Lemma wrap_words_scalar : forall w rs, allb rs -> Forall allb (wrap_words w rs).
Proof.
  intros w rs H. unfold wrap_words. cbv zeta.
  assert (G : forall rs s, allb rs ->
    Forall allb (c_lines s) /\ allb (c_line s) /\ allb (c_word s) /\ allb (c_space s) ->
    let s' := fold_left (cstep w) rs s in
    Forall allb (c_lines s') /\ allb (c_line s') /\ allb (c_word s') /\ allb (c_space s')).
  { induction rs0 as [|r rs0 IH]; intros s Hrs Hs; [exact Hs|]. inversion Hrs; subst.
    cbn [fold_left]. apply IH; [assumption|]. now apply cstep_scalar. }
  specialize (G rs (CSt [] [] [] []) H).
  destruct G as [A [B [C D]]]; [simpl; repeat split; constructor|].
  set (s := fold_left _ _ _) in *. destruct (is_nil (c_word s)); simpl;
    apply Forall_app; split; auto; repeat constructor; auto.
  unfold allb in *. apply Forall_app; split; auto. apply Forall_app; split; auto.
Qed.

Lemma wrap_string_runes : forall s w, 0 < w ->
  map runes (wrap_string s w) = wrap_words w (runes s).
Proof.
  intros s w H. unfold wrap_string. replace (w <=? 0) with false by lia.
  rewrite map_map. pose proof (wrap_words_scalar w (runes s) (runes_scalar s)) as F.
  induction F as [|l ls Hl _ IH]; [reflexivity|]. cbn [map]. f_equal; [|assumption].
  rewrite <- (app_nil_r (encode_all l)), runes_encode by assumption.
  apply app_nil_r.
Qed.

Lemma split_join : forall c s, join [c] (split_on c s) = s.
Proof.
  induction s as [|a s IH]; [reflexivity|]. cbn [split_on].
  destruct (split_on c s) as [|l ls] eqn:E.
  - destruct s as [|b s]; [discriminate|]. cbn [split_on] in E.
    destruct (Ascii.eqb b c); [discriminate|]. destruct (split_on c s); discriminate.
  - destruct (Ascii.eqb_spec a c) as [->|N].
    + change (join [c] ([] :: l :: ls)) with ([] ++ [c] ++ join [c] (l :: ls)). now rewrite IH.
    + destruct ls as [|l' ls]; cbn [join] in *; [now rewrite IH|].
      change (join [c] ((a :: l) :: l' :: ls)) with ((a :: l) ++ [c] ++ join [c] (l' :: ls)).
      cbn [app]. f_equal. exact IH.
Qed.
