(** The Go text written for a gettext rule computes its C value. *)
From Coq Require Import String Ascii List ZArith QArith Bool Lia ZifyBool.
From Verif Require Import Base BaseProofs PopModel PopSpec PopProofs PopComplete PopCompile NumModel F64Model
  GenModel GoSpec GoProofs GenSpec.
Import ListNotations.
Open Scope Z_scope.

(** ** The classes do not depend on the grouping of && and || *)

Definition divisor (b : cexp) : bool :=
  match b with CN => true | CV v => negb (v =? 0) | _ => false end.
Definition number (e : cexp) : option Z := match e with CV v => Some v | _ => None end.

Lemma go_tree_cond : forall c t f, go_tree (CCond c t f) =
  match number t with
  | Some _ => go_bool c && match number f with Some _ => true | None => go_tree f end
  | None => false
  end.
Proof. intros c t f. destruct t; try reflexivity. destruct f; reflexivity. Qed.

Lemma ceq_class : forall a b, ceq a b ->
  go_arith a = go_arith b /\ go_bool a = go_bool b /\ go_tree a = go_tree b /\
  divisor a = divisor b /\ number a = number b.
Proof.
  induction 1 as [e|a b H IH|a b c H1 IH1 H2 IH2|a b c|a b c|o a a' b b' H1 IH1 H2 IH2
    |c c' t t' f f' H1 IH1 H2 IH2 H3 IH3].
  - auto.
  - intuition congruence.
  - intuition congruence.
  - cbn. rewrite andb_assoc. auto.
  - cbn. rewrite andb_assoc. auto.
  - destruct IH1 as (A1 & B1 & C1 & D1 & E1), IH2 as (A2 & B2 & C2 & D2 & E2).
    destruct o; cbn; fold (divisor b); fold (divisor b'); rewrite ?A1, ?A2, ?B1, ?B2, ?D2; auto.
  - destruct IH1 as (A1 & B1 & C1 & D1 & E1), IH2 as (A2 & B2 & C2 & D2 & E2),
      IH3 as (A3 & B3 & C3 & D3 & E3).
    rewrite !go_tree_cond, B1, E2, E3, C3. cbn. auto.
Qed.
Lemma ceq_able : forall np a b, ceq a b -> go_able np a = go_able np b.
Proof.
  intros np a b H. destruct (ceq_class _ _ H) as (_ & B & C & _). unfold go_able. rewrite B, C. reflexivity.
Qed.

(** ** Arithmetic *)

Definition int_ty (t : gty) : Prop := t = YInt \/ exists v, t = YConst v /\ 0 <= v <= maxInt64.
Lemma int_ty_as : forall t, int_ty t -> as_int t = true.
Proof.
  intros t [->|(v & -> & V)]; [reflexivity|]. cbn. unfold int_const, minInt64. lia.
Qed.
Lemma rem_typed : forall x y, int_ty x -> int_ty y -> (forall v, y = YConst v -> v <> 0) ->
  exists t, ty_bin OpRem x y = Some t /\ int_ty t.
Proof.
  intros x y X Y N. pose proof (int_ty_as _ X) as AX. pose proof (int_ty_as _ Y) as AY.
  destruct X as [->|(v & -> & V)], Y as [->|(w & -> & W)].
  - exists YInt. split; [reflexivity|now left].
  - exists YInt. split; [|now left]. cbn. cbn in AY. rewrite AY. specialize (N w eq_refl).
    replace (w =? 0) with false by lia. reflexivity.
  - exists YInt. split; [|now left]. unfold ty_bin. rewrite AX. reflexivity.
  - specialize (N w eq_refl). exists (YConst (Z.rem v w)). cbn. replace (w =? 0) with false by lia.
    split; [reflexivity|]. right. exists (Z.rem v w). split; [reflexivity|].
    pose proof (Z.rem_bound_pos v w ltac:(lia) ltac:(lia)).
    pose proof (Z.rem_le v w ltac:(lia) ltac:(lia)). lia.
Qed.

Definition cmp_op (o : cop) : option (gtok * gop) :=
  match o with
  | CLt => Some (TLt, OpLt) | CLe => Some (TLe, OpLe) | CGt => Some (TGt, OpGt)
  | CGe => Some (TGe, OpGe) | CEq => Some (TEq, OpEq) | CNe => Some (TNe, OpNe) | _ => None
  end.
Lemma cmp_typed : forall o t g x y, cmp_op o = Some (t, g) -> int_ty x -> int_ty y ->
  ty_bin g x y = Some YBool.
Proof.
  intros o t g x y O X Y. pose proof (int_ty_as _ X) as AX. pose proof (int_ty_as _ Y) as AY.
  destruct X as [->|(v & -> & V)], Y as [->|(w & -> & W)]; destruct o; try discriminate;
    injection O as <- <-; cbn -[as_int] in *; rewrite ?AX, ?AY; reflexivity.
Qed.

(** Text read from the left: what follows may go on with %. *)
Lemma arith_text : forall a, go_arith (cx a) = true -> consts_ok (cx a) ->
  exists ts E, Lex (gen_bin a) ts /\
    (forall r e r', follow 0 r -> T 0 E r e r' -> G 1 (ts ++ r) e r') /\
    (exists t, gtype pop_vars E = Some t /\ int_ty t) /\
    (forall n v, csem (cx a) n = Some v -> geval (pop_env n) E = VInt v) /\
    (divisor (cx a) = true -> (forall r, follow 0 r -> G 0 (ts ++ r) E r) /\
       forall v, gtype pop_vars E = Some (YConst v) -> v <> 0).
Proof.
  induction a as [v| |o x IHx y IHy|c IHc t IHt f IHf]; intros GA CO; cbn [cx] in *.
  - cbn in CO. exists [TNum v], (GNum v).
    assert (R : forall r, G 0 ([TNum v] ++ r) (GNum v) r) by (intro r; apply G_num).
    split; [apply lex_num; lia|]. split; [|split; [|split]].
    + intros r e r' F H. eapply G_up; [apply R|exact H].
    + exists (YConst v). split; [reflexivity|]. right. exists v. split; [reflexivity|lia].
    + intros n w S. cbn in S. injection S as <-. reflexivity.
    + intro D. split; [intros; apply R|]. cbn in D. intros w W. cbn in W. injection W as <-. lia.
  - exists [TName (bs "n")], (GName (bs "n")).
    assert (R : forall r, follow 0 r -> G 0 ([TName (bs "n")] ++ r) (GName (bs "n")) r).
    { intros r F. apply G_name. destruct r as [|t r]; [exact I|]. destruct t; try exact I. contradiction. }
    split; [apply lex_word; [discriminate|repeat constructor|reflexivity]|]. split; [|split; [|split]].
    + intros r e r' F H. eapply G_up; [apply R; exact F|exact H].
    + exists YInt. split; [reflexivity|now left].
    + intros n w S. cbn in S. injection S as <-. reflexivity.
    + intro D. split; [exact R|]. intros w W. discriminate.
  - destruct o; try discriminate. cbn [cop_of go_arith consts_ok] in *. fold (divisor (cx y)) in GA.
    apply andb_true_iff in GA as [G1 G2]. destruct CO as [C1 C2].
    destruct (IHx G1 C1) as (t1 & E1 & L1 & R1 & (y1 & T1 & I1) & S1 & _).
    assert (GY : go_arith (cx y) = true) by (destruct (cx y); try discriminate; reflexivity).
    destruct (IHy GY C2) as (t2 & E2 & L2 & _ & (y2 & T2 & I2) & S2 & D2).
    destruct (D2 G2) as [R2 N2].
    exists (t1 ++ TRem :: t2), (GBin OpRem E1 E2). split; [|split; [|split; [|split]]].
    + cbn [gen_bin]. apply lex_app; [exact L1| |reflexivity].
      change (TRem :: t2) with ([TRem] ++ t2). apply lexS_then; [lexS_lit|exact L2].
    + intros r e r' F H. rewrite <- app_assoc. cbn [app]. apply R1; [cbn; lia|].
      eapply T_op; [reflexivity|reflexivity|apply R2; exact F|exact H].
    + cbn [gtype]. rewrite T1, T2. apply rem_typed; [exact I1|exact I2|].
      intros v ->. exact (N2 v T2).
    + intros n v S. cbn in S. destruct (csem (cx x) n) as [p|] eqn:X; [|discriminate].
      destruct (csem (cx y) n) as [q|] eqn:Y; [|discriminate].
      cbn [geval ev_bin]. rewrite (S1 n p X), (S2 n q Y). cbn [cmp_int].
      destruct (q =? 0) eqn:Z; [discriminate|]. injection S as <-. destruct q; [discriminate| |]; reflexivity.
    + intro D. discriminate.
  - discriminate.
Qed.

(** ** Conditions *)

Definition bool_text (a : node) (ts : list gtok) (E : gexp) (X : gexp -> gexp) : Prop :=
  Lex (gen_bin a) ts /\ chain 2 TAnd ts E X /\
  gtype pop_vars E = Some YBool /\
  (forall p, gtype pop_vars p = Some YBool -> gtype pop_vars (X p) = Some YBool) /\
  (forall n v, csem (cx a) n = Some v -> geval (pop_env n) E = VBool (tobool v)) /\
  (forall n p, geval (pop_env n) p = VBool false -> geval (pop_env n) (X p) = VBool false) /\
  (forall n p v, geval (pop_env n) p = VBool true -> csem (cx a) n = Some v ->
     geval (pop_env n) (X p) = VBool (tobool v)).

Lemma bool_leaf : forall a ts E, Lex (gen_bin a) ts ->
  (forall r, follow 2 r -> G 2 (ts ++ r) E r) -> gtype pop_vars E = Some YBool ->
  (forall n v, csem (cx a) n = Some v -> geval (pop_env n) E = VBool (tobool v)) ->
  bool_text a ts E (fun p => GBin OpAnd p E).
Proof.
  intros a ts E L R Y S. split; [exact L|]. split; [apply chain_leaf; [reflexivity|reflexivity|exact R]|].
  split; [exact Y|]. split; [|split; [exact S|split]].
  - intros p P. cbn [gtype]. rewrite P, Y. reflexivity.
  - intros n p P. cbn [geval ev_bin]. rewrite P. destruct (geval (pop_env n) E); reflexivity.
  - intros n p v P Q. cbn [geval ev_bin]. rewrite P, (S n v Q). reflexivity.
Qed.

Lemma cmp_text : forall a o x y s t g, go_arith (cx x) = true -> go_arith (cx y) = true ->
  consts_ok (cx x) -> consts_ok (cx y) -> cx a = CBin o (cx x) (cx y) -> cmp_op o = Some (t, g) ->
  gen_bin a = gen_bin x ++ s ++ gen_bin y -> LexS s [t] -> brk s -> s <> [] -> binop t = Some g ->
  level g = 2%nat ->
  exists ts E X, bool_text a ts E X.
Proof.
  intros a o x y s t g GX GY CX CY A O T0 L B NE BO LV.
  destruct (arith_text x GX CX) as (t1 & E1 & L1 & R1 & (y1 & T1 & I1) & S1 & _).
  destruct (arith_text y GY CY) as (t2 & E2 & L2 & R2 & (y2 & T2 & I2) & S2 & _).
  exists (t1 ++ t :: t2), (GBin g E1 E2). eexists. apply bool_leaf.
  - rewrite T0. apply lex_app; [exact L1| |].
    + change (t :: t2) with ([t] ++ t2). apply lexS_then; assumption.
    + destruct s; [congruence|exact B].
  - intros r F. rewrite <- app_assoc. cbn [app]. apply G_up with (lv := 1%nat) (a := E1) (r := t :: t2 ++ r).
    + apply R1.
      * unfold follow. rewrite BO. destruct t; try exact I; try discriminate; lia.
      * apply T_stop. rewrite BO, LV. discriminate.
    + eapply T_op; [exact BO|exact LV| |apply follow_T; exact F].
      apply R2; [eapply follow_le; [|exact F]; lia|]. apply follow_T. eapply follow_le; [|exact F]; lia.
  - cbn [gtype]. rewrite T1, T2. exact (cmp_typed o t g y1 y2 O I1 I2).
  - intros n v S. rewrite A in S. cbn [geval].
    assert (Q : exists p q, csem (cx x) n = Some p /\ csem (cx y) n = Some q).
    { destruct (csem (cx x) n) as [p|] eqn:Q1, (csem (cx y) n) as [q|] eqn:Q2;
        [eauto|exfalso..]; destruct o; try discriminate; cbn in S; rewrite ?Q1, ?Q2 in S; discriminate. }
    destruct Q as (p & q & Q1 & Q2). rewrite (S1 n p Q1), (S2 n q Q2).
    destruct o; try discriminate; injection O as <- <-; cbn in S; rewrite Q1, Q2 in S; injection S as <-;
      cbn [ev_bin cmp_int]; rewrite tobool_b2z, ?Z.gtb_ltb, ?Z.geb_leb; reflexivity.
Qed.

Lemma bool_texts : forall a, go_bool (cx a) = true -> consts_ok (cx a) ->
  exists ts E X, bool_text a ts E X.
Proof.
  induction a as [v| |o x IHx y IHy|c IHc t IHt f IHf]; intros GA CO; try discriminate.
  cbn [cx consts_ok] in CO. destruct CO as [C1 C2].
  destruct o; cbn [cx cop_of go_bool] in GA; try discriminate; apply andb_true_iff in GA as [G1 G2].
  3-8: eapply (cmp_text _ _ x y); [exact G1|exact G2|exact C1|exact C2|reflexivity|reflexivity|reflexivity
    |lexS_lit|reflexivity|discriminate|reflexivity|reflexivity].
  - destruct (IHx G1 C1) as (t1 & E1 & X1 & L1 & H1 & Y1 & YX1 & S1 & F1 & T1).
    destruct (IHy G2 C2) as (t2 & E2 & X2 & L2 & H2 & Y2 & YX2 & S2 & F2 & T2).
    exists (t1 ++ TAnd :: t2), (X2 E1), (fun p => X2 (X1 p)).
    split; [|split; [eapply chain_node; [reflexivity|reflexivity|exact H1|exact H2]|]].
    + cbn [gen_bin]. apply lex_app; [exact L1| |reflexivity].
      change (TAnd :: t2) with ([TAnd] ++ t2). apply lexS_then; [lexS_lit|exact L2].
    + split; [auto|]. split; [auto|].
      assert (K : forall n p v, csem (cx (NBin BAnd x y)) n = Some v ->
        (forall w, csem (cx x) n = Some w -> geval (pop_env n) p = VBool (tobool w)) ->
        geval (pop_env n) (X2 p) = VBool (tobool v)).
      { intros n p v S P. cbn in S. destruct (csem (cx x) n) as [w|] eqn:Q; [|discriminate].
        specialize (P w eq_refl). destruct (tobool w).
        - destruct (csem (cx y) n) as [u|] eqn:Q2; [|discriminate]. injection S as <-.
          rewrite tobool_b2z. apply T2; assumption.
        - injection S as <-. apply F2. exact P. }
      split; [|split].
      * intros n v S. apply (K n E1 v S). intros w W. apply S1. exact W.
      * intros n p P. apply F2, F1, P.
      * intros n p v P S. apply (K n (X1 p) v S). intros w W. apply T1; assumption.
  - destruct (IHx G1 C1) as (t1 & E1 & X1 & L1 & H1 & Y1 & YX1 & S1 & F1 & T1).
    destruct (IHy G2 C2) as (t2 & E2 & X2 & L2 & H2 & Y2 & YX2 & S2 & F2 & T2).
    exists (TLp :: t1 ++ TOr :: t2 ++ [TRp]), (GBin OpOr E1 E2). eexists. apply bool_leaf.
    + cbn [gen_bin]. change (TLp :: t1 ++ TOr :: t2 ++ [TRp]) with ([TLp] ++ t1 ++ [TOr] ++ t2 ++ [TRp]).
      apply lexS_then; [lexS_lit|]. apply lex_app; [exact L1| |reflexivity].
      apply lexS_then; [lexS_lit|]. apply lex_app; [exact L2|apply lexS_lex; lexS_lit|reflexivity].
    + intros r F. apply G_to with (lv := 0%nat); [lia| |exact F].
      replace ((TLp :: t1 ++ TOr :: t2 ++ [TRp]) ++ r) with (TLp :: t1 ++ TOr :: t2 ++ TRp :: r)
        by (cbn [app]; rewrite <- app_assoc; cbn [app]; rewrite <- app_assoc; reflexivity).
      apply G_paren. eapply G_up with (lv := 3%nat).
      * eapply chain_done; [exact H1|]. cbn. lia.
      * eapply T_op; [reflexivity|reflexivity| |].
        -- eapply chain_done; [exact H2|]. exact I.
        -- apply T_stop. exact I.
    + cbn [gtype]. rewrite Y1, Y2. reflexivity.
    + intros n v S. cbn in S. cbn [geval]. destruct (csem (cx x) n) as [w|] eqn:Q; [|discriminate].
      rewrite (S1 n w Q). cbn [ev_bin]. destruct (tobool w).
      * injection S as <-. destruct (geval (pop_env n) E2); reflexivity.
      * destruct (csem (cx y) n) as [u|] eqn:Q2; [|discriminate]. injection S as <-.
        rewrite (S2 n u Q2), tobool_b2z. reflexivity.
Qed.

Lemma bool_reads : forall a, go_bool (cx a) = true -> consts_ok (cx a) ->
  exists ts E, Lex (gen_bin a) ts /\ (forall r, follow 4 r -> G 4 (ts ++ r) E r) /\
    gtype pop_vars E = Some YBool /\
    (forall n v, csem (cx a) n = Some v -> geval (pop_env n) E = VBool (tobool v)).
Proof.
  intros a GA CO. destruct (bool_texts a GA CO) as (ts & E & X & L & H & Y & _ & S & _).
  exists ts, E. split; [exact L|]. split; [|auto].
  intros r F. apply G_raise1; [|exact F]. eapply chain_done; [exact H|]. eapply follow_le; [|exact F]; lia.
Qed.

Lemma go_bool_01 : forall e n v, go_bool e = true -> csem e n = Some v -> v = b2z (tobool v).
Proof.
  intros e n v GB S. destruct e as [| |o a b|]; try discriminate.
  assert (Z : v = 0 \/ v = 1).
  { destruct o; try discriminate; cbn in S.
    7: destruct (csem a n) as [p|]; [|discriminate]; destruct (tobool p);
       [destruct (csem b n) as [q|]; [|discriminate]; injection S as <-; apply b2z_01
       |injection S as <-; now left].
    7: destruct (csem a n) as [p|]; [|discriminate]; destruct (tobool p);
       [injection S as <-; now right
       |destruct (csem b n) as [q|]; [|discriminate]; injection S as <-; apply b2z_01].
    all: destruct (csem a n) as [p|]; [|discriminate]; destruct (csem b n) as [q|]; [|discriminate];
      injection S as <-; apply b2z_01. }
  destruct Z as [-> | ->]; reflexivity.
Qed.

(** ** Bodies *)

Lemma const_res : forall v, 0 <= v <= maxInt64 -> pop_res (YConst v) = true.
Proof. intros v V. cbn. unfold int_const, minInt64. lia. Qed.

Definition body_text (s : bytes) (b : list gstmt) (e : cexp) : Prop :=
  (exists ts, Lex s ts /\ B ts b []) /\ body_typed pop_vars pop_res b = true /\
  forall n v, csem e n = Some v -> run (pop_env n) b = Some (VInt v).

Lemma return_text : forall v, 0 <= v <= maxInt64 ->
  body_text (bs "return " ++ itoa v) [SReturn (GNum v)] (CV v).
Proof.
  intros v V. split; [|split].
  - exists (TReturn :: [TNum v]). split.
    + change (TReturn :: [TNum v]) with ([TReturn] ++ [TNum v]).
      apply lexS_then; [lexS_lit|apply lex_num; lia].
    + apply B_return; [|exact I]. apply G_to with (lv := 0%nat); [lia|apply G_num|exact I].
  - unfold body_typed. cbn [forallb stmt_typed gtype terminating]. rewrite const_res by lia. reflexivity.
  - intros n w S. cbn in S. injection S as <-. reflexivity.
Qed.

Lemma if_text : forall c v f s b, go_bool (cx c) = true -> consts_ok (cx c) -> 0 <= v <= maxInt64 ->
  body_text s b f ->
  exists E, body_text (bs "if " ++ gen_bin c ++
      (bs "{" ++ [LF] ++ bs "return " ++ itoa v ++ [LF] ++ bs "}" ++ [LF]) ++ s)
    (SIf E [SReturn (GNum v)] :: b) (CCond (cx c) (CV v) f).
Proof.
  intros c v f s b GC CC V ((tb & Lb & Bb) & Yb & Sb).
  destruct (bool_reads c GC CC) as (tc & E & L & R & Y & S).
  exists E. split; [|split].
  - exists ([TIf] ++ tc ++ [TLc; TReturn; TNum v; TSemi; TRc; TSemi] ++ tb). split.
    + apply lexS_then; [lexS_lit|]. apply lex_app; [exact L| |reflexivity].
      apply lexS_then; [|exact Lb].
      change [TLc; TReturn; TNum v; TSemi; TRc; TSemi] with
        ([TLc; TReturn] ++ [TNum v; TSemi] ++ [TRc; TSemi]).
      replace (bs "{" ++ [LF] ++ bs "return " ++ itoa v ++ [LF] ++ bs "}" ++ [LF])
        with ((bs "{" ++ [LF] ++ bs "return ") ++ (itoa v ++ [LF]) ++ (bs "}" ++ [LF]))
        by (rewrite <- !app_assoc; reflexivity).
      apply lexS_app; [lexS_lit|]. apply lexS_app; [|lexS_lit].
      apply (lexS_lf (itoa v) [] (TNum v)); [apply lex_num; lia|reflexivity].
    + cbn [app]. eapply B_if.
      * apply R. exact I.
      * eapply B_return_semi; [|apply B_close]. apply G_to with (lv := 0%nat); [lia|apply G_num|exact I].
      * exact Bb.
  - unfold body_typed in *. apply andb_true_iff in Yb as [Y1 Y2].
    cbn [forallb stmt_typed terminating gtype]. rewrite Y, const_res by lia. cbn [andb].
    rewrite Y1. destruct b; [discriminate|exact Y2].
  - intros n w W. cbn in W. destruct (csem (cx c) n) as [p|] eqn:Q; [|discriminate].
    cbn [run run_stmt geval]. rewrite (S n p Q). destruct (tobool p).
    + injection W as <-. reflexivity.
    + apply Sb. exact W.
Qed.

Lemma gen_node_cond : forall c v f, gen_node (NCond c (NVal v) f) =
  bs "if " ++ gen_bin c ++
    (bs "{" ++ [LF] ++ bs "return " ++ itoa v ++ [LF] ++ bs "}" ++ [LF]) ++
    match f with NVal w => bs "return " ++ itoa w | _ => gen_node f end.
Proof. reflexivity. Qed.

Lemma tree_text : forall a, go_tree (cx a) = true -> consts_ok (cx a) ->
  exists b, body_text (gen_node a) b (cx a).
Proof.
  induction a as [v| |o x IHx y IHy|c IHc t IHt f IHf]; intros GA CO; try discriminate.
  cbn [cx] in *. rewrite go_tree_cond in GA. destruct t as [v| |o x y|t1 t2 t3]; try discriminate.
  cbn [cx number] in *. apply andb_true_iff in GA as [GC GF].
  cbn [consts_ok] in CO. destruct CO as (CC & CV & CF).
  rewrite gen_node_cond.
  assert (Q : exists b, body_text (match f with NVal w => bs "return " ++ itoa w | _ => gen_node f end) b (cx f)).
  { destruct f as [w| |o x y|f1 f2 f3].
    - eexists. apply return_text. exact CF.
    - discriminate.
    - apply IHf; assumption.
    - apply IHf; assumption. }
  destruct Q as [b Q]. destruct (if_text c v (cx f) _ b GC CC CV Q) as [E H]. eexists. exact H.
Qed.

Lemma forms_text : forall f, go_able (f_nplurals f) (cx (f_root f)) = true -> consts_ok (cx (f_root f)) ->
  exists b, (exists ts, Lex (gen_forms f) ts /\ B ts b []) /\ body_typed pop_vars pop_res b = true /\
    forall n v, csem (cx (f_root f)) n = Some v -> 0 <= v < f_nplurals f ->
      run (pop_env n) b = Some (VInt v).
Proof.
  intros [np a] GA CO. cbn [f_nplurals f_root] in *. unfold go_able in GA. unfold gen_forms.
  cbn [f_nplurals f_root]. destruct (np <=? 1) eqn:N1.
  - destruct (return_text 0 ltac:(unfold maxInt64; lia)) as (A & C & D).
    eexists. split; [exact A|]. split; [exact C|]. intros n v S V. assert (v = 0) by lia. subst v.
    apply D. reflexivity.
  - cbn [orb] in GA. destruct (np =? 2) eqn:N2.
    + destruct (if_text a 1 (CV 0) (bs "return 0") [SReturn (GNum 0)] GA CO ltac:(unfold maxInt64; lia))
        as [E (A & C & D)].
      { apply (return_text 0). unfold maxInt64; lia. }
      eexists. split; [exact A|]. split; [exact C|]. intros n v S V. apply D. cbn. rewrite S.
      rewrite (go_bool_01 _ _ _ GA S) at 2. destruct (tobool v); reflexivity.
    + destruct (tree_text a GA CO) as [b (A & C & D)]. exists b. split; [exact A|]. split; [exact C|].
      intros n v S V. apply D. exact S.
Qed.

Lemma gen_rule_means : forall t np e, header_text t np e -> go_able np e = true ->
  exists body key b, gen_rule t = Ok (body, key, np) /\ is_body body b /\
    body_typed pop_vars pop_res b = true /\
    forall n v, csem e n = Some v -> 0 <= v < np -> run (pop_env n) b = Some (VInt v).
Proof.
  intros t np e H GA. destruct (parse_complete _ _ _ H) as (f & P & N & R).
  destruct (header_consts _ _ _ H) as [CO _]. unfold rep in R.
  rewrite <- (ceq_able np _ _ R) in GA. apply (ceq_consts _ _ R) in CO. rewrite <- N in GA.
  destruct (forms_text f GA CO) as (b & (ts & L & Bt) & Y & S).
  exists (gen_forms f), (compile_forms f), b. unfold gen_rule. rewrite P, N. split; [reflexivity|].
  split; [eapply body_read; eassumption|]. split; [exact Y|].
  intros n v V W. apply S; [|lia]. rewrite <- V. exact (proj1 (ceq_sem _ _ R n)).
Qed.
