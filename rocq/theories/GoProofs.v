(** Reading Go text: rules for the scanner and the parser of GoSpec that do not
    mention states or fuel. *)
From Coq Require Import String Ascii List ZArith QArith Bool Lia.
From Verif Require Import Base BaseProofs NumModel F64Model CldrModel GoSpec.
Import ListNotations.
Open Scope Z_scope.

(** ** Scanner *)

(** Scanning [s] at the beginning of a token yields [ts] and ends at the
    beginning of a token or inside a word. *)
Definition Lex (s : bytes) (ts : list gtok) : Prop :=
  forall out, exists st, fold_left gstep s (GState MStart out) = st /\
    flush st = GState MStart (rev ts ++ out) /\
    match g_mode st with MStart | MWord _ => True | _ => False end.

(** The text does not continue a word. *)
Definition brk (s : bytes) : Prop :=
  match s with [] => True | c :: _ => word_char c = false end.

Lemma lex_app : forall a b ta tb, Lex a ta -> Lex b tb -> brk b -> Lex (a ++ b) (ta ++ tb).
Proof.
  intros a b ta tb A B K out. destruct (A out) as (st & E & F & M).
  destruct (B (rev ta ++ out)) as (st2 & E2 & F2 & M2).
  rewrite fold_left_app, E. destruct st as [m o]. cbn [g_mode] in M.
  destruct m as [|w| | | |]; try contradiction.
  - unfold flush in F. cbn [g_mode] in F. rewrite F. exists st2. split; [exact E2|].
    split; [|exact M2]. rewrite F2, rev_app_distr, app_assoc. reflexivity.
  - destruct b as [|c b'].
    + exists (GState (MWord w) o). split; [reflexivity|]. cbn [fold_left] in E2. subst st2.
      unfold flush at 1 in F2. cbn [g_mode] in F2. injection F2 as F2.
      split; [|exact I]. rewrite F. f_equal. rewrite rev_app_distr, <- app_assoc. exact F2.
    + cbn [brk] in K. exists st2. split.
      * cbn [fold_left] in *. rewrite <- E2. f_equal. unfold gstep at 1. cbn [g_mode].
        rewrite K, F. reflexivity.
      * split; [|exact M2]. rewrite F2, rev_app_distr, app_assoc. reflexivity.
Qed.

Lemma lex_nil : Lex [] [].
Proof. intro out. eexists. split; [reflexivity|]. split; [reflexivity|exact I]. Qed.

(** For concrete text. *)
Ltac lex_lit := intro; eexists; split; [reflexivity|]; split; [reflexivity|exact I].

(** A word. *)
Lemma fold_word : forall s w out, Forall (fun c => word_char c = true) s ->
  fold_left gstep s (GState (MWord w) out) = GState (MWord (rev s ++ w)) out.
Proof.
  induction s as [|c s IH]; intros w out F; [reflexivity|].
  inversion F; subst. cbn [fold_left rev]. unfold gstep at 2. cbn [g_mode g_out]. rewrite H1.
  rewrite IH by assumption. rewrite <- app_assoc. reflexivity.
Qed.
Lemma lex_word : forall s t, s <> [] -> Forall (fun c => word_char c = true) s ->
  word_tok s = Some t -> Lex s [t].
Proof.
  intros s t N F W out. destruct s as [|c s]; [congruence|]. inversion F; subst.
  exists (GState (MWord (rev s ++ [c])) out). split.
  - cbn [fold_left]. unfold gstep at 2. cbn [g_mode]. unfold begin. cbn [g_mode g_out]. rewrite H1.
    apply fold_word. assumption.
  - split; [|exact I]. unfold flush. cbn [g_mode g_out].
    rewrite rev_app_distr, rev_involutive. cbn [rev app]. rewrite W. reflexivity.
Qed.

Lemma digits_word : forall s, forallb is_digit s = true -> Forall (fun c => word_char c = true) s.
Proof.
  induction s as [|c s IH]; intro H; [constructor|]. cbn [forallb] in H. apply andb_true_iff in H.
  destruct H as [A B]. constructor; [|auto]. unfold word_char. rewrite A. reflexivity.
Qed.
Lemma itoa_digits : forall v, 0 <= v ->
  itoa v <> [] /\ forallb is_digit (itoa v) = true /\ dec_val (itoa v) = v.
Proof.
  intros v V. unfold itoa. replace (v <? 0) with false by (symmetry; apply Z.ltb_ge; lia).
  destruct (utoa_spec v V) as (A & B & C). auto.
Qed.
Lemma lex_num : forall v, 0 <= v -> Lex (itoa v) [TNum v].
Proof.
  intros v V. destruct (itoa_digits v V) as (N & D & E). apply lex_word; [exact N| |].
  - apply digits_word. exact D.
  - unfold word_tok. destruct (itoa v) as [|c s] eqn:I; [congruence|].
    assert (D1 : is_digit c = true) by (cbn [forallb] in D; apply andb_true_iff in D; tauto).
    rewrite D1, D, E. reflexivity.
Qed.
Lemma itoa_brk : forall v s, 0 <= v -> brk s -> Lex (itoa v) [TNum v] /\ brk s.
Proof. intros v s V B. split; [apply lex_num; exact V|exact B]. Qed.

(** A line break ends a statement when the last token does. *)
Lemma lex_lf : forall a ta t, Lex a (ta ++ [t]) -> ends_statement t = true ->
  Lex (a ++ [LF]) (ta ++ [t; TSemi]).
Proof.
  intros a ta t A E out. destruct (A out) as (st & Es & F & M).
  rewrite fold_left_app, Es. eexists. split; [reflexivity|].
  assert (X : gstep st LF = begin (flush st) LF).
  { destruct st as [m o]; destruct m as [|w| | | |]; cbn [g_mode] in M; try contradiction; reflexivity. }
  cbn [fold_left]. rewrite X, F, rev_app_distr. cbn [rev app]. unfold begin. cbn [g_mode g_out].
  change (word_char LF) with false. change (op_char LF) with false. cbv iota.
  change ((LF =? SP)%char || (LF =? TAB)%char || (LF =? CR)%char) with false. cbv iota.
  change ((LF =? LF)%char) with true. cbv iota. cbn [newline]. rewrite E.
  split; [|exact I]. unfold flush. cbn [g_mode]. rewrite rev_app_distr. cbn [rev app]. reflexivity.
Qed.
(** After other tokens it is white space. *)
Lemma lex_lf_skip : forall a ta t, Lex a (ta ++ [t]) -> ends_statement t = false ->
  Lex (a ++ [LF]) (ta ++ [t]).
Proof.
  intros a ta t A E out. destruct (A out) as (st & Es & F & M).
  rewrite fold_left_app, Es. eexists. split; [reflexivity|].
  assert (X : gstep st LF = begin (flush st) LF).
  { destruct st as [m o]; destruct m as [|w| | | |]; cbn [g_mode] in M; try contradiction; reflexivity. }
  cbn [fold_left]. rewrite X, F, rev_app_distr. cbn [rev app]. unfold begin. cbn [g_mode g_out].
  change (word_char LF) with false. change (op_char LF) with false. cbv iota.
  change ((LF =? SP)%char || (LF =? TAB)%char || (LF =? CR)%char) with false. cbv iota.
  change ((LF =? LF)%char) with true. cbv iota. cbn [newline]. rewrite E.
  split; [|exact I]. unfold flush. cbn [g_mode]. reflexivity.
Qed.

(** Text after which a token begins. *)
Definition LexS (s : bytes) (ts : list gtok) : Prop :=
  forall out, fold_left gstep s (GState MStart out) = GState MStart (rev ts ++ out).
Lemma lexS_lex : forall s ts, LexS s ts -> Lex s ts.
Proof. intros s ts L out. eexists. split; [apply L|]. split; [reflexivity|exact I]. Qed.
Lemma lexS_app : forall a b ta tb, LexS a ta -> LexS b tb -> LexS (a ++ b) (ta ++ tb).
Proof. intros a b ta tb A B out. rewrite fold_left_app, A, B, rev_app_distr, app_assoc. reflexivity. Qed.
Lemma lexS_then : forall a b ta tb, LexS a ta -> Lex b tb -> Lex (a ++ b) (ta ++ tb).
Proof.
  intros a b ta tb A B out. destruct (B (rev ta ++ out)) as (st & E & F & M).
  exists st. rewrite fold_left_app, A, E. split; [reflexivity|]. split; [|exact M].
  rewrite F, rev_app_distr, app_assoc. reflexivity.
Qed.
Lemma lex_thenS : forall a b ta tb, Lex a ta -> LexS b tb -> brk b -> b <> [] -> LexS (a ++ b) (ta ++ tb).
Proof.
  intros a b ta tb A B K N out. destruct (A out) as (st & E & F & M).
  rewrite fold_left_app, E. destruct st as [m o]. cbn [g_mode] in M.
  destruct m as [|w| | | |]; try contradiction.
  - unfold flush in F. cbn [g_mode] in F. rewrite F, B, rev_app_distr, app_assoc. reflexivity.
  - destruct b as [|c b']; [congruence|]. cbn [brk] in K.
    pose proof (B (rev ta ++ out)) as E2. cbn [fold_left] in *.
    unfold gstep at 2. cbn [g_mode]. rewrite K, F. rewrite rev_app_distr, <- app_assoc. exact E2.
Qed.
Lemma lexS_lf : forall a ta t, Lex a (ta ++ [t]) -> ends_statement t = true ->
  LexS (a ++ [LF]) (ta ++ [t; TSemi]).
Proof.
  intros a ta t A E out. destruct (A out) as (st & Es & F & M). rewrite fold_left_app, Es.
  assert (X : gstep st LF = begin (flush st) LF).
  { destruct st as [m o]; destruct m as [|w| | | |]; cbn [g_mode] in M; try contradiction; reflexivity. }
  cbn [fold_left]. rewrite X, F, rev_app_distr. cbn [rev app]. unfold begin. cbn [g_mode g_out].
  change (word_char LF) with false. change (op_char LF) with false. cbv iota.
  change ((LF =? SP)%char || (LF =? TAB)%char || (LF =? CR)%char) with false. cbv iota.
  change ((LF =? LF)%char) with true. cbv iota. cbn [newline]. rewrite E.
  rewrite rev_app_distr. cbn [rev app]. reflexivity.
Qed.
Ltac lexS_lit := intro; reflexivity.

Lemma lex_tokens : forall s ts, Lex s ts -> go_tokens s = Some ts.
Proof.
  intros s ts L. destruct (L []) as (st & E & F & M). unfold go_tokens. rewrite E, F.
  cbn [g_mode g_out]. rewrite app_nil_r, rev_involutive. reflexivity.
Qed.

(** ** Parser *)

Definition G (lv : nat) (ts : list gtok) (e : gexp) (r : list gtok) : Prop :=
  exists N, forall f, (N <= f)%nat -> gexpr f lv ts = Some (e, r).
Definition T (lv : nat) (a : gexp) (ts : list gtok) (e : gexp) (r : list gtok) : Prop :=
  exists N, forall f, (N <= f)%nat -> gtail f lv a ts = Some (e, r).
Definition A (close : gtok) (ts : list gtok) (l : list gexp) (r : list gtok) : Prop :=
  exists N, forall f, (N <= f)%nat -> gargs f close ts = Some (l, r).
Definition B (ts : list gtok) (l : list gstmt) (r : list gtok) : Prop :=
  exists N, forall f, (N <= f)%nat -> gbody f ts = Some (l, r).

(* f = S f' with f' still large enough *)
Ltac fuel f := destruct f as [|f]; [exfalso; lia|].

Lemma G_num : forall v r, G 0 (TNum v :: r) (GNum v) r.
Proof. intros v r. exists 1%nat. intros f H. fuel f. reflexivity. Qed.
Lemma G_name : forall x r, (match r with TLp :: _ => False | _ => True end) ->
  G 0 (TName x :: r) (GName x) r.
Proof.
  intros x r K. exists 1%nat. intros f H. fuel f. cbn [gexpr].
  destruct r as [|t r]; [reflexivity|]. destruct t; try reflexivity. contradiction.
Qed.
Lemma G_paren : forall ts e r, G 4 ts e (TRp :: r) -> G 0 (TLp :: ts) e r.
Proof. intros ts e r [N E]. exists (S N). intros f H. fuel f. cbn [gexpr]. rewrite E by lia. reflexivity. Qed.
Lemma G_not : forall ts e r, G 0 ts e r -> G 0 (TNot :: ts) (GNot e) r.
Proof. intros ts e r [N E]. exists (S N). intros f H. fuel f. cbn [gexpr]. rewrite E by lia. reflexivity. Qed.
Lemma G_call : forall x ts l r, A TRp ts l r -> G 0 (TName x :: TLp :: ts) (GCall x l) r.
Proof. intros x ts l r [N E]. exists (S N). intros f H. fuel f. cbn [gexpr]. rewrite E by lia. reflexivity. Qed.
Lemma G_ints : forall ts l r, A TRc ts l r ->
  G 0 (TLb :: TRb :: TName (bs "int64") :: TLc :: ts) (GInts l) r.
Proof.
  intros ts l r [N E]. exists (S N). intros f H. fuel f. cbn [gexpr].
  change (beq (bs "int64") (bs "int64")) with true. cbv iota. rewrite E by lia. reflexivity.
Qed.
Lemma G_up : forall lv ts a r e r', G lv ts a r -> T lv a r e r' -> G (S lv) ts e r'.
Proof.
  intros lv ts a r e r' [N E] [M F]. exists (S (N + M)). intros f H. fuel f. cbn [gexpr].
  rewrite E by lia. apply F. lia.
Qed.
Lemma T_stop : forall lv a r,
  match r with t :: _ => match binop t with Some o => level o <> S lv | None => True end | [] => True end ->
  T lv a r a r.
Proof.
  intros lv a r K. exists 1%nat. intros f H. fuel f. cbn [gtail]. destruct r as [|t r]; [reflexivity|].
  destruct (binop t) as [o|]; [|reflexivity]. apply Nat.eqb_neq in K. rewrite K. reflexivity.
Qed.
Lemma T_op : forall lv t o a r b r1 e r', binop t = Some o -> level o = S lv ->
  G lv r b r1 -> T lv (GBin o a b) r1 e r' -> T lv a (t :: r) e r'.
Proof.
  intros lv t o a r b r1 e r' BO L [N E] [M F]. exists (S (N + M)). intros f H. fuel f. cbn [gtail].
  rewrite BO, L, Nat.eqb_refl. rewrite E by lia. apply F. lia.
Qed.
Lemma A_one : forall close ts e r, close = TRp \/ close = TRc -> G 4 ts e (close :: r) -> A close ts [e] r.
Proof.
  intros close ts e r C [N E]. exists (S N). intros f H. fuel f. cbn [gargs]. rewrite E by lia.
  destruct C as [-> | ->]; reflexivity.
Qed.
Lemma A_cons : forall close ts e r l r', G 4 ts e (TComma :: r) -> A close r l r' -> A close ts (e :: l) r'.
Proof.
  intros close ts e r l r' [N E] [M F]. exists (S (N + M)). intros f H. fuel f. cbn [gargs].
  rewrite E by lia. rewrite F by lia. reflexivity.
Qed.

(** What may follow an expression of level [lv]: no opening parenthesis and no
    operator of a level up to [lv]. *)
Definition follow (lv : nat) (r : list gtok) : Prop :=
  match r with
  | [] => True
  | TLp :: _ => False
  | t :: _ => match binop t with Some o => (lv < level o)%nat | None => True end
  end.
Lemma follow_le : forall lv lv' r, (lv' <= lv)%nat -> follow lv r -> follow lv' r.
Proof.
  intros lv lv' r L F. destruct r as [|t r]; [exact I|].
  destruct t; cbn [follow binop] in *; auto; cbn [level] in *; lia.
Qed.
Lemma follow_stop : forall lv r, follow (S lv) r ->
  match r with t :: _ => match binop t with Some o => level o <> S lv | None => True end | [] => True end.
Proof.
  intros lv r F. destruct r as [|t r]; [exact I|].
  destruct t; cbn [follow binop] in *; auto; cbn [level] in *; lia.
Qed.
Lemma follow_T : forall lv a r, follow (S lv) r -> T lv a r a r.
Proof. intros lv a r F. apply T_stop. apply follow_stop. exact F. Qed.
Lemma G_raise1 : forall lv ts e r, G lv ts e r -> follow (S lv) r -> G (S lv) ts e r.
Proof. intros lv ts e r H F. eapply G_up; [exact H|]. apply follow_T. exact F. Qed.
Lemma G_raise : forall k lv ts e r, G lv ts e r -> follow (k + lv) r -> G (k + lv) ts e r.
Proof.
  induction k as [|k IH]; intros lv ts e r H F; [exact H|]. cbn [Nat.add] in *.
  apply G_raise1; [|exact F]. apply IH; [exact H|]. eapply follow_le; [|exact F]. lia.
Qed.
Lemma G_to : forall lv lv' ts e r, (lv <= lv')%nat -> G lv ts e r -> follow lv' r -> G lv' ts e r.
Proof.
  intros lv lv' ts e r L H F. replace lv' with ((lv' - lv) + lv)%nat in * by lia.
  apply G_raise; assumption.
Qed.

(** A chain of operands joined by the operator [o] of level [S lv], written by
    the token [t]: [E] is the chain by itself, [X] appends it to another. *)
Definition chain (lv : nat) (t : gtok) (ts : list gtok) (E : gexp) (X : gexp -> gexp) : Prop :=
  (forall r e r', follow lv r -> T lv E r e r' -> G (S lv) (ts ++ r) e r') /\
  (forall a r e r', follow lv r -> T lv (X a) r e r' -> T lv a (t :: ts ++ r) e r').
Lemma chain_leaf : forall lv t o ts E, binop t = Some o -> level o = S lv ->
  (forall r, follow lv r -> G lv (ts ++ r) E r) -> chain lv t ts E (fun a => GBin o a E).
Proof.
  intros lv t o ts E BO L H. split.
  - intros r e r' F X. eapply G_up; [apply H; exact F|exact X].
  - intros a r e r' F X. eapply T_op; [exact BO|exact L|apply H; exact F|exact X].
Qed.
Lemma chain_node : forall lv t o t1 E1 X1 t2 E2 X2, binop t = Some o -> level o = S lv ->
  chain lv t t1 E1 X1 -> chain lv t t2 E2 X2 ->
  chain lv t (t1 ++ t :: t2) (X2 E1) (fun a => X2 (X1 a)).
Proof.
  intros lv t o t1 E1 X1 t2 E2 X2 BO L [A1 B1] [A2 B2].
  assert (F : forall r, follow lv (t :: r)).
  { intro r. destruct t; cbn [binop] in BO; try discriminate; injection BO as <-;
      cbn [follow binop]; lia. }
  split.
  - intros r e r' Fr H. rewrite <- app_assoc. cbn [app]. apply A1; [apply F|]. apply B2; assumption.
  - intros a r e r' Fr H. rewrite <- app_assoc. cbn [app]. apply B1; [apply F|]. apply B2; assumption.
Qed.
Lemma chain_done : forall lv t ts E X r, chain lv t ts E X -> follow (S lv) r -> G (S lv) (ts ++ r) E r.
Proof.
  intros lv t ts E X r [H _] F. apply H; [eapply follow_le; [|exact F]; lia|]. apply follow_T. exact F.
Qed.

(** Statements. *)
Lemma B_nil : B [] [] [].
Proof. exists 1%nat. intros f H. fuel f. reflexivity. Qed.
Lemma B_close : forall r, B (TRc :: r) [] (TRc :: r).
Proof. intro r. exists 1%nat. intros f H. fuel f. reflexivity. Qed.
Lemma B_return : forall ts e r, G 4 ts e r ->
  match r with [] | TRc :: _ => True | _ => False end -> B (TReturn :: ts) [SReturn e] r.
Proof.
  intros ts e r [N E] K. exists (S N). intros f H. fuel f. cbn [gbody]. rewrite E by lia.
  destruct r as [|t r]; [reflexivity|]. destruct t; try contradiction. reflexivity.
Qed.
Lemma B_return_semi : forall ts e r l r', G 4 ts e (TSemi :: r) -> B r l r' ->
  B (TReturn :: ts) (SReturn e :: l) r'.
Proof.
  intros ts e r l r' [N E] [M F]. exists (S (N + M)). intros f H. fuel f. cbn [gbody].
  rewrite E by lia. rewrite F by lia. reflexivity.
Qed.
Lemma B_if : forall ts c r1 b r2 l r3, G 4 ts c (TLc :: r1) -> B r1 b (TRc :: TSemi :: r2) ->
  B r2 l r3 -> B (TIf :: ts) (SIf c b :: l) r3.
Proof.
  intros ts c r1 b r2 l r3 [N E] [M F] [K H]. exists (S (N + M + K)). intros f L. fuel f. cbn [gbody].
  rewrite E by lia. rewrite F by lia. rewrite H by lia. reflexivity.
Qed.

Lemma expr_read : forall s ts e, Lex s ts -> G 4 ts e [] -> is_expr s e.
Proof.
  intros s ts e L [N E]. exists ts, N. split; [apply lex_tokens; exact L|]. apply E. lia.
Qed.
Lemma body_read : forall s ts b, Lex s ts -> B ts b [] -> is_body s b.
Proof.
  intros s ts b L [N E]. exists ts, N. split; [apply lex_tokens; exact L|]. apply E. lia.
Qed.

(** ** Reading is unambiguous: more fuel changes nothing. *)
Lemma fuel_mono : forall f,
  (forall lv ts x, gexpr f lv ts = Some x -> gexpr (S f) lv ts = Some x) /\
  (forall lv a ts x, gtail f lv a ts = Some x -> gtail (S f) lv a ts = Some x) /\
  (forall c ts x, gargs f c ts = Some x -> gargs (S f) c ts = Some x).
Proof.
  induction f as [|f (IE & IT & IA)]; [repeat split; intros; discriminate|].
  split; [|split].
  - intros lv ts x H. remember (S f) as g eqn:Eg. cbn [gexpr]. rewrite Eg in H. cbn [gexpr] in H.
    destruct lv as [|lv].
    + destruct ts as [|t ts]; [exact H|].
      destruct t; try exact H.
      * destruct ts as [|t ts]; [exact H|]. destruct t; try exact H.
        destruct (gargs f TRp ts) as [[l r]|] eqn:Q; [|discriminate].
        rewrite (IA _ _ _ Q). exact H.
      * destruct (gexpr f 0 ts) as [[e r]|] eqn:Q; [|discriminate]. rewrite (IE _ _ _ Q). exact H.
      * destruct (gexpr f 4 ts) as [[e r]|] eqn:Q; [|discriminate]. rewrite (IE _ _ _ Q). exact H.
      * destruct ts as [|t ts]; [exact H|]. destruct t; try exact H.
        destruct ts as [|t ts]; [exact H|]. destruct t; try exact H.
        destruct ts as [|t ts]; [exact H|]. destruct t; try exact H.
        destruct (beq s (bs "int64")); [|exact H].
        destruct (gargs f TRc ts) as [[l r]|] eqn:Q; [|discriminate].
        rewrite (IA _ _ _ Q). exact H.
    + destruct (gexpr f lv ts) as [[a r]|] eqn:Q; [|discriminate]. rewrite (IE _ _ _ Q).
      apply IT. exact H.
  - intros lv a ts x H. remember (S f) as g eqn:Eg. cbn [gtail]. rewrite Eg in H. cbn [gtail] in H.
    destruct ts as [|t r]; [exact H|]. destruct (binop t) as [o|]; [|exact H].
    destruct (level o =? S lv)%nat; [|exact H].
    destruct (gexpr f lv r) as [[b r']|] eqn:Q; [|discriminate]. rewrite (IE _ _ _ Q). apply IT. exact H.
  - intros c ts x H. remember (S f) as g eqn:Eg. cbn [gargs]. rewrite Eg in H. cbn [gargs] in H.
    destruct (gexpr f 4 ts) as [[e r]|] eqn:Q; [|discriminate]. rewrite (IE _ _ _ Q).
    destruct r as [|t r]; [exact H|]. destruct t; try exact H.
    destruct (gargs f c r) as [[l r']|] eqn:Q2; [|discriminate]. rewrite (IA _ _ _ Q2). exact H.
Qed.
Lemma gexpr_le : forall f g lv ts x, (f <= g)%nat -> gexpr f lv ts = Some x -> gexpr g lv ts = Some x.
Proof.
  intros f g lv ts x L H. induction L as [|g L IH]; [exact H|]. apply (fuel_mono g). exact IH.
Qed.
Lemma gbody_mono : forall f ts x, gbody f ts = Some x -> gbody (S f) ts = Some x.
Proof.
  induction f as [|f IH]; intros ts x H; [discriminate|].
  remember (S f) as g eqn:Eg. cbn [gbody]. rewrite Eg in H. cbn [gbody] in H.
  assert (IE : forall lv ts x, gexpr f lv ts = Some x -> gexpr g lv ts = Some x).
  { intros. subst g. apply (fuel_mono f). assumption. }
  destruct ts as [|t r]; [exact H|]. destruct t; try exact H.
  - destruct (gexpr f 4 r) as [[c r1]|] eqn:Q; [|discriminate]. rewrite (IE _ _ _ Q).
    destruct r1 as [|t1 r1]; [exact H|]. destruct t1; try exact H.
    destruct (gbody f r1) as [[b r2]|] eqn:Q2; [|discriminate]. rewrite (IH _ _ Q2).
    destruct r2 as [|t2 r2]; [exact H|]. destruct t2; try exact H.
    destruct r2 as [|t3 r3]; [exact H|]. destruct t3; try exact H.
    destruct (gbody f r3) as [[l r4]|] eqn:Q3; [|discriminate]. rewrite (IH _ _ Q3). exact H.
  - destruct (gexpr f 4 r) as [[c r1]|] eqn:Q; [|discriminate]. rewrite (IE _ _ _ Q).
    destruct r1 as [|t1 r1]; [exact H|]. destruct t1; try exact H.
    destruct (gbody f r1) as [[b r2]|] eqn:Q2; [|discriminate]. rewrite (IH _ _ Q2). exact H.
Qed.
Lemma gbody_le : forall f g ts x, (f <= g)%nat -> gbody f ts = Some x -> gbody g ts = Some x.
Proof.
  intros f g ts x L H. induction L as [|g L IH]; [exact H|]. apply gbody_mono. exact IH.
Qed.
Lemma is_expr_unique : forall s e e', is_expr s e -> is_expr s e' -> e = e'.
Proof.
  intros s e e' (ts & f & L & H) (ts' & f' & L' & H'). assert (ts = ts') by congruence. subst ts'.
  apply (gexpr_le f (Nat.max f f')) in H; [|lia]. apply (gexpr_le f' (Nat.max f f')) in H'; [|lia].
  congruence.
Qed.
Lemma is_body_unique : forall s b b', is_body s b -> is_body s b' -> b = b'.
Proof.
  intros s e e' (ts & f & L & H) (ts' & f' & L' & H'). assert (ts = ts') by congruence. subst ts'.
  apply (gbody_le f (Nat.max f f')) in H; [|lia]. apply (gbody_le f' (Nat.max f f')) in H'; [|lia].
  congruence.
Qed.
