(** The Go text written for a CLDR condition computes its meaning. *)
From Coq Require Import String Ascii List ZArith QArith Bool Lia ZifyBool.
From Verif Require Import Base BaseProofs Utf8Model Utf8Proofs StrModel PoStrProofs TrimProofs NumModel F64Model CldrModel CldrSpec CldrEvalProofs CldrParseProofs
  CldrSampleProofs CldrBuiltinProofs GenModel GoSpec GoProofs GenSpec.
Import ListNotations.
Open Scope Z_scope.

Definition reads (lv : nat) (ts : list gtok) (e : gexp) : Prop := forall r, follow lv r -> G lv (ts ++ r) e r.
Lemma reads_le : forall lv lv' ts e, (lv <= lv')%nat -> reads lv ts e -> reads lv' ts e.
Proof.
  intros lv lv' ts e L R r F. apply (G_to lv); [exact L| |exact F]. apply R.
  eapply follow_le; [exact L|exact F].
Qed.
Lemma reads_num : forall v, reads 0 [TNum v] (GNum v).
Proof. intros v r F. apply G_num. Qed.
Lemma reads_name : forall x, reads 0 [TName x] (GName x).
Proof.
  intros x r F. apply G_name. destruct r as [|t r]; [exact I|]. destruct t; try exact I. contradiction.
Qed.
Lemma reads_paren : forall ts e, reads 4 ts e -> reads 0 (TLp :: ts ++ [TRp]) e.
Proof.
  intros ts e R r F. cbn [app]. apply G_paren. rewrite <- app_assoc. apply R. exact I.
Qed.
Lemma reads_not : forall ts e, reads 0 ts e -> reads 0 (TNot :: ts) (GNot e).
Proof. intros ts e R r F. cbn [app]. apply G_not. apply R. exact F. Qed.
Lemma reads_bin : forall lv t o a b ea eb, binop t = Some o -> level o = S lv ->
  reads lv a ea -> reads lv b eb -> reads (S lv) (a ++ t :: b) (GBin o ea eb).
Proof.
  intros lv t o a b ea eb BO L RA RB r F. rewrite <- app_assoc. cbn [app].
  eapply G_up; [apply RA|eapply T_op; [exact BO|exact L|apply RB|apply follow_T; exact F]].
  - destruct t; cbn [binop] in BO; try discriminate; injection BO as <-; cbn [follow binop]; lia.
  - eapply follow_le; [|exact F]. lia.
Qed.

(** ** Operands *)

(** Text of level [k] of type [y]. *)
Definition piece (lv : nat) (s : bytes) (y : gty) (e : gexp) : Prop :=
  exists ts, Lex s ts /\ reads lv ts e /\ gtype cldr_vars e = Some y.

Definition num_val (v : option Z) (isf : bool) (x : gval) : Prop :=
  match x with
  | VFloat q => isf = true /\ clear_of_integers q /\ iview q = v
  | VInt z => isf = false /\ v = Some z
  | _ => False
  end.
Definition good_ops (o : ops) : Prop := nonneg_ops o /\ clear_of_integers (oN o).
Definition isn (o : oper) : bool := match o with On => true | _ => false end.
Lemma isn_beq : forall o, beq (oper_text o) (bs "n") = isn o.
Proof. intros []; reflexivity. Qed.
Definition num_ty (isf : bool) : gty := if isf then YFloat else YInt.

Definition opname (o : oper) : bytes :=
  match o with
  | On => bs "ops.N" | Oi => bs "ops.I" | Ov => bs "ops.V" | Ow => bs "ops.W"
  | Of => bs "ops.F" | Ot => bs "ops.T" | Oc | Oe => bs "ops.C"
  end.
Lemma operand_name : forall o, go_operand_name (oper_text o) = Ok (opname o).
Proof. intros []; reflexivity. Qed.
Lemma lex_opname : forall o, Lex (opname o) [TName (opname o)].
Proof. intros []; apply lex_word; try discriminate; try reflexivity; repeat constructor. Qed.
Lemma opname_ty : forall o, cldr_vars (opname o) = Some (num_ty (isn o)).
Proof. intros []; reflexivity. Qed.
Lemma opname_val : forall o p, good_ops p ->
  num_val (op_view o (to_uops p)) (isn o) (cldr_env p (opname o)).
Proof. intros o p (N & C). destruct o; cbn; auto. Qed.

Definition num_text (s : bytes) (e : expr) (E : gexp) : Prop :=
  exists ts, Lex s ts /\ reads 1 ts E /\ gtype cldr_vars E = Some (num_ty (isn (x_op e))) /\
    forall p, good_ops p -> num_val (expr_view e (to_uops p)) (isn (x_op e)) (geval (cldr_env p) E).

Lemma op_nonneg : forall o p z, good_ops p -> op_view o (to_uops p) = Some z -> isn o = false -> 0 <= z.
Proof.
  intros o p z ((A1 & A2 & A3 & A4 & A5 & A6) & _) V N.
  destruct o; cbn in V, N; try discriminate; injection V as <-; assumption.
Qed.

Lemma expr_text : forall e, match x_mod e with Some m => small m /\ 0 < m | None => True end ->
  exists s E, gen_expr (CExpr (oper_text (x_op e)) (x_mod e)) = Ok s /\ num_text s e E /\
    (beq s (bs "ops.I") = true -> x_mod e = None /\ x_op e = Oi).
Proof.
  intros [o [m|]] M; cbn [x_op x_mod] in *.
  - destruct M as [SM PM]. unfold small in SM.
    unfold gen_expr. cbn [ce_operand ce_mod]. rewrite operand_name, isn_beq. cbn [rbind].
    assert (VM : match m with 0 => VPanic | _ => VInt (Z.rem 0 m) end <> VPanic) by (destruct m; discriminate).
    destruct (isn o) eqn:IN.
    + destruct o; try discriminate. eexists. exists (GCall (bs "math.Mod") [GName (bs "ops.N"); GNum m]).
      split; [reflexivity|]. split; [|discriminate].
      exists (TName (bs "math.Mod") :: TLp :: TName (bs "ops.N") :: TComma :: [TNum m; TRp]).
      split; [|split; [|split]].
      * change (bs "math.Mod(" ++ opname On ++ bs ", " ++ itoa m ++ bs ")")
          with (bs "math.Mod(ops.N, " ++ itoa m ++ bs ")").
        change (TName (bs "math.Mod") :: TLp :: TName (bs "ops.N") :: TComma :: [TNum m; TRp])
          with ([TName (bs "math.Mod"); TLp; TName (bs "ops.N"); TComma] ++ [TNum m] ++ [TRp]).
        apply lexS_then; [lexS_lit|]. apply lex_app; [apply lex_num; lia|lex_lit|reflexivity].
      * intros r F. cbn [app]. apply (G_to 0); [lia| |exact F]. apply G_call.
        eapply A_cons; [apply (G_to 0); [lia|apply G_name; exact I|exact I]|].
        apply A_one; [now left|]. apply (G_to 0); [lia|apply G_num|exact I].
      * cbn. reflexivity.
      * intros p GP. cbn [geval map]. change (cldr_env p (bs "ops.N")) with (VFloat (oN p)).
        unfold ev_call. change (beq (bs "math.Mod") (bs "math.Mod")) with true. cbv iota.
        destruct m as [|m|m]; try lia. cbn [num_val]. rewrite f64_of_int_small by (unfold two53; lia).
        split; [reflexivity|]. destruct GP as [_ C].
        split; [apply fmod_clear; [lia|exact C]|]. rewrite fmod_view by lia. reflexivity.
    + eexists. exists (GBin OpRem (GName (opname o)) (GNum m)). split; [reflexivity|]. split.
      * exists ([TName (opname o)] ++ TRem :: [TNum m]). split; [|split; [|split]].
        -- apply lex_app; [apply lex_opname| |reflexivity].
           change (TRem :: [TNum m]) with ([TRem] ++ [TNum m]).
           apply lexS_then; [lexS_lit|apply lex_num; lia].
        -- apply reads_bin; [reflexivity|reflexivity|apply reads_name|apply reads_num].
        -- cbn [gtype x_op]. rewrite opname_ty, IN. cbn. unfold int_const, minInt64, maxInt64.
           replace (m =? 0) with false by lia.
           replace ((-9223372036854775808 <=? m) && (m <=? 9223372036854775807)) with true by lia. reflexivity.
        -- intros p GP. cbn [geval x_op]. pose proof (opname_val o p GP) as V. rewrite IN in *.
           unfold num_val in V |- *.
           destruct (cldr_env p (opname o)) as [z|q|b|l|c|]; try contradiction; [|destruct V; discriminate].
           destruct V as [_ V]. unfold ev_bin. cbn [cmp_int]. destruct m as [|m|m]; try lia.
           split; [reflexivity|]. unfold expr_view. cbn [x_op x_mod vmod]. rewrite V. cbn [option_map].
           rewrite Z.rem_mod_nonneg; [reflexivity| |lia]. exact (op_nonneg o p z GP V IN).
      * intro Q. exfalso. apply beq_eq in Q. destruct o; cbn in IN; try discriminate; discriminate Q.
  - unfold gen_expr. cbn [ce_operand ce_mod]. rewrite operand_name. cbn [rbind].
    exists (opname o), (GName (opname o)). split; [reflexivity|]. split.
    + exists [TName (opname o)]. split; [apply lex_opname|]. split; [|split].
      * apply (reads_le 0); [lia|]. apply reads_name.
      * cbn [gtype x_op]. apply opname_ty.
      * intros p GP. cbn [geval x_op]. unfold expr_view. cbn [x_op x_mod vmod]. apply opname_val. exact GP.
    + intro Q. apply beq_eq in Q. destruct o; try discriminate Q. auto.
Qed.

(** ** Lists of numbers *)

Fixpoint num_toks (l : list Z) : list gtok :=
  match l with
  | [] => []
  | [v] => [TNum v]
  | v :: l' => TNum v :: TComma :: num_toks l'
  end.
Lemma nums_lex : forall l, l <> [] -> Forall (fun v => 0 <= v) l ->
  Lex (join (bs ",") (map itoa l)) (num_toks l).
Proof.
  induction l as [|v l IH]; intros N F; [congruence|]. inversion F; subst.
  destruct l as [|w l]; [apply lex_num; assumption|].
  change (Lex (itoa v ++ bs "," ++ join (bs ",") (map itoa (w :: l)))
    ([TNum v] ++ [TComma] ++ num_toks (w :: l))).
  apply lex_app; [apply lex_num; assumption| |reflexivity].
  apply lexS_then; [lexS_lit|]. apply IH; [discriminate|assumption].
Qed.
Lemma nums_args : forall close l r, close = TRp \/ close = TRc -> l <> [] ->
  A close (num_toks l ++ close :: r) (map GNum l) r.
Proof.
  intros close l r C. induction l as [|v l IH]; intro N; [congruence|].
  destruct l as [|w l].
  - cbn. apply A_one; [exact C|]. apply (G_to 0); [lia|apply G_num|]. destruct C as [-> | ->]; exact I.
  - change (A close (TNum v :: TComma :: (num_toks (w :: l) ++ close :: r)) (GNum v :: map GNum (w :: l)) r).
    eapply A_cons; [apply (G_to 0); [lia|apply G_num|exact I]|].
    apply IH. discriminate.
Qed.
Lemma nums_types : forall l, all_some (map (gtype cldr_vars) (map GNum l)) = Some (map YConst l).
Proof. induction l as [|v l IH]; [reflexivity|]. cbn in *. rewrite IH. reflexivity. Qed.
Lemma nums_int : forall l, Forall small l -> forallb as_int (map YConst l) = true.
Proof.
  intros l F. induction F as [|v l S F IH]; [reflexivity|]. cbn [map forallb]. rewrite IH.
  unfold small in S. cbn. unfold int_const, minInt64, maxInt64. lia.
Qed.
Lemma nums_ints : forall env l, ints (map (geval env) (map GNum l)) = Some l.
Proof. induction l as [|v l IH]; [reflexivity|]. cbn in *. rewrite IH. reflexivity. Qed.

(** ** Single values and ranges *)

Fixpoint vals (l : list elem) : list Z :=
  match l with [] => [] | Val v :: l' => v :: vals l' | Range _ _ :: l' => vals l' end.
Fixpoint rngs (l : list elem) : list (Z * Z) :=
  match l with [] => [] | Val _ :: l' => rngs l' | Range a b :: l' => (a, b) :: rngs l' end.
Fixpoint flat (l : list (Z * Z)) : list Z :=
  match l with [] => [] | (a, b) :: l' => a :: b :: flat l' end.
Lemma single_vals : forall l, single_values (map node_elem l) = map itoa (vals l).
Proof. induction l as [|[v|a b] l IH]; cbn in *; congruence. Qed.
Lemma value_rngs : forall l, value_ranges (map node_elem l) = map itoa (flat (rngs l)).
Proof. induction l as [|[v|a b] l IH]; cbn in *; congruence. Qed.
Lemma pairs_flat : forall l, pairs (flat l) = Some l.
Proof. induction l as [|[a b] l IH]; [reflexivity|]. cbn. rewrite IH. reflexivity. Qed.
Definition rng (p : Z * Z) : elem := Range (fst p) (snd p).
Lemma existsb_split : forall f l,
  existsb f l = existsb f (map rng (rngs l)) || existsb f (map Val (vals l)).
Proof.
  intro f. induction l as [|[v|a b] l IH]; [reflexivity| |].
  - cbn [existsb rngs vals map]. rewrite IH. destruct (f (Val v)), (existsb f (map rng (rngs l))); reflexivity.
  - cbn [existsb rngs vals map]. rewrite IH. apply orb_assoc.
Qed.
Lemma small_split : forall l, Forall elem_small l ->
  Forall small (vals l) /\ Forall (fun p => small (fst p) /\ small (snd p) /\ fst p <= snd p) (rngs l).
Proof.
  intros l F. induction F as [|[v|a b] l S F [IH1 IH2]]; cbn in *; auto.
Qed.
Lemma flat_small : forall l, Forall (fun p => small (fst p) /\ small (snd p) /\ fst p <= snd p) l ->
  Forall small (flat l).
Proof.
  intros l F. induction F as [|[a b] l S F IH]; cbn in *; [constructor|]. destruct S as (S1 & S2 & _).
  constructor; [exact S1|]. constructor; [exact S2|exact IH].
Qed.
Lemma small_nonneg : forall l, Forall small l -> Forall (fun v => 0 <= v) l.
Proof. intros l F. eapply Forall_impl; [|exact F]. intros v S. unfold small in S. lia. Qed.

(** ** Relations *)

Definition bool_piece (lv : nat) (s : bytes) (f : ops -> bool) : Prop :=
  exists ts E, Lex s ts /\ reads lv ts E /\ gtype cldr_vars E = Some YBool /\
    forall p, good_ops p -> geval (cldr_env p) E = VBool (f p).
Lemma bool_le : forall lv lv' s f, (lv <= lv')%nat -> bool_piece lv s f -> bool_piece lv' s f.
Proof.
  intros lv lv' s f L (ts & E & X & R & Y). exists ts, E. split; [exact X|].
  split; [exact (reads_le lv lv' ts E L R)|exact Y].
Qed.
Lemma bool_ext : forall lv s f g, bool_piece lv s f -> (forall p, good_ops p -> f p = g p) -> bool_piece lv s g.
Proof.
  intros lv s f g (ts & E & X & R & Y & V) Q. exists ts, E. split; [exact X|]. split; [exact R|].
  split; [exact Y|]. intros p GP. rewrite V, Q by exact GP. reflexivity.
Qed.

Lemma call_text : forall f fs x tx E l, LexS fs [TName f; TLp] -> Lex x tx -> reads 1 tx E ->
  l <> [] -> Forall small l ->
  exists ts, Lex (fs ++ x ++ bs ", " ++ join (bs ",") (map itoa l) ++ bs ")") ts /\
    reads 0 ts (GCall f (E :: map GNum l)).
Proof.
  intros f fs x tx E l LF LX RX N S.
  exists ([TName f; TLp] ++ tx ++ [TComma] ++ num_toks l ++ [TRp]). split.
  - apply lexS_then; [exact LF|]. apply lex_app; [exact LX| |reflexivity].
    apply lexS_then; [lexS_lit|]. apply lex_app; [|lex_lit|reflexivity].
    apply nums_lex; [exact N|apply small_nonneg; exact S].
  - intros r F. cbn [app]. apply G_call. rewrite <- app_assoc. cbn [app]. rewrite <- app_assoc. cbn [app].
    eapply A_cons.
    + apply (reads_le 1 4); [lia|exact RX|exact I].
    + apply nums_args; [now left|exact N].
Qed.

Lemma ranges_text : forall s e E rs, num_text s e E -> rs <> [] ->
  Forall (fun p => small (fst p) /\ small (snd p) /\ fst p <= snd p) rs ->
  (isn (x_op e) = false -> (length rs <= 1)%nat) ->
  bool_piece 0 (gen_ranges (isn (x_op e)) s (map itoa (flat rs)))
    (fun p => existsb (vin (expr_view e (to_uops p))) (map rng rs)).
Proof.
  intros s e E rs (tx & LX & RX & TX & VX) N S ONE. destruct rs as [|[a b] rs]; [congruence|].
  destruct (isn (x_op e)) eqn:IN.
  - assert (Q : gen_ranges true s (map itoa (flat ((a, b) :: rs))) =
      bs "isFloatInRange(" ++ s ++ bs ", " ++ join (bs ",") (map itoa (flat ((a, b) :: rs))) ++ bs ")").
    { cbn [flat map]. unfold gen_ranges. destruct (map itoa (flat rs)); reflexivity. }
    rewrite Q. pose proof (flat_small _ S) as FS.
    assert (FN : flat ((a, b) :: rs) <> []) by discriminate.
    destruct (call_text (bs "isFloatInRange") (bs "isFloatInRange(") s tx E (flat ((a, b) :: rs))
      ltac:(lexS_lit) LX RX FN FS) as (ts & L & R).
    exists ts, (GCall (bs "isFloatInRange") (E :: map GNum (flat ((a, b) :: rs)))).
    split; [exact L|]. split; [exact R|].
    remember (flat ((a, b) :: rs)) as fl eqn:FL. split.
    + cbn [gtype map all_some]. rewrite TX. rewrite nums_types.
      unfold ty_call. cbn [num_ty]. rewrite nums_int by exact FS. reflexivity.
    + intros p GP. cbn [geval map]. specialize (VX p GP).
      destruct (geval (cldr_env p) E) as [z|q|bb|zl|c|]; try contradiction; [destruct VX; discriminate|].
      destruct VX as (_ & C & V). unfold ev_call.
      change (beq (bs "isFloatInRange") (bs "math.Mod")) with false. cbv iota.
      change (beq (bs "isFloatInRange") (bs "isFloatInRange")) with true. cbv iota.
      rewrite nums_ints, FL, pairs_flat. rewrite is_float_in_range_view; [rewrite V; reflexivity|exact C|].
      eapply Forall_impl; [|exact S]. intros [u v] W. cbn [fst snd] in *. unfold small, two53 in *. lia.
  - destruct rs as [|x rs]; [|specialize (ONE eq_refl); cbn in ONE; lia].
    inversion S as [|? ? S1 _]; subst. cbn [fst snd] in S1. destruct S1 as (SA & SB & AB). unfold small in SA, SB.
    exists (TLp :: (((tx ++ TGe :: [TNum a]) ++ TAnd :: (tx ++ TLe :: [TNum b])) ++ [TRp])).
    exists (GBin OpAnd (GBin OpGe E (GNum a)) (GBin OpLe E (GNum b))).
    split; [|split; [|split]].
    + cbn [flat map gen_ranges].
      replace (bs "(" ++ s ++ bs " >= " ++ itoa a ++ bs " && " ++ s ++ bs " <= " ++ itoa b ++ bs ")")
        with (bs "(" ++ ((s ++ bs " >= " ++ itoa a) ++ bs " && " ++ s ++ bs " <= " ++ itoa b) ++ bs ")")
        by (rewrite <- !app_assoc; reflexivity).
      change (TLp :: ?x) with ([TLp] ++ x). apply lexS_then; [lexS_lit|].
      apply lex_app; [|lex_lit|reflexivity]. apply lex_app; [| |reflexivity].
      * apply lex_app; [exact LX| |reflexivity]. change [TGe; TNum a] with ([TGe] ++ [TNum a]).
        apply lexS_then; [lexS_lit|apply lex_num; lia].
      * change (TAnd :: ?x) with ([TAnd] ++ x). apply lexS_then; [lexS_lit|].
        apply lex_app; [exact LX| |reflexivity]. change [TLe; TNum b] with ([TLe] ++ [TNum b]).
        apply lexS_then; [lexS_lit|apply lex_num; lia].
    + apply reads_paren. apply (reads_le 3); [lia|]. apply reads_bin; [reflexivity|reflexivity| |].
      * apply reads_bin; [reflexivity|reflexivity|exact RX|apply (reads_le 0); [lia|apply reads_num]].
      * apply reads_bin; [reflexivity|reflexivity|exact RX|apply (reads_le 0); [lia|apply reads_num]].
    + cbn [gtype]. rewrite TX. cbn. unfold int_const, minInt64, maxInt64.
      replace ((-9223372036854775808 <=? a) && (a <=? 9223372036854775807)) with true by lia.
      replace ((-9223372036854775808 <=? b) && (b <=? 9223372036854775807)) with true by lia. reflexivity.
    + intros p GP. cbn [geval]. specialize (VX p GP). 
      destruct (geval (cldr_env p) E) as [z|q|bb|zl|c|]; try contradiction; [|destruct VX; discriminate].
      destruct VX as (_ & V). rewrite V. cbn. f_equal. lia.
Qed.

(** Values: one, or several. *)
Lemma one_text : forall (neg : bool) s e E v, num_text s e E -> small v ->
  bool_piece 2 (s ++ (if neg then bs " != " else bs " == ") ++ itoa v)
    (fun p => xorb neg (vin (expr_view e (to_uops p)) (Val v))).
Proof.
  intros neg s e E v (tx & LX & RX & TX & VX) S.
  exists (tx ++ (if neg then TNe else TEq) :: [TNum v]), (GBin (if neg then OpNe else OpEq) E (GNum v)).
  unfold small in S. split; [|split; [|split]].
  - apply lex_app; [exact LX| |destruct neg; reflexivity].
    change ((if neg then TNe else TEq) :: [TNum v]) with ([if neg then TNe else TEq] ++ [TNum v]).
    apply lexS_then; [destruct neg; lexS_lit|apply lex_num; lia].
  - apply reads_bin; [destruct neg; reflexivity|destruct neg; reflexivity|exact RX|].
    apply (reads_le 0); [lia|apply reads_num].
  - cbn [gtype]. rewrite TX. destruct neg, (isn (x_op e)); cbn; try reflexivity; unfold int_const, minInt64, maxInt64;
      replace ((-9223372036854775808 <=? v) && (v <=? 9223372036854775807)) with true by lia; reflexivity.
  - intros p GP. cbn [geval]. specialize (VX p GP).
    destruct (geval (cldr_env p) E) as [z|q|bb|zl|c|]; try contradiction.
    + destruct VX as (_ & V). rewrite V. destruct neg; cbn; f_equal; destruct (z =? v); reflexivity.
    + destruct VX as (_ & C & V). pose proof (neq_const_view q v) as NV. unfold neq_const, qeq in NV.
      rewrite V in NV. destruct neg; unfold ev_bin; rewrite f64_of_int_small by (unfold two53; lia);
        cbn [cmp_float]; rewrite NV; f_equal; destruct (vin _ _); reflexivity.
Qed.

Lemma or_text : forall vs, vs <> [] -> Forall small vs ->
  exists ts E X, Lex (gen_or_values (map itoa vs)) ts /\ chain 3 TOr ts E X /\
    gtype cldr_vars E = Some YBool /\
    (forall a, gtype cldr_vars a = Some YBool -> gtype cldr_vars (X a) = Some YBool) /\
    (forall p, geval (cldr_env p) E = VBool (existsb (vin (Some (oI p))) (map Val vs))) /\
    (forall p a b, geval (cldr_env p) a = VBool b ->
       geval (cldr_env p) (X a) = VBool (b || existsb (vin (Some (oI p))) (map Val vs))).
Proof.
  induction vs as [|v vs IH]; intros N F; [congruence|]. inversion F as [|? ? S F']; subst. unfold small in S.
  assert (LEAF : exists E, Lex (bs "ops.I == " ++ itoa v) [TName (bs "ops.I"); TEq; TNum v] /\
    chain 3 TOr [TName (bs "ops.I"); TEq; TNum v] E (fun a => GBin OpOr a E) /\
    gtype cldr_vars E = Some YBool /\ forall p, geval (cldr_env p) E = VBool (oI p =? v)).
  { exists (GBin OpEq (GName (bs "ops.I")) (GNum v)). split; [|split; [|split]].
    - change [TName (bs "ops.I"); TEq; TNum v] with ([TName (bs "ops.I"); TEq] ++ [TNum v]).
      apply lexS_then; [lexS_lit|apply lex_num; lia].
    - apply chain_leaf; [reflexivity|reflexivity|]. apply (reads_le 2); [lia|].
      apply (reads_bin 1 TEq OpEq [TName (bs "ops.I")] [TNum v]); [reflexivity|reflexivity| |].
      + apply (reads_le 0); [lia|apply reads_name].
      + apply (reads_le 0); [lia|apply reads_num].
    - cbn. unfold int_const, minInt64, maxInt64.
      replace ((-9223372036854775808 <=? v) && (v <=? 9223372036854775807)) with true by lia. reflexivity.
    - intro p. reflexivity. }
  destruct LEAF as (E0 & L0 & C0 & T0 & V0).
  destruct vs as [|w vs].
  - exists [TName (bs "ops.I"); TEq; TNum v], E0, (fun a => GBin OpOr a E0).
    split; [exact L0|]. split; [exact C0|]. split; [exact T0|]. split; [|split].
    + intros a TA. cbn [gtype]. rewrite TA, T0. reflexivity.
    + intro p. rewrite V0. cbn. rewrite orb_false_r. reflexivity.
    + intros p a b VA. cbn [geval]. rewrite VA, V0. cbn. rewrite orb_false_r. reflexivity.
  - destruct (IH ltac:(discriminate) F') as (ts & E & X & L & C & TY & TX & VE & VX).
    exists ([TName (bs "ops.I"); TEq; TNum v] ++ TOr :: ts), (X E0), (fun a => X (GBin OpOr a E0)).
    split; [|split; [|split; [|split; [|split]]]].
    + change (gen_or_values (map itoa (v :: w :: vs))) with
        (bs "ops.I == " ++ itoa v ++ bs " || " ++ gen_or_values (map itoa (w :: vs))).
      rewrite app_assoc. apply lex_app; [exact L0| |reflexivity].
      change (TOr :: ts) with ([TOr] ++ ts). apply lexS_then; [lexS_lit|exact L].
    + exact (chain_node 3 TOr OpOr _ _ _ _ _ _ eq_refl eq_refl C0 C).
    + apply TX. exact T0.
    + intros a TA. apply TX. cbn [gtype]. rewrite TA, T0. reflexivity.
    + intro p. rewrite (VX p E0 _ (V0 p)). reflexivity.
    + intros p a b VA. rewrite (VX p (GBin OpOr a E0) (b || (oI p =? v))).
      * cbn [map existsb vin]. rewrite <- orb_assoc. reflexivity.
      * cbn [geval]. rewrite VA, V0. reflexivity.
Qed.

Lemma values_text : forall s e E vs, num_text s e E ->
  (beq s (bs "ops.I") = true -> x_mod e = None /\ x_op e = Oi) -> vs <> [] -> Forall small vs ->
  bool_piece 0 (gen_values (isn (x_op e)) s (map itoa vs))
    (fun p => existsb (vin (expr_view e (to_uops p))) (map Val vs)).
Proof.
  intros s e E vs (tx & LX & RX & TX & VX) OI N S. unfold gen_values.
  destruct (isn (x_op e)) eqn:IN.
  - rewrite <- !app_assoc.
    destruct (call_text (bs "isFloatOneOf") (bs "isFloatOneOf(") s tx E vs ltac:(lexS_lit) LX RX N S) as (ts & L & R).
    exists ts, (GCall (bs "isFloatOneOf") (E :: map GNum vs)). split; [exact L|]. split; [exact R|]. split.
    + cbn [gtype map all_some]. rewrite TX, nums_types. unfold ty_call. cbn [num_ty].
      rewrite nums_int by exact S. reflexivity.
    + intros p GP. cbn [geval map]. specialize (VX p GP).
      destruct (geval (cldr_env p) E) as [z|q|bb|zl|c|]; try contradiction; [destruct VX; discriminate|].
      destruct VX as (_ & C & V). unfold ev_call.
      change (beq (bs "isFloatOneOf") (bs "math.Mod")) with false. cbv iota.
      change (beq (bs "isFloatOneOf") (bs "isFloatInRange")) with false. cbv iota.
      change (beq (bs "isFloatOneOf") (bs "isFloatOneOf")) with true. cbv iota.
      rewrite nums_ints. rewrite is_float_one_of_view; [rewrite V; reflexivity|exact C|].
      eapply Forall_impl; [|exact S]. intros v W. unfold small, two53 in *. lia.
  - destruct ((length (map itoa vs) <=? 3)%nat && beq s (bs "ops.I")) eqn:Q.
    + apply andb_true_iff in Q as [_ Q]. destruct (OI Q) as [M O].
      destruct (or_text vs N S) as (ts & F & X & L & C & TY & _ & V & _).
      exists (TLp :: ts ++ [TRp]), F. split; [|split; [|split]].
      * change (TLp :: ts ++ [TRp]) with ([TLp] ++ ts ++ [TRp]). rewrite <- app_assoc.
        apply lexS_then; [lexS_lit|]. apply lex_app; [exact L|lex_lit|reflexivity].
      * apply reads_paren. intros r Fr. exact (chain_done 3 TOr ts F X r C Fr).
      * exact TY.
      * intros p GP. rewrite V. unfold expr_view. rewrite M, O. reflexivity.
    + exists ([TName (bs "slices.Contains"); TLp; TLb; TRb; TName (bs "int64"); TLc] ++
        num_toks vs ++ [TRc; TComma] ++ tx ++ [TRp]).
      exists (GCall (bs "slices.Contains") [GInts (map GNum vs); E]). split; [|split; [|split]].
      * rewrite <- !app_assoc. apply lexS_then; [lexS_lit|].
        apply lex_app; [apply nums_lex; [exact N|apply small_nonneg; exact S]| |reflexivity].
        apply lexS_then; [lexS_lit|]. apply lex_app; [exact LX|lex_lit|reflexivity].
      * intros r F. cbn [app]. apply G_call. rewrite <- app_assoc. cbn [app]. rewrite <- app_assoc.
        eapply A_cons.
        -- apply (G_to 0); [lia| |exact I]. apply G_ints. apply nums_args; [now right|exact N].
        -- apply A_one; [now left|]. apply (reads_le 1 4); [lia|exact RX|exact I].
      * cbn [gtype map all_some]. rewrite TX, nums_types, nums_int by exact S. reflexivity.
      * intros p GP. cbn [geval map]. rewrite nums_ints. specialize (VX p GP).
        destruct (geval (cldr_env p) E) as [z|q|bb|zl|c|]; try contradiction; [|destruct VX; discriminate].
        destruct VX as (_ & V). rewrite V. rewrite <- contains_view. reflexivity.
Qed.

(** A text in parentheses, negated. *)
Lemma paren_text : forall s f, bool_piece 4 s f -> bool_piece 0 (bs "( " ++ s ++ bs " )") f.
Proof.
  intros s f (ts & E & L & R & Y). exists (TLp :: ts ++ [TRp]), E.
  split; [|split; [apply reads_paren; exact R|exact Y]].
  change (TLp :: ts ++ [TRp]) with ([TLp] ++ ts ++ [TRp]).
  apply lexS_then; [lexS_lit|]. apply lex_app; [exact L|lex_lit|reflexivity].
Qed.
(** The negation is written before a letter or a parenthesis. *)
Definition starts_unit (s : bytes) : Prop :=
  match s with c :: _ => word_char c = true \/ c = "("%char | [] => False end.
Lemma not_text : forall s f, bool_piece 0 s f -> starts_unit s -> bool_piece 2 (bs "!" ++ s) (fun p => negb (f p)).
Proof.
  intros s f (ts & E & L & R & Y & V) H. exists (TNot :: ts), (GNot E). split; [|split; [|split]].
  - intro out. destruct (L (TNot :: out)) as (st & X & F & M). exists st. rewrite fold_left_app.
    change (fold_left gstep (bs "!") (GState MStart out)) with (GState (MOp "!"%char) out).
    split; [|split; [|exact M]].
    + rewrite <- X. destruct s as [|c s]; [contradiction|]. cbn [fold_left]. f_equal.
      cbn [starts_unit] in H. unfold gstep. cbn [g_mode g_out].
      assert (O : op2 "!" c = None).
      { unfold op2. destruct H as [H| ->]; [|reflexivity].
        destruct (c =? "=")%char eqn:Q; [apply Ascii.eqb_eq in Q; subst c; discriminate|]. 
        cbn. reflexivity. }
      rewrite O. reflexivity.
    + rewrite F. cbn [rev]. rewrite <- app_assoc. reflexivity.
  - apply (reads_le 0); [lia|]. apply reads_not. exact R.
  - cbn [gtype]. rewrite Y. reflexivity.
  - intros p GP. cbn [geval]. rewrite V by exact GP. reflexivity.
Qed.
Lemma either_text : forall a b f g, bool_piece 0 a f -> bool_piece 2 b g ->
  bool_piece 4 (a ++ bs " || " ++ b) (fun p => f p || g p).
Proof.
  intros a b f g (ta & ea & la & ra & ya & va) (tb & eb & lb & rb & yb & vb).
  exists (ta ++ TOr :: tb), (GBin OpOr ea eb). split; [|split; [|split]].
  - apply lex_app; [exact la| |reflexivity]. change (TOr :: tb) with ([TOr] ++ tb).
    apply lexS_then; [lexS_lit|exact lb].
  - apply reads_bin; [reflexivity|reflexivity| |].
    + apply (reads_le 0); [lia|exact ra].
    + apply (reads_le 2); [lia|exact rb].
  - cbn [gtype]. rewrite ya, yb. reflexivity.
  - intros p GP. cbn [geval]. rewrite va, vb by exact GP. reflexivity.
Qed.

Lemma contains_app : forall a sub b, str_contains (a ++ sub ++ b) sub = true.
Proof.
  intros a sub b. induction a as [|c a IH].
  - assert (P : has_prefix (sub ++ b) sub = true).
    { induction sub as [|c sub IH]; [reflexivity|]. cbn. rewrite Ascii.eqb_refl. exact IH. }
    cbn [app]. destruct (sub ++ b); cbn [str_contains]; rewrite P; reflexivity.
  - cbn [app str_contains]. rewrite IH. apply orb_true_r.
Qed.

(** What [gen_rel] does with the text of the alternatives. *)
Definition wrap (neg : bool) (t : bytes) : bytes :=
  if neg then if str_contains t (bs " || ") then bs "!( " ++ t ++ bs " )" else bs "!" ++ t
  else if str_contains t (bs " || ") then bs "( " ++ t ++ bs " )" else t.
Lemma wrap_text : forall (neg : bool) t f lv, bool_piece lv t f -> (lv <= 4)%nat ->
  (str_contains t (bs " || ") = false -> (lv <= if neg then 0 else 2)%nat) ->
  (neg = true -> starts_unit t) ->
  bool_piece 2 (wrap neg t) (fun p => xorb neg (f p)).
Proof.
  intros neg t f lv P L4 L U. unfold wrap. destruct (str_contains t (bs " || ")) eqn:C.
  - assert (Q : bool_piece 0 (bs "( " ++ t ++ bs " )") f).
    { apply paren_text. apply (bool_le lv); [exact L4|exact P]. }
    destruct neg.
    + change (bs "!( " ++ t ++ bs " )") with (bs "!" ++ (bs "( " ++ t ++ bs " )")).
      apply (bool_ext 2 _ (fun p => negb (f p))).
      * apply not_text; [exact Q|]. right. reflexivity.
      * intros p _. reflexivity.
    + apply (bool_le 0); [lia|]. eapply bool_ext; [exact Q|]. intros p _. destruct (f p); reflexivity.
  - specialize (L eq_refl). destruct neg.
    + apply (bool_ext 2 _ (fun p => negb (f p))).
      * apply not_text; [|exact (U eq_refl)]. apply (bool_le lv); [lia|exact P].
      * intros p _. reflexivity.
    + apply (bool_le lv); [lia|]. eapply bool_ext; [exact P|]. intros p _. destruct (f p); reflexivity.
Qed.

Definition rel_rng_ok (e : expr) (l : list elem) : Prop :=
  isn (x_op e) = false -> (length (rngs l) <= 1)%nat.

Lemma ranges_unit : forall isf s rs t, rs <> [] -> starts_unit (gen_ranges isf s rs ++ t).
Proof.
  intros isf s rs t N. destruct rs as [|a rs]; [congruence|]. unfold gen_ranges.
  destruct rs as [|b rs]; [destruct isf; left; reflexivity|].
  destruct rs as [|d rs]; [|destruct isf; left; reflexivity].
  destruct isf; [left; reflexivity|right; reflexivity].
Qed.
Lemma values_unit : forall isf s vs, starts_unit (gen_values isf s vs).
Proof.
  intros isf s vs. unfold gen_values. destruct isf; [left; reflexivity|].
  destruct ((length vs <=? 3)%nat && beq s (bs "ops.I")); [right|left]; reflexivity.
Qed.

Lemma rel_text : forall neg e l, l <> [] ->
  match x_mod e with Some m => small m /\ 0 < m | None => True end -> Forall elem_small l -> rel_rng_ok e l ->
  exists s, gen_cnode (node_of (Rel neg e l)) = Ok s /\
    bool_piece 2 s (fun p => holdsb (Rel neg e l) (to_uops p)).
Proof.
  intros neg e l N M S RO. cbn [node_of gen_cnode]. unfold gen_rel.
  destruct (expr_text e M) as (s & E & X & NT & OI). rewrite X. cbn [rbind ce_operand].
  rewrite isn_beq, single_vals, value_rngs.
  destruct (small_split l S) as [SV SR]. unfold rel_rng_ok in RO.
  assert (H : forall p, holdsb (Rel neg e l) (to_uops p) =
    xorb neg (existsb (vin (expr_view e (to_uops p))) (map rng (rngs l)) ||
              existsb (vin (expr_view e (to_uops p))) (map Val (vals l)))).
  { intro p. cbn [holdsb]. rewrite existsb_split. reflexivity. }
  assert (NE : vals l <> [] \/ rngs l <> []).
  { destruct l as [|[v|a b] l']; [congruence|left; discriminate|right; discriminate]. }
  remember (vals l) as vs. remember (rngs l) as rs. clear Heqvs Heqrs N S X.
  destruct vs as [|v vs].
  - (* only ranges *)
    destruct rs as [|r0 rs]; [destruct NE; congruence|].
    pose proof (ranges_text s e E (r0 :: rs) NT ltac:(discriminate) SR RO) as RT.
    remember (map itoa (flat (r0 :: rs))) as fr eqn:FR.
    assert (FN : fr <> []) by (subst fr; destruct r0; discriminate).
    cbn [map]. exists (wrap neg (gen_ranges (isn (x_op e)) s fr)). split.
    + destruct fr as [|f0 fr]; [congruence|]. cbn [app]. rewrite app_nil_r. unfold wrap. destruct neg; reflexivity.
    + apply (bool_ext 2 _ (fun p => xorb neg (existsb (vin (expr_view e (to_uops p))) (map rng (r0 :: rs))))).
      * apply (wrap_text neg _ _ 0); [exact RT|lia|intros _; lia|].
        intros _. rewrite <- (app_nil_r (gen_ranges _ _ _)). apply ranges_unit. exact FN.
      * intros p _. rewrite H. cbn [map existsb]. rewrite orb_false_r. reflexivity.
  - destruct rs as [|r0 rs].
    + (* only values *)
      destruct vs as [|w vs].
      * inversion SV as [|? ? S1 _]; subst.
        exists (if neg then s ++ bs " != " ++ itoa v else wrap false (s ++ bs " == " ++ itoa v)). split.
        -- cbn [map flat gen_ranges app]. destruct neg; reflexivity.
        -- destruct neg.
           ++ eapply bool_ext; [exact (one_text true s e E v NT S1)|]. intros p _. rewrite H. cbn [map existsb].
              rewrite orb_false_r. reflexivity.
           ++ eapply bool_ext; [apply (wrap_text false _ _ 2 (one_text false s e E v NT S1)); [lia|intros _; lia|discriminate]|].
              intros p _. rewrite H. cbn [map existsb]. rewrite orb_false_r.
              destruct (vin (expr_view e (to_uops p)) (Val v)); reflexivity.
      * pose proof (values_text s e E (v :: w :: vs) NT OI ltac:(discriminate) SV) as VT.
        exists (wrap neg (gen_values (isn (x_op e)) s (map itoa (v :: w :: vs)))). split.
        -- cbn [map flat gen_ranges app]. unfold wrap. destruct neg; reflexivity.
        -- apply (bool_ext 2 _ (fun p => xorb neg (existsb (vin (expr_view e (to_uops p))) (map Val (v :: w :: vs))))).
           ++ apply (wrap_text neg _ _ 0); [exact VT|lia|intros _; lia|intros _; apply values_unit].
           ++ intros p _. rewrite H. reflexivity.
    + (* both *)
      pose proof (ranges_text s e E (r0 :: rs) NT ltac:(discriminate) SR RO) as RT.
      remember (map itoa (flat (r0 :: rs))) as fr eqn:FR.
      assert (FN : fr <> []) by (subst fr; destruct r0; discriminate).
      assert (VT : bool_piece 2 (match map itoa (v :: vs) with
          | [] => [] | [v] => s ++ bs " == " ++ v | _ => gen_values (isn (x_op e)) s (map itoa (v :: vs)) end)
        (fun p => existsb (vin (expr_view e (to_uops p))) (map Val (v :: vs)))).
      { destruct vs as [|w vs].
        - inversion SV as [|? ? S1 _]; subst.
          eapply bool_ext; [exact (one_text false s e E v NT S1)|]. intros p _. cbn [map existsb].
          rewrite orb_false_r. destruct (vin (expr_view e (to_uops p)) (Val v)); reflexivity.
        - apply (bool_le 0); [lia|]. apply (values_text s e E (v :: w :: vs) NT OI ltac:(discriminate) SV). }
      remember (match map itoa (v :: vs) with
          | [] => [] | [v] => s ++ bs " == " ++ v | _ => gen_values (isn (x_op e)) s (map itoa (v :: vs)) end) as vt eqn:VE.
      exists (wrap neg (gen_ranges (isn (x_op e)) s fr ++ bs " || " ++ vt)). split.
      * destruct fr as [|f0 fr]; [congruence|]. subst vt. cbn [map]. destruct (map itoa vs); destruct neg; reflexivity.
      * apply (bool_ext 2 _ (fun p => xorb neg (existsb (vin (expr_view e (to_uops p))) (map rng (r0 :: rs)) ||
          existsb (vin (expr_view e (to_uops p))) (map Val (v :: vs))))).
        -- apply (wrap_text neg _ _ 4); [exact (either_text _ _ _ _ RT VT)|lia| |].
           ++ rewrite contains_app. discriminate.
           ++ intros _. apply ranges_unit. exact FN.
        -- intros p _. rewrite H. reflexivity.
Qed.

(** ** Conditions *)

Lemma rngs_count : forall l, length (rngs l) = length (filter is_range l).
Proof. induction l as [|[v|a b] l IH]; cbn; congruence. Qed.

Definition chain_piece (lv : nat) (t : gtok) (o : gop) (op : bool -> bool -> bool) (s : bytes) (f : ops -> bool) : Prop :=
  exists ts E X, Lex s ts /\ chain lv t ts E X /\ gtype cldr_vars E = Some YBool /\
    (forall a, gtype cldr_vars a = Some YBool -> gtype cldr_vars (X a) = Some YBool) /\
    (forall p, good_ops p -> geval (cldr_env p) E = VBool (f p)) /\
    (forall p a b, good_ops p -> geval (cldr_env p) a = VBool b ->
       geval (cldr_env p) (X a) = VBool (op b (f p))).
Definition logic (t : gtok) (o : gop) (lv : nat) (op : bool -> bool -> bool) : Prop :=
  binop t = Some o /\ level o = S lv /\ (forall a b, ev_bin o (VBool a) (VBool b) = VBool (op a b)) /\
  ty_bin o YBool YBool = Some YBool /\ forall a b c, op (op a b) c = op a (op b c).
Lemma piece_chain : forall lv t o op s f, logic t o lv op -> bool_piece lv s f -> chain_piece lv t o op s f.
Proof.
  intros lv t o op s f (BO & LV & EV & TB & AS) (ts & E & L & R & Y & V).
  exists ts, E, (fun a => GBin o a E). split; [exact L|].
  split; [exact (chain_leaf lv t o ts E BO LV R)|]. split; [exact Y|]. split; [|split; [exact V|]].
  - intros a TA. cbn [gtype]. rewrite TA, Y. exact TB.
  - intros p a b GP VA. cbn [geval]. rewrite VA, V by exact GP. apply EV.
Qed.
Lemma chain_join : forall lv t o op sep a b f g, logic t o lv op -> LexS sep [t] -> brk sep -> sep <> [] ->
  chain_piece lv t o op a f -> chain_piece lv t o op b g ->
  chain_piece lv t o op (a ++ sep ++ b) (fun p => op (f p) (g p)).
Proof.
  intros lv t o op sep a b f g (BO & LV & EV & TB & AS) LS BS NS
    (ta & ea & xa & la & ca & ya & za & va & wa) (tb & eb & xb & lb & cb & yb & zb & vb & wb).
  exists (ta ++ t :: tb), (xb ea), (fun p => xb (xa p)). split; [|split; [|split; [|split; [|split]]]].
  - apply lex_app; [exact la| |destruct sep; [congruence|exact BS]].
    change (t :: tb) with ([t] ++ tb). apply lexS_then; [exact LS|exact lb].
  - exact (chain_node lv t o _ _ _ _ _ _ BO LV ca cb).
  - apply zb. exact ya.
  - intros p TP. apply zb. apply za. exact TP.
  - intros p GP. apply wb; [exact GP|apply va; exact GP].
  - intros p q c GP VQ. rewrite (wb p (xa q) (op c (f p)) GP); [rewrite AS; reflexivity|].
    apply wa; assumption.
Qed.
Lemma chain_piece_done : forall lv t o op s f, chain_piece lv t o op s f -> bool_piece (S lv) s f.
Proof.
  intros lv t o op s f (ts & E & X & L & C & Y & _ & V & _). exists ts, E. split; [exact L|].
  split; [intros r F; exact (chain_done lv t ts E X r C F)|]. split; [exact Y|exact V].
Qed.
Lemma and_logic : logic TAnd OpAnd 2 andb.
Proof. repeat split; intros; [symmetry; apply andb_assoc]. Qed.
Lemma or_logic : logic TOr OpOr 3 orb.
Proof. repeat split; intros; [symmetry; apply orb_assoc]. Qed.

Lemma and_text : forall c, is_and c -> cond_small c -> one_range c ->
  exists s, gen_cnode (node_of c) = Ok s /\
    chain_piece 2 TAnd OpAnd andb s (fun p => holdsb c (to_uops p)).
Proof.
  induction c as [neg e l|a IHa b IHb|a IHa b IHb]; intros IA S OR; [| |contradiction].
  - cbn [is_and cond_small one_range] in *. destruct S as [S1 S2].
    destruct (rel_text neg e l IA S1 S2) as (s & GS & P).
    { unfold rel_rng_ok. rewrite rngs_count. destruct OR as [-> | OR]; [discriminate|intros _; exact OR]. }
    exists s. split; [exact GS|]. apply piece_chain; [exact and_logic|exact P].
  - destruct a as [neg e l|a1 a2|a1 a2]; cbn [is_and] in IA; try contradiction. destruct IA as [IA IB].
    cbn [cond_small] in S. destruct S as [SA SB]. cbn [one_range] in OR. destruct OR as [OA OB].
    destruct (IHa IA SA OA) as (s1 & G1 & P1). destruct (IHb IB SB OB) as (s2 & G2 & P2).
    exists (s1 ++ bs " && " ++ s2). split.
    + cbn [node_of gen_cnode] in *. rewrite G1. cbn [rbind]. rewrite G2. reflexivity.
    + exact (chain_join 2 TAnd OpAnd andb (bs " && ") s1 s2 _ _ and_logic ltac:(lexS_lit) eq_refl ltac:(discriminate) P1 P2).
Qed.
Lemma cond_gen : forall c, is_or c -> cond_small c -> one_range c ->
  exists s, gen_cnode (node_of c) = Ok s /\
    chain_piece 3 TOr OpOr orb s (fun p => holdsb c (to_uops p)).
Proof.
  assert (AND : forall c, is_and c -> cond_small c -> one_range c ->
    exists s, gen_cnode (node_of c) = Ok s /\
    chain_piece 3 TOr OpOr orb s (fun p => holdsb c (to_uops p))).
  { intros c IA S OR. destruct (and_text c IA S OR) as (s & GS & P). exists s. split; [exact GS|].
    apply piece_chain; [exact or_logic|]. exact (chain_piece_done _ _ _ _ _ _ P). }
  induction c as [neg e l|a IHa b IHb|a IHa b IHb]; intros IO S OR; [apply AND; assumption|apply AND; assumption|].
  cbn [is_or] in IO. destruct IO as [IA IB]. cbn [cond_small] in S. destruct S as [SA SB].
  cbn [one_range] in OR. destruct OR as [OA OB].
  destruct (AND a IA SA OA) as (s1 & G1 & P1). destruct (IHb IB SB OB) as (s2 & G2 & P2).
  exists (s1 ++ bs " || " ++ s2). split.
  - cbn [node_of gen_cnode] in *. rewrite G1. cbn [rbind]. rewrite G2. reflexivity.
  - exact (chain_join 3 TOr OpOr orb (bs " || ") s1 s2 _ _ or_logic ltac:(lexS_lit) eq_refl ltac:(discriminate) P1 P2).
Qed.

(** ** Rule texts *)

Lemma trim_left_suffix : forall n s, (length s <= n)%nat -> exists p, s = p ++ trim_left s.
Proof.
  induction n as [|n IH]; intros s L.
  - destruct s; [exists []; reflexivity|cbn in L; lia].
  - rewrite trim_left_step. destruct (strip_space s) as [t|] eqn:E; [|exists []; reflexivity].
    pose proof (strip_space_shorter _ _ E) as SH. destruct (IH t ltac:(lia)) as [p P].
    assert (exists q, s = q ++ t) as [q Q].
    { destruct s as [|c s]; [discriminate|]. unfold strip_space in E.
      destruct (decode_rune (c :: s)) as [r w]. destruct (is_space r); [|discriminate]. injection E as <-.
      exists (firstn w (c :: s)). symmetry. apply firstn_skipn. }
    exists (q ++ p). rewrite <- app_assoc, <- P. exact Q.
Qed.
Lemma strip_rev_suffix : forall l t t', strip_rev l t = Some t' ->
  exists r, In r l /\ t = rev (encode_rune r) ++ t'.
Proof.
  induction l as [|r l IH]; intros t t' H; [discriminate|]. cbn [strip_rev] in H. cbv zeta in H.
  destruct (has_prefix t (rev (encode_rune r))) eqn:HP.
  - apply has_prefix_iff in HP as [u ->]. rewrite skipn_len_app in H. injection H as <-.
    exists r. split; [now left|reflexivity].
  - destruct (IH _ _ H) as (q & Q & E). exists q. split; [now right|exact E].
Qed.
Lemma trim_rev_suffix : forall f t, exists q, t = q ++ trim_rev_fuel f t.
Proof.
  induction f as [|f IH]; intro t; [exists []; reflexivity|]. cbn [trim_rev_fuel].
  destruct (strip_rev space_runes t) as [t'|] eqn:E; [|exists []; reflexivity].
  destruct (strip_rev_suffix _ _ _ E) as (r & _ & ->). destruct (IH t') as [q Q].
  exists (rev (encode_rune r) ++ q). rewrite <- app_assoc, <- Q. reflexivity.
Qed.
Lemma trim_right_prefix : forall s, exists q, s = trim_right s ++ q.
Proof.
  intro s. unfold trim_right. destruct (trim_rev_suffix (length s) (rev s)) as [q Q].
  exists (rev q). rewrite <- rev_app_distr, <- Q, rev_involutive. reflexivity.
Qed.
Lemma trim_in : forall s c, In c (trim_space s) -> In c s.
Proof.
  intros s c I. unfold trim_space in I. destruct (trim_left_suffix (length s) s (le_n _)) as [p P].
  destruct (trim_right_prefix (trim_left s)) as [q Q].
  rewrite P. apply in_or_app. right. rewrite Q. apply in_or_app. left. exact I.
Qed.

Lemma at_not_space : forall r, In r space_runes -> ~ In "@"%char (rev (encode_rune r)).
Proof.
  intros r I. assert (F : Forall (fun r => existsb (Ascii.eqb "@") (rev (encode_rune r)) = false) space_runes).
  { unfold space_runes. repeat constructor. }
  rewrite Forall_forall in F. specialize (F r I). intro J.
  enough (existsb (Ascii.eqb "@") (rev (encode_rune r)) = true) by congruence.
  apply existsb_exists. exists "@"%char. split; [exact J|reflexivity].
Qed.
Lemma trim_rev_at : forall f u, exists u', trim_rev_fuel f (u ++ bs "@") = u' ++ bs "@".
Proof.
  induction f as [|f IH]; intro u; [exists u; reflexivity|]. cbn [trim_rev_fuel].
  destruct (strip_rev space_runes (u ++ bs "@")) as [t'|] eqn:E; [|exists u; reflexivity].
  destruct (strip_rev_suffix _ _ _ E) as (r & R & Q).
  destruct t' as [|d t'] using rev_ind.
  - exfalso. apply (at_not_space r R). rewrite app_nil_r in Q. rewrite <- Q. apply in_or_app. right. now left.
  - rewrite app_assoc in Q. change (bs "@") with ["@"%char] in Q. apply app_inj_tail in Q as [_ <-]. apply IH.
Qed.
Lemma trim_right_at : forall r, exists r', trim_right ("@"%char :: r) = "@"%char :: r'.
Proof.
  intro r. unfold trim_right. cbn [rev]. destruct (trim_rev_at (length ("@"%char :: r)) (rev r)) as [u U].
  exists (rev u). change ["@"%char] with (bs "@"). rewrite U, rev_app_distr. reflexivity.
Qed.

(** White space at the beginning. *)
Definition white (c : ascii) : Prop := In c [SP; TAB; LF; CR].
Lemma trim_left_white : forall z t, Forall white z -> trim_left (z ++ t) = trim_left t.
Proof.
  intros z t F. induction F as [|c z W F IH]; [reflexivity|]. rewrite <- IH. cbn [app].
  destruct W as [<-|[<-|[<-|[<-|[]]]]];
    [change (SP :: z ++ t) with (encode_all [32] ++ (z ++ t))|change (TAB :: z ++ t) with (encode_all [9] ++ (z ++ t))
    |change (LF :: z ++ t) with (encode_all [10] ++ (z ++ t))|change (CR :: z ++ t) with (encode_all [13] ++ (z ++ t))];
    apply trim_left_spaces; repeat constructor.
Qed.
Lemma before_at_here : forall z r, Forall white z -> before_at (z ++ "@"%char :: r) = Some z.
Proof.
  intros z r F. induction F as [|c z W F IH]; [reflexivity|]. cbn [app before_at]. rewrite IH.
  destruct W as [<-|[<-|[<-|[<-|[]]]]]; reflexivity.
Qed.
Lemma other_case : forall fuel z r, Forall white z ->
  gen_case fuel Other (z ++ "@"%char :: r) = Ok (tabs 5 ++ tabs 5 ++ bs "return Other").
Proof.
  intros fuel z r W. unfold gen_case, has_condition, without_examples.
  unfold trim_space at 1. rewrite trim_left_white by exact W.
  change (trim_left ("@"%char :: r)) with (trim_left (encode_rune 64 ++ r)).
  rewrite trim_left_stop by reflexivity. change (encode_rune 64 ++ r) with ("@"%char :: r).
  destruct (trim_right_at r) as [r' ->]. change (has_prefix ("@"%char :: r') (bs "@")) with true. cbn [negb].
  rewrite before_at_here by exact W. cbn [rbind]. unfold trim_space.
  replace (trim_left z) with (@nil ascii); [reflexivity|].
  rewrite <- (app_nil_r z), trim_left_white by exact W. reflexivity.
Qed.

Lemma before_at_in : forall s, In "@"%char s -> exists w r, before_at s = Some w /\ s = w ++ r.
Proof.
  induction s as [|c s IH]; intro I; [contradiction|]. cbn [before_at].
  destruct (c =? "@")%char eqn:E; [exists [], (c :: s); auto|].
  destruct I as [->|I]; [discriminate|]. destruct (IH I) as (w & r & -> & ->). exists (c :: w), r. auto.
Qed.
Lemma spaced_head : forall t ts s, spaced (t :: ts) s -> exists z r, Forall sep_char z /\ s = z ++ t ++ r.
Proof. intros t ts s H. inversion H; subst; eauto. Qed.
Lemma cond_head : forall c ts, cond_toks c ts -> exists o r, ts = oper_text o :: r.
Proof.
  intros c ts H. induction H as [neg e l xs ls X F|a b ta tb HA (o & r & ->) HB _|a b ta tb HA (o & r & ->) HB _].
  - destruct X; cbn [app]; eauto.
  - cbn [app]. eauto.
  - cbn [app]. eauto.
Qed.
Lemma left_head : forall z o r, Forall sep_char z ->
  exists c u, trim_left (z ++ oper_text o ++ r) = c :: u /\ c <> "@"%char.
Proof.
  intros z o r F. induction F as [|c z S F IH].
  - cbn [app]. assert (O : exists k, 97 <= k <= 122 /\ oper_text o = encode_rune k).
    { destruct o; [exists 110|exists 105|exists 118|exists 119|exists 102|exists 116|exists 99|exists 101];
        (split; [lia|reflexivity]). }
    destruct O as (k & K & O). rewrite O, trim_left_stop.
    + rewrite <- O. destruct o; (eexists; eexists; split; [reflexivity|discriminate]).
    + unfold scalar, in_rng. lia.
    + unfold is_space, in_rng. lia.
  - destruct S as [<-|[<-|[<-|[<-|[<-|[]]]]]];
      try (match goal with |- context [trim_left ((?c :: z) ++ ?t)] =>
             change ((c :: z) ++ t) with ([c] ++ (z ++ t)) end;
           rewrite trim_left_white by (constructor; [unfold white; cbn; tauto|constructor]); exact IH).
    exists ","%char, (z ++ oper_text o ++ r). split; [|discriminate].
    exact (trim_left_stop 44 (z ++ oper_text o ++ r) eq_refl eq_refl).
Qed.
Lemma condition_seen : forall o ts s, spaced (oper_text o :: ts) s -> has_condition s = true.
Proof.
  intros o ts s SP. destruct (spaced_head _ _ _ SP) as (z & r & Z & ->).
  destruct (left_head z o r Z) as (c & u & L & N). unfold has_condition, trim_space. rewrite L.
  destruct (trim_right_prefix (c :: u)) as [q Q]. destruct (trim_right (c :: u)) as [|d v]; [reflexivity|].
  injection Q as <- _. cbn [has_prefix bs]. destruct (c =? "@")%char eqn:E; [apply Ascii.eqb_eq in E; congruence|].
  apply negb_true_iff. change (bs "@") with ["@"%char]. cbn [has_prefix]. rewrite Ascii.eqb_sym, E. reflexivity.
Qed.

Lemma spaced_in : forall ts s, spaced ts s -> forall t c, In t ts -> In c t -> In c s.
Proof.
  intros ts s H. induction H as [z Z|z t y Z Y|z t ts s Z SP IH E]; intros u c U C; [contradiction| |].
  - destruct U as [<-|[]]. apply in_or_app. right. apply in_or_app. left. exact C.
  - apply in_or_app. right. apply in_or_app. destruct U as [<-|U]; [left; exact C|right; exact (IH u c U C)].
Qed.
Lemma rule_line_at : forall c s, rule_line c s -> In "@"%char s.
Proof.
  intros c s (ts & sts & _ & _ & N & SM & SP & _). destruct sts as [|t sts]; [congruence|].
  apply (spaced_in _ _ SP t); [apply in_or_app; right; now left|].
  destruct SM as [[-> | ->] _]; now left.
Qed.
Lemma rule_line_seen : forall c s, rule_line c s -> has_condition s = true.
Proof.
  intros c s (ts & sts & _ & T & _ & _ & SP & _). destruct (cond_head c ts T) as (o & r & ->).
  exact (condition_seen o (r ++ sts) s SP).
Qed.

Lemma cond_small_int64 : forall c, cond_small c -> cond_int64 c.
Proof.
  induction c as [neg e l|a IHa b IHb|a IHa b IHb]; cbn [cond_small cond_int64]; [|tauto|tauto].
  intros [M F]. unfold small, maxInt64 in *. split; [destruct (x_mod e); [lia|exact I]|].
  eapply Forall_impl; [|exact F]. intros [v|a b] H; cbn [elem_small elem_int64] in *; unfold small, maxInt64 in *; lia.
Qed.
Lemma convert_line : forall c s, rule_line c s -> cond_small c -> one_range c ->
  exists t, gen_cnode (node_of c) = Ok t /\ bool_piece 4 t (fun p => holdsb c (to_uops p)) /\
    exists F, forall fuel, (F <= fuel)%nat -> convert_to_go fuel s = Ok t.
Proof.
  intros c s (ts & sts & O & T & N & SM & SP & NL) S OR.
  destruct (cond_gen c O S OR) as (t & GT & P). exists t. split; [exact GT|].
  split; [exact (chain_piece_done _ _ _ _ _ _ P)|].
  destruct (parse_rule_full c ts sts s O T SM SP (cond_small_int64 c S)) as (F & H). exists F.
  intros fuel L. destruct (H fuel L) as (sm & E). unfold convert_to_go. rewrite E. exact GT.
Qed.

(** ** The function *)

(** Text scanned where a line break adds nothing. *)
Definition LexN (s : bytes) (ts : list gtok) : Prop :=
  forall out, newline out = out -> fold_left gstep s (GState MStart out) = GState MStart (rev ts ++ out).
Lemma fold_comment : forall w out, ~ In LF w ->
  fold_left gstep w (GState MComment out) = GState MComment out.
Proof.
  induction w as [|c w IH]; intros out N; [reflexivity|]. cbn [fold_left]. unfold gstep at 2. cbn [g_mode].
  destruct (c =? LF)%char eqn:E; [apply Ascii.eqb_eq in E; subst c; exfalso; apply N; now left|].
  apply IH. intro I. apply N. now right.
Qed.
Lemma tabs_skip : forall n, LexN (tabs n) [].
Proof.
  intros n out NO. unfold tabs. cbn [fold_left].
  change (gstep (GState MStart out) LF) with (GState MStart (newline out)). rewrite NO.
  induction n as [|n IH]; [reflexivity|]. exact IH.
Qed.
Lemma comment_skip : forall w n, ~ In LF w -> LexN (tabs 5 ++ bs "// " ++ w ++ tabs n) [].
Proof.
  intros w n N out NO. rewrite !fold_left_app.
  replace (fold_left gstep (bs "// ") (fold_left gstep (tabs 5) (GState MStart out))) with (GState MComment out).
  - rewrite fold_comment by exact N. unfold tabs. cbn [fold_left].
    change (gstep (GState MComment out) LF) with (GState MStart (newline out)). rewrite NO.
    induction n as [|n IH]; [reflexivity|]. exact IH.
  - rewrite (tabs_skip 5 out NO). reflexivity.
Qed.
Lemma lexN_app : forall a b ts, LexN a [] -> LexN b ts -> LexN (a ++ b) ts.
Proof. intros a b ts X Y out NO. rewrite fold_left_app, X by exact NO. apply Y. exact NO. Qed.
Lemma lexS_N : forall a ts, LexS a ts -> LexN a ts.
Proof. intros a ts L out _. apply L. Qed.

Lemma case_end : forall c, LexS (bs " {" ++ tabs 6 ++ bs "return " ++ category_name c ++ tabs 5 ++ bs "}" ++ tabs 4)
  [TLc; TReturn; TName (category_name c); TSemi; TRc; TSemi].
Proof. intros []; lexS_lit. Qed.
Lemma case_text : forall c w g tg, ~ In LF w -> Lex g tg ->
  LexN (tabs 5 ++ bs "// " ++ w ++ tabs 5 ++ bs "if " ++ g ++ bs " {" ++ tabs 6 ++ bs "return " ++
        category_name c ++ tabs 5 ++ bs "}" ++ tabs 4)
    (TIf :: tg ++ [TLc; TReturn; TName (category_name c); TSemi; TRc; TSemi]).
Proof.
  intros c w g tg NW LG.
  replace (tabs 5 ++ bs "// " ++ w ++ tabs 5 ++ bs "if " ++ g ++ bs " {" ++ tabs 6 ++ bs "return " ++
        category_name c ++ tabs 5 ++ bs "}" ++ tabs 4)
    with ((tabs 5 ++ bs "// " ++ w ++ tabs 5) ++ (bs "if " ++ (g ++
       (bs " {" ++ tabs 6 ++ bs "return " ++ category_name c ++ tabs 5 ++ bs "}" ++ tabs 4))))
    by (rewrite <- !app_assoc; reflexivity).
  apply lexN_app; [apply comment_skip; exact NW|]. apply lexS_N.
  change (TIf :: ?x) with ([TIf] ++ x). apply lexS_app; [lexS_lit|].
  apply lex_thenS; [exact LG|apply case_end|reflexivity|discriminate].
Qed.

Lemma lexN_next : forall a b ta tb, LexN a (ta ++ [TSemi]) -> LexN b tb -> LexN (a ++ b) (ta ++ [TSemi] ++ tb).
Proof.
  intros a b ta tb X Y out NO. rewrite fold_left_app, X by exact NO. rewrite Y.
  - rewrite !rev_app_distr. rewrite <- !app_assoc. reflexivity.
  - rewrite rev_app_distr. reflexivity.
Qed.

Definition stmt_ok (s : gstmt) : Prop := stmt_typed cldr_vars cldr_res s = true.
Lemma cat_var : forall c, cldr_vars (category_name c) = Some YCat.
Proof. intros []; reflexivity. Qed.
Lemma cat_val : forall p c, cldr_env p (category_name c) = VCat c.
Proof. intros p []; reflexivity. Qed.
Lemma body_if : forall tg E c, reads 4 tg E -> forall ts l, B ts l [] ->
  B (TIf :: tg ++ [TLc; TReturn; TName (category_name c); TSemi; TRc; TSemi] ++ ts)
    (SIf E [SReturn (GName (category_name c))] :: l) [].
Proof.
  intros tg E c R ts l BL. eapply B_if.
  - apply R. exact I.
  - cbn [app]. eapply B_return_semi; [|apply B_close].
    apply (G_to 0); [lia|apply G_name; exact I|exact I].
  - exact BL.
Qed.

(** The statements for the rules and for the rest. *)
Definition case_stmt (r : category * cond) (s : gstmt) : Prop :=
  exists g E, gen_cnode (node_of (snd r)) = Ok g /\ is_expr g E /\
    s = SIf E [SReturn (GName (category_name (fst r)))].
Definition case_body (rules : list (category * cond)) (b : list gstmt) : Prop :=
  exists l, Forall2 case_stmt rules l /\ b = l ++ [SReturn (GName (bs "Other"))].
Lemma case_body_unique : forall rules b b', case_body rules b -> case_body rules b' -> b = b'.
Proof.
  intros rules b b' (l & F & ->) (l' & F' & ->). f_equal. revert l' F'.
  induction F as [|r s rules l (g & E & GG & IE & ->) F IH]; intros l' F'; inversion F'; subst; [reflexivity|].
  destruct H1 as (g' & E' & GG' & IE' & ->). assert (g' = g) by congruence. subst g'.
  rewrite (is_expr_unique g E E' IE IE'). f_equal. apply IH. assumption.
Qed.

Lemma form_func : forall rules texts other,
  Forall2 (fun r t => fst r = fst t /\ rule_line (snd r) (snd t)) rules texts ->
  Forall (fun r => cond_small (snd r) /\ one_range (snd r)) rules -> samples_line other ->
  exists F text ts b, (forall fuel, (F <= fuel)%nat -> gen_form_func fuel (texts ++ [(Other, other)]) = Ok text) /\
    LexN text ts /\ B ts b [] /\ case_body rules b /\ forallb (stmt_typed cldr_vars cldr_res) b && terminating b = true /\
    forall p, good_ops p -> run (cldr_env p) b = Some (VCat (chooseb rules (to_uops p))).
Proof.
  intros rules texts other F2. induction F2 as [|[k cd] [k' raw] rules texts [KK RL] F2 IH]; intros FA SL.
  - destruct SL as (z & r & Z & ->).
    exists 0%nat, (tabs 5 ++ tabs 5 ++ bs "return Other" ++ tabs 2), [TReturn; TName (bs "Other"); TSemi].
    exists [SReturn (GName (bs "Other"))]. split; [|split; [|split; [|split; [|split]]]].
    + intros fuel _. cbn [app gen_form_func]. rewrite (other_case fuel z r Z). cbn [rbind].
      rewrite <- !app_assoc. reflexivity.
    + apply lexN_app; [apply tabs_skip|]. apply lexN_app; [apply tabs_skip|]. apply lexS_N. lexS_lit.
    + eapply B_return_semi; [|apply B_nil]. apply (G_to 0); [lia|apply G_name; exact I|exact I].
    + exists []. split; [constructor|reflexivity].
    + reflexivity.
    + intros p _. reflexivity.
  - cbn [fst snd] in *. subst k'. inversion FA as [|? ? [S OR] FA']; subst. cbn [snd] in S, OR.
    destruct (IH FA' SL) as (F1 & text & ts & b & GF & LT & BT & (l & CB & EB) & TB & RUN).
    destruct (convert_line cd raw RL S OR) as (g & GG & (tg & E & LG & RG & YG & VG) & F0 & CV).
    destruct (before_at_in raw (rule_line_at cd raw RL)) as (w & rest & BA & RAW).
    assert (NW : ~ In LF (trim_space w)).
    { intro I. apply trim_in in I. destruct RL as (? & ? & _ & _ & _ & _ & _ & NL). apply NL. rewrite RAW.
      apply in_or_app. left. exact I. }
    eexists (Nat.max F0 F1). eexists. eexists. exists (SIf E [SReturn (GName (category_name k))] :: b).
    split; [|split; [|split; [|split; [|split]]]].
    + intros fuel L. cbn [app gen_form_func]. unfold gen_case.
      rewrite (rule_line_seen cd raw RL). unfold without_examples. rewrite BA. cbn [rbind].
      rewrite CV by lia. cbn [rbind]. rewrite GF by lia. cbn [rbind]. reflexivity.
    + pose proof (case_text k (trim_space w) g tg NW LG) as CT.
      change [TLc; TReturn; TName (category_name k); TSemi; TRc; TSemi]
        with ([TLc; TReturn; TName (category_name k); TSemi; TRc] ++ [TSemi]) in CT.
      rewrite app_comm_cons, (app_assoc (TIf :: tg)) in CT. exact (lexN_next _ _ _ _ CT LT).
    + cbn [app]. rewrite <- !app_assoc. cbn [app]. exact (body_if tg E k RG ts b BT).
    + exists (SIf E [SReturn (GName (category_name k))] :: l). split; [|rewrite EB; reflexivity].
      constructor; [|exact CB]. exists g, E. split; [exact GG|]. split; [|reflexivity].
      eapply expr_read; [exact LG|]. rewrite <- (app_nil_r tg). apply RG. exact I.
    + cbn [forallb stmt_typed]. rewrite YG. cbn [forallb stmt_typed gtype]. rewrite cat_var. cbn [cldr_res andb].
      apply andb_true_iff in TB as [TB1 TB2]. rewrite TB1. cbn [andb].
      destruct b; [discriminate|exact TB2].
    + intros p GP. cbn [run run_stmt]. rewrite (VG p GP). cbn [chooseb].
      destruct (holdsb cd (to_uops p)).
      * cbn [geval]. rewrite cat_val. reflexivity.
      * apply RUN. exact GP.
Qed.
Lemma lexN_body : forall text ts b, LexN text ts -> B ts b [] -> is_body text b.
Proof.
  intros text ts b L [N E]. exists ts, N. split; [|apply E; lia].
  unfold go_tokens. rewrite (L [] eq_refl). cbn [flush g_mode g_out].
  rewrite app_nil_r, rev_involutive. reflexivity.
Qed.
