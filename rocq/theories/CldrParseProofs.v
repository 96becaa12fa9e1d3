(** The rule parser accepts the grammar and the evaluator computes the meaning
    of a condition. *)
From Coq Require Import String Ascii List ZArith QArith Qround Qabs Bool Lia ZifyBool.
From Verif Require Import Base BaseProofs Utf8Model Utf8Proofs StrModel PopModel NumModel NumProofs F64Model
  ReModel ReProofs CldrModel CldrSpec CldrEvalProofs CldrOperandProofs CldrBuiltinProofs.
Import ListNotations.
Open Scope Z_scope.

Definition node_elem (e : elem) : relem :=
  match e with Val v => RVal v | Range a b => RRange a b end.
Fixpoint node_of (c : cond) : cnode :=
  match c with
  | Rel neg e l => CRel neg (CExpr (oper_text (x_op e)) (x_mod e)) (map node_elem l)
  | And a b => CAnd (node_of a) (node_of b)
  | Or a b => COr (node_of a) (node_of b)
  end.

(** ** Evaluation *)

Definition small_ops (o : ops) : Prop :=
  small (oI o) /\ small (oV o) /\ small (oW o) /\ small (oF o) /\ small (oT o) /\ small (oC o).

Lemma clear_Z : forall z, clear_of_integers (inject_Z z).
Proof.
  intros z k H. apply Qabs_Qle_condition in H. destruct H as [H1 H2].
  unfold Qle, Qminus, Qplus, Qopp, inject_Z in H1, H2; cbn [Qnum Qden] in H1, H2.
  assert (k = z) by lia. subst. reflexivity.
Qed.

Lemma elem_matches_view : forall q e, clear_of_integers q -> elem_small e ->
  elem_matches (Some q) (node_elem e) = Ok (vin (iview q) e).
Proof.
  intros q e C S. unfold small in *. destruct e as [v|a b]; cbn [node_elem elem_matches elem_small] in *.
  - unfold small in S. rewrite f64_of_int_small by (unfold two53; lia). f_equal.
    unfold qeq. apply eq_true_iff_eq. rewrite Qeq_bool_iff, <- (vin_spec q (Val v)).
    simpl. split; intro H; symmetry; exact H.
  - destruct S as (SA & SB & L). unfold small in *.
    rewrite in_range1_view by (auto; unfold two53; lia).
    destruct (vin (iview q) (Range a b)); [reflexivity|].
    destruct (b =? maxInt64) eqn:E; [unfold maxInt64 in E; lia|]. reflexivity.
Qed.

Lemma list_matches_view : forall q l, clear_of_integers q -> Forall elem_small l ->
  list_matches (Some q) (map node_elem l) = Ok (existsb (vin (iview q)) l).
Proof.
  intros q l C F. induction F as [|e l H F IH]; [reflexivity|].
  cbn [map list_matches existsb]. rewrite elem_matches_view by assumption.
  cbn [rbind]. rewrite IH. reflexivity.
Qed.

Lemma eval_expr_view : forall o e, small_ops o -> clear_of_integers (oN o) ->
  match x_mod e with Some m => small m /\ 0 < m | None => True end ->
  exists q, eval_expr (CExpr (oper_text (x_op e)) (x_mod e)) o = Ok (Some q) /\
    clear_of_integers q /\ iview q = expr_view e (to_uops o).
Proof.
  intros o [op m] (SI & SV & SW & SF & ST & SC) CL M. unfold eval_expr. cbn [x_op x_mod ce_operand ce_mod] in *.
  assert (INT : forall z, small z ->
    exists q, (match m with
               | None => Ok (Some (inject_Z (f64_of_int z)))
               | Some m0 => do r <- irem z m0 ; Ok (Some (inject_Z (f64_of_int r)))
               end) = Ok (Some q) /\ clear_of_integers q /\ iview q = vmod (Some z) m).
  { intros z S. unfold small in *. destruct m as [m|].
    - destruct M as [_ M]. unfold irem. destruct (m =? 0) eqn:E; [lia|]. cbn [rbind].
      rewrite Z.rem_mod_nonneg by lia.
      pose proof (Z.mod_pos_bound z m M).
      rewrite f64_of_int_small by (unfold two53; pose proof (Z.mod_le z m); lia).
      eexists. split; [reflexivity|]. split; [apply clear_Z|]. apply iview_Z.
    - rewrite f64_of_int_small by (unfold two53; lia).
      eexists. split; [reflexivity|]. split; [apply clear_Z|]. apply iview_Z. }
  unfold expr_view. cbn [x_op x_mod].
  destruct op; cbn [oper_text op_view to_uops un ui uv uw uf ut uc];
    match goal with
    | |- context[beq (bs ?s)] => idtac
    end.
  - change (beq (bs "n") (bs "n")) with true. cbv iota.
    destruct m as [m|].
    + destruct M as [S M]. unfold small in S. destruct (m =? 0) eqn:E; [lia|].
      rewrite f64_of_int_small by (unfold two53; lia).
      eexists. split; [reflexivity|]. split; [apply fmod_clear; assumption|].
      apply fmod_view. exact M.
    + eexists. split; [reflexivity|]. split; [exact CL|]. reflexivity.
  - exact (INT _ SI).
  - exact (INT _ SV).
  - exact (INT _ SW).
  - exact (INT _ SF).
  - exact (INT _ ST).
  - exact (INT _ SC).
  - exact (INT _ SC).
Qed.

Lemma eval_cnode_view : forall c o, small_ops o -> clear_of_integers (oN o) -> cond_small c ->
  eval_cnode (node_of c) o = Ok (holdsb c (to_uops o)).
Proof.
  induction c as [neg e l|a IHa b IHb|a IHa b IHb]; intros o S C B; cbn [node_of eval_cnode holdsb cond_small] in *.
  - destruct B as [B1 B2]. destruct (eval_expr_view o e S C B1) as (q & E & CQ & V).
    rewrite E. cbn [rbind]. rewrite list_matches_view by assumption. cbn [rbind].
    rewrite V. reflexivity.
  - destruct B as [B1 B2]. rewrite IHa, IHb by assumption. reflexivity.
  - destruct B as [B1 B2]. rewrite IHa, IHb by assumption. reflexivity.
Qed.

Lemma cond_small_mods : forall c, cond_small c -> mods_pos c.
Proof.
  induction c as [neg e l|a IHa b IHb|a IHa b IHb]; cbn [cond_small mods_pos].
  - intros [H _]. unfold mod_pos. destruct (x_mod e); tauto.
  - tauto.
  - tauto.
Qed.

(** ** Tokens *)

Definition sepc (c : ascii) : bool := is_space (bval c) || (bval c =? 44).
Definition asciic (c : ascii) : bool := bval c <? 128.

Definition ellipsis : bytes := ["226"%char; "128"%char; "166"%char].
Definition segs (s : bytes) : list (rune * bytes) := segs_fuel (length s) s.

Lemma segs_fuel_enough : forall f f' s, (length s <= f)%nat -> (length s <= f')%nat ->
  segs_fuel f s = segs_fuel f' s.
Proof.
  induction f as [|f IH]; intros f' s L L'.
  - destruct s; [destruct f'; reflexivity|simpl in L; lia].
  - destruct s as [|c s]; [destruct f'; reflexivity|].
    destruct f' as [|f']; [simpl in L'; lia|]. cbn [segs_fuel].
    pose proof (decode_width c s) as W. destruct (decode_rune (c :: s)) as [r w]. cbn [snd] in W.
    f_equal. apply IH; rewrite skipn_length; cbn [length] in *; lia.
Qed.

Lemma segs_ascii : forall c s, asciic c = true -> segs (c :: s) = (bval c, [c]) :: segs s.
Proof.
  intros c s A. unfold asciic in A. unfold segs. cbn [length segs_fuel]. unfold decode_rune. cbv zeta.
  rewrite A. reflexivity.
Qed.

Lemma segs_ellipsis : forall s, segs (ellipsis ++ s) = (8230, ellipsis) :: segs s.
Proof.
  intro s. unfold segs.
  change (segs_fuel (length (ellipsis ++ s)) (ellipsis ++ s))
    with ((8230, ellipsis) :: segs_fuel (S (S (length s))) s).
  f_equal. apply segs_fuel_enough; lia.
Qed.

(** Bytes of a token: no separator, and an ellipsis only as a whole. *)
Inductive clean : bytes -> Prop :=
| clean_nil : clean []
| clean_char c t : asciic c = true -> sepc c = false -> clean t -> clean (c :: t)
| clean_dots t : clean t -> clean (ellipsis ++ t).

Notation issep := (fun r => is_space r || (r =? 44)).

Lemma fields_sep : forall z s, forallb sepc z = true -> forallb asciic z = true ->
  fields issep (segs (z ++ s)) [] = fields issep (segs s) [].
Proof.
  induction z as [|c z IH]; intros s H A; [reflexivity|].
  cbn [forallb] in H, A. apply andb_true_iff in H. destruct H as [H1 H2].
  apply andb_true_iff in A. destruct A as [A1 A2].
  cbn [app]. rewrite segs_ascii by exact A1. cbn [fields]. unfold sepc in H1. rewrite H1. apply IH; assumption.
Qed.

Lemma fields_tok : forall t, clean t -> forall cur s,
  fields issep (segs (t ++ s)) cur = fields issep (segs s) (cur ++ t).
Proof.
  intros t H. induction H as [|c t A S H IH|t H IH]; intros cur s.
  - rewrite app_nil_r. reflexivity.
  - cbn [app]. rewrite segs_ascii by exact A. cbn [fields]. unfold sepc in S. rewrite S.
    rewrite IH, <- app_assoc. reflexivity.
  - rewrite <- app_assoc, segs_ellipsis. cbn [fields].
    change (is_space 8230 || (8230 =? 44)) with false. cbv iota. rewrite IH, <- app_assoc. reflexivity.
Qed.

Definition tok_ok (t : bytes) : Prop :=
  t <> [] /\ forallb asciic t = true /\ forallb (fun c => negb (sepc c)) t = true.
Definition tok_clean (t : bytes) : Prop := t <> [] /\ clean t.

Lemma tok_ok_clean : forall t, tok_ok t -> tok_clean t.
Proof.
  intros t (N & A & S). split; [exact N|]. clear N. induction t as [|c t IH]; [constructor|].
  cbn [forallb] in A, S. apply andb_true_iff in A. apply andb_true_iff in S.
  destruct A as [A1 A2]. destruct S as [S1 S2]. apply negb_true_iff in S1. constructor; auto.
Qed.

Lemma sep_char_b : forall z, Forall sep_char z -> forallb sepc z = true /\ forallb asciic z = true.
Proof.
  intros z F. induction F as [|c z H F [A B]]; [split; reflexivity|].
  cbn [forallb]. rewrite A, B, !andb_true_r.
  unfold sep_char in H. simpl in H.
  destruct H as [H|[H|[H|[H|[H|[]]]]]]; subst; split; reflexivity.
Qed.

Lemma fields_spaced : forall ts s, spaced ts s -> Forall tok_clean ts -> fields issep (segs s) [] = ts.
Proof.
  intros ts s H. induction H as [z Z|z t y Z Y|z t ts s Z SP IH (c & s' & E & SC)]; intro F.
  - destruct (sep_char_b z Z) as [A B].
    rewrite <- (app_nil_r z), fields_sep by assumption. reflexivity.
  - destruct (sep_char_b z Z) as [A1 B1]. destruct (sep_char_b y Y) as [A2 B2].
    inversion F as [|? ? (T1 & T2) _]; subst.
    rewrite fields_sep, fields_tok by assumption. rewrite app_nil_l.
    destruct y as [|c y]; [destruct t; [contradiction|reflexivity]|].
    cbn [forallb] in A2, B2. apply andb_true_iff in A2. destruct A2 as [A21 A22].
    apply andb_true_iff in B2. destruct B2 as [B21 B22].
    rewrite segs_ascii by exact B21. cbn [fields].
    unfold sepc in A21. rewrite A21. destruct t; [contradiction|].
    rewrite <- (app_nil_r y), fields_sep by assumption. reflexivity.
  - destruct (sep_char_b z Z) as [A1 B1].
    inversion F as [|? ? (T1 & T2) F']; subst. specialize (IH F').
    rewrite fields_sep, fields_tok by assumption. rewrite app_nil_l.
    destruct (sep_char_b [c] ltac:(constructor; [exact SC|constructor])) as [A2 B2].
    cbn [forallb] in A2, B2. rewrite andb_true_r in A2, B2. unfold sepc in A2.
    rewrite segs_ascii in * by exact B2.
    cbn [fields] in *. rewrite A2 in *. destruct t; [contradiction|]. rewrite IH. reflexivity.
Qed.

Lemma tokens_spaced : forall ts s, spaced ts s -> Forall tok_clean ts -> generate_tokens s = ts.
Proof. intros ts s H F. exact (fields_spaced ts s H F). Qed.

(** ** Scanner on the tokens of a condition *)

Definition kind_of (ts : list bytes) : ctok := fst (fst (cscan ts)).

Lemma kw_head : forall c s, is_digit c = true -> exists t, kw_lower (c :: s) = c :: t.
Proof.
  intros c s D. apply is_digit_val in D.
  assert (L : lower c = c) by (unfold lower, is_upper; destruct ((65 <=? bval c) && (bval c <=? 90)) eqn:E; [lia|reflexivity]).
  destruct s as [|b t]; cbn [kw_lower].
  - exists []. rewrite L. reflexivity.
  - destruct ((bval c =? 196) && (bval b =? 176)) eqn:E; [lia|]. rewrite L. eauto.
Qed.

Lemma beq_head : forall c t k l, Ascii.eqb c k = false -> beq (c :: t) (k :: l) = false.
Proof. intros. cbn [beq]. rewrite H. reflexivity. Qed.

Definition no_join (r : list bytes) : Prop :=
  match r with [] => True | x :: _ => mem_b x [bs ".."; bs "~"] = false end.

Definition classify (x : bytes) : ctok :=
  if rmatch re_value x then KValue
  else if rmatch re_sample_value x then KSampleValue
  else if rmatch re_range x then KRange
  else if rmatch re_sample_range x then KSampleRange
  else KUnknown.

Lemma cscan_digit : forall c s r, is_digit c = true -> no_join r ->
  cscan ((c :: s) :: r) = (classify (c :: s), c :: s, r).
Proof.
  intros c s r D N. cbn [cscan]. destruct (kw_head c s D) as [t K]. rewrite K.
  assert (NE : forall k, is_digit k = false -> Ascii.eqb c k = false)
    by (intros; apply digit_neq; assumption).
  unfold mem_b. cbn [bs list_ascii_of_string existsb].
  repeat (rewrite (beq_head c t) by (apply NE; reflexivity)).
  change (beq (c :: t) []) with false. cbn [orb].
  assert (EN : beq (c :: t) (encode_rune 8230) = false).
  { change (encode_rune 8230) with [byte_of 226; byte_of 128; byte_of 166].
    apply beq_head. apply NE. reflexivity. }
  rewrite EN. cbn [orb].
  destruct r as [|x r2]; [reflexivity|]. simpl in N. unfold mem_b in N.
  cbn [bs list_ascii_of_string existsb] in N. rewrite N. reflexivity.
Qed.

Lemma lang_digits : forall s, forallb is_digit s = true -> s <> [] -> rmatch re_value s = true.
Proof.
  intros s D N. apply rmatch_lang. unfold re_value, rplus. destruct s as [|c s]; [contradiction|].
  cbn [forallb] in D. apply andb_true_iff in D. destruct D as [D1 D2].
  apply (LSeq _ _ [c] s); [constructor; exact D1|]. apply lang_star_set. exact D2.
Qed.

Lemma classify_value : forall s, forallb is_digit s = true -> s <> [] -> classify s = KValue.
Proof. intros s D N. unfold classify. rewrite lang_digits by assumption. reflexivity. Qed.

Fixpoint dots (s : bytes) : nat :=
  match s with [] => 0 | c :: s' => (if Ascii.eqb c "." then 1 else 0) + dots s' end.
Lemma dots_app : forall a b, dots (a ++ b) = (dots a + dots b)%nat.
Proof. induction a as [|c a IH]; intro b; simpl; [reflexivity|]. rewrite IH. lia. Qed.
Lemma dots_digits : forall s, forallb is_digit s = true -> dots s = 0%nat.
Proof.
  induction s as [|c s IH]; intro D; [reflexivity|]. cbn [forallb] in D.
  apply andb_true_iff in D. destruct D as [D1 D2]. cbn [dots].
  rewrite (digit_neq c "." D1 eq_refl). apply IH. exact D2.
Qed.

(** An upper bound for the number of points in a match. *)
Fixpoint maxdots (r : re) : option nat :=
  match r with
  | RNone | REmpty => Some 0%nat
  | RSet p => Some (if p "."%char then 1%nat else 0%nat)
  | RSeq a b => match maxdots a, maxdots b with Some x, Some y => Some (x + y)%nat | _, _ => None end
  | RAlt a b => match maxdots a, maxdots b with Some x, Some y => Some (Nat.max x y) | _, _ => None end
  | RStar a => match maxdots a with Some 0%nat => Some 0%nat | _ => None end
  end.

Lemma maxdots_star : forall r s, lang r s -> forall a, r = RStar a ->
  (forall t, lang a t -> dots t = 0%nat) -> dots s = 0%nat.
Proof.
  intros r s H. induction H; intros a0 E K; try discriminate.
  - reflexivity.
  - inversion E; subst. rewrite dots_app, (K s H), (IHlang2 a0 eq_refl K). reflexivity.
Qed.

Lemma maxdots_spec : forall r k s, maxdots r = Some k -> lang r s -> (dots s <= k)%nat.
Proof.
  induction r; intros k s M H; simpl in M.
  - inversion H.
  - apply lang_empty in H. subst. simpl. lia.
  - apply lang_set in H. destruct H as (c & E & P). subst. inversion M; subst. simpl.
    destruct (Ascii.eqb c ".") eqn:EC; [|lia]. apply Ascii.eqb_eq in EC. subst. rewrite P. lia.
  - destruct (maxdots r1) as [x|]; [|discriminate]. destruct (maxdots r2) as [y|]; [|discriminate].
    inversion M; subst. apply lang_seq in H. destruct H as (a & b & E & A & B). subst.
    rewrite dots_app. specialize (IHr1 x a eq_refl A). specialize (IHr2 y b eq_refl B). lia.
  - destruct (maxdots r1) as [x|]; [|discriminate]. destruct (maxdots r2) as [y|]; [|discriminate].
    inversion M; subst. apply lang_alt in H. destruct H as [H|H].
    + specialize (IHr1 x s eq_refl H). lia.
    + specialize (IHr2 y s eq_refl H). lia.
  - destruct (maxdots r) as [[|x]|]; try discriminate. inversion M; subst.
    rewrite (maxdots_star (RStar r) s H r eq_refl); [lia|].
    intros t T. specialize (IHr 0%nat t eq_refl T). lia.
Qed.

Lemma few_dots : forall r k s, maxdots r = Some k -> (k < dots s)%nat -> rmatch r s = false.
Proof.
  intros r k s M D. destruct (rmatch r s) eqn:E; [|reflexivity].
  apply rmatch_lang in E. pose proof (maxdots_spec r k s M E). lia.
Qed.

Lemma classify_range : forall s t, forallb is_digit s = true -> s <> [] ->
  forallb is_digit t = true -> no_leading_zero t -> classify (s ++ bs ".." ++ t) = KRange.
Proof.
  intros s t DS NS DT NT. unfold classify.
  assert (D : dots (s ++ bs ".." ++ t) = 2%nat).
  { rewrite !dots_app, (dots_digits s DS), (dots_digits t DT). reflexivity. }
  rewrite (few_dots re_value 0) by (rewrite ?D; auto; lia).
  rewrite (few_dots re_sample_value 1) by (rewrite ?D; auto; lia).
  assert (R : rmatch re_range (s ++ bs ".." ++ t) = true).
  { apply rmatch_lang. unfold re_range. cbn [rseq]. apply LSeq.
    - apply rmatch_lang. exact (lang_digits s DS NS).
    - apply LSeq; [apply lang_rlit; reflexivity|].
      destruct t as [|c t]; [contradiction|]. simpl in NT. cbn [forallb] in DT.
      apply andb_true_iff in DT. destruct DT as [D1 D2].
      apply (LSeq _ _ [c] t).
      + constructor. apply is_digit_val in D1.
        assert (bval c <> 48). { intro H. apply NT. apply bval_inj. rewrite H. reflexivity. }
        lia.
      + apply lang_seq. exists t, []. split; [rewrite app_nil_r; reflexivity|]. split.
        * apply lang_star_set. exact D2.
        * constructor. }
  rewrite R. reflexivity.
Qed.

(** ** Parser *)

Definition enter (ts : list bytes) : res pst := pnext (PSt KEof [] ts).
Lemma pnext_enter : forall t l r, pnext (PSt t l r) = enter r.
Proof. reflexivity. Qed.

(** What may follow a relation. *)
Definition stop_kind (t : ctok) : Prop := t = KEof \/ t = KAnd \/ t = KOr \/ t = KSample.
Definition follows (r : list bytes) : Prop :=
  no_join r /\ exists st, enter r = Ok st /\ stop_kind (p_tok st).

Lemma enter_kw : forall w k l r, cscan (w :: r) = (k, l, r) -> k <> KUnknown ->
  enter (w :: r) = Ok (PSt k l r).
Proof.
  intros w k l r H N. unfold enter, pnext. cbn [p_rest]. rewrite H. destruct k; try reflexivity.
  contradiction.
Qed.

Lemma enter_oper : forall o r, enter (oper_text o :: r) = Ok (PSt KOperand (oper_text o) r).
Proof. intros o r. destruct o; reflexivity. Qed.
Lemma enter_rem : forall w r, w = bs "%" \/ w = bs "mod" ->
  enter (w :: r) = Ok (PSt KRem (bs "%") r).
Proof. intros w r [H|H]; subst; reflexivity. Qed.
Lemma enter_rel : forall (neg : bool) r, enter ((if neg then bs "!=" else bs "=") :: r) =
  Ok (PSt (if neg then KNotEqual else KEqual) (if neg then bs "!=" else bs "=") r).
Proof. intros [] r; reflexivity. Qed.
Lemma enter_and : forall r, enter (bs "and" :: r) = Ok (PSt KAnd (bs "and") r).
Proof. reflexivity. Qed.
Lemma enter_or : forall r, enter (bs "or" :: r) = Ok (PSt KOr (bs "or") r).
Proof. reflexivity. Qed.

Lemma enter_value : forall v s r, writes v s -> no_join r -> enter (s :: r) = Ok (PSt KValue s r).
Proof.
  intros v s r (N & D & _) J. apply all_digits_b in D. destruct s as [|c s]; [contradiction|].
  apply enter_kw; [|discriminate]. rewrite <- (classify_value (c :: s) D N).
  cbn [forallb] in D. apply andb_true_iff in D. apply cscan_digit; tauto.
Qed.

Lemma enter_range : forall a s t r, writes a s -> forallb is_digit t = true -> no_leading_zero t ->
  no_join r -> enter ((s ++ bs ".." ++ t) :: r) = Ok (PSt KRange (s ++ bs ".." ++ t) r).
Proof.
  intros a s t r (N & D & _) DT NT J. apply all_digits_b in D.
  apply enter_kw; [|discriminate]. rewrite <- (classify_range s t D N DT NT).
  destruct s as [|c s]; [contradiction|]. cbn [forallb] in D. apply andb_true_iff in D.
  change ((c :: s) ++ bs ".." ++ t) with (c :: (s ++ bs ".." ++ t)). apply cscan_digit; tauto.
Qed.

Lemma split_dots_none : forall s, forallb is_digit s = true -> split_dots s = [s].
Proof.
  induction s as [|c s IH]; intro D; [reflexivity|]. cbn [forallb] in D.
  apply andb_true_iff in D. destruct D as [D1 D2]. specialize (IH D2).
  destruct s as [|b t]; [reflexivity|]. cbn [split_dots] in *.
  rewrite (digit_neq c "." D1 eq_refl). cbn [andb]. rewrite IH. reflexivity.
Qed.

Lemma split_dots_two : forall s t, forallb is_digit s = true -> forallb is_digit t = true ->
  split_dots (s ++ bs ".." ++ t) = [s; t].
Proof.
  induction s as [|c s IH]; intros t DS DT.
  - change (split_dots ([] ++ bs ".." ++ t)) with ([] :: split_dots t).
    rewrite (split_dots_none t) by exact DT. reflexivity.
  - cbn [forallb] in DS. apply andb_true_iff in DS. destruct DS as [D1 D2]. specialize (IH t D2 DT).
    cbn [app]. destruct (s ++ bs ".." ++ t) as [|b u] eqn:E; [destruct s; discriminate|].
    change (split_dots (c :: b :: u)) with
      (if Ascii.eqb c "." && Ascii.eqb b "." then [] :: split_dots u
       else match split_dots (b :: u) with [] => [[c]] | l :: ls => (c :: l) :: ls end).
    rewrite (digit_neq c "." D1 eq_refl). cbn [andb]. rewrite IH. reflexivity.
Qed.

Lemma parse_value : forall v s, writes v s -> v <= maxInt64 ->
  parse_int_ignore s = v /\ parse_int_err s = Ok v.
Proof.
  intros v s (N & D & E) B. apply all_digits_b in D. split.
  - rewrite parse_int_ignore_digits by (assumption || lia). exact E.
  - unfold parse_int_err. rewrite parse_int_digits by (assumption || lia). rewrite E. reflexivity.
Qed.

Definition elem_int64 (e : elem) : Prop :=
  match e with Val v => v <= maxInt64 | Range a b => a <= maxInt64 /\ b <= maxInt64 end.
Fixpoint cond_int64 (c : cond) : Prop :=
  match c with
  | Rel _ e l => match x_mod e with Some m => m <= maxInt64 | None => True end /\ Forall elem_int64 l
  | And a b | Or a b => cond_int64 a /\ cond_int64 b
  end.

Definition elem_kind (e : elem) : ctok := match e with Val _ => KValue | Range _ _ => KRange end.

Lemma elem_tok_head : forall e t, elem_toks e t -> exists c u, t = c :: u /\ is_digit c = true.
Proof.
  intros e t H. destruct H as [v s (N & D & _)|a b s t (N & D & _) _ _ _];
    apply all_digits_b in D; destruct s as [|c s]; try contradiction; cbn [forallb] in D;
    apply andb_true_iff in D; exists c; eexists; (split; [reflexivity|tauto]).
Qed.

Lemma elem_no_join : forall e t r, elem_toks e t -> no_join (t :: r).
Proof.
  intros e t r H. destruct (elem_tok_head e t H) as (c & u & E & D). subst.
  unfold no_join, mem_b. cbn [bs list_ascii_of_string existsb].
  rewrite !beq_head by (apply digit_neq; [exact D|reflexivity]). reflexivity.
Qed.

Lemma enter_elem : forall e t r, elem_toks e t -> no_join r ->
  enter (t :: r) = Ok (PSt (elem_kind e) t r).
Proof.
  intros e t r H J. destruct H as [v s W|a b s t W (N & D & _) NZ _].
  - exact (enter_value v s r W J).
  - apply all_digits_b in D. exact (enter_range a s t r W D NZ J).
Qed.

Lemma p_elem : forall e t r st, elem_toks e t -> elem_int64 e -> enter r = Ok st ->
  (match elem_kind e with
   | KValue => do vs <- p_value (PSt (elem_kind e) t r) ; Ok (RVal (fst vs), snd vs)
   | KRange => p_range (PSt (elem_kind e) t r)
   | _ => Err
   end) = Ok (node_elem e, st).
Proof.
  intros e t r st H B E. destruct H as [v s W|a b s t W W2 NZ L]; cbn [elem_kind elem_int64] in *.
  - unfold p_value. cbn [p_tok p_lit]. rewrite pnext_enter, E. cbn [rbind fst snd].
    destruct (parse_value v s W B) as [P _]. rewrite P. reflexivity.
  - destruct B as [B1 B2]. unfold p_range. cbn [p_tok p_lit].
    destruct (parse_value a s W B1) as [_ P1]. destruct (parse_value b t W2 B2) as [_ P2].
    destruct W as (N & D & _). destruct W2 as (N2 & D2 & _).
    apply all_digits_b in D. apply all_digits_b in D2.
    rewrite split_dots_two by assumption. rewrite P1. cbn [rbind]. rewrite P2. cbn [rbind].
    destruct (b <? a) eqn:C; [lia|]. rewrite pnext_enter, E. reflexivity.
Qed.

Lemma p_list_ok : forall l ls, Forall2 elem_toks l ls -> forall r st fuel, l <> [] ->
  Forall elem_int64 l -> no_join r -> enter r = Ok st -> stop_kind (p_tok st) ->
  (length ls <= fuel)%nat ->
  exists st0, enter (ls ++ r) = Ok st0 /\ p_list fuel st0 = Ok (map node_elem l, st).
Proof.
  intros l ls F. induction F as [|e t l ls H F IH]; intros r st fuel N B J E K L; [contradiction|].
  inversion B as [|? ? B1 B2]; subst. destruct fuel as [|f]; [simpl in L; lia|].
  destruct F as [|e2 t2 l ls H2 F].
  - exists (PSt (elem_kind e) t r). split; [apply enter_elem; assumption|].
    cbn [p_list p_tok]. rewrite (p_elem e t r st H B1 E). cbn [rbind fst snd map].
    destruct K as [K|[K|[K|K]]]; rewrite K; reflexivity.
  - specialize (IH r st f ltac:(discriminate) B2 J E K ltac:(simpl in *; lia)).
    destruct IH as (st0 & E0 & P). cbn [app] in E0.
    assert (J2 : no_join (t2 :: ls ++ r)) by (apply (elem_no_join e2); assumption).
    exists (PSt (elem_kind e) t (t2 :: ls ++ r)). split.
    { cbn [app]. apply enter_elem; assumption. }
    cbn [p_list p_tok]. rewrite (p_elem e t _ st0 H B1 E0). cbn [rbind fst snd map].
    assert (J3 : no_join (ls ++ r)).
    { destruct F as [|e3 t3 l ls H3 F]; [exact J|]. apply (elem_no_join e3). exact H3. }
    rewrite (enter_elem e2 t2 (ls ++ r) H2 J3) in E0. inversion E0; subst.
    cbn [p_tok map] in *. rewrite P. destruct e2; cbn [elem_kind]; reflexivity.
Qed.

Lemma forall2_no_join : forall l ls r, Forall2 elem_toks l ls -> no_join r -> no_join (ls ++ r).
Proof.
  intros l ls r F J. destruct F as [|e t l ls H F]; [exact J|]. apply (elem_no_join e). exact H.
Qed.

Lemma p_expression_ok : forall e xs r st, expr_toks e xs ->
  match x_mod e with Some m => m <= maxInt64 | None => True end ->
  no_join r -> enter r = Ok st -> p_tok st = KEqual \/ p_tok st = KNotEqual ->
  exists st0, enter (xs ++ r) = Ok st0 /\ p_expression st0 = Ok (CExpr (oper_text (x_op e)) (x_mod e), st).
Proof.
  intros e xs r st H B J E K. destruct H as [o|o m s w W HW]; cbn [x_op x_mod app] in *.
  - eexists. split; [apply enter_oper|]. unfold p_expression. cbn [p_tok p_lit].
    rewrite pnext_enter, E. cbn [rbind]. destruct K as [K|K]; rewrite K; reflexivity.
  - eexists. split; [apply enter_oper|]. unfold p_expression. cbn [p_tok p_lit].
    rewrite pnext_enter, (enter_rem w _ HW). cbn [rbind p_tok].
    rewrite pnext_enter, (enter_value m s r W J). cbn [rbind]. unfold p_value. cbn [p_tok p_lit].
    rewrite pnext_enter, E. cbn [rbind fst snd].
    destruct (parse_value m s W B) as [P _]. rewrite P. reflexivity.
Qed.

Lemma expr_toks_length : forall e xs, expr_toks e xs -> (0 < length xs)%nat.
Proof. intros e xs H. destruct H; simpl; lia. Qed.

Lemma p_relation_ok : forall neg e l xs ls r st fuel, expr_toks e xs -> Forall2 elem_toks l ls ->
  l <> [] -> cond_int64 (Rel neg e l) -> no_join r -> enter r = Ok st -> stop_kind (p_tok st) ->
  (length ls <= fuel)%nat ->
  exists st0, enter (xs ++ (if neg then bs "!=" else bs "=") :: ls ++ r) = Ok st0 /\
    p_relation fuel st0 = Ok (node_of (Rel neg e l), st).
Proof.
  intros neg e l xs ls r st fuel X F N [B1 B2] J E K L.
  destruct (p_list_ok l ls F r st fuel N B2 J E K L) as (s1 & E1 & P1).
  destruct (p_expression_ok e xs ((if neg then bs "!=" else bs "=") :: ls ++ r)
     (PSt (if neg then KNotEqual else KEqual) (if neg then bs "!=" else bs "=") (ls ++ r)) X B1
     ltac:(destruct neg; reflexivity) (enter_rel neg _) ltac:(destruct neg; cbn; auto)) as (s0 & E0 & P0).
  exists s0. split; [exact E0|]. unfold p_relation. rewrite P0. cbn [rbind fst snd p_tok].
  rewrite pnext_enter, E1. cbn [rbind]. rewrite P1. cbn [rbind fst snd node_of].
  destruct neg; reflexivity.
Qed.

Lemma is_and_or : forall c, is_and c -> is_or c.
Proof. intros [| |] H; simpl in *; auto; contradiction. Qed.

Lemma p_andc_ok : forall c ts, cond_toks c ts -> is_and c -> forall r st fuel,
  cond_int64 c -> no_join r -> enter r = Ok st -> stop_kind (p_tok st) -> p_tok st <> KAnd ->
  (length ts <= fuel)%nat ->
  exists st0, enter (ts ++ r) = Ok st0 /\ p_andc fuel st0 = Ok (node_of c, st).
Proof.
  intros c ts H. induction H as [neg e l xs ls X F|a b ta tb Ha IHa Hb IHb|a b ta tb Ha IHa Hb IHb];
    intros A r st fuel B J E K NA L.
  - destruct fuel as [|f]; [rewrite app_length in L; simpl in L; lia|].
    destruct (p_relation_ok neg e l xs ls r st (S f) X F A B J E K) as (s0 & E0 & P0).
    { rewrite app_length in L. simpl in L. lia. }
    exists s0. split; [rewrite <- app_assoc; exact E0|]. cbn [p_andc]. rewrite P0. cbn [rbind fst snd].
    destruct K as [K|[K|[K|K]]]; rewrite K in *; try reflexivity. contradiction.
  - destruct a as [neg e l|a1 a2|a1 a2]; cbn [is_and] in A; try contradiction.
    destruct A as [A1 A2]. destruct B as [B1 B2].
    inversion Ha as [? ? ? xs ls X F EQ1 EQ2| |]; subst.
    rewrite !app_length in L. simpl in L.
    destruct fuel as [|f]; [lia|].
    destruct (IHb A2 r st f B2 J E K NA ltac:(lia)) as (s1 & E1 & P1).
    destruct (p_relation_ok neg e l xs ls (bs "and" :: tb ++ r) (PSt KAnd (bs "and") (tb ++ r)) (S f)
      X F A1 B1 ltac:(reflexivity) (enter_and _) ltac:(unfold stop_kind; cbn [p_tok]; auto)) as (s0 & E0 & P0).
    { lia. }
    exists s0. split.
    { rewrite <- !app_assoc. cbn [app]. exact E0. }
    cbn [p_andc]. rewrite P0. cbn [rbind fst snd p_tok]. rewrite pnext_enter, E1. cbn [rbind].
    rewrite P1. reflexivity.
  - contradiction.
Qed.

Lemma p_cond_ok : forall c ts, cond_toks c ts -> is_or c -> forall r st fuel,
  cond_int64 c -> no_join r -> enter r = Ok st -> p_tok st = KEof \/ p_tok st = KSample ->
  (length ts <= fuel)%nat ->
  exists st0, enter (ts ++ r) = Ok st0 /\ p_cond fuel st0 = Ok (node_of c, st).
Proof.
  intros c ts H. induction H as [neg e l xs ls X F|a b ta tb Ha IHa Hb IHb|a b ta tb Ha IHa Hb IHb];
    intros A r st fuel B J E K L.
  - destruct fuel as [|f]; [rewrite app_length in L; simpl in L; lia|].
    destruct (p_andc_ok _ _ (CT_rel neg e l xs ls X F) A r st (S f) B J E) as (s0 & E0 & P0);
      [unfold stop_kind; tauto|destruct K as [K|K]; rewrite K; discriminate|exact L|].
    exists s0. split; [exact E0|]. cbn [p_cond]. rewrite P0. cbn [rbind snd].
    destruct K as [K|K]; rewrite K; reflexivity.
  - destruct fuel as [|f]; [rewrite app_length in L; simpl in L; lia|].
    destruct (p_andc_ok _ _ (CT_and a b ta tb Ha Hb) A r st (S f) B J E) as (s0 & E0 & P0);
      [unfold stop_kind; tauto|destruct K as [K|K]; rewrite K; discriminate|exact L|].
    exists s0. split; [exact E0|]. cbn [p_cond]. rewrite P0. cbn [rbind snd].
    destruct K as [K|K]; rewrite K; reflexivity.
  - cbn [is_or] in A. destruct A as [A1 A2]. destruct B as [B1 B2].
    rewrite app_length in L. simpl in L.
    destruct fuel as [|f]; [lia|].
    destruct (IHb A2 r st f B2 J E K ltac:(lia)) as (s1 & E1 & P1).
    destruct (p_andc_ok a ta Ha A1 (bs "or" :: tb ++ r) (PSt KOr (bs "or") (tb ++ r)) (S f) B1
      ltac:(reflexivity) (enter_or _) ltac:(unfold stop_kind; cbn [p_tok]; auto) ltac:(discriminate)
      ltac:(lia)) as (s0 & E0 & P0).
    exists s0. split.
    { rewrite <- !app_assoc. cbn [app]. exact E0. }
    cbn [p_cond]. rewrite P0. cbn [rbind fst snd p_tok]. rewrite pnext_enter, E1. cbn [rbind].
    rewrite P1. reflexivity.
Qed.

(** The tokens of a condition are separated by the scanner. *)
Lemma digits_tok : forall s, s <> [] -> forallb is_digit s = true -> tok_ok s.
Proof.
  intros s N D. split; [exact N|]. rewrite forallb_forall in D.
  split; apply forallb_forall; intros c I; apply D in I; apply is_digit_val in I.
  - unfold asciic. lia.
  - unfold sepc, is_space, in_rng. lia.
Qed.
Lemma elem_tok_ok : forall e t, elem_toks e t -> tok_ok t.
Proof.
  intros e t H. destruct H as [v s (N & D & _)|a b s t (N & D & _) (N2 & D2 & _) _ _].
  - apply all_digits_b in D. apply digits_tok; assumption.
  - apply all_digits_b in D. apply all_digits_b in D2.
    destruct (digits_tok s N D) as (_ & A1 & A2). destruct (digits_tok t N2 D2) as (_ & B1 & B2).
    split; [destruct s; discriminate|].
    rewrite !forallb_app, A1, A2, B1, B2. split; reflexivity.
Qed.
Lemma cond_tok_ok : forall c ts, cond_toks c ts -> Forall tok_ok ts.
Proof.
  intros c ts H. induction H as [neg e l xs ls X F|a b ta tb Ha IHa Hb IHb|a b ta tb Ha IHa Hb IHb].
  - apply Forall_app. split.
    + destruct X as [o|o m s w (N & D & _) W].
      * constructor; [|constructor]. destruct o; (split; [discriminate|split; reflexivity]).
      * apply all_digits_b in D.
        constructor; [destruct o; (split; [discriminate|split; reflexivity])|].
        constructor; [destruct W; subst; (split; [discriminate|split; reflexivity])|].
        constructor; [apply digits_tok; assumption|constructor].
    + constructor; [destruct neg; (split; [discriminate|split; reflexivity])|].
      induction F as [|e0 t l ls H F IH]; constructor; [exact (elem_tok_ok _ _ H)|exact IH].
  - apply Forall_app. split; [exact IHa|]. constructor; [split; [discriminate|split; reflexivity]|exact IHb].
  - apply Forall_app. split; [exact IHa|]. constructor; [split; [discriminate|split; reflexivity]|exact IHb].
Qed.

Lemma cond_toks_first : forall c ts, cond_toks c ts -> exists o r, ts = oper_text o :: r.
Proof.
  intros c ts H. induction H as [neg e l xs ls X F|a b ta tb Ha IHa Hb IHb|a b ta tb Ha IHa Hb IHb].
  - destruct X; cbn [app]; eauto.
  - destruct IHa as (o & r & E). subst. cbn [app]. eauto.
  - destruct IHa as (o & r & E). subst. cbn [app]. eauto.
Qed.

(** Condition followed by samples: the condition is the root. *)
Lemma parse_rule_samples : forall c ts sts s fuel sm st0, is_or c -> cond_toks c ts ->
  Forall tok_clean sts -> no_join sts -> enter sts = Ok st0 -> p_tok st0 = KEof \/ p_tok st0 = KSample ->
  spaced (ts ++ sts) s -> cond_int64 c ->
  p_samples fuel (S (length (ts ++ sts))) st0 = Ok sm ->
  parse_rule fuel s = Ok (CRule (Some (node_of c)) sm).
Proof.
  intros c ts sts s fuel sm st0 O T CL NJ E K SP B PS. unfold parse_rule.
  rewrite (tokens_spaced (ts ++ sts) s SP).
  2:{ apply Forall_app. split; [|exact CL]. eapply Forall_impl; [|exact (cond_tok_ok c ts T)].
      intros a H. apply tok_ok_clean. exact H. }
  cbv zeta.
  destruct (p_cond_ok c ts T O sts st0 (S (length (ts ++ sts))) B NJ E K
     ltac:(rewrite app_length; lia)) as (s0 & E0 & P0).
  fold (enter (ts ++ sts)). rewrite E0. cbn [rbind].
  destruct (cond_toks_first c ts T) as (o & r & EQ). subst ts. cbn [app] in E0. rewrite enter_oper in E0.
  inversion E0; subst. cbn [p_tok]. cbn [app] in P0. cbn [app]. rewrite P0. cbn [rbind snd fst].
  cbn [app] in PS. rewrite PS. reflexivity.
Qed.

Lemma parse_rule_ok : forall c ts s fuel, is_or c -> cond_toks c ts -> spaced ts s -> cond_int64 c ->
  parse_rule fuel s = Ok (CRule (Some (node_of c)) []).
Proof.
  intros c ts s fuel O T SP B. apply (parse_rule_samples c ts [] s fuel [] (PSt KEof [] [])); auto.
  - exact I.
  - rewrite app_nil_r. exact SP.
Qed.
