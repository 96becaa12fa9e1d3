(** The printed form of a parsed header denotes the same expression, for
    [plain] expressions. *)
From Coq Require Import String Ascii List ZArith Bool Lia.
From Verif Require Import Base BaseProofs PopModel PopBuiltin PopSpec PopScanProofs
  PopProofs PopComplete PopBuiltinProofs.
Import ListNotations.
Open Scope Z_scope.

Lemma ceq_plain : forall e e', ceq e e' -> plain e = plain e' /\ clv e = clv e'.
Proof.
  induction 1; try tauto.
  - destruct IHceq; split; congruence.
  - destruct IHceq1, IHceq2; split; congruence.
  - split; [|reflexivity]. simpl.
    destruct ((clv a <=? 4)%nat), ((clv b <=? 4)%nat), ((clv c <=? 4)%nat), (plain a), (plain b), (plain c); reflexivity.
  - split; [|reflexivity]. simpl.
    destruct ((clv a <=? 4)%nat), ((clv b <=? 4)%nat), ((clv c <=? 4)%nat), (plain a), (plain b), (plain c); reflexivity.
  - destruct IHceq1 as [P1 L1], IHceq2 as [P2 L2]. simpl.
    rewrite P1, P2, L1, L2. auto.
  - destruct IHceq1 as [P1 L1], IHceq2 as [P2 L2], IHceq3 as [P3 L3]. simpl.
    rewrite P1, P2, P3, L1. auto.
Qed.

Fixpoint consts_ok (e : cexp) : Prop :=
  match e with
  | CN => True
  | CV v => 0 <= v <= maxInt64
  | CBin _ a b => consts_ok a /\ consts_ok b
  | CCond c t f => consts_ok c /\ consts_ok t /\ consts_ok f
  end.

Lemma ceq_consts : forall e e', ceq e e' -> (consts_ok e <-> consts_ok e').
Proof. induction 1; simpl in *; tauto. Qed.

Definition digits_only (ts : list lexeme) : Prop :=
  forall ds, In (LNum ds) ts -> ds <> [] /\ forallb is_digit ds = true.

Lemma lays_digits : forall ls t, lays ls t -> digits_only ls.
Proof.
  induction 1 as [|w l s ls rest Hw Hs Hc Hl IH]; intros ds Hd; [contradiction|].
  destruct Hd as [->|Hd]; [|now apply IH]. simpl in Hs. tauto.
Qed.

Definition lits_ok (ts : list lexeme) : Prop :=
  forall ds, In (LNum ds) ts -> 0 <= dec_val ds <= maxInt64.

Lemma lits_app : forall a b, lits_ok (a ++ b) -> lits_ok a /\ lits_ok b.
Proof. intros a b H. split; intros ds Hd; apply H; apply in_or_app; auto. Qed.
Lemma lits_cons : forall a b, lits_ok (a :: b) -> lits_ok b.
Proof. intros a b H ds Hd. apply H. now right. Qed.

Lemma gram_consts : forall lv ts e, gram lv ts e -> lits_ok ts -> consts_ok e.
Proof.
  induction 1; intro F; simpl; auto.
  - apply F. now left.
  - apply lits_cons in F. apply lits_app in F. tauto.
  - apply lits_app in F as [F1 F2]. apply lits_cons in F2. tauto.
  - apply lits_app in F as [F1 F2]. apply lits_cons in F2. tauto.
  - apply lits_app in F as [F1 F2]. apply lits_cons in F2. tauto.
  - apply lits_app in F as [F1 F2]. apply lits_cons in F2.
    apply lits_app in F2 as [F2 F3]. apply lits_cons in F3. tauto.
Qed.

Lemma header_consts : forall t np e, header_text t np e ->
  consts_ok e /\ 0 <= np <= maxInt64.
Proof.
  intros t np e [ls [L [F [ds [ts [-> [-> G]]]]]]].
  pose proof (lays_digits _ _ L) as D.
  assert (Q : lits_ok ([LNplurals; LAssign; LNum ds; LSemi; LPlural; LAssign] ++ ts ++ [LSemi])).
  { intros d Hd. split; [|now apply F]. destruct (D _ Hd) as [_ D2].
    rewrite dec_val_from. apply dec_from_nonneg; [assumption|lia]. }
  split.
  - apply (gram_consts _ _ _ G). apply lits_app in Q as [_ Q]. apply lits_app in Q. tauto.
  - apply Q. simpl. tauto.
Qed.

(** ** Laying out texts *)

Definition safe_head (t : bytes) : Prop :=
  match t with
  | [] => True
  | c :: _ => is_letter c = false /\ is_digit c = false /\ c <> "_"%char /\ c <> "="%char
  end.

Lemma safe_closed : forall x t, safe_head t -> closed x t.
Proof. intros x [|c t] H; [exact I|]. simpl in *. destruct x; tauto. Qed.

Lemma lays_blanks : forall w ls t, Forall blank w -> lays ls t -> lays ls (w ++ t).
Proof.
  intros w ls t Hw H. inversion H as [w' Hw'|w' l s ls' rest Hw' Hs Hc Hl]; subst.
  - constructor. now apply Forall_app.
  - rewrite app_assoc. constructor; auto. now apply Forall_app.
Qed.

Lemma lays_sp : forall ls t, lays ls t -> lays ls (SP :: t).
Proof.
  intros. change (SP :: t) with ([SP] ++ t). apply lays_blanks; auto.
  constructor; [now left|constructor].
Qed.

Lemma lays_lex : forall x s ls t, spells x s -> closed x t -> lays ls t ->
  lays (x :: ls) (s ++ t).
Proof. intros. change (s ++ t) with ([] ++ s ++ t). now constructor. Qed.

Lemma closed_app : forall x a b, closed x a -> safe_head b -> closed x (a ++ b).
Proof. intros x [|c a] b H S; [now apply safe_closed|exact H]. Qed.

Lemma lays_app : forall a s b t, lays a s -> lays b t -> safe_head t ->
  lays (a ++ b) (s ++ t).
Proof.
  induction 1 as [w Hw|w l s ls rest Hw Hs Hc Hl IH]; intros H S; simpl.
  - now apply lays_blanks.
  - rewrite <- !app_assoc. constructor; auto. now apply closed_app.
Qed.

Lemma lays_op : forall x o a s b t, spells x (bs o) -> (forall q, closed x (SP :: q)) ->
  lays a s -> lays b t ->
  lays (a ++ x :: b) (s ++ (SP :: bs o ++ [SP]) ++ t).
Proof.
  intros x o a s b t Hx Hc Ha Hb. apply lays_app; [assumption| |].
  - simpl. apply lays_sp. rewrite <- app_assoc. apply lays_lex; [assumption|apply Hc|].
    now apply lays_sp.
  - repeat split; try reflexivity; discriminate.
Qed.

Lemma lays_paren : forall a s, lays a s -> lays (LParen :: a ++ [RParen]) (bs "(" ++ s ++ bs ")").
Proof.
  intros a s H. apply lays_lex; [reflexivity|now destruct s|].
  apply lays_app; [assumption| |].
  - change (bs ")") with (bs ")" ++ []). apply lays_lex; [reflexivity|exact I|].
    constructor. constructor.
  - repeat split; try reflexivity; discriminate.
Qed.

(** ** Appending chains *)

Lemma gram_and_app : forall lv ts2 b, gram lv ts2 b -> lv = 4%nat ->
  forall ts1 a, gram 4 ts1 a ->
  exists e, gram 4 (ts1 ++ LAnd :: ts2) e /\ ceq e (CBin CAnd a b).
Proof.
  induction 1; intros Hlv ts1' a' HG; try discriminate.
  - subst. injection Hlv as ->. exists (CBin CAnd a' e). split; [|apply ceq_refl].
    now apply g_and.
  - injection Hlv as ->. destruct o; discriminate.
  - destruct (IHgram1 eq_refl ts1' a' HG) as [e' [G C]].
    exists (CBin CAnd e' b). split.
    + replace (ts1' ++ LAnd :: ts1 ++ LAnd :: ts2)
        with ((ts1' ++ LAnd :: ts1) ++ LAnd :: ts2)
        by now rewrite <- app_assoc.
      now apply g_and.
    + eapply ceq_trans; [apply bin_cong; [exact C | apply ceq_refl]|].
      apply and_assoc_c.
Qed.

Lemma gram_up : forall lv k ts e, gram lv ts e -> (lv <= k <= 6)%nat -> gram k ts e.
Proof.
  intros lv k ts e H Hl. replace k with (lv + (k - lv))%nat by lia.
  apply gram_mono; [assumption|lia].
Qed.

Lemma itoa_digits : forall v, 0 <= v -> itoa v <> [] /\ forallb is_digit (itoa v) = true /\
  dec_val (itoa v) = v.
Proof.
  intros v H. unfold itoa. replace (v <? 0) with false by lia. now apply utoa_spec.
Qed.

Lemma gram_head : forall lv ts e, gram lv ts e ->
  match ts with LN :: _ | LNum _ :: _ | LParen :: _ => True | _ => False end.
Proof.
  induction 1; auto.
  - destruct ts1 as [|[] ts1]; simpl; tauto.
  - destruct ts1 as [|[] ts1]; simpl; tauto.
  - destruct ts1 as [|[] ts1]; simpl; tauto.
  - destruct tc as [|[] tc]; simpl; tauto.
Qed.

Definition printed (k : nat) (s : bytes) (e : cexp) : Prop :=
  exists ts e', lays ts s /\ lits_ok ts /\ gram k ts e' /\ ceq e' e.

Lemma printed_up : forall lv k s e, printed lv s e -> (lv <= k <= 6)%nat -> printed k s e.
Proof.
  intros lv k s e [ts [e' [L [F [G C]]]]] H. exists ts, e'.
  split; [assumption|]. split; [assumption|]. split; [now apply gram_up with lv|assumption].
Qed.

Lemma lits_app2 : forall a b, lits_ok a -> lits_ok b -> lits_ok (a ++ b).
Proof. intros a b Ha Hb ds Hd. apply in_app_or in Hd as [Hd|Hd]; auto. Qed.
Lemma lits_cons2 : forall x b, (forall ds, x <> LNum ds) -> lits_ok b -> lits_ok (x :: b).
Proof. intros x b Hx Hb ds [Hd|Hd]; [now apply Hx in Hd|auto]. Qed.

Lemma printed_paren : forall s e, printed 6 s e -> printed 0 (bs "(" ++ s ++ bs ")") e.
Proof.
  intros s e [ts [e' [L [F [G C]]]]]. exists (LParen :: ts ++ [RParen]), e'.
  split; [now apply lays_paren|]. split; [|split; [now apply g_paren|assumption]].
  apply lits_cons2; [discriminate|]. apply lits_app2; [assumption|].
  intros ds [H|[]]. discriminate.
Qed.

Lemma printed_bin : forall lv x o op s t a b,
  op_at (S lv) x = Some op -> spells x (bs o) -> (forall q, closed x (SP :: q)) ->
  printed lv s a -> printed lv t b ->
  printed (S lv) (s ++ (SP :: bs o ++ [SP]) ++ t) (CBin op a b).
Proof.
  intros lv x o op s t a b Ho Hx Hc [t1 [e1 [L1 [F1 [G1 C1]]]]] [t2 [e2 [L2 [F2 [G2 C2]]]]].
  exists (t1 ++ x :: t2), (CBin op e1 e2).
  split; [now apply lays_op|]. split; [|split; [now apply g_bin|now apply bin_cong]].
  apply lits_app2; auto. apply lits_cons2; auto. intros ds ->.
  destruct lv as [|[|[|]]]; discriminate.
Qed.

Lemma printed_and : forall s t a b, printed 4 s a -> printed 4 t b ->
  printed 4 (s ++ bs " && " ++ t) (CBin CAnd a b).
Proof.
  intros s t a b [t1 [e1 [L1 [F1 [G1 C1]]]]] [t2 [e2 [L2 [F2 [G2 C2]]]]].
  destruct (gram_and_app _ _ _ G2 eq_refl _ _ G1) as [e [G C]].
  exists (t1 ++ LAnd :: t2), e. split; [apply (lays_op LAnd "&&"); auto; reflexivity|].
  split; [|split; [assumption|]].
  - apply lits_app2; auto. apply lits_cons2; auto. discriminate.
  - eapply ceq_trans; [exact C|]. now apply bin_cong.
Qed.

Lemma gram_or_app : forall ts1 ts2 a b, gram 4 ts2 b -> gram 4 ts1 a ->
  gram 5 (ts1 ++ LOr :: ts2) (CBin COr a b).
Proof. intros. apply g_or; [apply g_up; [lia|assumption]|assumption]. Qed.

Lemma printed_or : forall s t a b, printed 4 s a -> printed 4 t b ->
  printed 5 (s ++ bs " || " ++ t) (CBin COr a b).
Proof.
  intros s t a b [t1 [e1 [L1 [F1 [G1 C1]]]]] [t2 [e2 [L2 [F2 [G2 C2]]]]].
  exists (t1 ++ LOr :: t2), (CBin COr e1 e2).
  split; [apply (lays_op LOr "||"); auto; reflexivity|].
  split; [|split; [now apply gram_or_app|now apply bin_cong]].
  apply lits_app2; auto. apply lits_cons2; auto. discriminate.
Qed.

Lemma printed_cond : forall s t u a b c, printed 5 s a -> printed 6 t b -> printed 6 u c ->
  printed 6 (s ++ bs " ? " ++ t ++ bs " : " ++ u) (CCond a b c).
Proof.
  intros s t u a b c [t1 [e1 [L1 [F1 [G1 C1]]]]] [t2 [e2 [L2 [F2 [G2 C2]]]]]
    [t3 [e3 [L3 [F3 [G3 C3]]]]].
  exists (t1 ++ LQuestion :: t2 ++ LColon :: t3), (CCond e1 e2 e3).
  split; [|split; [|split; [now apply g_cond|now apply cond_cong]]].
  - apply (lays_op LQuestion "?"); [reflexivity|intro; exact I|assumption|].
    apply (lays_op LColon ":"); auto; reflexivity.
  - apply lits_app2; auto. apply lits_cons2; [discriminate|].
    apply lits_app2; auto. apply lits_cons2; auto. discriminate.
Qed.

Lemma compile_printed : forall a, plain (cx a) = true -> consts_ok (cx a) ->
  printed (clv (cx a)) (compile_node a) (cx a).
Proof.
  induction a as [v| |o x Hx y Hy|c Hc t Ht f Hf]; intros P K.
  - simpl in K |- *. destruct (itoa_digits v) as [D1 [D2 D3]]; [lia|].
    exists [LNum (itoa v)], (CV (dec_val (itoa v))).
    split; [|split; [|split; [constructor|rewrite D3; apply ceq_refl]]].
    + rewrite <- (app_nil_r (itoa v)) at 2. apply lays_lex; [|exact I|].
      * split; [reflexivity|auto].
      * constructor. constructor.
    + intros ds [H|[]]. injection H as <-. rewrite D3. lia.
  - exists [LN], CN. split; [|split; [|split; [constructor|apply ceq_refl]]].
    + change (compile_node NOp) with (bs "n" ++ []).
      apply lays_lex; [reflexivity|exact I|]. constructor. constructor.
    + intros ds [H|[]]. discriminate.
  - simpl in P. destruct K as [K1 K2].
    repeat (apply andb_true_iff in P as [P ?]).
    specialize (Hx ltac:(assumption) K1). specialize (Hy ltac:(assumption) K2).
    apply Nat.leb_le in P. match goal with H : (_ <=? _)%nat = true |- _ => apply Nat.leb_le in H; rename H into Q end.
    destruct o; cbn [cop_of clv cx] in *; cbn [compile_node].
    + apply printed_and; eapply printed_up; eauto; lia.
    + replace (compile_node x ++ bs " || " ++ compile_node y ++ bs ")")
        with ((compile_node x ++ bs " || " ++ compile_node y) ++ bs ")")
        by now rewrite <- !app_assoc.
      apply printed_paren. apply printed_up with 5%nat; [|lia].
      apply printed_or; eapply printed_up; eauto; lia.
    + apply (printed_bin 2 LEq "=="); [reflexivity|reflexivity|intro; exact I|..];
        eapply printed_up; eauto; lia.
    + apply (printed_bin 2 LNe "!="); [reflexivity|reflexivity|intro; exact I|..];
        eapply printed_up; eauto; lia.
    + apply (printed_bin 1 LGt ">"); [reflexivity|reflexivity|intro; discriminate|..];
        eapply printed_up; eauto; lia.
    + apply (printed_bin 1 LGe ">="); [reflexivity|reflexivity|intro; exact I|..];
        eapply printed_up; eauto; lia.
    + apply (printed_bin 1 LLt "<"); [reflexivity|reflexivity|intro; discriminate|..];
        eapply printed_up; eauto; lia.
    + apply (printed_bin 1 LLe "<="); [reflexivity|reflexivity|intro; exact I|..];
        eapply printed_up; eauto; lia.
    + apply (printed_bin 0 LRem "%"); [reflexivity|reflexivity|intro; exact I|..];
        eapply printed_up; eauto; lia.
  - simpl in P. destruct K as [K1 [K2 K3]].
    repeat (apply andb_true_iff in P as [P ?]). apply Nat.leb_le in P.
    specialize (Hc ltac:(assumption) K1). specialize (Ht ltac:(assumption) K2).
    specialize (Hf ltac:(assumption) K3).
    assert (B : forall e, (clv e <= 6)%nat) by (intros [| |[]|]; simpl; lia).
    cbn [cx clv compile_node]. cbv zeta. apply printed_cond.
    + destruct (_ && _).
      * apply printed_up with 0%nat; [|lia]. apply printed_paren.
        eapply printed_up; eauto; try lia.
      * eapply printed_up; [exact Hc|lia].
    + destruct (1 <? _).
      * apply printed_up with 0%nat; [|lia]. apply printed_paren.
        eapply printed_up; [eassumption|split; [apply B|lia]].
      * eapply printed_up; [eassumption|split; [apply B|lia]].
    + destruct (1 <? _).
      * apply printed_up with 0%nat; [|lia]. apply printed_paren.
        eapply printed_up; [eassumption|split; [apply B|lia]].
      * eapply printed_up; [eassumption|split; [apply B|lia]].
Qed.

Lemma compile_header : forall f, plain (cx (f_root f)) = true ->
  consts_ok (cx (f_root f)) -> 0 <= f_nplurals f <= maxInt64 ->
  exists e, header_text (compile_forms f) (f_nplurals f) e /\ ceq e (cx (f_root f)).
Proof.
  intros f P K N. destruct (compile_printed _ P K) as [ts [e [L [F [G C]]]]].
  destruct (itoa_digits (f_nplurals f)) as [D1 [D2 D3]]; [lia|].
  exists e. split; [|assumption].
  exists ([LNplurals; LAssign; LNum (itoa (f_nplurals f)); LSemi; LPlural; LAssign] ++ ts ++ [LSemi]).
  split; [|split].
  - unfold compile_forms.
    change (bs "nplurals=") with (bs "nplurals" ++ bs "="). rewrite <- app_assoc.
    simpl app at 1.
    apply lays_lex; [reflexivity|split; [reflexivity|discriminate]|].
    apply lays_lex; [reflexivity| |].
    { destruct (itoa (f_nplurals f)) as [|c q]; [contradiction|]. simpl in D2 |- *.
      apply andb_true_iff in D2 as [D2 _]. intros ->. discriminate. }
    apply lays_lex; [split; [reflexivity|auto]|split; [reflexivity|discriminate]|].
    change (bs "; plural=") with (bs ";" ++ SP :: bs "plural" ++ bs "=").
    rewrite <- app_assoc. apply lays_lex; [reflexivity|exact I|].
    simpl app at 1. apply lays_sp.
    apply (lays_lex LPlural (bs "plural")); [reflexivity|split; [reflexivity|discriminate]|].
    apply (lays_lex LAssign (bs "=")); [reflexivity| |].
    { inversion L as [w Hw|w l s ls rest Hw Hs Hc Hl]; subst.
      - apply gram_ne in G. simpl in G. lia.
      - destruct w as [|c w].
        + pose proof (spells_nonempty _ _ Hs). destruct s as [|c s]; [contradiction|].
          simpl. intros ->. apply gram_head in G. destruct l; try contradiction; simpl in Hs.
          * injection Hs as Hs. discriminate.
          * destruct Hs as [<- [_ Hs]]. discriminate.
          * discriminate.
        + simpl. inversion Hw as [|? ? B]; subst. destruct B as [->|[->| ->]]; discriminate. }
    apply lays_app; [assumption| |repeat split; try reflexivity; discriminate].
    change (bs ";") with (bs ";" ++ []). apply lays_lex; [reflexivity|exact I|].
    constructor. constructor.
  - intros ds Hd. assert (Q : lits_ok ([LNplurals; LAssign; LNum (itoa (f_nplurals f)); LSemi; LPlural; LAssign] ++ ts ++ [LSemi])).
    { repeat (apply lits_cons2; [discriminate|]).
      intros d [H|H]; [injection H as <-; lia|].
      revert d H. change (lits_ok (LSemi :: LPlural :: LAssign :: ts ++ [LSemi])).
      repeat (apply lits_cons2; [discriminate|]). apply lits_app2; [assumption|].
      apply lits_cons2; [discriminate|]. intros d []. }
    now apply Q.
  - exists (itoa (f_nplurals f)), ts. split; [reflexivity|]. split; [now rewrite D3|].
    apply gram_up with (1 := G). split; [|lia].
    destruct (cx (f_root f)) as [| |[]|]; simpl; lia.
Qed.

(** ** Recognition of built-ins *)

Theorem recognition : forall t np e, header_text t np e -> plain e = true ->
  exists r, parse_rule t = Ok r /\ r_nplurals r = np /\
    forall n v, conds01 e n -> csem e n = Some v -> r_form r n = v.
Proof.
  intros t np e H P.
  destruct (header_consts _ _ _ H) as [K N].
  destruct (parse_complete _ _ _ H) as [f [E [Nf R]]].
  unfold parse_rule. rewrite E. cbn [rbind].
  destruct (built_in_raw (compile_forms f)) as [r|] eqn:B.
  - exists r. split; [reflexivity|].
    destruct (built_in_means _ _ B) as [e' [H' S]].
    assert (P' : plain (cx (f_root f)) = true) by (destruct (ceq_plain _ _ R); congruence).
    assert (K' : consts_ok (cx (f_root f))) by now apply (ceq_consts _ _ R).
    destruct (compile_header f P' K') as [e'' [H'' C]]; [lia|].
    destruct (header_text_unique _ _ _ _ _ H' H'') as [N' C'].
    split; [congruence|]. intros n v _ Hv.
    assert (Q : ceq e' e).
    { eapply ceq_trans; [exact C'|]. eapply ceq_trans; [exact C|exact R]. }
    destruct (ceq_sem _ _ Q n) as [Q1 _]. rewrite S in Q1. congruence.
  - eexists. split; [reflexivity|]. simpl. split; [assumption|].
    intros n v. now apply rep_eval.
Qed.
