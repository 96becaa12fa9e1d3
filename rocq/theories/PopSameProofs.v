(** The printed form of a header and its symbols. *)
From Coq Require Import String Ascii List ZArith Bool Lia.
From Verif Require Import Base BaseProofs PopModel PopBuiltin PopSpec PopScanProofs PopProofs PopComplete PopBuiltinProofs PopCompile PopSameSpec.
Import ListNotations.
Open Scope Z_scope.

Definition strip1 (x : lexeme) : list symbol :=
  match x with
  | LN => [YN] | LNum ds => [YNum (dec_val ds)] | LQuestion => [YQuestion] | LColon => [YColon]
  | LAnd => [YOp CAnd] | LOr => [YOp COr] | LEq => [YOp CEq] | LNe => [YOp CNe] | LLt => [YOp CLt] | LLe => [YOp CLe]
  | LGt => [YOp CGt] | LGe => [YOp CGe] | LRem => [YOp CRem]
  | _ => []
  end.
Definition strip (ts : list lexeme) : list symbol := flat_map strip1 ts.
Lemma strip_app : forall a b, strip (a ++ b) = strip a ++ strip b.
Proof. intros. apply flat_map_app. Qed.
Lemma strip_cons : forall x b, strip (x :: b) = strip1 x ++ strip b.
Proof. reflexivity. Qed.
Lemma op_symbol : forall lv o op, op_at lv o = Some op -> strip1 o = [YOp op].
Proof. intros lv o op H. destruct lv as [|[|[|[|]]]]; destruct o; try discriminate H; injection H as <-; reflexivity. Qed.
Lemma gram_symbols : forall lv ts e, gram lv ts e -> strip ts = symbols e.
Proof.
  induction 1; cbn [symbols]; rewrite ?strip_cons, ?strip_app, ?strip_cons, ?strip_app, ?strip_cons; try reflexivity; try assumption.
  - cbn [strip1]. change (strip []) with (@nil symbol). cbn. now rewrite !app_nil_r.
  - rewrite (op_symbol _ _ _ H), IHgram1, IHgram2. reflexivity.
  - now rewrite IHgram1, IHgram2.
  - now rewrite IHgram1, IHgram2.
  - now rewrite IHgram1, IHgram2, IHgram3.
Qed.
Lemma ceq_symbols : forall e e', ceq e e' -> symbols e = symbols e'.
Proof. induction 1; cbn [symbols]; try congruence; rewrite <- ?app_assoc; cbn [app]; rewrite <- ?app_assoc; reflexivity. Qed.

Definition shows (s : bytes) (y : list symbol) : Prop := exists ts, lays ts s /\ strip ts = y.
Lemma shows_op : forall x o s t a b, spells x (bs o) -> (forall q, closed x (SP :: q)) -> shows s a -> shows t b ->
  shows (s ++ (SP :: bs o ++ [SP]) ++ t) (a ++ strip1 x ++ b).
Proof.
  intros x o s t a b X C (ts & L & <-) (us & M & <-). exists (ts ++ x :: us). split; [now apply lays_op|].
  now rewrite strip_app, strip_cons.
Qed.
Lemma shows_paren : forall s a, shows s a -> shows (bs "(" ++ s ++ bs ")") a.
Proof.
  intros s a (ts & L & <-). exists (LParen :: ts ++ [RParen]). split; [now apply lays_paren|].
  rewrite strip_cons, strip_app. cbn. now rewrite app_nil_r.
Qed.
Lemma shows_paren_if : forall (c : bool) s a, shows s a -> shows (if c then bs "(" ++ s ++ bs ")" else s) a.
Proof. intros [] s a H; [now apply shows_paren|exact H]. Qed.
Lemma compile_shows : forall a, consts_ok (cx a) -> shows (compile_node a) (symbols (cx a)).
Proof.
  induction a as [v| |o x Hx y Hy|c Hc t Ht f Hf]; intros K.
  - cbn [cx consts_ok] in K. destruct (itoa_digits v) as [D1 [D2 D3]]; [lia|].
    exists [LNum (itoa v)]. split.
    + cbn [compile_node]. rewrite <- (app_nil_r (itoa v)) at 2. apply lays_lex; [|exact I|].
      * split; [reflexivity|auto].
      * constructor. constructor.
    + cbn. now rewrite D3.
  - exists [LN]. split; [|reflexivity]. change (compile_node NOp) with (bs "n" ++ []).
    apply lays_lex; [reflexivity|exact I|]. constructor. constructor.
  - destruct K as [K1 K2]. specialize (Hx K1). specialize (Hy K2).
    destruct o; cbn [cop_of cx symbols]; cbn [compile_node].
    + apply (shows_op LAnd "&&"); try assumption; [reflexivity|intro; exact I].
    + replace (compile_node x ++ bs " || " ++ compile_node y ++ bs ")")
        with ((compile_node x ++ bs " || " ++ compile_node y) ++ bs ")")
        by now rewrite <- !app_assoc.
      apply shows_paren. apply (shows_op LOr "||"); try assumption; [reflexivity|intro; exact I].
    + apply (shows_op LEq "=="); try assumption; [reflexivity|intro; exact I].
    + apply (shows_op LNe "!="); try assumption; [reflexivity|intro; exact I].
    + apply (shows_op LGt ">"); try assumption; [reflexivity|intro; discriminate].
    + apply (shows_op LGe ">="); try assumption; [reflexivity|intro; exact I].
    + apply (shows_op LLt "<"); try assumption; [reflexivity|intro; discriminate].
    + apply (shows_op LLe "<="); try assumption; [reflexivity|intro; exact I].
    + apply (shows_op LRem "%"); try assumption; [reflexivity|intro; exact I].
  - destruct K as [K1 [K2 K3]]. cbn [cx symbols compile_node]. cbv zeta.
    apply (shows_op LQuestion "?"); [reflexivity|intro; exact I|now apply shows_paren_if, Hc|].
    apply (shows_op LColon ":"); [reflexivity|intro; exact I|now apply shows_paren_if, Ht|now apply shows_paren_if, Hf].
Qed.
Lemma compile_start : forall a, consts_ok (cx a) -> exists c q, compile_node a = c :: q /\ c <> "="%char.
Proof.
  assert (L : forall s t, (exists c q, s = c :: q /\ c <> "="%char) -> exists c q, s ++ t = c :: q /\ c <> "="%char).
  { intros s t (c & q & -> & N). exists c, (q ++ t). now split. }
  induction a as [v| |o x Hx y Hy|c Hc t Ht f Hf]; intros K.
  - cbn [cx consts_ok] in K. destruct (itoa_digits v) as [D1 [D2 D3]]; [lia|]. cbn [compile_node].
    destruct (itoa v) as [|c q]; [contradiction|]. exists c, q. split; [reflexivity|]. cbn [forallb] in D2. apply andb_true_iff in D2 as [D2 _]. intros ->. discriminate.
  - now exists "n"%char, [].
  - destruct K as [K1 K2]. specialize (Hx K1). destruct o; cbn [compile_node]; try (apply L; exact Hx).
    apply L. now exists "("%char, [].
  - destruct K as [K1 [K2 K3]]. cbn [compile_node]. cbv zeta. apply L. destruct (_ && _); [apply L; now exists "("%char, []|auto].
Qed.
Lemma compile_header_shows : forall f, consts_ok (cx (f_root f)) -> 0 <= f_nplurals f <= maxInt64 ->
  exists ts, lays ([LNplurals; LAssign; LNum (itoa (f_nplurals f)); LSemi; LPlural; LAssign] ++ ts ++ [LSemi]) (compile_forms f) /\ strip ts = symbols (cx (f_root f)).
Proof.
  intros f K N. destruct (compile_shows _ K) as (ts & L & S). destruct (compile_start _ K) as (c0 & q0 & ST & NE).
  destruct (itoa_digits (f_nplurals f)) as [D1 [D2 D3]]; [lia|].
  exists ts. split; [|exact S].
  unfold compile_forms.
  change (bs "nplurals=") with (bs "nplurals" ++ bs "="). rewrite <- app_assoc.
  simpl app at 1.
  apply lays_lex; [reflexivity|split; [reflexivity|discriminate]|].
  apply lays_lex; [reflexivity| |].
  { destruct (itoa (f_nplurals f)) as [|c q]; [contradiction|]. simpl in D2 |- *.
    apply andb_true_iff in D2 as [D2 _]. intros ->. discriminate. }
  apply lays_lex; [split; [reflexivity|auto]|split; [reflexivity|discriminate]|].
  change (bs "; plural=") with (bs ";" ++ SP :: bs "plural" ++ bs "=").
  rewrite <- app_assoc. apply lays_lex; [reflexivity|exact I|].
  simpl app at 1. apply lays_sp.
  apply (lays_lex LPlural (bs "plural")); [reflexivity|split; [reflexivity|discriminate]|].
  apply (lays_lex LAssign (bs "=")); [reflexivity|rewrite ST; exact NE|].
  apply lays_app; [assumption| |repeat split; try reflexivity; discriminate].
  change (bs ";") with (bs ";" ++ []). apply lays_lex; [reflexivity|exact I|].
  constructor. constructor.
Qed.
Lemma recognised_symbols : forall t np e, header_text t np e -> exists r, parse_rule t = Ok r /\ r_nplurals r = np /\
  ((forall n v, conds01 e n -> csem e n = Some v -> r_form r n = v) \/
   exists k e', In (k, r) raw_table /\ header_text (bs k) np e' /\ symbols e' = symbols e /\ forall n, csem e' n = Some (r_form r n)).
Proof.
  intros t np e H.
  destruct (header_consts _ _ _ H) as [K N].
  destruct (parse_complete _ _ _ H) as [f [E [Nf R]]].
  unfold parse_rule. rewrite E. cbn [rbind].
  destruct (built_in_raw (compile_forms f)) as [r|] eqn:B.
  - exists r. split; [reflexivity|]. destruct (lookup_raw_in _ _ _ B) as (k & KE & IN).
    destruct (built_in_means _ _ B) as [e' [H' S]].
    assert (K' : consts_ok (cx (f_root f))) by now apply (ceq_consts _ _ R).
    destruct (compile_header_shows f K' ltac:(lia)) as (ts & L & Y).
    assert (H2 := H'). destruct H2 as (ls & L' & _ & ds & us & -> & NP & G).
    pose proof (lays_unique _ _ L _ L') as U. cbn [app] in U. injection U as U1 U2. apply app_inj_tail in U2 as [-> _].
    destruct (itoa_digits (f_nplurals f)) as [_ [_ D3]]; [lia|]. assert (RN : r_nplurals r = np) by (rewrite NP, <- U1, D3; congruence).
    split; [exact RN|]. right. exists k, e'. split; [exact IN|]. rewrite KE. split; [rewrite <- RN; exact H'|]. split; [|exact S].
    rewrite <- (gram_symbols _ _ _ G), Y. now apply ceq_symbols.
  - eexists. split; [reflexivity|]. simpl. split; [assumption|]. left.
    intros n v. now apply rep_eval.
Qed.
