(** Where the parser stands when it gives an error. *)
From Coq Require Import String Ascii List ZArith Bool Lia.
From Verif Require Import Base StrModel PoStrModel PoFileModel PoStateModel PoLineSpec.
From Verif Require PoLineProofs.
From Verif Require Import PoStateProofs.
Import ListNotations.
Open Scope Z_scope.

(** ** Tokens of the lines read so far *)
Fixpoint scan_end (ign : bool) (last : ptok) (blank : bool) (ls : list bytes) : ptok * bool :=
  match ls with
  | [] => (last, blank)
  | l :: ls' =>
      if is_nil (trim_space l) then
        if blank then scan_end ign last true ls' else scan_end ign TWs true ls'
      else match scan_line ign last (trim_space l) with
           | None => scan_end ign last false ls'
           | Some k => scan_end ign k false ls'
           end
  end.
Lemma scan_all_app : forall ign a b last blank,
  scan_all ign last blank (a ++ b) =
    scan_all ign last blank a ++ scan_all ign (fst (scan_end ign last blank a)) (snd (scan_end ign last blank a)) b.
Proof.
  intros ign. induction a as [|l a IH]; intros b last blank; [reflexivity|]. cbn [app scan_all scan_end]. cbv zeta.
  destruct (is_nil (trim_space l)); [destruct blank; cbn [app]; now rewrite IH|].
  destruct (scan_line ign last (trim_space l)); cbn [app]; now rewrite IH.
Qed.
Lemma scan_end_app : forall ign a b last blank,
  scan_end ign last blank (a ++ b) = scan_end ign (fst (scan_end ign last blank a)) (snd (scan_end ign last blank a)) b.
Proof.
  intros ign. induction a as [|l a IH]; intros b last blank; [reflexivity|]. cbn [app scan_end].
  destruct (is_nil (trim_space l)); [destruct blank; apply IH|]. destruct (scan_line ign last (trim_space l)); apply IH.
Qed.

Lemma scan_line_ws : forall ign last l, scan_line ign last l <> Some TWs.
Proof.
  intros ign last [|c l]; [discriminate|]. unfold scan_line. destruct (Ascii.eqb c "#").
  - unfold scan_comment. destruct l as [|c2 rest]; [destruct ign; discriminate|].
    repeat match goal with |- context [if ?b then _ else _] => destruct b end; try discriminate. destruct last; discriminate.
  - unfold scan_message. repeat match goal with |- context [if ?b then _ else _] => destruct b end; try discriminate. destruct last; discriminate.
Qed.

Section At.
  Variable ign : bool.
  Variable all : list bytes.
  Notation toks := (scan_all ign TEof false).
  Notation tend := (scan_end ign TEof false).

  Definition pend (s : scanner) : list bytes := if sc_n s then [sc_text s] else [].
  (** The lines [b] are behind the scanner, they gave the tokens [D]. *)
  Definition sc_at (s : scanner) (D : list (ptok * bytes)) : Prop :=
    exists b, all = b ++ sc_lines s /\ sc_ign s = ign /\ toks b = D /\ Z.of_nat (length (b ++ pend s)) = sc_pos s /\
      (sc_lines s = [] \/ exists bl, tend b = (sc_last s, bl) /\ (bl = true -> exists l r, sc_lines s = l :: r /\ is_nil (trim_space l) = false)).
  (** A token of a line: where it is. *)
  Definition stands (s : scanner) (D : list (ptok * bytes)) (t : ptok * bytes) : Prop :=
    exists b, all = b ++ sc_text s :: sc_rest s /\ sc_pos s = Z.of_nat (S (length b)) /\ toks b = D /\ toks (b ++ [sc_text s]) = D ++ [t].

  (** The token scanned last: the lines [w] gave it, those before it the tokens [D]. *)
  Definition blank_text (l : bytes) : Prop := is_nil (trim_space l) = true.
  Definition tight (s : scanner) (D : list (ptok * bytes)) (t : ptok * bytes) : Prop :=
    exists a w, all = a ++ w ++ sc_lines s /\ toks a = D /\ toks (a ++ w) = D ++ [t] /\ sc_pos s = Z.of_nat (length (a ++ w ++ pend s)) /\
      (fst t <> TWs /\ w = [sc_text s] /\ sc_n s = false \/
       fst t = TWs /\ w <> [] /\ Forall blank_text w /\ (sc_lines s = [] /\ sc_text s = [] \/ sc_n s = true /\ is_nil (trim_space (sc_text s)) = false)).

  Lemma lines_pend : forall s, sc_lines s = pend s ++ sc_rest s.
  Proof. intros s. unfold sc_lines, pend. destruct (sc_n s); reflexivity. Qed.
  Lemma sc_read_at : forall s,
    match sc_lines s with
    | [] => exists s1, sc_read s = (None, s1) /\ sc_lines s1 = [] /\ sc_last s1 = sc_last s /\ sc_ign s1 = sc_ign s /\ pend s1 = pend s /\ sc_pos s1 = sc_pos s /\ sc_text s1 = []
    | l :: r => exists s1, sc_read s = (Some l, s1) /\ sc_lines s1 = r /\ sc_lines (sc_unread s1) = l :: r /\
        sc_last s1 = sc_last s /\ sc_ign s1 = sc_ign s /\ sc_n s1 = false /\ sc_text s1 = l /\ sc_rest s1 = r /\
        sc_pos s1 = sc_pos s + 1 - Z.of_nat (length (pend s))
    end.
  Proof.
    intros [r t n la po ig]. unfold sc_lines, sc_read, sc_unread, pend. cbn [sc_n sc_text sc_rest sc_last sc_pos sc_ign].
    destruct n; cbn [sc_n sc_text sc_rest sc_last sc_pos sc_ign length];
      [eexists; split; [reflexivity|]; repeat split; auto; cbn [sc_pos]; lia|].
    destruct r; eexists; (split; [reflexivity|]); repeat split; auto; cbn [sc_pos]; lia.
  Qed.

  (** scanWhitespace passes the blank lines. *)
  Lemma sc_white_at : forall fuel s b, (length (sc_lines s) < fuel)%nat -> all = b ++ sc_lines s -> sc_ign s = ign ->
    Z.of_nat (length (b ++ pend s)) = sc_pos s -> tend b = (TWs, true) ->
    exists s1, sc_white fuel s = Ok s1 /\ sc_at (sc_set_last s1 TWs) (toks b) /\
      exists w, all = b ++ w ++ sc_lines s1 /\ toks (b ++ w) = toks b /\ sc_pos s1 = Z.of_nat (length (b ++ w ++ pend s1)) /\ Forall blank_text w /\
        (sc_lines s1 = [] /\ sc_text s1 = [] \/ sc_n s1 = true /\ is_nil (trim_space (sc_text s1)) = false).
  Proof.
    induction fuel as [|f IH]; intros s b L A I P E; [lia|]. cbn [sc_white]. pose proof (sc_read_at s) as R.
    destruct (sc_lines s) as [|l r] eqn:SL.
    - destruct R as (s1 & -> & E1 & _ & I1 & P1 & O1 & X1). exists s1. split; [reflexivity|]. split.
      + exists b. change (sc_lines (sc_set_last s1 TWs)) with (sc_lines s1). change (pend (sc_set_last s1 TWs)) with (pend s1).
        cbn [sc_set_last sc_ign sc_last sc_pos]. rewrite E1, P1, O1, I1. auto 10.
      + exists []. rewrite E1, P1, O1. cbn [app]. split; [exact A|]. split; [now rewrite app_nil_r|]. split; [auto|]. split; [constructor|]. auto.
    - destruct R as (s1 & -> & E1 & EU & _ & I1 & N1 & T1 & R1 & O1). rewrite blank_line. cbn [length] in L.
      assert (PL : Z.of_nat (length (b ++ [l])) = sc_pos s1).
      { rewrite O1, <- P, !app_length. cbn [length]. lia. }
      assert (P1 : pend s1 = []) by (unfold pend; now rewrite N1).
      destruct (is_nil (trim_space l)) eqn:B.
      + destruct (IH s1 (b ++ [l])) as (s2 & -> & S2 & w & W1 & W2 & W3 & W4 & W5).
        * rewrite E1. lia.
        * rewrite E1, <- app_assoc. exact A.
        * congruence.
        * rewrite P1, app_nil_r. exact PL.
        * rewrite scan_end_app, E. cbn [fst snd scan_end]. now rewrite B.
        * assert (TB : toks (b ++ [l]) = toks b) by (rewrite scan_all_app, E; cbn [fst snd scan_all]; now rewrite B, app_nil_r).
          exists s2. split; [reflexivity|]. split; [rewrite TB in S2; exact S2|].
          exists (l :: w). rewrite <- app_assoc in W1, W2, W3. cbn [app] in W1, W2, W3. rewrite TB in W2. repeat split; auto.
      + exists (sc_unread s1). split; [reflexivity|]. split; [|exists []; cbn [app];
          split; [rewrite EU; exact A|]; split; [now rewrite app_nil_r|]; split;
            [change (pend (sc_unread s1)) with [sc_text s1]; rewrite T1; symmetry; exact PL|]; split; [constructor|]; right; cbn [sc_unread sc_n sc_text]; rewrite T1; auto].
        exists b.
        change (sc_lines (sc_set_last (sc_unread s1) TWs)) with (sc_lines (sc_unread s1)).
        change (pend (sc_set_last (sc_unread s1) TWs)) with [sc_text s1].
        cbn [sc_set_last sc_unread sc_ign sc_last sc_pos]. rewrite EU, T1.
        split; [exact A|]. split; [congruence|]. split; [reflexivity|]. split; [exact PL|].
        right. exists true. split; [exact E|]. intros _. eauto.
  Qed.

  Lemma sc_scan_at : forall fuel s D, (length (sc_lines s) < fuel)%nat -> sc_at s D ->
    exists k l s1, sc_scan fuel s = Ok (k, l, s1) /\ sc_last s1 = k /\
      (k = TEof /\ sc_at s1 D /\ toks all = D /\ sc_lines s1 = [] /\ sc_text s1 = [] \/
       k <> TEof /\ sc_at s1 (D ++ [(k, l)]) /\ (k <> TWs -> stands s1 D (k, l)) /\ tight s1 D (k, l)).
  Proof.
    induction fuel as [|f IH]; intros s D L (b & A & I & TD & P & LA); [lia|]. cbn [sc_scan]. pose proof (sc_read_at s) as R.
    destruct (sc_lines s) as [|l r] eqn:SL.
    - destruct R as (s1 & -> & E1 & _ & I1 & P1 & O1 & X1). cbn [rbind]. do 3 eexists. split; [reflexivity|]. split; [reflexivity|]. left.
      split; [reflexivity|]. split; [|split; [rewrite A, app_nil_r; exact TD|split; [exact E1|exact X1]]]. exists b.
      change (sc_lines (sc_set_last s1 TEof)) with (sc_lines s1). change (pend (sc_set_last s1 TEof)) with (pend s1).
      cbn [sc_set_last sc_ign sc_last sc_pos]. rewrite E1, P1, O1, I1. auto 10.
    - destruct R as (s1 & -> & E1 & EU & La1 & I1 & N1 & T1 & R1 & O1). cbn [length] in L. cbv zeta.
      destruct LA as [LA|(bl & E & NB)]; [discriminate LA|].
      assert (PL : Z.of_nat (length (b ++ [l])) = sc_pos s1).
      { rewrite O1, <- P, !app_length. cbn [length]. lia. }
      assert (P1 : pend s1 = []) by (unfold pend; now rewrite N1).
      assert (A1 : all = (b ++ [l]) ++ sc_lines s1) by (rewrite E1, <- app_assoc; exact A).
      destruct (is_nil (trim_space l)) eqn:B.
      + destruct bl; [destruct (NB eq_refl) as (l0 & r0 & Q & Q1); injection Q as <- <-; congruence|].
        assert (EB : tend (b ++ [l]) = (TWs, true)) by (rewrite scan_end_app, E; cbn [fst snd scan_end]; now rewrite B).
        assert (TB : toks (b ++ [l]) = D ++ [(TWs, [])]) by (rewrite scan_all_app, E, TD; cbn [fst snd scan_all]; cbv zeta; now rewrite B).
        destruct (sc_white_at f s1 (b ++ [l])) as (s2 & W & S2 & w & W1 & W2 & W3 & W4 & W5); [rewrite E1; lia|exact A1|congruence|rewrite P1, app_nil_r; exact PL|exact EB|].
        exists TWs, [], (sc_set_last s2 TWs). split; [rewrite W; destruct (is_nil l); reflexivity|]. split; [reflexivity|]. right.
        split; [discriminate|]. rewrite TB in S2. split; [exact S2|]. split; [congruence|].
        exists b, (l :: w). rewrite <- app_assoc in W1, W2, W3. cbn [app] in W1, W2, W3. rewrite TB in W2.
        split; [exact W1|]. split; [exact TD|]. split; [exact W2|]. split; [exact W3|]. right.
        split; [reflexivity|]. split; [discriminate|]. split; [constructor; [exact B|exact W4]|]. exact W5.
      + assert (N : is_nil l = false) by (destruct l; [rewrite trim_nil in B; discriminate|reflexivity]). rewrite N, La1, I1, I.
        destruct (scan_line ign (sc_last s) (trim_space l)) as [k|] eqn:SC.
        * cbn [rbind]. do 3 eexists. split; [reflexivity|]. split; [reflexivity|]. right.
          split; [intros ->; now apply scan_line_eof in SC|].
          assert (TB : toks (b ++ [l]) = D ++ [(k, trim_space l)]).
          { rewrite scan_all_app, E, TD. cbn [fst snd scan_all]. cbv zeta. now rewrite B, SC. }
          split.
          -- exists (b ++ [l]). change (sc_lines (sc_set_last s1 k)) with (sc_lines s1). change (pend (sc_set_last s1 k)) with (pend s1).
             cbn [sc_set_last sc_ign sc_last sc_pos]. rewrite P1, app_nil_r. split; [exact A1|]. split; [congruence|]. split; [exact TB|].
             split; [exact PL|]. right. exists false. split; [|discriminate].
             rewrite scan_end_app, E. cbn [fst snd scan_end]. now rewrite B, SC.
          -- split.
             ++ intros _. exists b. cbn [sc_set_last sc_text sc_rest sc_pos]. rewrite T1, R1. split; [exact A|]. split; [|auto].
                rewrite <- PL, app_length. cbn [length]. f_equal. lia.
             ++ exists b, [l]. change (sc_lines (sc_set_last s1 k)) with (sc_lines s1). change (pend (sc_set_last s1 k)) with (pend s1).
                cbn [sc_set_last sc_text sc_n sc_pos fst]. rewrite P1, E1, app_nil_r. split; [exact A|]. split; [exact TD|]. split; [exact TB|].
                split; [auto|]. left. split; [intros ->; now apply scan_line_ws in SC|]. split; [now rewrite T1|exact N1].
        * destruct (IH s1 D) as (k & x & s2 & -> & La2 & H).
          -- rewrite E1. lia.
          -- exists (b ++ [l]). rewrite P1, app_nil_r. split; [exact A1|]. split; [congruence|].
             split; [rewrite scan_all_app, E, TD; cbn [fst snd scan_all]; cbv zeta; now rewrite B, SC, app_nil_r|]. split; [exact PL|].
             right. exists false. split; [|discriminate]. rewrite scan_end_app, E. cbn [fst snd scan_end]. rewrite B, SC. now rewrite La1.
          -- cbn [rbind]. exists k, x, s2. rewrite set_last_same by exact La2. auto.
  Qed.

  (** ** Parser *)
  Notation tgood := PoLineProofs.good.
  Definition back (p : parser) : list (ptok * bytes) :=
    if p_n p then match p_last p with TEof => [] | _ => [(p_last p, p_lit p)] end else [].
  Definition back_ok (p : parser) (D : list (ptok * bytes)) : Prop :=
    back p = [] /\ (p_n p = true -> toks all = D) \/ p_last p = TWs \/ stands (p_s p) D (p_last p, p_lit p).
  (** The tokens [D] were taken, they are all understood. *)
  Definition p_tight (p : parser) (D : list (ptok * bytes)) : Prop :=
    D ++ back p = [] \/ p_last p = TEof /\ sc_lines (p_s p) = [] /\ sc_text (p_s p) = [] \/
    p_last p <> TEof /\ exists D', tight (p_s p) D' (p_last p, p_lit p).
  Definition p_at (k : nat) (p : parser) (D : list (ptok * bytes)) : Prop :=
    Forall tgood D /\ sc_at (p_s p) (D ++ back p) /\ back_ok p D /\ p_tight p D /\ (length (sc_lines (p_s p)) < k)%nat.
  Definition bad_line (n : Z) (l : bytes) : Prop :=
    exists a c, all = a ++ l :: c /\ n = Z.of_nat (S (length a)) /\ Forall tgood (toks a) /\ ~ Forall tgood (toks (a ++ [l])).
  Definition err_at (e : perr) : Prop :=
    match e with
    | EPos n l => bad_line n l
    | EIndex n => exists l, bad_line n l
    | _ => True
    end.

  Lemma eof_not_token : forall ls l, ~ In (TEof, l) (toks ls).
  Proof.
    intros ls l. generalize TEof at 2 as last. generalize false as bl. induction ls as [|x ls IH]; intros bl last; [auto|].
    cbn [scan_all]. cbv zeta. destruct (is_nil (trim_space x)).
    - destruct bl; [apply IH|]. intros [H|H]; [discriminate H|now apply IH in H].
    - destruct (scan_line ign last (trim_space x)) as [k|] eqn:S; [|apply IH]. intros [H|H]; [|now apply IH in H].
      injection H as -> _. now apply scan_line_eof in S.
  Qed.
  Lemma p_scan_at : forall k p D, p_at k p D ->
    exists t l p1, p_scan k p = OGot (t, l) p1 /\
      (t = TEof /\ p_at k p1 D /\ p_at k (p_unscan p1) D /\ toks all = D \/
       t <> TEof /\ p_at k (p_unscan p1) D /\ (t <> TWs -> stands (p_s p1) D (t, l)) /\
         (tgood (t, l) -> p_at k p1 (D ++ [(t, l)]))).
  Proof.
    intros k [s la li n h mp ig me] D (F & S & B & PT & L). unfold p_at, p_tight, back_ok, back, p_scan, p_unscan in *.
    cbn [p_s p_last p_lit p_n] in *.
    destruct n; [cbn [p_s p_last p_lit p_n]|].
    - exists la, li. eexists. split; [reflexivity|]. cbn [p_s p_last p_lit p_n].
      assert (C : la = TEof \/ (la <> TEof /\ match la with TEof => [] | _ => [(la, li)] end = [(la, li)])).
      { destruct la; auto; right; (split; [discriminate|reflexivity]). }
      destruct C as [->|[NE C]].
      + left. rewrite !app_nil_r in *. assert (X : toks all = D) by (destruct B as [[_ B]|[B|(b & _ & _ & TB & TL)]]; [auto|discriminate B|]; exfalso;
          pose proof (eof_not_token (b ++ [sc_text s])) as Q; rewrite TL in Q; apply Q with li; apply in_or_app; cbn; auto).
        split; [reflexivity|]. repeat split; auto; left; split; auto; discriminate.
      + right. rewrite C in *. split; [exact NE|]. split; [auto|].
        split; [destruct B as [[B _]|[B|B]]; [discriminate B|congruence|auto]|].
        intros G. split; [apply Forall_app; auto|]. rewrite app_nil_r. repeat split; auto. left. split; [reflexivity|discriminate].
    - rewrite app_nil_r in S.
      assert (LE : forall k' l' s', sc_scan k s = Ok (k', l', s') -> (length (sc_lines s') < k)%nat).
      { intros k' l' s' E. pose proof (sc_scan_spec k s L) as Q. rewrite E in Q.
        destruct (sc_tokens s) as [|[? ?] ?].
        - destruct Q as (s2 & Q & _ & _ & _ & Q2). injection Q as _ _ ->. lia.
        - destruct Q as (_ & s2 & Q & _ & _ & _ & Q2). injection Q as _ _ ->. lia. }
      destruct (sc_scan_at k s D L S) as (t & l & s1 & E & La & H). rewrite E. apply LE in E.
      exists t, l. eexists. split; [reflexivity|]. cbn [p_s p_last p_lit p_n].
      destruct H as [(-> & H & X & X1 & X2)|(NE & H & ST & TI)].
      + left. rewrite !app_nil_r. split; [reflexivity|]. repeat split; auto; left; split; auto; discriminate.
      + right. assert (C : match t with TEof => [] | _ => [(t, l)] end = [(t, l)]) by (destruct t; congruence).
        rewrite C. split; [exact NE|]. split.
        * split; [exact F|]. split; [exact H|]. split; [|split; [right; right; split; [exact NE|exists D; exact TI]|exact E]]. right.
          destruct (match t with TWs => true | _ => false end) eqn:W; [left; destruct t; congruence|right; apply ST; intros ->; discriminate W].
        * split; [exact ST|]. intros G. split; [apply Forall_app; auto|]. rewrite app_nil_r. repeat split; auto; [left; split; [reflexivity|discriminate]|]. right. right. split; [exact NE|exists D; exact TI].
  Qed.

  Lemma stands_bad : forall s D t, stands s D t -> Forall tgood D -> ~ tgood t -> bad_line (sc_pos s) (sc_text s).
  Proof.
    intros s D t (b & A & P & TB & TL) F N. exists b, (sc_rest s). split; [exact A|]. split; [exact P|]. rewrite TB. split; [exact F|].
    rewrite TL. intros G. apply Forall_app in G. destruct G as [_ G]. inversion G. contradiction.
  Qed.
  Lemma comment_no_err : forall fuel c t l, is_comment t = true -> comment_step fuel c t l <> Err.
  Proof.
    intros fuel c t l C. destruct t; try discriminate C; cbn [comment_step]; unfold from;
      repeat match goal with |- context [Nat.ltb ?a ?b] => destruct (Nat.ltb a b) end; cbn [rbind]; try discriminate;
      try (destruct (trim_space (skipn _ l)); try discriminate);
      match goal with |- context [dec fuel ?x] => pose proof (PoLineProofs.dec_no_err fuel x) end;
      destruct (dec fuel _); cbn [rbind]; congruence.
  Qed.
  (** No further line of a form follows. *)
  Definition fresh (D : list (ptok * bytes)) : Prop := forall l r, toks all <> D ++ (TStrPL, l) :: r.
  Lemma fresh_end : forall D, toks all = D -> fresh D.
  Proof. intros D E l r H. rewrite E in H. rewrite <- (app_nil_r D) in H at 1. apply app_inv_head in H. discriminate H. Qed.
  Lemma linked_app : forall D prev t l l' r, PoLineProofs.linked prev (D ++ [(t, l)] ++ (TStrPL, l') :: r) -> PoLineProofs.is_form t.
  Proof.
    induction D as [|[k x] D IH]; intros prev t l l' r H; cbn [app PoLineProofs.linked] in H.
    - now apply H.
    - destruct H as [_ H]. eapply IH. exact H.
  Qed.
  Lemma fresh_other : forall D t l, ~ PoLineProofs.is_form t -> fresh (D ++ [(t, l)]).
  Proof.
    intros D t l N l' r H. apply N. pose proof (PoLineProofs.scan_linked ign all TEof false) as K. rewrite H, <- app_assoc in K.
    eapply linked_app. exact K.
  Qed.
  Lemma fresh_first : fresh [].
  Proof.
    intros l r H. pose proof (PoLineProofs.scan_linked ign all TEof false) as K. rewrite H in K. destruct K as [K _].
    destruct (K eq_refl); discriminate.
  Qed.
  Lemma stands_next : forall s D t, stands s D t -> exists r, toks all = D ++ t :: r.
  Proof.
    intros s D t (b & A & _ & _ & TL). rewrite A.
    replace (b ++ sc_text s :: sc_rest s) with ((b ++ [sc_text s]) ++ sc_rest s) by (rewrite <- app_assoc; reflexivity).
    rewrite scan_all_app, TL, <- app_assoc. eexists. reflexivity.
  Qed.

  Definition ok_at {A} (k : nat) (o : out A) : Prop :=
    match o with OGot _ p => exists D, p_at k p D /\ fresh D | OErr e _ => err_at e | _ => True end.
  Lemma comment_no_form : forall t, is_comment t = true -> ~ PoLineProofs.is_form t.
  Proof. intros t H [->| ->]; discriminate H. Qed.
  Lemma p_comment_at : forall k fuel n c p D, p_at k p D -> fresh D -> ok_at k (p_comment k fuel n c p).
  Proof.
    intros k fuel. induction n as [|n IH]; intros c p D H FR; [exact I|]. cbn [p_comment].
    destruct (p_scan_at k p D H) as (t & l & p1 & -> & C). cbn [obind].
    destruct C as [(-> & H1 & _)|(NE & HU & ST & HG)]; [exists D; auto|].
    destruct (is_comment t) eqn:CM.
    - pose proof (PoLineProofs.comment_good t l CM) as G. specialize (HG G).
      pose proof (comment_no_err fuel c t l CM) as NERR.
      assert (X : ok_at k (obind (of_res (comment_step fuel c t l) (pos_error p1) p1) (fun c' p2 => p_comment k fuel n c' p2))).
      { destruct (comment_step fuel c t l) as [c'| | |]; cbn [of_res obind]; [|congruence|exact I|exact I].
        eapply IH; [exact HG|]. now apply fresh_other, comment_no_form. }
      destruct t; try discriminate CM; exact X.
    - assert (X : ok_at k (@OGot (option comment) (Some c) (p_unscan p1))) by (exists D; auto).
      destruct t; try congruence; try exact X. cbn [ok_at err_at pos_error]. eapply stands_bad; [apply ST; discriminate|apply H|apply PoLineProofs.bad_fail].
  Qed.
  Lemma p_comments_at : forall k fuel n m p D, p_at k p D -> fresh D -> ok_at k (p_comments k fuel n m p).
  Proof.
    intros k fuel. induction n as [|n IH]; intros m p D H FR; [exact I|]. cbn [p_comments].
    destruct (p_scan_at k p D H) as (t & l & p1 & -> & C). cbn [obind fst].
    assert (HU : p_at k (p_unscan p1) D) by (destruct C as [(_ & _ & C & _)|(_ & C & _)]; exact C).
    destruct (is_comment t); [|exists D; auto].
    pose proof (p_comment_at k fuel (S n) new_comment (p_unscan p1) D HU FR) as X.
    destruct (p_comment k fuel (S n) new_comment (p_unscan p1)) as [[c|] p2|e p2| |]; cbn [obind]; try exact X.
    destruct X as (D2 & X & Y). eapply IH; eassumption.
  Qed.

  Lemma step_err : forall fuel m t l, message_step fuel m t l = Err -> is_comment t = false -> t <> TWs -> t <> TEof ->
    ~ PoLineProofs.good (t, l) \/ (t = TStrPL /\ m_str m = []).
  Proof.
    intros fuel m t l E C NW NE.
    assert (DE : forall q (g : bytes -> message), (do v <- dec fuel q; Ok (g v)) <> Err).
    { intros q g. pose proof (PoLineProofs.dec_no_err fuel q). destruct (dec fuel q); cbn [rbind]; (discriminate || congruence). }
    assert (FE : forall j (g : bytes -> res message), (forall x, g x <> Err) -> (do x <- from j l ; g x) <> Err).
    { intros j g G. unfold from. destruct (Nat.ltb _ _); cbn [rbind]; [discriminate|apply G]. }
    destruct t; try discriminate C; try congruence; cbn [message_step] in E; cbv zeta in E;
      try (exfalso; revert E; first [apply DE|apply FE; intros; apply DE]).
    - left. apply PoLineProofs.bad_fail.
    - left. apply PoLineProofs.bad_unknown.
    - left. intros (_ & _ & G). destruct (G eq_refl) as [i G']. cbn [snd] in G'. rewrite G' in E. cbn [rbind] in E.
      revert E. apply FE. intros. apply DE.
    - right. split; [reflexivity|]. destruct (Z.ltb_spec (Z.of_nat (length (m_str m)) - 1) 0) as [H|H].
      + destruct (m_str m); [reflexivity|]. cbn [length] in H. lia.
      + exfalso. revert E. apply DE.
  Qed.
  Lemma step_form : forall fuel m t l m', message_step fuel m t l = Ok m' -> PoLineProofs.is_form t -> m_str m' <> [].
  Proof.
    intros fuel m t l m' E [->| ->]; cbn [message_step] in E; cbv zeta in E.
    - destruct (plural_index l) as [i| | |]; try discriminate E. cbn [rbind] in E. destruct (from 10 l) as [x| | |]; try discriminate E.
      cbn [rbind] in E. destruct (dec fuel x) as [v| | |]; try discriminate E. injection E as <-. apply PoLineProofs.str_set_ne.
    - destruct (_ <? 0); [discriminate E|]. destruct (dec fuel l) as [v| | |]; try discriminate E. injection E as <-. apply PoLineProofs.str_set_ne.
  Qed.
  Lemma form_case : forall t, PoLineProofs.is_form t \/ ~ PoLineProofs.is_form t.
  Proof. intros t. destruct t; try (right; intros [H|H]; discriminate H); left; [now left|now right]. Qed.
  Lemma p_fields_at : forall k fuel n m p D, p_at k p D -> (fresh D \/ m_str m <> []) -> ok_at k (p_fields k fuel n m p).
  Proof.
    intros k fuel. induction n as [|n IH]; intros m p D H FR; [exact I|]. cbn [p_fields].
    destruct (p_scan_at k p D H) as (t & l & p1 & -> & C). cbn [obind].
    destruct C as [(-> & H1 & _ & E)|(NE & HU & ST & HG)]; [exists D; split; [exact H1|now apply fresh_end]|].
    destruct (is_comment t) eqn:CM.
    - specialize (HG (PoLineProofs.comment_good t l CM)).
      assert (X : ok_at k (OGot m p1)) by (exists (D ++ [(t, l)]); split; [exact HG|now apply fresh_other, comment_no_form]).
      destruct t; try discriminate CM; exact X.
    - destruct (match t with TWs => true | _ => false end) eqn:W.
      + destruct t; try discriminate W. exists (D ++ [(TWs, l)]). split; [apply HG, PoLineProofs.good_plain; discriminate|].
        apply fresh_other. intros [F|F]; discriminate F.
      + assert (NW : t <> TWs) by (intros ->; discriminate W). specialize (ST NW).
        assert (BD : ~ PoLineProofs.good (t, l) -> bad_line (sc_pos (p_s p1)) (sc_text (p_s p1))) by (intros B; eapply stands_bad; [exact ST|apply H|exact B]).
        assert (X : ok_at k (obind (of_res (message_step fuel m t l) (step_error t p1) p1) (fun m' p2 => p_fields k fuel n m' p2))).
        { destruct (message_step fuel m t l) as [m'| | |] eqn:MS; cbn [of_res obind]; try exact I.
          - pose proof (PoLineProofs.message_step_good _ _ _ _ _ MS) as G. eapply IH; [exact (HG G)|].
            destruct (form_case t) as [F|F]; [right; eapply step_form; eassumption|left; now apply fresh_other].
          - destruct (step_err _ _ _ _ MS CM NW NE) as [B|[-> B]].
            + specialize (BD B). cbn [ok_at]. unfold step_error, pos_error. destruct t; cbn [err_at]; eauto.
            + exfalso. destruct FR as [FR|FR]; [|contradiction]. destruct (stands_next _ _ _ ST) as [r R]. exact (FR l r R). }
        destruct t; try congruence; try discriminate CM; try exact X.
  Qed.
  Lemma p_message_at : forall k fuel n p D, p_at k p D -> fresh D -> ok_at k (p_message k fuel n p).
  Proof.
    intros k fuel n p D H FR. unfold p_message.
    destruct (p_scan_at k p D H) as (t & l & p1 & -> & C). cbn [obind fst].
    assert (HU : p_at k (p_unscan p1) D) by (destruct C as [(_ & _ & C & _)|(_ & C & _)]; exact C).
    assert (X : ok_at k (obind (p_comments k fuel n new_message (p_unscan p1)) (fun o p2 =>
          match o with
          | None => OGot None p2
          | Some m => obind (p_fields k fuel n m p2) (fun m' p3 => OGot (Some m') p3)
          end))).
    { pose proof (p_comments_at k fuel n new_message (p_unscan p1) D HU FR) as X.
      destruct (p_comments k fuel n new_message (p_unscan p1)) as [[m|] p2|e p2| |]; cbn [obind]; try exact X.
      destruct X as (D2 & X & Y). pose proof (p_fields_at k fuel n m p2 D2 X (or_introl Y)) as Z.
      destruct (p_fields k fuel n m p2); exact Z. }
    destruct C as [(-> & H1 & _)|(NE & _)]; [exists D; auto|]. destruct t; try congruence; exact X.
  Qed.
  Definition err_ok {A} (o : out A) : Prop := match o with OErr e _ => err_at e | _ => True end.
  Lemma p_finish_at : forall p, err_ok (p_finish p).
  Proof. intros p. unfold p_finish. destruct (p_header p); [exact I|]. destruct (p_messages p); exact I. Qed.
  Lemma p_file_at : forall k fuel n p D, p_at k p D -> fresh D -> err_ok (p_file k fuel n p).
  Proof.
    intros k fuel. induction n as [|n IH]; intros p D H FR; [exact I|]. cbn [p_file].
    pose proof (p_message_at k fuel (S n) p D H FR) as X.
    destruct (p_message k fuel (S n) p) as [[m|] p1|e p1| |]; cbn [obind]; try exact X; [|apply p_finish_at].
    destruct X as (D1 & X & Y).
    destruct (is_nil (m_id m)); [destruct (is_nil (m_str m)); [eapply IH; eassumption|]|].
    - destruct (p_header p1); [exact I|]. eapply IH; [|exact Y]. exact X.
    - destruct (existsb (same_key m) (p_messages p1)); [exact I|]. cbv zeta. change (p_last (p_put p1 m)) with (p_last p1).
      assert (Z : err_ok (p_file k fuel n (p_put p1 m))) by (eapply IH; [|exact Y]; exact X).
      destruct (p_last p1); try exact Z. apply p_finish_at.
  Qed.
End At.

Lemma p_parse_at : forall fuel p s, p_n p = false -> err_ok (p_ign p) (file_lines s) (p_parse fuel p s).
Proof.
  intros fuel p s N. unfold p_parse. cbv zeta. set (p1 := Parser _ _ _ _ _ _ _ _). set (k := S (length (file_lines s))).
  assert (H : p_at (p_ign p) (file_lines s) k p1 []).
  { split; [constructor|]. subst p1. unfold back_ok, back. cbn [p_n p_reset p_s p_ign p_last p_lit]. rewrite N. cbn [app].
    split; [|split; [left; split; [reflexivity|discriminate]|]].
    2: split; [left; unfold back; cbn [p_n p_reset]; try rewrite N; reflexivity|subst k; cbn; lia].
    exists []. unfold sc_lines, pend. cbn [new_scanner sc_n sc_rest sc_ign sc_pos app length scan_all scan_end].
    repeat split. right. exists false. split; [reflexivity|discriminate]. }
  destruct (p_scan_at _ _ _ _ _ H) as (t & l & p2 & -> & C). cbn [obind fst].
  assert (HU : p_at (p_ign p) (file_lines s) k (p_unscan p2) []) by (destruct C as [(_ & _ & C & _)|(_ & C & _)]; exact C).
  pose proof (p_file_at _ _ k fuel (S (S k)) (p_unscan p2) [] HU (fresh_first _ _)) as X.
  destruct t; try exact X. exact I.
Qed.
