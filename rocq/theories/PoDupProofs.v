(** Which lines the errors for a duplicate entry and a second header name. *)
From Coq Require Import String Ascii List ZArith Bool Lia.
From Verif Require Import Base BaseProofs StrModel PoStrModel PoFileModel PoFileSpec PoStateModel PoStateProofs PoLineSpec PoDupSpec.
From Verif Require PoErrProofs PoLineProofs PoFieldProofs GettextProofs PoOutcomeProofs.
From Verif Require Import PoHangSpec PoHangProofs PoAnySpec PoAnyProofs.
Import ListNotations.
Open Scope Z_scope.

(** ** Tokens *)
Lemma comment_run : forall fuel h ms ts c c' ts', parse_comment fuel c ts = Ok (Some (c', ts')) ->
  exists X, ts = X ++ ts' /\ run fuel (h, ms, MCom c) X = Ok (h, ms, MCom c').
Proof.
  intros fuel h ms. induction ts as [|[k l] ts IH]; intros c c' ts' E; [discriminate E|].
  destruct (is_comment k) eqn:K.
  - assert (P : parse_comment fuel c ((k, l) :: ts) = do c' <- comment_step fuel c k l; parse_comment fuel c' ts).
    { cbn [parse_comment]. rewrite K. destruct k; try discriminate K; reflexivity. }
    rewrite P in E. destruct (comment_step fuel c k l) as [c1| | |] eqn:CS; try discriminate E. cbn [rbind] in E.
    destruct (IH _ _ _ E) as (X & -> & R). exists ((k, l) :: X). split; [reflexivity|]. cbn [run step]. rewrite K, CS. exact R.
  - assert (P : ts' = (k, l) :: ts /\ c' = c) by (cbn [parse_comment] in E; rewrite K in E; destruct k; try discriminate E; injection E as <- <-; auto).
    destruct P as [-> ->]. exists []. split; reflexivity.
Qed.
Definition stop (T ts' : list (ptok * bytes)) (e : bool) : Prop :=
  e = true /\ T = [] /\ ts' = [] \/ e = false /\ exists t, T = [t] /\ ends (fst t) = true.
Lemma body_run : forall fuel h ms ts o m' ts' e, parse_body fuel (body_msg o) ts = Ok (m', ts', e) ->
  exists X T, ts = X ++ T ++ ts' /\ stop T ts' e /\
    (run fuel (h, ms, o) X = Ok (h, ms, MBody m') \/ X = [] /\ m' = body_msg o).
Proof.
  intros fuel h ms. induction ts as [|[k l] ts IH]; intros o m' ts' e E.
  - injection E as <- <- <-. exists [], []. split; [reflexivity|]. split; [left; auto|]. right. auto.
  - destruct (ends k) eqn:EN.
    + assert (P : parse_body fuel (body_msg o) ((k, l) :: ts) = Ok (body_msg o, ts, false)) by (cbn [parse_body]; destruct k; try discriminate EN; reflexivity).
      rewrite P in E. injection E as <- <- <-. exists [], [(k, l)]. split; [reflexivity|]. split; [right; eauto|]. right. auto.
    + assert (P : parse_body fuel (body_msg o) ((k, l) :: ts) = do m' <- message_step fuel (body_msg o) k l; parse_body fuel m' ts).
      { cbn [parse_body]. destruct k; try discriminate EN; reflexivity. }
      rewrite P in E. destruct (message_step fuel (body_msg o) k l) as [m1| | |] eqn:MS; try discriminate E. cbn [rbind] in E.
      assert (ST : step fuel (h, ms, o) (k, l) = Ok (h, ms, MBody m1)).
      { assert (NC : is_comment k = false) by (destruct k; try discriminate EN; reflexivity).
        destruct o; cbn [step body_msg] in *; rewrite ?NC; unfold body; rewrite EN, MS; reflexivity. }
      destruct (IH (MBody m1) m' ts' e E) as (X & T & -> & S & R). exists ((k, l) :: X), T. split; [reflexivity|]. split; [exact S|]. left.
      cbn [run]. rewrite ST. cbn [rbind]. destruct R as [R|[-> ->]]; [exact R|reflexivity].
Qed.
(** A message that is not empty was read from the tokens [X]; [T] ended it. *)
Lemma message_run : forall fuel h ms ts m ts' e, parse_message fuel ts = Ok (Some (m, ts', e)) ->
  exists X T, ts = X ++ T ++ ts' /\ stop T ts' e /\
    (run fuel (h, ms, MStart) X = Ok (h, ms, MBody m) \/
     m_id m = [] /\ m_str m = [] /\ exists o, outside o /\ run fuel (h, ms, MStart) X = Ok (h, ms, o) /\
       (e = false -> exists t, T = [t] /\ is_comment (fst t) = false)).
Proof.
  intros fuel h ms [|[k l] ts] m ts' e E; [discriminate E|]. unfold parse_message in E. destruct (is_comment k) eqn:K.
  - assert (P : parse_comment fuel new_comment ((k, l) :: ts) = do c' <- comment_step fuel new_comment k l; parse_comment fuel c' ts).
    { cbn [parse_comment]. rewrite K. destruct k; try discriminate K; reflexivity. }
    rewrite P in E. destruct (comment_step fuel new_comment k l) as [c1| | |] eqn:CS; try discriminate E. cbn [rbind] in E.
    destruct (parse_comment fuel c1 ts) as [[[c2 ts2]|]| | |] eqn:PC; try discriminate E. cbn [rbind] in E.
    destruct (parse_body fuel (set_com new_message c2) ts2) as [[[m3 ts3] e3]| | |] eqn:PB; try discriminate E. injection E as -> -> ->.
    destruct (comment_run fuel h ms _ _ _ _ PC) as (X1 & -> & R1). apply rest_head in PC. destruct PC as (_ & t' & l' & r & -> & C').
    destruct (body_run fuel h ms _ (MCom c2) m ts' e PB) as (X & T & EQ & S & R).
    exists ((k, l) :: X1 ++ X), T. split; [rewrite EQ; cbn [app]; now rewrite <- !app_assoc|]. split; [exact S|].
    assert (R0 : run fuel (h, ms, MStart) ((k, l) :: X1 ++ X) = run fuel (h, ms, MCom c2) X).
    { cbn [run step]. rewrite K, CS. cbn [rbind]. rewrite run_app, R1. reflexivity. }
    rewrite R0. destruct R as [R|[-> ->]]; [now left|]. right. split; [reflexivity|]. split; [reflexivity|].
    exists (MCom c2). split; [exact I|]. split; [reflexivity|]. intros ->. destruct S as [[S _]|[_ (t & -> & _)]]; [discriminate S|].
    exists t. split; [reflexivity|]. cbn [app] in EQ. injection EQ as <- _. exact C'.
  - destruct (parse_body fuel new_message ((k, l) :: ts)) as [[[m3 ts3] e3]| | |] eqn:PB; try discriminate E. injection E as -> -> ->.
    destruct (body_run fuel h ms _ MStart m ts' e PB) as (X & T & EQ & S & R). exists X, T. split; [exact EQ|]. split; [exact S|].
    destruct R as [R|[-> ->]]; [now left|]. right. split; [reflexivity|]. split; [reflexivity|].
    exists MStart. split; [exact I|]. split; [reflexivity|]. intros ->. destruct S as [[S _]|[_ (t & -> & _)]]; [discriminate S|].
    exists t. split; [reflexivity|]. cbn [app] in EQ. injection EQ as <- _. exact K.
Qed.
(** the state behind a message *)
Lemma closed_run : forall fuel h ms D X T m ts' h' ms', run fuel start D = Ok (h, ms, MStart) -> stop T ts' false ->
  (run fuel (h, ms, MStart) X = Ok (h, ms, MBody m) \/
   m_id m = [] /\ m_str m = [] /\ exists o, outside o /\ run fuel (h, ms, MStart) X = Ok (h, ms, o) /\
     (false = false -> exists t, T = [t] /\ is_comment (fst t) = false)) ->
  close h ms m = Ok (h', ms') -> run fuel start (D ++ X ++ T) = Ok (h', ms', MStart).
Proof.
  intros fuel h ms D X T m ts' h' ms' RD [[S _]|[_ ([k l] & -> & EN)]] R C; [discriminate S|]. cbn [fst] in EN.
  rewrite run_app, RD. cbn [rbind]. rewrite run_app. destruct R as [R|(I & S & o & O & R & NC)].
  - rewrite R. cbn [rbind run step]. unfold body. rewrite EN, C. reflexivity.
  - rewrite R. cbn [rbind run]. destruct (NC eq_refl) as (t & Q & NK). injection Q as <-. cbn [fst] in NK.
    rewrite close_empty in C by assumption. injection C as <- <-.
    destruct o as [|c|x]; [| |destruct O]; cbn [step]; rewrite NK; unfold body; rewrite EN; now rewrite close_empty.
Qed.

(** ** Errors *)
Definition line_error {A} (o : out A) : Prop := match o with OErr (EPos _ _) _ => True | OErr (EIndex _) _ => True | OErr _ _ => False | _ => True end.
Lemma scan_line_error : forall k p, match p_scan k p with OErr _ _ => False | _ => True end.
Proof. intros k p. unfold p_scan. destruct (p_n p); [exact I|]. destruct (sc_scan k (p_s p)) as [[[? ?] ?]| | |]; exact I. Qed.
Lemma bind_error : forall A B (x : out A) (f : A -> parser -> out B), line_error x -> (forall a p, line_error (f a p)) -> line_error (obind x f).
Proof. intros A B [a p|e p| |] f X F; cbn [obind]; [apply F|exact X|exact I|exact I]. Qed.
Lemma scan_error : forall k p, line_error (p_scan k p).
Proof. intros k p. pose proof (scan_line_error k p) as H. destruct (p_scan k p); [exact I|destruct H|exact I|exact I]. Qed.
Lemma of_res_error : forall A (r : res A) e p, match e with EPos _ _ | EIndex _ => True | _ => False end -> line_error (of_res r e p).
Proof. intros A r e p H. destruct r; cbn [of_res line_error]; try exact I. destruct e; try destruct H; exact I. Qed.
Lemma p_comment_error : forall k fuel n c p, line_error (p_comment k fuel n c p).
Proof.
  intros k fuel. induction n as [|n IH]; intros c p; [exact I|]. cbn [p_comment]. apply bind_error; [apply scan_error|]. intros [t l] p1.
  assert (X : line_error (if is_comment t then obind (of_res (comment_step fuel c t l) (pos_error p1) p1) (fun c' p2 => p_comment k fuel n c' p2)
      else OGot (Some c) (p_unscan p1))).
  { destruct (is_comment t); [|exact I]. apply bind_error; [now apply of_res_error|]. intros a p2. apply IH. }
  destruct t; try exact X; exact I.
Qed.
Lemma p_comments_error : forall k fuel n m p, line_error (p_comments k fuel n m p).
Proof.
  intros k fuel. induction n as [|n IH]; intros m p; [exact I|]. cbn [p_comments]. apply bind_error; [apply scan_error|]. intros [t l] p1. cbn [fst].
  destruct (is_comment t); [|exact I]. apply bind_error; [apply p_comment_error|]. intros [c|] p2; [apply IH|exact I].
Qed.
Lemma p_fields_error : forall k fuel n m p, line_error (p_fields k fuel n m p).
Proof.
  intros k fuel. induction n as [|n IH]; intros m p; [exact I|]. cbn [p_fields]. apply bind_error; [apply scan_error|]. intros [t l] p1.
  assert (X : line_error (if is_comment t then OGot m p1 else obind (of_res (message_step fuel m t l) (step_error t p1) p1) (fun m' p2 => p_fields k fuel n m' p2))).
  { destruct (is_comment t); [exact I|]. apply bind_error; [apply of_res_error; destruct t; exact I|]. intros a p2. apply IH. }
  destruct t; try exact X; exact I.
Qed.
Lemma p_message_error : forall k fuel n p, line_error (p_message k fuel n p).
Proof.
  intros k fuel n p. unfold p_message. apply bind_error; [apply scan_error|]. intros [t l] p1. cbn [fst].
  assert (X : line_error (obind (p_comments k fuel n new_message (p_unscan p1)) (fun o p2 =>
    match o with None => OGot None p2 | Some m => obind (p_fields k fuel n m p2) (fun m' p3 => OGot (Some m') p3) end))).
  { apply bind_error; [apply p_comments_error|]. intros [m|] p2; [|exact I]. apply bind_error; [apply p_fields_error|]. intros m' p3. exact I. }
  destruct t; try exact X; exact I.
Qed.

(** ** Lines *)
Section Dup.
  Variable ign : bool.
  Variable all : list bytes.
  Variable fuel : nat.
  Notation toks := (scan_all ign TEof false).
  Notation p_at := (PoErrProofs.p_at ign all).
  Notation fresh := (PoErrProofs.fresh ign all).

  (** The lines [a] gave the tokens [D], what follows was read as in [noticed]. *)
  Definition end_at (D : list (ptok * bytes)) (n : Z) (t : bytes) : Prop :=
    exists a b j, all = a ++ b /\ toks a = D /\ Forall PoLineProofs.good (toks a) /\ noticed ign b j t /\ n = Z.of_nat (length a) + j.
  Definition dup_at (e : perr) : Prop :=
    match e with
    | EDup id n => exists D h ms m t, run fuel start D = Ok (h, ms, MBody m) /\ m_id m = id /\ id <> [] /\ existsb (same_key m) ms = true /\ end_at D n t
    | EHeader n t => exists D h ms m, run fuel start D = Ok (Some h, ms, MBody m) /\ m_id m = [] /\ m_str m <> [] /\ end_at D n t
    | _ => True
    end.

  Lemma at_tokens : forall k p D, p_at k p D -> good k p -> toks all = D ++ p_tokens p.
  Proof.
    intros k p D (_ & (b & A & I & TB & _ & LA) & _) [_ G].
    assert (T : toks all = (D ++ PoErrProofs.back p) ++ sc_tokens (p_s p)).
    { rewrite A, PoErrProofs.scan_all_app, TB. f_equal. unfold sc_tokens. rewrite I.
      destruct LA as [LA|(bl & E & NB)]; [now rewrite LA|]. rewrite E. cbn [fst snd].
      destruct bl; [|reflexivity]. destruct (NB eq_refl) as (l & r & -> & B). cbn [scan_all]. cbv zeta. now rewrite B. }
    rewrite T, <- app_assoc. f_equal. unfold PoErrProofs.back, p_tokens. destruct (p_n p); [|reflexivity].
    specialize (G eq_refl). destruct (p_last p); try congruence; reflexivity.
  Qed.
  Lemma blank_nil : forall l, is_nil (trim_space l) = true -> trim_space l = [].
  Proof. intros l. destruct (trim_space l); [reflexivity|discriminate]. Qed.
  Lemma pend_end : forall s, sc_lines s = [] -> PoErrProofs.pend s = [].
  Proof. intros s. unfold sc_lines, PoErrProofs.pend. destruct (sc_n s); [discriminate|reflexivity]. Qed.
  Lemma where_at : forall k p D T ts' e, p_at k p (D ++ T) -> p_n p = false -> D <> [] -> stop T ts' e -> (e = true <-> p_last p = TEof) ->
    end_at D (sc_pos (p_s p)) (sc_text (p_s p)).
  Proof.
    intros k p D T ts' e (F & (b & A & I & TB & P & _) & _ & PT & _) N ND S EE.
    assert (BK : PoErrProofs.back p = []) by (unfold PoErrProofs.back; now rewrite N). rewrite BK, app_nil_r in TB.
    assert (FD : Forall PoLineProofs.good D) by (apply Forall_app in F as [F _]; exact F).
    destruct PT as [PT|[(EF & SL & TX)|(NE & D' & a & w & A2 & TA & TW & PO & C)]].
    - rewrite BK, app_nil_r in PT. apply app_eq_nil in PT as [PT _]. contradiction.
    - destruct S as [(_ & -> & _)|[-> _]]; [|apply EE in EF; discriminate EF]. rewrite app_nil_r in TB.
      rewrite SL, app_nil_r in A. rewrite (pend_end _ SL), app_nil_r in P.
      exists b, [], 0. rewrite app_nil_r, TX, TB. split; [exact A|]. split; [reflexivity|]. split; [exact FD|]. split; [constructor|]. lia.
    - destruct S as [(-> & _)|[_ ([kt l] & -> & EN)]]; [exfalso; apply NE, EE; reflexivity|].
      assert (EB : b = a ++ w) by (rewrite A, app_assoc in A2; now apply app_inv_tail in A2).
      rewrite EB, TW in TB. apply app_inj_tail in TB as [-> TT]. injection TT as <- <-. cbn [fst] in *.
      destruct C as [(NW & -> & SN)|(_ & WN & WB & C)].
      + assert (PN : PoErrProofs.pend (p_s p) = []) by (unfold PoErrProofs.pend; now rewrite SN).
        rewrite PN, app_nil_r in PO. rewrite PoErrProofs.scan_all_app, TA in TW. apply app_inv_head in TW. cbn [scan_all] in TW. cbv zeta in TW.
        destruct (is_nil (trim_space (sc_text (p_s p)))) eqn:B.
        { destruct (snd _) in TW; [discriminate TW|]. injection TW as TW _. congruence. }
        destruct (scan_line ign _ (trim_space (sc_text (p_s p)))) as [k0|] eqn:SC; [|discriminate TW]. injection TW as -> _.
        exists a, (sc_text (p_s p) :: sc_lines (p_s p)), 1. rewrite TA. split; [exact A2|]. split; [reflexivity|]. split; [exact FD|]. split.
        * constructor.
          -- unfold comment_start. destruct (trim_space (sc_text (p_s p))) as [|c y] eqn:TS; [discriminate B|]. exists y. f_equal.
             destruct (Ascii.eqb_spec c "#") as [->|NC]; [reflexivity|]. exfalso.
             assert (FS : field_start (sc_text (p_s p))) by (split; [congruence|intros [z Z]; rewrite TS in Z; injection Z as Z _; congruence]).
             destruct (field_scan ign (fst (PoErrProofs.scan_end ign TEof false a)) (sc_text (p_s p)) FS) as [_ Q]. rewrite TS in Q.
             rewrite Q in SC. injection SC as SC. rewrite <- SC, scan_message_ends in EN. discriminate EN.
          -- intros PA. destruct (PoLineProofs.passed_scans _ (fst (PoErrProofs.scan_end ign TEof false a)) _ PA) as [Q _]. congruence.
        * rewrite PO, app_length. cbn [length]. lia.
      + assert (WS : Forall (fun l => trim_space l = []) w) by (eapply Forall_impl; [|exact WB]; intros x H; now apply blank_nil).
        destruct C as [(SL & TX)|(SN & NB)].
        * rewrite SL, app_nil_r in A2. rewrite (pend_end _ SL), app_nil_r in PO. exists a, w, (Z.of_nat (length w)). rewrite TX, TA.
          split; [exact A2|]. split; [reflexivity|]. split; [exact FD|]. split; [now constructor|]. rewrite PO, app_length. lia.
        * assert (SL : sc_lines (p_s p) = sc_text (p_s p) :: sc_rest (p_s p)) by (unfold sc_lines; now rewrite SN).
          assert (PN : PoErrProofs.pend (p_s p) = [sc_text (p_s p)]) by (unfold PoErrProofs.pend; now rewrite SN).
          rewrite SL in A2. rewrite PN in PO. exists a, (w ++ sc_text (p_s p) :: sc_rest (p_s p)), (Z.of_nat (length w) + 1). rewrite TA.
          split; [exact A2|]. split; [reflexivity|]. split; [exact FD|]. split.
          -- constructor; [exact WN|exact WS|]. intro Q. rewrite Q in NB. discriminate NB.
          -- rewrite PO, !app_length. cbn [length]. lia.
  Qed.

  Lemma finish_dup : forall p e p', p_finish p = OErr e p' -> dup_at e.
  Proof. intros p e p'. unfold p_finish. destruct (p_header p); [discriminate|]. destruct (p_messages p); [|discriminate]. intros H. injection H as <- _. exact I. Qed.
  Lemma p_file_dup : forall k old n p D h ms, p_at k p D -> fresh D -> good k p -> (length (p_tokens p) < n)%nat -> at_ ign old h ms p ->
    p_tokens p = [] \/ run fuel start D = Ok (h, ms, MStart) ->
    forall e p', p_file k fuel n p = OErr e p' -> dup_at e.
  Proof.
    intros k old. induction n as [|n IH]; intros p D h ms PA FR G L A R e p' E; [lia|]. cbn [p_file] in E.
    pose proof (p_message_spec k fuel (S n) p G L) as S. pose proof (PoErrProofs.p_message_at ign all k fuel (Datatypes.S n) p D PA FR) as X.
    destruct (parse_message fuel (p_tokens p)) as [[[[m ts'] e1]|]| | |] eqn:PM; cbn [sim R_message R_fields] in S.
    - destruct S as (b & p1 & Q & F & m' & -> & -> & T & G1 & N & EQ). rewrite Q in E, X. cbn [obind] in E. cbn [PoErrProofs.ok_at] in X.
      destruct X as (D1 & PA1 & FR1). pose proof (parse_message_shorter _ _ _ _ _ PM) as SH. pose proof (at_frame _ _ _ _ _ _ A F) as A1.
      destruct R as [R|R]; [rewrite R in PM; discriminate PM|].
      destruct (message_run fuel h ms _ _ _ _ PM) as (X & T1 & TK & ST & RX).
      pose proof (at_tokens k p D PA G) as AT. pose proof (at_tokens k p1 D1 PA1 G1) as AT1. rewrite AT, TK, T in AT1.
      assert (ED : D1 = (D ++ X) ++ T1) by (rewrite !app_assoc in AT1; apply app_inv_tail in AT1; now rewrite AT1).
      assert (WH : run fuel (h, ms, MStart) X = Ok (h, ms, MBody m) ->
        run fuel start (D ++ X) = Ok (h, ms, MBody m) /\ end_at (D ++ X) (sc_pos (p_s p1)) (sc_text (p_s p1))).
      { intro RM. assert (RR : run fuel start (D ++ X) = Ok (h, ms, MBody m)) by (rewrite run_app, R; exact RM). split; [exact RR|].
        rewrite ED in PA1. eapply where_at; [exact PA1|exact N| |exact ST|exact EQ]. intro Z. rewrite Z in RR. discriminate RR. }
      assert (NX : forall h' ms', close h ms m = Ok (h', ms') -> ts' = [] \/ run fuel start D1 = Ok (h', ms', MStart)).
      { intros h' ms' C. destruct e1; [left; destruct ST as [(_ & _ & ->)|[ST _]]; [reflexivity|discriminate ST]|]. right.
        rewrite ED, <- app_assoc. eapply closed_run; eassumption. }
      unfold close in NX. destruct (is_nil (m_id m)) eqn:EI.
      + destruct (is_nil (m_str m)) eqn:ES.
        * eapply (IH p1 D1 h ms); [exact PA1|exact FR1|exact G1|rewrite T; lia|exact A1|rewrite T; now apply NX|exact E].
        * destruct A1 as (I1 & H1 & M1 & E1). rewrite H1 in E. destruct h as [h|].
          -- injection E as <- _. destruct RX as [RX|(_ & Z & _)]; [|rewrite Z in ES; discriminate ES]. destruct (WH RX) as [W1 W2].
             exists (D ++ X), h, ms, m. split; [exact W1|]. split; [destruct (m_id m); [reflexivity|discriminate EI]|].
             split; [intro Z; rewrite Z in ES; discriminate ES|exact W2].
          -- eapply (IH (p_set_header p1 (parse_header m)) D1 (parse_header m) ms); [exact PA1|exact FR1|exact G1| |repeat split; assumption| |exact E];
               (change (p_tokens (p_set_header p1 (parse_header m))) with (p_tokens p1)); rewrite T; [lia|now apply NX].
      + rewrite (at_messages _ _ _ _ _ A1) in E. destruct (existsb (same_key m) ms) eqn:EX.
        * injection E as <- _. destruct RX as [RX|(Z & _)]; [|rewrite Z in EI; discriminate EI]. destruct (WH RX) as [W1 W2].
          exists (D ++ X), h, ms, m, (sc_text (p_s p1)). split; [exact W1|]. split; [reflexivity|].
          split; [intro Z; rewrite Z in EI; discriminate EI|]. split; [exact EX|exact W2].
        * cbv zeta in E. change (p_last (p_put p1 m)) with (p_last p1) in E.
          assert (A2 : at_ ign old h (ms ++ [m]) (p_put p1 m)).
          { pose proof (at_messages _ _ _ _ _ A1) as MS. destruct A1 as (I1 & H & M & E1). unfold at_, p_put.
            cbn [p_ign p_header p_map p_mem]. rewrite M, MS, E1, set_nth_last. auto. }
          assert (Z : p_file k fuel n (p_put p1 m) = OErr e p' -> dup_at e).
          { intro E2. eapply (IH (p_put p1 m) D1 h (ms ++ [m])); [exact PA1|exact FR1|exact G1| |exact A2| |exact E2];
              (change (p_tokens (p_put p1 m)) with (p_tokens p1)); rewrite T; [lia|now apply NX]. }
          destruct (p_last p1); try (now apply Z). now apply finish_dup in E.
    - destruct S as (b & p1 & Q & F & -> & N). rewrite Q in E. cbn [obind] in E. now apply finish_dup in E.
    - destruct S as (e0 & p1 & Q & _). rewrite Q in E, X. cbn [obind PoErrProofs.ok_at] in E, X. injection E as <- _.
      pose proof (p_message_error k fuel (Datatypes.S n) p) as LE. rewrite Q in LE. destruct e0; try exact I; destruct LE.
    - rewrite S in E. discriminate E.
    - rewrite S in E. discriminate E.
  Qed.
End Dup.

Lemma p_parse_dup : forall fuel p s e p', p_n p = false -> p_parse fuel p s = OErr e p' -> dup_at (p_ign p) (file_lines s) fuel e.
Proof.
  intros fuel p s e p' N E. unfold p_parse in E. cbv zeta in E. set (p1 := Parser _ _ _ _ _ _ _ _) in E. set (k := S (length (file_lines s))) in E.
  assert (H : PoErrProofs.p_at (p_ign p) (file_lines s) k p1 []).
  { split; [constructor|]. subst p1. unfold PoErrProofs.back_ok, PoErrProofs.back. cbn [p_n p_reset p_s p_ign p_last p_lit]. rewrite N. cbn [app].
    split; [|split; [left; split; [reflexivity|discriminate]|]].
    2: split; [left; unfold PoErrProofs.back; cbn [p_n p_reset]; try rewrite N; reflexivity|subst k; cbn; lia].
    exists []. unfold sc_lines, PoErrProofs.pend. cbn [new_scanner sc_n sc_rest sc_ign sc_pos app length scan_all PoErrProofs.scan_end].
    repeat split. right. exists false. split; [reflexivity|discriminate]. }
  assert (G : good k p1) by (split; [subst p1 k; cbn; lia|subst p1; cbn [p_n p_reset]; congruence]).
  destruct (PoErrProofs.p_scan_at _ _ _ _ _ H) as (t & l & p2 & Q & C).
  assert (HU : PoErrProofs.p_at (p_ign p) (file_lines s) k (p_unscan p2) []) by (destruct C as [(_ & _ & C & _)|(_ & C & _)]; exact C).
  pose proof (p_scan_spec k p1 G) as SP. rewrite Q in E, SP. cbn [obind fst] in E.
  assert (T1 : p_tokens p1 = scan_all (p_ign p) TEof false (file_lines s)).
  { subst p1. unfold p_tokens. cbn [p_n p_reset]. rewrite N. reflexivity. }
  pose proof (scan_all_length (p_ign p) (file_lines s) TEof false) as LN. rewrite <- T1 in LN.
  destruct (p_tokens p1) as [|[t0 l0] ts].
  - destruct SP as (p3 & SP & _). injection SP as -> _ _. injection E as <- _. exact I.
  - destruct SP as (NE & p3 & SP & F & _ & _ & _ & _ & TU & GU). injection SP as -> -> ->.
    assert (X : p_file k fuel (S (S k)) (p_unscan p3) = OErr e p' -> dup_at (p_ign p) (file_lines s) fuel e).
    { intro E1. eapply (p_file_dup (p_ign p) (file_lines s) fuel k (p_mem p) (S (S k)) (p_unscan p3) [] None []).
      - exact HU.
      - apply PoErrProofs.fresh_first.
      - exact GU.
      - rewrite TU. subst k. lia.
      - change (at_ (p_ign p) (p_mem p) None [] p3). eapply at_frame; [|exact F]. repeat split.
      - right. reflexivity.
      - exact E1. }
    destruct t0; try (apply X; exact E). congruence.
Qed.

(** ** Entries *)
Lemma key_exists : forall m ms, existsb (same_key m) ms = true <-> In (key m) (map key ms).
Proof. intros m ms. apply PoOutcomeProofs.exists_key. Qed.
Definition header_read (h : option header) (l : list message) : Prop :=
  h <> None -> exists m, In m l /\ m_id m = [] /\ m_str m <> [] /\ parse_header m <> None.
Lemma run_collect : forall fuel ts h ms o h' ms' m, run fuel (h, ms, o) ts = Ok (h', ms', MBody m) ->
  exists l, collect fuel o ts = Ok (l ++ [m]) /\ ms' = ms ++ with_id l /\ (NoDup (map key ms) -> NoDup (map key ms')) /\ (h = None -> header_read h' l).
Proof.
  intros fuel. induction ts as [|[k l] ts IH]; intros h ms o h' ms' m E.
  - cbn [run] in E. injection E as <- <- ->. exists []. cbn [collect app PoFieldProofs.with_id filter]. rewrite app_nil_r. split; [reflexivity|]. split; [reflexivity|].
    split; [auto|]. intros -> Z. congruence.
  - cbn [run] in E. cbn [collect].
    assert (FLD : forall m0, (do s' <- (do m' <- message_step fuel m0 k l; Ok (h, ms, MBody m')); run fuel s' ts) = Ok (h', ms', MBody m) ->
      exists r, (do m' <- message_step fuel m0 k l; collect fuel (MBody m') ts) = Ok (r ++ [m]) /\ ms' = ms ++ with_id r /\ (NoDup (map key ms) -> NoDup (map key ms')) /\ (h = None -> header_read h' r)).
    { intros m0 Q. destruct (message_step fuel m0 k l) as [m'| | |]; cbn [rbind] in *; try discriminate Q. now apply IH. }
    assert (COM : forall c, (do s' <- (do c' <- comment_step fuel c k l; Ok (h, ms, MCom c')); run fuel s' ts) = Ok (h', ms', MBody m) ->
      exists r, (do c' <- comment_step fuel c k l; collect fuel (MCom c') ts) = Ok (r ++ [m]) /\ ms' = ms ++ with_id r /\ (NoDup (map key ms) -> NoDup (map key ms')) /\ (h = None -> header_read h' r)).
    { intros c Q. destruct (comment_step fuel c k l) as [c'| | |]; cbn [rbind] in *; try discriminate Q. now apply IH. }
    assert (EMP : forall m0, m_id m0 = [] -> m_str m0 = [] -> (do s' <- (do x <- close h ms m0; Ok (fst x, snd x, MStart)); run fuel s' ts) = run fuel (h, ms, MStart) ts).
    { intros m0 I S. now rewrite close_empty by assumption. }
    destruct o as [|c|m0]; cbn [step body_msg] in *; unfold body in E.
    + destruct (is_comment k) eqn:K; [replace (ends k) with true by (destruct k; auto); now apply COM|].
      destruct (ends k); [rewrite EMP in E by reflexivity; now apply IH|now apply FLD].
    + destruct (is_comment k) eqn:K; [replace (ends k) with true by (destruct k; auto); now apply COM|].
      destruct (ends k); [rewrite EMP in E by reflexivity; now apply IH|now apply FLD].
    + destruct (ends k); [|now apply FLD]. destruct (close h ms m0) as [[h1 ms1]| | |] eqn:C; try discriminate E. cbn [rbind fst snd] in E.
      destruct (IH _ _ _ _ _ _ E) as (r & -> & -> & ND & HR). exists (m0 :: r). split; [reflexivity|].
      unfold close in C. unfold PoFieldProofs.with_id. cbn [filter]. fold (with_id r). destruct (is_nil (m_id m0)) eqn:EI; cbn [negb].
      * assert (IW : forall l0 : option header, header_read l0 r -> header_read l0 (m0 :: r)).
        { intros l0 X Z. destruct (X Z) as (x & Y1 & Y2). exists x. split; [now right|exact Y2]. }
        destruct (is_nil (m_str m0)) eqn:ES; [injection C as <- <-; split; [reflexivity|split; [exact ND|]]; intro Z; now apply IW, HR|].
        destruct h; [discriminate C|]. injection C as <- <-. split; [reflexivity|]. split; [exact ND|]. intros _ Z.
        destruct (parse_header m0) as [hh|] eqn:PH; [|exact (IW h' (HR eq_refl) Z)].
        exists m0. split; [now left|]. split; [destruct (m_id m0); [reflexivity|discriminate EI]|]. split; [intro W; rewrite W in ES; discriminate ES|congruence].
      * destruct (existsb (same_key m0) ms) eqn:X; [discriminate C|]. injection C as <- <-. split; [now rewrite <- app_assoc|]. split.
        -- intro N. apply ND. rewrite map_app. cbn [map]. apply GettextProofs.nodup_snoc; [exact N|]. intro Y. apply key_exists in Y. congruence.
        -- intros Z W. destruct (HR Z W) as (x & Y1 & Y2). exists x. split; [now right|exact Y2].
Qed.

Lemma entries_of_run : forall fuel ign a h ms m, Forall (fun l => ~ In LF l) a -> Forall PoLineProofs.good (scan_all ign TEof false a) ->
  run fuel start (scan_all ign TEof false a) = Ok (h, ms, MBody m) ->
  exists es e l, any_file ign a (es ++ [e]) /\ behind_field ign a /\ Forall2 entry_says es l /\ entry_says e m /\ ms = with_id l /\ NoDup (map key ms) /\ header_read h l.
Proof.
  intros fuel ign a h ms m NL G R. pose proof R as R0. apply run_collect in R as (l & C & MS & ND & HR). cbn [app] in MS.
  destruct (any_exists fuel ign (length a) a TEof false MStart (l ++ [m]) (le_n _) NL ltac:(discriminate) I C) as [es0 A].
  pose proof (proj1 (any_collect fuel ign a es0 A) TEof false MStart (l ++ [m]) I C) as F.
  apply Forall2_app_inv_r in F as (es & e1 & F1 & F2 & ->). inversion F2 as [|e m' e1' r S F3]; subst. inversion F3; subst.
  exists es, e, l. split; [exact A|]. split; [apply (place_behind ign a G); apply (body_place fuel ign a _ R0); reflexivity|].
  split; [exact F1|]. split; [exact S|]. split; [reflexivity|]. split; [apply ND; constructor|now apply HR].
Qed.
