(** The parser with state does what PoFileModel says. *)
From Coq Require Import String Ascii List ZArith Bool Lia.
From Verif Require Import Base StrModel PoStrModel PoFileModel PoStateModel.
From Verif Require PoTotalProofs.
Import ListNotations.
Open Scope Z_scope.

(** ** Scanner *)
Definition sc_lines (s : scanner) : list bytes := if sc_n s then sc_text s :: sc_rest s else sc_rest s.
Definition sc_tokens (s : scanner) : list (ptok * bytes) := scan_all (sc_ign s) (sc_last s) false (sc_lines s).

Lemma sc_read_spec : forall s,
  match sc_lines s with
  | [] => exists s1, sc_read s = (None, s1) /\ sc_lines s1 = [] /\ sc_last s1 = sc_last s /\ sc_ign s1 = sc_ign s
  | l :: r => exists s1, sc_read s = (Some l, s1) /\ sc_lines s1 = r /\ sc_lines (sc_unread s1) = l :: r /\
      sc_last s1 = sc_last s /\ sc_ign s1 = sc_ign s
  end.
Proof.
  intros [r t n la po ig]. unfold sc_lines, sc_read, sc_unread. cbn [sc_n sc_text sc_rest sc_last sc_pos sc_ign].
  destruct n; cbn [sc_n sc_text sc_rest sc_last sc_pos sc_ign]; [eexists; split; [reflexivity|]; auto|].
  destruct r; eexists; (split; [reflexivity|]); auto.
Qed.
Lemma trim_nil : trim_space [] = [].
Proof. reflexivity. Qed.
Lemma blank_line : forall l, is_nil l || is_nil (trim_space l) = is_nil (trim_space l).
Proof. intros [|c l]; [rewrite trim_nil|]; reflexivity. Qed.

Lemma sc_white_spec : forall fuel s last, (length (sc_lines s) < fuel)%nat ->
  exists s1, sc_white fuel s = Ok s1 /\ sc_ign s1 = sc_ign s /\ (length (sc_lines s1) <= length (sc_lines s))%nat /\
    scan_all (sc_ign s) last false (sc_lines s1) = scan_all (sc_ign s) last true (sc_lines s).
Proof.
  induction fuel as [|f IH]; intros s last L; [lia|]. cbn [sc_white]. pose proof (sc_read_spec s) as R.
  destruct (sc_lines s) as [|l r] eqn:E.
  - destruct R as (s1 & -> & E1 & _ & I). exists s1. rewrite E1. auto.
  - destruct R as (s1 & -> & E1 & E2 & _ & I). rewrite blank_line. cbn [length] in L.
    destruct (is_nil (trim_space l)) eqn:B.
    + destruct (IH s1 last) as (s2 & -> & I2 & L2 & S2); [rewrite E1; lia|]. exists s2. rewrite E1 in *. rewrite I in *.
      split; [reflexivity|]. split; [congruence|]. cbn [length]. split; [lia|]. rewrite S2. cbn [scan_all]. now rewrite B.
    + exists (sc_unread s1). split; [reflexivity|]. split; [exact I|]. rewrite E2. split; [lia|]. cbn [scan_all]. now rewrite B.
Qed.

Lemma scan_message_eof : forall last l, scan_message last l <> TEof.
Proof.
  intros last l. unfold scan_message.
  repeat match goal with |- context [if ?b then _ else _] => destruct b end; try discriminate. destruct last; discriminate.
Qed.
Lemma scan_comment_eof : forall ign last l, scan_comment ign last l <> Some TEof.
Proof.
  intros ign last l. unfold scan_comment. destruct l as [|a [|c rest]]; [discriminate| |].
  - destruct ign; discriminate.
  - repeat match goal with |- context [if ?b then _ else _] => destruct b end; try discriminate. destruct last; discriminate.
Qed.
Lemma scan_line_eof : forall ign last l, scan_line ign last l <> Some TEof.
Proof.
  intros ign last [|c l]; [discriminate|]. unfold scan_line. destruct (Ascii.eqb c "#"); [apply scan_comment_eof|].
  intros H. injection H as H. now apply scan_message_eof in H.
Qed.

Lemma set_last_same : forall s k, sc_last s = k -> sc_set_last s k = s.
Proof. intros [r t n la po ig] k <-. reflexivity. Qed.
Lemma sc_scan_spec : forall fuel s, (length (sc_lines s) < fuel)%nat ->
  match sc_tokens s with
  | [] => exists s1, sc_scan fuel s = Ok (TEof, [], s1) /\ sc_last s1 = TEof /\ sc_tokens s1 = [] /\ sc_ign s1 = sc_ign s /\
      (length (sc_lines s1) <= length (sc_lines s))%nat
  | (k, l) :: ts => k <> TEof /\ exists s1, sc_scan fuel s = Ok (k, l, s1) /\ sc_last s1 = k /\ sc_tokens s1 = ts /\ sc_ign s1 = sc_ign s /\
      (length (sc_lines s1) <= length (sc_lines s))%nat
  end.
Proof.
  induction fuel as [|f IH]; intros s L; [lia|]. cbn [sc_scan]. pose proof (sc_read_spec s) as R. unfold sc_tokens at 1.
  destruct (sc_lines s) as [|l r] eqn:E.
  - destruct R as (s1 & -> & E1 & La & I). cbn [scan_all rbind].
    exists (sc_set_last s1 TEof). split; [reflexivity|]. unfold sc_tokens.
    change (sc_lines (sc_set_last s1 TEof)) with (sc_lines s1). rewrite E1. cbn. auto.
  - destruct R as (s1 & -> & E1 & _ & La & I). cbn [length] in L. cbn [scan_all]. cbv zeta.
    assert (W : exists s2, (do x <- sc_white f s1 ; Ok (TWs, @nil ascii, x)) = Ok (TWs, [], s2) /\ sc_ign s2 = sc_ign s /\
      (length (sc_lines s2) <= length r)%nat /\
      scan_all (sc_ign s) TWs false (sc_lines s2) = scan_all (sc_ign s) TWs true r).
    { destruct (sc_white_spec f s1 TWs) as (s2 & -> & I2 & L2 & S2); [rewrite E1; lia|]. exists s2. rewrite E1, I in *.
      cbn [rbind]. auto. }
    destruct (is_nil (trim_space l)) eqn:B.
    + destruct W as (s2 & W & I2 & L2 & S2). split; [discriminate|].
      exists (sc_set_last s2 TWs). split.
      * destruct (is_nil l); rewrite W; reflexivity.
      * split; [reflexivity|]. unfold sc_tokens. cbn [sc_set_last sc_ign sc_last]. change (sc_lines (sc_set_last s2 TWs)) with (sc_lines s2).
        rewrite I2, S2. cbn [length]. auto with arith.
    + assert (N : is_nil l = false) by (destruct l; [rewrite trim_nil in B; discriminate|reflexivity]). rewrite N, La, I.
      destruct (scan_line (sc_ign s) (sc_last s) (trim_space l)) as [k|] eqn:SL.
      * split; [intros ->; now apply scan_line_eof in SL|]. cbn [rbind]. eexists. split; [reflexivity|]. split; [reflexivity|].
        unfold sc_tokens. cbn [sc_set_last sc_ign sc_last]. change (sc_lines (sc_set_last s1 k)) with (sc_lines s1).
        rewrite I, E1. cbn [length]. auto with arith.
      * specialize (IH s1). rewrite E1 in IH. specialize (IH ltac:(lia)). unfold sc_tokens at 1 in IH. rewrite E1, La, I in IH.
        cbn [length].
        destruct (scan_all (sc_ign s) (sc_last s) false r) as [|[k x] ts].
        -- destruct IH as (s2 & -> & La2 & T2 & I2 & L2). cbn [rbind]. rewrite set_last_same by exact La2.
           exists s2. repeat split; auto; try congruence; lia.
        -- destruct IH as (K & s2 & -> & La2 & T2 & I2 & L2). split; [exact K|]. cbn [rbind]. rewrite set_last_same by exact La2.
           exists s2. repeat split; auto; try congruence; lia.
Qed.

(** ** Parser *)
Definition p_tokens (p : parser) : list (ptok * bytes) :=
  if p_n p then (p_last p, p_lit p) :: sc_tokens (p_s p) else sc_tokens (p_s p).
Definition good (k : nat) (p : parser) : Prop :=
  (length (sc_lines (p_s p)) < k)%nat /\ (p_n p = true -> p_last p <> TEof).
(** Nothing but the scanner, the token read last and n differ. *)
Definition frame (p q : parser) : Prop :=
  p_header q = p_header p /\ p_map q = p_map p /\ p_ign q = p_ign p /\ p_mem q = p_mem p.
Lemma frame_refl : forall p, frame p p.
Proof. intros p. unfold frame. auto. Qed.
Lemma frame_trans : forall p q r, frame p q -> frame q r -> frame p r.
Proof. unfold frame. intuition congruence. Qed.

Lemma p_scan_spec : forall k p, good k p ->
  match p_tokens p with
  | [] => exists p1, p_scan k p = OGot (TEof, []) p1 /\ frame p p1 /\ p_n p1 = false /\ p_last p1 = TEof /\ p_tokens p1 = [] /\ good k p1
  | (t, l) :: ts => t <> TEof /\ exists p1, p_scan k p = OGot (t, l) p1 /\ frame p p1 /\ p_n p1 = false /\ p_last p1 = t /\
      p_tokens p1 = ts /\ good k p1 /\ p_tokens (p_unscan p1) = (t, l) :: ts /\ good k (p_unscan p1)
  end.
Proof.
  intros k [s la li n h mp ig me] [G1 G2]. unfold p_tokens, p_scan, p_unscan, frame, good. cbn [p_s p_last p_lit p_n p_header p_map p_ign p_mem] in *.
  destruct n.
  - split; [auto|]. eexists. split; [reflexivity|]. cbn [p_s p_last p_lit p_n p_header p_map p_ign p_mem].
    repeat split; auto; discriminate.
  - pose proof (sc_scan_spec k s G1) as S. destruct (sc_tokens s) as [|[t l] ts].
    + destruct S as (s1 & -> & La & T & I & L). eexists. split; [reflexivity|]. cbn [p_s p_last p_lit p_n p_header p_map p_ign p_mem].
      repeat split; auto; try discriminate; lia.
    + destruct S as (K & s1 & -> & La & T & I & L). split; [exact K|]. eexists. split; [reflexivity|].
      cbn [p_s p_last p_lit p_n p_header p_map p_ign p_mem]. rewrite T. repeat split; auto; try discriminate; lia.
Qed.

(** A call does what the function of the tokens says, [R] relates the results. *)
Definition sim {A B} (r : res A) (o : out B) (p : parser) (R : A -> B -> parser -> Prop) : Prop :=
  match r with
  | Ok a => exists b p1, o = OGot b p1 /\ frame p p1 /\ R a b p1
  | Err => exists e p1, o = OErr e p1 /\ frame p p1 /\ p_n p1 = false
  | Panic => o = OPanic
  | OutOfFuel => o = OFuel
  end.
Lemma sim_frame : forall A B (r : res A) (o : out B) p q R, frame p q -> sim r o q R -> sim r o p R.
Proof.
  intros A B r o p q R F S. destruct r; cbn [sim] in *; auto.
  - destruct S as (b & p1 & -> & F1 & H). exists b, p1. eauto using frame_trans.
  - destruct S as (e & p1 & -> & F1 & H). exists e, p1. eauto using frame_trans.
Qed.

Definition R_comment (k : nat) (a : option (comment * list (ptok * bytes))) (b : option comment) (p : parser) : Prop :=
  match a with
  | None => b = None /\ p_n p = false
  | Some (c, ts) => b = Some c /\ p_tokens p = ts /\ good k p
  end.
Lemma p_comment_spec : forall k fuel n c p, good k p -> (length (p_tokens p) < n)%nat ->
  sim (parse_comment fuel c (p_tokens p)) (p_comment k fuel n c p) p (R_comment k).
Proof.
  intros k fuel. induction n as [|n IH]; intros c p G L; [lia|]. cbn [p_comment]. pose proof (p_scan_spec k p G) as S.
  destruct (p_tokens p) as [|[t l] ts] eqn:E.
  - destruct S as (p1 & -> & F & N & _). cbn [obind parse_comment sim]. exists None, p1. cbn. auto.
  - destruct S as (NE & p1 & -> & F & N & La & T & G1 & TU & GU). cbn [obind parse_comment]. cbn [length] in L.
    assert (D : is_comment t = false -> t <> TFail ->
      sim (Ok (Some (c, (t, l) :: ts))) (OGot (Some c) (p_unscan p1)) p (R_comment k)).
    { intros _ _. exists (Some c), (p_unscan p1). split; [reflexivity|]. split; [exact F|]. cbn. auto. }
    assert (C : sim (do c' <- comment_step fuel c t l ; parse_comment fuel c' ts)
      (obind (of_res (comment_step fuel c t l) (pos_error p1) p1) (fun c' p2 => p_comment k fuel n c' p2)) p (R_comment k)).
    { destruct (comment_step fuel c t l) as [c'| | |]; cbn [rbind of_res obind].
      - eapply sim_frame; [exact F|]. rewrite <- T. apply IH; [exact G1|]. rewrite T. lia.
      - do 2 eexists. split; [reflexivity|auto].
      - reflexivity.
      - reflexivity. }
    destruct t; try congruence; cbn [is_comment]; try exact C; try (apply D; [reflexivity|discriminate]).
Qed.


Definition R_fields (k : nat) (a : message * list (ptok * bytes) * bool) (b : message) (p : parser) : Prop :=
  let '(m, ts, e) := a in
  b = m /\ p_tokens p = ts /\ good k p /\ p_n p = false /\ (e = true <-> p_last p = TEof).
Lemma p_fields_spec : forall k fuel n m p, good k p -> (length (p_tokens p) < n)%nat ->
  sim (parse_body fuel m (p_tokens p)) (p_fields k fuel n m p) p (R_fields k).
Proof.
  intros k fuel. induction n as [|n IH]; intros m p G L; [lia|]. cbn [p_fields]. pose proof (p_scan_spec k p G) as S.
  destruct (p_tokens p) as [|[t l] ts] eqn:E.
  - destruct S as (p1 & -> & F & N & La & T & G1). cbn [obind parse_body sim]. exists m, p1. cbn. intuition congruence.
  - destruct S as (NE & p1 & -> & F & N & La & T & G1 & TU & GU). cbn [obind parse_body]. cbn [length] in L.
    assert (D : sim (Ok (m, ts, false)) (OGot m p1) p (R_fields k)).
    { exists m, p1. split; [reflexivity|]. split; [exact F|]. cbn. intuition congruence. }
    assert (C : sim (do m' <- message_step fuel m t l ; parse_body fuel m' ts)
      (obind (of_res (message_step fuel m t l) (step_error t p1) p1) (fun m' p2 => p_fields k fuel n m' p2)) p (R_fields k)).
    { destruct (message_step fuel m t l) as [m'| | |]; cbn [rbind of_res obind].
      - eapply sim_frame; [exact F|]. rewrite <- T. apply IH; [exact G1|]. rewrite T. lia.
      - do 2 eexists. split; [reflexivity|auto].
      - reflexivity.
      - reflexivity. }
    destruct t; try congruence; cbn [is_comment]; try exact C; try exact D.
Qed.

Lemma rest_head : forall fuel ts c c' ts', parse_comment fuel c ts = Ok (Some (c', ts')) ->
  (length ts' <= length ts)%nat /\ exists t l r, ts' = (t, l) :: r /\ is_comment t = false.
Proof.
  intros fuel. induction ts as [|[k l] ts IH]; intros c c' ts' H; [discriminate H|].
  assert (C : (do x <- comment_step fuel c k l ; parse_comment fuel x ts) = Ok (Some (c', ts')) ->
    (length ts' <= S (length ts))%nat /\ exists t l r, ts' = (t, l) :: r /\ is_comment t = false).
  { destruct (comment_step fuel c k l) as [x| | |]; cbn [rbind]; intros E; try discriminate E.
    apply IH in E. destruct E as (A & B). split; [lia|exact B]. }
  cbn [parse_comment] in H. cbn [length].
  destruct k; try discriminate H; cbn [is_comment] in H; try (apply C; exact H);
    injection H as <- <-; (split; [cbn [length]; lia|]); do 3 eexists; (split; reflexivity).
Qed.

Lemma p_comments_end : forall k fuel n m p t l ts, good k p -> p_tokens p = (t, l) :: ts -> is_comment t = false ->
  exists p1, p_comments k fuel (S n) m p = OGot (Some m) p1 /\ frame p p1 /\ p_tokens p1 = (t, l) :: ts /\ good k p1.
Proof.
  intros k fuel n m p t l ts G E C. cbn [p_comments]. pose proof (p_scan_spec k p G) as S. rewrite E in S.
  destruct S as (NE & p1 & -> & F & N & La & T & G1 & TU & GU). cbn [obind fst]. rewrite C.
  exists (p_unscan p1). auto.
Qed.

Definition R_message (k : nat) (a : option (message * list (ptok * bytes) * bool)) (b : option message) (p : parser) : Prop :=
  match a with
  | None => b = None /\ p_n p = false
  | Some x => exists m, b = Some m /\ R_fields k x m p
  end.
Lemma fields_then : forall k fuel n m p, good k p -> (length (p_tokens p) < n)%nat ->
  sim (do r <- parse_body fuel m (p_tokens p) ; Ok (Some r))
    (obind (p_fields k fuel n m p) (fun m' p3 => OGot (Some m') p3)) p (R_message k).
Proof.
  intros k fuel n m p G L. pose proof (p_fields_spec k fuel n m p G L) as S.
  destruct (parse_body fuel m (p_tokens p)) as [r| | |]; cbn [rbind sim] in *.
  - destruct S as (b & p1 & -> & F & R). cbn [obind]. exists (Some b), p1. split; [reflexivity|]. split; [exact F|]. cbn. eauto.
  - destruct S as (e & p1 & -> & F & N). cbn [obind]. eauto.
  - now rewrite S.
  - now rewrite S.
Qed.
Lemma p_message_spec : forall k fuel n p, good k p -> (length (p_tokens p) < n)%nat ->
  sim (parse_message fuel (p_tokens p)) (p_message k fuel n p) p (R_message k).
Proof.
  intros k fuel n p G L. unfold p_message, parse_message. pose proof (p_scan_spec k p G) as S.
  destruct (p_tokens p) as [|[t l] ts] eqn:E.
  - destruct S as (p1 & -> & F & N & La & T & G1). cbn [obind fst sim]. exists None, p1. cbn. auto.
  - destruct S as (NE & p1 & -> & F & N & La & T & G1 & TU & GU). cbn [obind fst].
    assert (Q : forall X : out (option message), match t with TEof => OGot None p1 | _ => X end = X) by (destruct t; congruence).
    rewrite Q. clear Q. eapply sim_frame with (q := p_unscan p1); [exact F|].
    destruct n as [|n]; [lia|]. destruct (is_comment t) eqn:C.
    + cbn [p_comments]. pose proof (p_scan_spec k (p_unscan p1) GU) as S. rewrite TU in S.
      destruct S as (_ & p2 & -> & F2 & N2 & La2 & T2 & G2 & TU2 & GU2). cbn [obind fst]. rewrite C.
      eapply sim_frame with (q := p_unscan p2); [exact F2|].
      pose proof (p_comment_spec k fuel (S n) new_comment (p_unscan p2) GU2) as P. rewrite TU2 in P. specialize (P L).
      destruct (parse_comment fuel new_comment ((t, l) :: ts)) as [[[c ts']|]| | |] eqn:PC; cbn [sim R_comment rbind] in *.
      * destruct P as (b & p3 & -> & F3 & -> & T3 & G3). cbn [obind]. apply rest_head in PC.
        destruct PC as (LE & t' & l' & r & -> & C'). cbn [length] in *.
        destruct n as [|n]; [lia|].
        destruct (p_comments_end k fuel n (set_com new_message c) p3 t' l' r G3 T3 C') as (p4 & -> & F4 & T4 & G4).
        cbn [obind]. eapply sim_frame with (q := p4); [exact (frame_trans _ _ _ F3 F4)|].
        rewrite <- T4. apply fields_then; [exact G4|]. rewrite T4. cbn [length]. lia.
      * destruct P as (b & p3 & -> & F3 & -> & N3). cbn [obind]. exists None, p3. cbn. auto.
      * destruct P as (e & p3 & -> & F3 & N3). cbn [obind]. eauto.
      * now rewrite P.
      * now rewrite P.
    + destruct (p_comments_end k fuel n new_message (p_unscan p1) t l ts GU TU C) as (p4 & -> & F4 & T4 & G4).
      cbn [obind]. eapply sim_frame with (q := p4); [exact F4|].
      rewrite <- T4. apply fields_then; [exact G4|]. rewrite T4. cbn [length] in *. lia.
Qed.

Lemma parse_body_shorter : forall fuel ts m m' ts' e, parse_body fuel m ts = Ok (m', ts', e) -> ts <> [] -> (length ts' < length ts)%nat.
Proof.
  intros fuel. induction ts as [|[k l] ts IH]; intros m m' ts' e H N; [congruence|]. cbn [parse_body] in H. cbn [length].
  assert (C : (do x <- message_step fuel m k l ; parse_body fuel x ts) = Ok (m', ts', e) -> (length ts' < S (length ts))%nat).
  { destruct (message_step fuel m k l) as [x| | |]; cbn [rbind]; intros E; try discriminate E.
    destruct ts as [|t ts]; [cbn in E; injection E as _ <- _; cbn; lia|]. apply IH in E; [lia|discriminate]. }
  destruct k; cbn [is_comment] in H; try (apply C; exact H); injection H as _ <- _; lia.
Qed.
Lemma parse_message_shorter : forall fuel ts m ts' e, parse_message fuel ts = Ok (Some (m, ts', e)) -> (length ts' < length ts)%nat.
Proof.
  intros fuel [|[k l] ts] m ts' e H; [discriminate H|]. unfold parse_message in H. destruct (is_comment k).
  - destruct (parse_comment fuel new_comment ((k, l) :: ts)) as [[[c r]|]| | |] eqn:PC; cbn [rbind] in H; try discriminate H.
    apply rest_head in PC. destruct PC as (LE & t' & l' & r' & -> & _).
    destruct (parse_body fuel _ ((t', l') :: r')) as [[[a b] x]| | |] eqn:PB; cbn [rbind] in H; try discriminate H.
    injection H as <- <- <-. apply parse_body_shorter in PB; [lia|discriminate].
  - destruct (parse_body fuel _ ((k, l) :: ts)) as [[[a b] x]| | |] eqn:PB; cbn [rbind] in H; try discriminate H.
    injection H as <- <- <-. apply parse_body_shorter in PB; [lia|discriminate].
Qed.

Lemma set_nth_last : forall A (old : list A) x y, set_nth (length old) y (old ++ [x]) = old ++ [y].
Proof. induction old as [|a old IH]; intros; cbn; [reflexivity|]. now rewrite IH. Qed.
Lemma nth_last : forall A (old : list A) x d, nth (length old) (old ++ [x]) d = x.
Proof. intros. rewrite app_nth2 by lia. now rewrite Nat.sub_diag. Qed.

(** The parser after a call: the flag is as before, no token is put back and
    the maps made earlier are the same. *)
Definition after (ign : bool) (old : list (list message)) (p : parser) : Prop :=
  p_n p = false /\ p_ign p = ign /\ exists ms, p_mem p = old ++ [ms].
Definition fsim (ign : bool) (old : list (list message)) (r : res pofile) (o : out (header * option nat)) : Prop :=
  match r with
  | Ok f => exists p1, o = OGot (f_header f, Some (length old)) p1 /\ after ign old p1 /\ nth (length old) (p_mem p1) [] = f_messages f
  | Err => exists e p1, o = OErr e p1 /\ after ign old p1
  | Panic => o = OPanic
  | OutOfFuel => o = OFuel
  end.
Definition at_ (ign : bool) (old : list (list message)) (h : option header) (ms : list message) (p : parser) : Prop :=
  p_ign p = ign /\ p_header p = h /\ p_map p = Some (length old) /\ p_mem p = old ++ [ms].

Lemma at_frame : forall ign old h ms p q, at_ ign old h ms p -> frame p q -> at_ ign old h ms q.
Proof. unfold at_, frame. intuition congruence. Qed.
Lemma at_messages : forall ign old h ms p, at_ ign old h ms p -> p_messages p = ms.
Proof. intros ign old h ms p (_ & _ & M & E). unfold p_messages. rewrite M, E. apply nth_last. Qed.
Lemma at_after : forall ign old h ms p, at_ ign old h ms p -> p_n p = false -> after ign old p.
Proof. intros ign old h ms p (I & _ & M & E) N. unfold after. eauto. Qed.
Lemma p_finish_spec : forall ign old h ms p, at_ ign old h ms p -> p_n p = false -> fsim ign old (finish h ms) (p_finish p).
Proof.
  intros ign old h ms p A N. pose proof (at_after _ _ _ _ _ A N) as AF. unfold p_finish, finish. rewrite (at_messages _ _ _ _ _ A).
  destruct A as (I & H & M & E). rewrite H, M.
  assert (T : nth (length old) (p_mem p) [] = ms) by (rewrite E; apply nth_last).
  destruct h as [h|]; [|destruct ms as [|m ms]]; cbn [fsim f_header f_messages]; eauto.
Qed.
Lemma p_file_spec : forall k fuel ign old n steps h ms p, at_ ign old h ms p -> good k p ->
  (length (p_tokens p) < n)%nat -> (length (p_tokens p) < steps)%nat ->
  fsim ign old (parse_file fuel steps h ms (p_tokens p)) (p_file k fuel n p).
Proof.
  intros k fuel ign old. induction n as [|n IH]; intros steps h ms p A G L LS; [lia|].
  destruct steps as [|steps]; [lia|]. cbn [p_file parse_file].
  pose proof (p_message_spec k fuel (S n) p G L) as S.
  destruct (parse_message fuel (p_tokens p)) as [[[[m ts'] e]|]| | |] eqn:PM; cbn [sim R_message R_fields rbind] in *.
  - destruct S as (b & p1 & -> & F & m' & -> & -> & T & G1 & N & EQ). cbn [obind].
    apply parse_message_shorter in PM. pose proof (at_frame _ _ _ _ _ _ A F) as A1.
    destruct (is_nil (m_id m)).
    + destruct (is_nil (m_str m)).
      * rewrite <- T. apply IH; [exact A1|exact G1| |]; rewrite T; lia.
      * destruct A1 as (I & H & M & E). rewrite H. destruct h as [h|].
        -- do 2 eexists. split; [reflexivity|]. split; [exact N|]. split; [exact I|]. eauto.
        -- rewrite <- T. change (p_tokens p1) with (p_tokens (p_set_header p1 (parse_header m))).
           apply IH; [repeat split; assumption|exact G1| |]; (change (p_tokens (p_set_header p1 (parse_header m))) with (p_tokens p1)); rewrite T; lia.
    + rewrite (at_messages _ _ _ _ _ A1). destruct (existsb (same_key m) ms).
      * do 2 eexists. split; [reflexivity|]. eapply at_after; eassumption.
      * assert (A2 : at_ ign old h (ms ++ [m]) (p_put p1 m)).
        { pose proof (at_messages _ _ _ _ _ A1) as MS. destruct A1 as (I & H & M & E). unfold at_, p_put.
          cbn [p_ign p_header p_map p_mem]. rewrite M, MS, E, set_nth_last. auto. }
        cbv zeta. change (p_last (p_put p1 m)) with (p_last p1).
        destruct e.
        -- rewrite (proj1 EQ eq_refl). apply p_finish_spec; [exact A2|exact N].
        -- assert (NL : p_last p1 <> TEof) by (intros X; apply EQ in X; discriminate X).
           assert (Q : forall X Y : out (header * option nat), match p_last p1 with TEof => X | _ => Y end = Y) by (destruct (p_last p1); congruence).
           rewrite Q. rewrite <- T. change (p_tokens p1) with (p_tokens (p_put p1 m)).
           apply IH; [exact A2|exact G1| |]; change (p_tokens (p_put p1 m)) with (p_tokens p1); rewrite T; lia.
  - destruct S as (b & p1 & -> & F & -> & N). cbn [obind]. apply p_finish_spec; [|exact N]. eapply at_frame; eassumption.
  - destruct S as (e & p1 & -> & F & N). cbn [obind fsim]. exists e, p1. split; [reflexivity|].
    eapply at_after; [|exact N]. eapply at_frame; eassumption.
  - now rewrite S.
  - now rewrite S.
Qed.

Lemma scan_all_length : forall ign ls last b, (length (scan_all ign last b ls) <= length ls)%nat.
Proof.
  intros ign. induction ls as [|l ls IH]; intros last b; [cbn; lia|]. cbn [scan_all length]. cbv zeta.
  destruct (is_nil (trim_space l)).
  - destruct b; [specialize (IH last true); lia|]. cbn [length]. specialize (IH TWs true). lia.
  - destruct (scan_line ign last (trim_space l)) as [k|]; cbn [length]; [specialize (IH k false)|specialize (IH last false)]; lia.
Qed.
Lemma p_parse_spec : forall fuel p s, p_n p = false -> fsim (p_ign p) (p_mem p) (parse_po_fuel fuel (p_ign p) s) (p_parse fuel p s).
Proof.
  intros fuel p s N. unfold p_parse, parse_po_fuel. cbv zeta.
  set (p1 := Parser _ _ _ _ _ _ _ _). set (k := S (length (file_lines s))).
  assert (T1 : p_tokens p1 = scan_all (p_ign p) TEof false (file_lines s)).
  { unfold p_tokens. subst p1. cbn [p_n p_reset p_s p_ign]. rewrite N. reflexivity. }
  assert (G : good k p1).
  { split; [subst p1 k; cbn; lia|]. subst p1. cbn [p_n p_reset]. rewrite N. discriminate. }
  assert (A : at_ (p_ign p) (p_mem p) None [] p1) by (repeat split; reflexivity).
  pose proof (scan_all_length (p_ign p) (file_lines s) TEof false) as L.
  pose proof (p_scan_spec k p1 G) as S. rewrite T1 in S.
  destruct (scan_all (p_ign p) TEof false (file_lines s)) as [|[t l] ts].
  - destruct S as (p2 & -> & F & N2 & _). cbn [obind fst fsim]. do 2 eexists. split; [reflexivity|].
    eapply at_after; [|exact N2]. eapply at_frame; eassumption.
  - destruct S as (NE & p2 & -> & F & N2 & La & T & G2 & TU & GU). cbn [obind fst].
    assert (Q : forall X Y : out (header * option nat), match t with TEof => X | _ => Y end = Y) by (destruct t; congruence).
    rewrite Q. rewrite <- TU. apply p_file_spec.
    + eapply at_frame; [exact A|]. exact F.
    + exact GU.
    + rewrite TU. cbn [length] in *. lia.
    + lia.
Qed.
