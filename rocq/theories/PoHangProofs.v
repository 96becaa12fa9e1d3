(** The files on which the parser hangs. *)
From Coq Require Import String Ascii List ZArith Bool Lia.
From Verif Require Import Base BaseProofs Utf8Model Utf8Proofs StrModel TrimProofs PoStrModel PoStrSpec PoFileModel ReModel PoDecodeProofs PoTotalProofs PoLineSpec PoLineProofs PoHangSpec.
From Verif Require PoItemProofs PoStrProofs PoErrProofs.
Import ListNotations.
Open Scope Z_scope.

Lemma dec_hang : forall fuel x, dec fuel x = OutOfFuel -> ~ In LF x -> (length x < fuel)%nat -> unclosed x.
Proof.
  intros fuel x E N L. destruct (unclosed_dec x) as [U|U]; [exact U|].
  pose proof (dec_outc False fuel x) as X. rewrite E in X. exfalso. apply X. right. repeat split; assumption.
Qed.
Lemma unclosed_hang : forall fuel x, unclosed x -> ~ In LF x -> dec fuel x = OutOfFuel.
Proof.
  intros fuel x U N. unfold dec. destruct (decode_outcome x) as [H _]. apply H. exists x. split; [|exact U].
  split; [exact N|]. exists [], []. cbn [app]. rewrite app_nil_r. auto.
Qed.

(** ** One token *)
Lemma skipn_pre : forall (p x : bytes), skipn (length p) (p ++ x) = x.
Proof. intros p x. rewrite skipn_app, skipn_all, Nat.sub_diag. reflexivity. Qed.
Lemma from_pre : forall (p x : bytes) n, length p = n -> from n (p ++ x) = Ok x.
Proof.
  intros p x n <-. unfold from. replace (Nat.ltb (length (p ++ x)) (length p)) with false; [now rewrite skipn_pre|].
  symmetry. apply Nat.ltb_ge. rewrite app_length. lia.
Qed.
Lemma whites_quote : forall w w' a b, whites w -> whites w' -> w ++ "["%char :: a = w' ++ QUOTE :: b -> False.
Proof.
  induction w as [|c w IH]; intros [|c' w'] a b W W' E; cbn [app] in E.
  - discriminate.
  - injection E as <- _. apply Forall_inv, white_iff in W'. discriminate.
  - injection E as -> _. apply Forall_inv, white_iff in W. discriminate.
  - injection E as _ E. eapply IH; [exact (Forall_inv_tail W)|exact (Forall_inv_tail W')|exact E].
Qed.
Lemma form_no_text : forall t w d x, form_line t w d x -> beq t (bs "msgstr """"") || rmatch re_str t = false.
Proof.
  intros t w d x (-> & W & D & X). apply orb_false_iff. split.
  - destruct (beq _ _) eqn:B; [|reflexivity]. apply beq_eq in B. exfalso.
    apply (app_inv_head (bs "msgstr") _ (bs " """"")) in B. exact (whites_quote w [SP] _ [QUOTE] W ltac:(constructor; [now left|constructor]) B).
  - destruct (rmatch re_str _) eqn:R; [|reflexivity]. apply str_match in R as (y & E & (w1 & b & w2 & -> & W1 & _)). exfalso.
    apply app_inv_head in E. exact (whites_quote _ _ _ _ W W1 E).
Qed.

Definition starts (m : message) (k : ptok) : Prop := k = TStrPL -> m_str m <> [].
(** A token of a field decodes a string of its line. *)
Lemma field_token : forall last t, good (scan_message last t, t) ->
  exists x, string_of t x /\ within x t /\ forall fuel m,
    (message_step fuel m (scan_message last t) t = OutOfFuel -> dec fuel x = OutOfFuel).
Proof.
  intros last t G. pose proof (scan_message_good last t G) as [_ K].
  assert (DE : forall fuel q (g : bytes -> message), (do v <- dec fuel q; Ok (g v)) = OutOfFuel -> dec fuel q = OutOfFuel).
  { intros fuel q g. destruct (dec fuel q); cbn [rbind]; intros H; (discriminate || reflexivity). }
  assert (WS : forall p x : bytes, within x (p ++ x)) by (intros p x; exists p, []; split; [now rewrite app_nil_r|intros []]).
  destruct K as [K|[S P]].
  - unfold scan_message in *. change re_id with (rseq [rlit (bs "msgid"); rplus rspace; rquoted]) in *.
    change re_pl with (rseq [rlit (bs "msgid_plural"); rplus rspace; rquoted]) in *.
    change re_ctx with (rseq [rlit (bs "msgctxt"); rplus rspace; rquoted]) in *.
    change (bs "msgid ") with (bs "msgid" ++ bs " ") in *. change (bs "msgid_plural ") with (bs "msgid_plural" ++ bs " ") in *.
    change (bs "msgctxt ") with (bs "msgctxt" ++ bs " ") in *.
    destruct K as [x X|x X|x X|x X|w d x W D L X].
    + rewrite (proj2 (kw_match (bs "msgid") _)) by (exists x; auto). exists x. split; [now apply so_id|]. split; [apply WS|].
      intros fuel m. cbn [message_step]. rewrite (from_pre (bs "msgid ") x 6) by reflexivity. cbn [rbind]. apply DE.
    + replace (has_prefix _ (bs "msgid" ++ bs " ")) with false by reflexivity. cbn [andb].
      replace (has_prefix _ (bs "msgstr")) with false by reflexivity.
      rewrite (proj2 (kw_match (bs "msgid_plural") _)) by (exists x; auto). exists x. split; [now apply so_plural|]. split; [apply WS|].
      intros fuel m. cbn [message_step]. rewrite (from_pre (bs "msgid_plural ") x 13) by reflexivity. cbn [rbind]. apply DE.
    + replace (has_prefix _ (bs "msgid" ++ bs " ")) with false by reflexivity. cbn [andb].
      replace (has_prefix _ (bs "msgstr")) with false by reflexivity.
      replace (has_prefix _ (bs "msgid_plural" ++ bs " ")) with false by reflexivity. cbn [andb].
      rewrite (proj2 (kw_match (bs "msgctxt") _)) by (exists x; auto). exists x. split; [now apply so_context|]. split; [apply WS|].
      intros fuel m. cbn [message_step]. rewrite (from_pre (bs "msgctxt ") x 8) by reflexivity. cbn [rbind]. apply DE.
    + replace (has_prefix _ (bs "msgid" ++ bs " ")) with false by reflexivity. cbn [andb].
      replace (has_prefix _ (bs "msgstr")) with true by reflexivity.
      rewrite (proj2 (str_match _)) by (exists x; auto). rewrite orb_true_r.
      destruct x as [|c x]; [destruct X as ([|? ?] & ? & ? & X & _); discriminate X|].
      exists x. split; [now apply so_text|].
      change (bs "msgstr" ++ c :: x) with ((bs "msgstr" ++ [c]) ++ x). split; [apply WS|].
      intros fuel m. cbn [message_step]. rewrite (from_pre (bs "msgstr" ++ [c]) x 7) by reflexivity. cbn [rbind]. apply DE.
    + assert (F : form_line (bs "msgstr" ++ w ++ "["%char :: d ++ "]"%char :: x) w d x) by (repeat split; try apply D; assumption).
      replace (has_prefix _ (bs "msgid" ++ bs " ")) with false in * by reflexivity. cbn [andb] in *.
      replace (has_prefix _ (bs "msgstr")) with true in * by reflexivity.
      rewrite (form_no_text _ _ _ _ F) in *. rewrite (proj2 (strp_match _)) in * by eauto.
      set (t := bs "msgstr" ++ w ++ "["%char :: d ++ "]"%char :: x) in *.
      assert (LT : (10 <= length t)%nat).
      { subst t. destruct D as [ND _]. destruct d as [|d0 d]; [congruence|]. destruct X as (w1 & b & w2 & -> & _).
        pose proof (eq_refl : length (bs "msgstr") = 6%nat) as L6.
        rewrite !app_length, L6. cbn [length]. rewrite !app_length. cbn [length]. rewrite !app_length. cbn [length]. lia. }
      exists (skipn 10 t). split; [|split; [apply within_skipn|]].
      * replace t with (firstn 10 t ++ skipn 10 t) at 1 by apply firstn_skipn. apply (so_form w d x); try assumption.
        -- rewrite firstn_length. lia.
        -- apply firstn_skipn.
      * intros fuel m. cbn [message_step]. unfold from. replace (Nat.ltb (length t) 10) with false by (symmetry; now apply Nat.ltb_ge).
        destruct G as (_ & _ & G). destruct (G eq_refl) as [i G']. cbn [snd] in G'. rewrite G'. cbn [rbind]. apply DE.
  - exists t. split; [now apply so_more|]. split; [apply within_refl|]. intros fuel m. pose proof S as S0. destruct (string_scans last t S P) as [_ Q].
    revert G. pose proof (proj2 (line_match t) S) as M. destruct S as (b & -> & B). unfold scan_message.
    replace (has_prefix _ (bs "msgid ")) with false by reflexivity. replace (has_prefix _ (bs "msgstr")) with false by reflexivity.
    replace (has_prefix _ (bs "msgid_plural ")) with false by reflexivity. replace (has_prefix _ (bs "msgctxt ")) with false by reflexivity.
    cbn [andb] in *. rewrite M. intros G. destruct last; try discriminate P; cbn [message_step]; cbv zeta; try apply DE;
      (destruct (_ <? 0); [discriminate|]); apply DE.
Qed.
Lemma field_hangs : forall last t x fuel m, good (scan_message last t, t) -> string_of t x -> dec fuel x = OutOfFuel ->
  starts m (scan_message last t) -> message_step fuel m (scan_message last t) t = OutOfFuel.
Proof.
  intros last t x fuel m G S E ST. unfold scan_message in *. change re_id with (rseq [rlit (bs "msgid"); rplus rspace; rquoted]) in *.
  change re_pl with (rseq [rlit (bs "msgid_plural"); rplus rspace; rquoted]) in *.
  change re_ctx with (rseq [rlit (bs "msgctxt"); rplus rspace; rquoted]) in *.
  change (bs "msgid ") with (bs "msgid" ++ bs " ") in *. change (bs "msgid_plural ") with (bs "msgid_plural" ++ bs " ") in *.
  change (bs "msgctxt ") with (bs "msgctxt" ++ bs " ") in *.
  destruct S as [x X|x X|x X|c x X|w d y p x W D Y LP EQ|t S].
  - rewrite (proj2 (kw_match (bs "msgid") _)) by (exists x; auto). cbn [message_step].
    rewrite (from_pre (bs "msgid ") x 6) by reflexivity. cbn [rbind]. now rewrite E.
  - replace (has_prefix _ (bs "msgid" ++ bs " ")) with false by reflexivity. cbn [andb].
    replace (has_prefix _ (bs "msgstr")) with false by reflexivity.
    rewrite (proj2 (kw_match (bs "msgid_plural") _)) by (exists x; auto). cbn [message_step].
    rewrite (from_pre (bs "msgid_plural ") x 13) by reflexivity. cbn [rbind]. now rewrite E.
  - replace (has_prefix _ (bs "msgid" ++ bs " ")) with false by reflexivity. cbn [andb].
    replace (has_prefix _ (bs "msgstr")) with false by reflexivity.
    replace (has_prefix _ (bs "msgid_plural" ++ bs " ")) with false by reflexivity. cbn [andb].
    rewrite (proj2 (kw_match (bs "msgctxt") _)) by (exists x; auto). cbn [message_step].
    rewrite (from_pre (bs "msgctxt ") x 8) by reflexivity. cbn [rbind]. now rewrite E.
  - replace (has_prefix _ (bs "msgid" ++ bs " ")) with false by reflexivity. cbn [andb].
    replace (has_prefix _ (bs "msgstr")) with true by reflexivity.
    rewrite (proj2 (str_match _)) by (exists (c :: x); auto). rewrite orb_true_r. cbn [message_step].
    change (bs "msgstr" ++ c :: x) with ((bs "msgstr" ++ [c]) ++ x). rewrite (from_pre (bs "msgstr" ++ [c]) x 7) by reflexivity.
    cbn [rbind]. now rewrite E.
  - assert (F : form_line (p ++ x) w d y) by (repeat split; try apply D; assumption).
    replace (has_prefix (p ++ x) (bs "msgid" ++ bs " ")) with false in * by (rewrite EQ; reflexivity). cbn [andb] in *.
    replace (has_prefix (p ++ x) (bs "msgstr")) with true in * by (rewrite EQ; reflexivity).
    rewrite (form_no_text _ _ _ _ F) in *. rewrite (proj2 (strp_match _)) in * by eauto.
    destruct G as (_ & _ & G). destruct (G eq_refl) as [i G']. cbn [snd] in G'. cbn [message_step]. rewrite G'. cbn [rbind].
    rewrite (from_pre p x 10) by exact LP. cbn [rbind]. now rewrite E.
  - pose proof (proj2 (line_match t) S) as M. destruct S as (b & -> & B).
    change (bs "msgid" ++ bs " ") with (bs "msgid ") in *. change (bs "msgid_plural" ++ bs " ") with (bs "msgid_plural ") in *.
    change (bs "msgctxt" ++ bs " ") with (bs "msgctxt ") in *.
    replace (has_prefix _ (bs "msgid ")) with false in * by reflexivity. replace (has_prefix _ (bs "msgstr")) with false in * by reflexivity.
    replace (has_prefix _ (bs "msgid_plural ")) with false in * by reflexivity. replace (has_prefix _ (bs "msgctxt ")) with false in * by reflexivity.
    cbn [andb] in *. rewrite M in *. unfold starts in ST.
    destruct last; try (exfalso; revert G; apply bad_fail); cbn [message_step]; cbv zeta; try (now rewrite E);
      (destruct (Z.ltb_spec (Z.of_nat (length (m_str m)) - 1) 0) as [H|H];
        [exfalso; apply (ST eq_refl); destruct (m_str m); [reflexivity|cbn [length] in H; lia]|now rewrite E]).
Qed.

(** ** The parser, token by token *)
Inductive mode : Type := MStart | MCom (c : comment) | MBody (m : message).
Definition pstate := (option header * list message * mode)%type.
Definition close (h : option header) (ms : list message) (m : message) : res (option header * list message) :=
  if is_nil (m_id m) then
    if is_nil (m_str m) then Ok (h, ms) else match h with Some _ => Err | None => Ok (parse_header m, ms) end
  else if existsb (same_key m) ms then Err else Ok (h, ms ++ [m]).
Definition ends (k : ptok) : bool := match k with TWs => true | _ => is_comment k end.
Definition body (fuel : nat) (h : option header) (ms : list message) (m : message) (k : ptok) (l : bytes) : res pstate :=
  if ends k then do x <- close h ms m; Ok (fst x, snd x, MStart)
  else do m' <- message_step fuel m k l; Ok (h, ms, MBody m').
Definition step (fuel : nat) (s : pstate) (t : ptok * bytes) : res pstate :=
  let '(h, ms, o) := s in let (k, l) := t in
  match o with
  | MStart => if is_comment k then do c <- comment_step fuel new_comment k l; Ok (h, ms, MCom c) else body fuel h ms new_message k l
  | MCom c => if is_comment k then do c <- comment_step fuel c k l; Ok (h, ms, MCom c) else body fuel h ms (set_com new_message c) k l
  | MBody m => body fuel h ms m k l
  end.
Fixpoint run (fuel : nat) (s : pstate) (ts : list (ptok * bytes)) : res pstate :=
  match ts with [] => Ok s | t :: ts' => do s' <- step fuel s t; run fuel s' ts' end.
Definition fin (s : pstate) : res pofile :=
  let '(h, ms, o) := s in
  match o with MBody m => do x <- close h ms m; finish (fst x) (snd x) | _ => finish h ms end.
Definition drive (fuel : nat) (s : pstate) (ts : list (ptok * bytes)) : res pofile := do s' <- run fuel s ts; fin s'.

Lemma run_app : forall fuel a b s, run fuel s (a ++ b) = do s' <- run fuel s a; run fuel s' b.
Proof.
  intros fuel. induction a as [|t a IH]; intros b s; [reflexivity|]. cbn [app run].
  destruct (step fuel s t); cbn [rbind]; [apply IH|reflexivity..].
Qed.
Lemma drive_cons : forall fuel s t ts, drive fuel s (t :: ts) = do s' <- step fuel s t; drive fuel s' ts.
Proof. intros fuel s t ts. unfold drive. cbn [run]. destruct (step fuel s t); reflexivity. Qed.

Lemma body_drive : forall fuel h ms ts m,
  match parse_body fuel m ts with
  | Ok (m', ts', e) => drive fuel (h, ms, MBody m) ts = (do x <- close h ms m'; drive fuel (fst x, snd x, MStart) ts') /\
      (length ts' <= length ts)%nat /\ (ts <> [] -> (length ts' < length ts)%nat) /\ (e = true -> ts' = [])
  | Err => drive fuel (h, ms, MBody m) ts = Err
  | Panic => drive fuel (h, ms, MBody m) ts = Panic
  | OutOfFuel => drive fuel (h, ms, MBody m) ts = OutOfFuel
  end.
Proof.
  intros fuel h ms. induction ts as [|[k l] ts IH]; intro m; [cbn [parse_body]; repeat split; auto; congruence|].
  rewrite drive_cons. cbn [step]. unfold body. destruct (ends k) eqn:E.
  - assert (P : parse_body fuel m ((k, l) :: ts) = Ok (m, ts, false)) by (cbn [parse_body]; destruct k; try discriminate E; reflexivity).
    rewrite P. cbn [length]. split; [|repeat split; try discriminate; lia]. destruct (close h ms m); reflexivity.
  - assert (P : parse_body fuel m ((k, l) :: ts) = do m' <- message_step fuel m k l; parse_body fuel m' ts).
    { cbn [parse_body]. destruct k; try discriminate E; reflexivity. }
    rewrite P. destruct (message_step fuel m k l) as [m1| | |]; cbn [rbind]; try reflexivity.
    specialize (IH m1). destruct (parse_body fuel m1 ts) as [[[m2 ts2] e]| | |]; try exact IH.
    destruct IH as (A & B & _ & D). cbn [length]. repeat split; auto; lia.
Qed.
Lemma comment_drive : forall fuel h ms ts c,
  match parse_comment fuel c ts with
  | Ok None => drive fuel (h, ms, MCom c) ts = finish h ms
  | Ok (Some (c', ts')) => drive fuel (h, ms, MCom c) ts = drive fuel (h, ms, MBody (set_com new_message c')) ts' /\ (length ts' <= length ts)%nat
  | Err => drive fuel (h, ms, MCom c) ts = Err
  | Panic => drive fuel (h, ms, MCom c) ts = Panic
  | OutOfFuel => drive fuel (h, ms, MCom c) ts = OutOfFuel
  end.
Proof.
  intros fuel h ms. induction ts as [|[k l] ts IH]; intro c; [reflexivity|].
  destruct (is_comment k) eqn:K.
  - assert (P : parse_comment fuel c ((k, l) :: ts) = do c' <- comment_step fuel c k l; parse_comment fuel c' ts).
    { cbn [parse_comment]. rewrite K. destruct k; try discriminate K; reflexivity. }
    rewrite P, drive_cons. cbn [step]. rewrite K. destruct (comment_step fuel c k l) as [c1| | |]; cbn [rbind]; try reflexivity.
    specialize (IH c1). destruct (parse_comment fuel c1 ts) as [[[c2 ts2]|]| | |]; try exact IH.
    destruct IH as [A B]. cbn [length]. split; [exact A|lia].
  - assert (P : k = TFail \/ parse_comment fuel c ((k, l) :: ts) = Ok (Some (c, (k, l) :: ts))).
    { cbn [parse_comment]. rewrite K. destruct k; auto. }
    destruct P as [->|P]; [reflexivity|]. rewrite P, !drive_cons. cbn [step]. rewrite K. split; [reflexivity|lia].
Qed.
Lemma message_drive : forall fuel h ms ts,
  match parse_message fuel ts with
  | Ok None => drive fuel (h, ms, MStart) ts = finish h ms
  | Ok (Some (m', ts', e)) => drive fuel (h, ms, MStart) ts = (do x <- close h ms m'; drive fuel (fst x, snd x, MStart) ts') /\
      (length ts' < length ts)%nat /\ (e = true -> ts' = [])
  | Err => drive fuel (h, ms, MStart) ts = Err
  | Panic => drive fuel (h, ms, MStart) ts = Panic
  | OutOfFuel => drive fuel (h, ms, MStart) ts = OutOfFuel
  end.
Proof.
  intros fuel h ms [|[k l] ts]; [reflexivity|]. unfold parse_message. destruct (is_comment k) eqn:K.
  - assert (P : parse_comment fuel new_comment ((k, l) :: ts) = do c' <- comment_step fuel new_comment k l; parse_comment fuel c' ts).
    { cbn [parse_comment]. rewrite K. destruct k; try discriminate K; reflexivity. }
    rewrite P, drive_cons. cbn [step]. rewrite K. destruct (comment_step fuel new_comment k l) as [c1| | |]; cbn [rbind]; try reflexivity.
    pose proof (comment_drive fuel h ms ts c1) as X. destruct (parse_comment fuel c1 ts) as [[[c2 ts2]|]| | |]; cbn [rbind]; try exact X.
    destruct X as [X L]. rewrite X. pose proof (body_drive fuel h ms ts2 (set_com new_message c2)) as Y.
    destruct (parse_body fuel (set_com new_message c2) ts2) as [[[m3 ts3] e]| | |]; cbn [rbind]; try exact Y.
    destruct Y as (A & B & _ & D). cbn [length]. repeat split; auto; lia.
  - assert (P : drive fuel (h, ms, MStart) ((k, l) :: ts) = drive fuel (h, ms, MBody new_message) ((k, l) :: ts)).
    { rewrite !drive_cons. cbn [step]. now rewrite K. }
    rewrite P. pose proof (body_drive fuel h ms ((k, l) :: ts) new_message) as Y.
    destruct (parse_body fuel new_message ((k, l) :: ts)) as [[[m3 ts3] e]| | |]; cbn [rbind]; try exact Y.
    destruct Y as (A & B & C & D). repeat split; auto. apply C. discriminate.
Qed.
Lemma file_drive : forall fuel n h ms ts, (length ts < n)%nat -> parse_file fuel n h ms ts = drive fuel (h, ms, MStart) ts.
Proof.
  intros fuel. induction n as [|n IH]; intros h ms ts L; [lia|]. cbn [parse_file]. pose proof (message_drive fuel h ms ts) as M.
  destruct (parse_message fuel ts) as [[[[m ts'] e]|]| | |]; cbn [rbind]; try (symmetry; exact M).
  destruct M as (-> & L' & E). unfold close. destruct (is_nil (m_id m)).
  - destruct (is_nil (m_str m)); [cbn [rbind fst snd]; apply IH; lia|]. destruct h; [reflexivity|]. cbn [rbind fst snd]. apply IH. lia.
  - destruct (existsb (same_key m) ms); [reflexivity|]. cbn [rbind fst snd]. destruct e; [rewrite E by reflexivity; reflexivity|]. apply IH. lia.
Qed.
Definition start : pstate := (None, [], MStart).
Lemma po_drive : forall fuel ign s, parse_po_fuel fuel ign s = drive fuel start (scan_all ign TEof false (file_lines s)).
Proof.
  intros fuel ign s. unfold parse_po_fuel. cbv zeta. destruct (scan_all ign TEof false (file_lines s)) as [|t ts]; [reflexivity|].
  apply file_drive. lia.
Qed.

(** ** Where it hangs *)
Lemma close_fuel : forall h ms m, close h ms m <> OutOfFuel.
Proof.
  intros h ms m. unfold close. destruct (is_nil (m_id m)); [destruct (is_nil (m_str m)); [discriminate|destruct h; discriminate]|].
  destruct (existsb (same_key m) ms); discriminate.
Qed.
Lemma finish_fuel : forall h ms, finish h ms <> OutOfFuel.
Proof. intros [h|] [|m ms]; discriminate. Qed.
Lemma fin_fuel : forall s, fin s <> OutOfFuel.
Proof.
  intros [[h ms] [|c|m]]; cbn [fin]; try apply finish_fuel. pose proof (close_fuel h ms m).
  destruct (close h ms m); cbn [rbind]; try congruence. apply finish_fuel.
Qed.
Lemma run_hang : forall fuel ts s, run fuel s ts = OutOfFuel ->
  exists D t r s', ts = D ++ t :: r /\ run fuel s D = Ok s' /\ step fuel s' t = OutOfFuel.
Proof.
  intros fuel. induction ts as [|t ts IH]; intros s E; [discriminate|]. cbn [run] in E.
  destruct (step fuel s t) as [s1| | |] eqn:S; try discriminate E.
  - apply IH in E as (D & u & r & s' & -> & A & B). exists (t :: D), u, r, s'. cbn [run app]. rewrite S. auto.
  - exists [], t, ts, s. auto.
Qed.
Lemma drive_hang : forall fuel ts s, drive fuel s ts = OutOfFuel ->
  exists D t r s', ts = D ++ t :: r /\ run fuel s D = Ok s' /\ step fuel s' t = OutOfFuel.
Proof.
  intros fuel ts s E. unfold drive in E. destruct (run fuel s ts) as [s'| | |] eqn:R; try discriminate E.
  - exfalso. exact (fin_fuel s' E).
  - now apply run_hang.
Qed.
Lemma field_good : forall fuel m k l, (exists m', message_step fuel m k l = Ok m') \/ message_step fuel m k l = OutOfFuel -> good (k, l) /\ place_of k = InString.
Proof.
  intros fuel m k l H. destruct k; cbn [message_step] in H; try (destruct H as [[? H]|H]; discriminate H);
    (split; [|reflexivity]); try (apply good_plain; discriminate).
  repeat split; try discriminate. intros _. cbn [snd].
  assert (N : plural_index l <> OutOfFuel).
  { unfold plural_index. destruct (index_byte "[" l), (index_byte "]" l); try discriminate. destruct (Nat.ltb _ _); [discriminate|].
    destruct (parse_int _); discriminate. }
  destruct (plural_index l) as [i| | |]; [eauto|destruct H as [[? H]|H]; discriminate H..|congruence].
Qed.
Definition filled (s : pstate) : Prop := match snd s with MBody m => m_str m <> [] | _ => False end.
Definition is_body (s : pstate) : bool := match snd s with MBody _ => true | _ => false end.
Definition body_msg (o : mode) : message := match o with MStart => new_message | MCom c => set_com new_message c | MBody m => m end.
(** a token of a comment that is kept, or one that ends, or a field *)
Lemma step_cases : forall fuel h ms o k l,
  (is_comment k = true /\ (exists c, step fuel (h, ms, o) (k, l) = do c' <- comment_step fuel c k l; Ok (h, ms, MCom c')) /\ is_body (h, ms, o) = false) \/
  (ends k = true /\ exists m, step fuel (h, ms, o) (k, l) = do x <- close h ms m; Ok (fst x, snd x, MStart)) /\ (is_comment k = true -> is_body (h, ms, o) = true) \/
  (ends k = false /\ step fuel (h, ms, o) (k, l) = do m' <- message_step fuel (body_msg o) k l; Ok (h, ms, MBody m')).
Proof.
  intros fuel h ms o k l. cbn [step]. unfold body. destruct (is_comment k) eqn:K.
  - assert (E : ends k = true) by (destruct k; auto). rewrite E. destruct o; [left..|right; left]; eauto 10.
  - destruct (ends k) eqn:E; [right; left|right; right].
    + split; [|discriminate]. split; [reflexivity|]. destruct o; eauto.
    + split; [reflexivity|]. destruct o; reflexivity.
Qed.
Lemma step_ok : forall fuel s k l s', step fuel s (k, l) = Ok s' ->
  good (k, l) /\ (is_form k -> filled s') /\ (is_body s' = true <-> place_of k = InString).
Proof.
  intros fuel [[h ms] o] k l s' E. destruct (step_cases fuel h ms o k l) as [(K & (c & S) & _)|[((K & m & S) & _)|(K & S)]]; rewrite S in E.
  - destruct (comment_step fuel c k l) as [c'| | |]; try discriminate E. injection E as <-.
    split; [now apply comment_good|]. split; [intros [-> | ->]; discriminate K|]. destruct k; try discriminate K; split; discriminate.
  - destruct (close h ms m) as [x| | |]; try discriminate E. injection E as <-.
    split; [destruct k; try discriminate K; apply good_plain; discriminate|]. split; [intros [-> | ->]; discriminate K|]. destruct k; try discriminate K; split; discriminate.
  - destruct (message_step fuel (body_msg o) k l) as [m'| | |] eqn:M; try discriminate E. injection E as <-.
    destruct (field_good fuel (body_msg o) k l) as [G P]; [eauto|]. split; [exact G|]. split; [|split; auto].
    unfold filled. cbn [snd]. intros [-> | ->]; cbn [message_step] in M; cbv zeta in M.
    + destruct (plural_index l); try discriminate M. cbn [rbind] in M. destruct (from 10 l); try discriminate M. cbn [rbind] in M.
      destruct (dec fuel _); try discriminate M. injection M as <-. apply str_set_ne.
    + destruct (_ <? 0); [discriminate M|]. destruct (dec fuel l); try discriminate M. injection M as <-. apply str_set_ne.
Qed.
Lemma run_good : forall fuel D s s', run fuel s D = Ok s' -> Forall good D.
Proof.
  intros fuel. induction D as [|[k l] D IH]; intros s s' E; [constructor|]. cbn [run] in E.
  destruct (step fuel s (k, l)) as [s1| | |] eqn:S; try discriminate E. apply step_ok in S as [G _]. constructor; [exact G|]. eapply IH. exact E.
Qed.
Lemma run_linked : forall fuel D prev s s' k t r, linked prev (D ++ (k, t) :: r) -> (is_form prev -> filled s) -> run fuel s D = Ok s' ->
  k = TStrPL -> filled s'.
Proof.
  intros fuel. induction D as [|[k0 l0] D IH]; intros prev s s' k t r L P E K; cbn [app linked] in L.
  - injection E as <-. apply P, L, K.
  - cbn [run] in E. destruct (step fuel s (k0, l0)) as [s1| | |] eqn:S; try discriminate E. cbn [rbind] in E.
    apply step_ok in S as (_ & F & _). eapply IH; [exact (proj2 L)|exact F|exact E|exact K].
Qed.

(** ** Fuel *)
Lemma dec_mono : forall f g x v, dec f x = Ok v -> (f <= g)%nat -> dec g x = Ok v.
Proof.
  intros f g x v E L. unfold dec, decode_po_fuel in *. destruct (beq x [QUOTE; QUOTE]); [exact E|].
  assert (M : forall ls vs, decode_lines f ls = Ok vs -> decode_lines g ls = Ok vs).
  { induction ls as [|l ls IH]; intros vs D; [exact D|]. cbn [decode_lines] in *.
    destruct (decode_line f l) as [w| | |] eqn:DL; try discriminate D. cbn [rbind] in D.
    destruct (decode_lines f ls) as [ws| | |] eqn:DS; try discriminate D. rewrite (IH ws eq_refl).
    assert (DG : decode_line g l = Ok w).
    { unfold decode_line in *. destruct (index_byte QUOTE l); [|exact DL]. destruct (last_index_byte QUOTE l); [|exact DL].
      destruct (Nat.eqb _ _); [exact DL|]. unfold unescape in *. destruct (plain_prefix _ _) as [p q]. destruct q as [|c q]; [exact DL|].
      destruct (unescape_loop f (c :: q)) as [t| | |] eqn:U; try discriminate DL. now rewrite (PoStrProofs.loop_mono f g _ _ U L). }
    rewrite DG. exact D. }
  destruct (decode_lines f (split_on LF x)) as [vs| | |] eqn:D; try discriminate E. now rewrite (M _ _ D).
Qed.
(** the same result, unless it hangs *)
Definition same {A} (r q : res A) : Prop := forall v, r = Ok v -> q = Ok v \/ q = OutOfFuel.
Lemma dec_same : forall f g x, same (dec f x) (dec g x).
Proof.
  intros f g x v E. destruct (le_lt_dec f g) as [L|L]; [left; now apply (dec_mono f)|].
  pose proof (dec_no_err g x) as N. pose proof (dec_outc True g x (or_introl I)) as O.
  destruct (dec g x) as [w| | |] eqn:G; [|congruence|destruct O|now right]. left. apply (dec_mono g f) in G; [congruence|lia].
Qed.
Lemma same_refl : forall A (r : res A), same r r.
Proof. intros A r v E. now left. Qed.
Lemma same_bind : forall A B (r q : res A) (k j : A -> res B), same r q -> (forall v, r = Ok v -> same (k v) (j v)) -> same (do v <- r; k v) (do v <- q; j v).
Proof.
  intros A B r q k j S K v E. destruct r as [w| | |]; try discriminate E. destruct (S w eq_refl) as [-> | ->]; [|now right].
  apply (K w eq_refl v E).
Qed.
Lemma message_same : forall f g m k l, same (message_step f m k l) (message_step g m k l).
Proof.
  intros f g m k l. destruct k; cbn [message_step]; cbv zeta; try apply same_refl;
    repeat first [apply dec_same | apply same_refl | apply same_bind; [|intros ? ?] | match goal with |- same (if ?b then _ else _) _ => destruct b end].
Qed.
Lemma comment_same : forall f g m k l, same (comment_step f m k l) (comment_step g m k l).
Proof.
  intros f g m k l. destruct k; cbn [comment_step]; cbv zeta; try apply same_refl;
    repeat first [apply dec_same | apply same_refl | apply same_bind; [|intros ? ?] | match goal with |- same (match ?b with [] => _ | _ => _ end) _ => destruct b end].
Qed.
Lemma step_same : forall f g s t, same (step f s t) (step g s t).
Proof.
  intros f g [[h ms] o] [k l]. cbn [step]. unfold body.
  destruct o; repeat first [apply message_same | apply comment_same | apply same_refl | match goal with |- same (if ?b then _ else _) _ => destruct b end
    | apply same_bind; [|intros ? ?]].
Qed.
Lemma run_same : forall f g ts s, same (run f s ts) (run g s ts).
Proof.
  intros f g. induction ts as [|t ts IH]; intro s; [apply same_refl|]. cbn [run]. apply same_bind; [apply step_same|]. intros v _. apply IH.
Qed.
Lemma run_over : forall f g ts s s', run f s ts = Ok s' -> (f <= g)%nat -> run g s ts = Ok s'.
Proof.
  assert (DS : forall f g x, (f <= g)%nat -> forall v, dec f x = Ok v -> dec g x = Ok v) by (intros; eapply dec_mono; eauto).
  assert (BI : forall A B (r q : res A) (k j : A -> res B), (forall v, r = Ok v -> q = Ok v) -> (forall v, r = Ok v -> forall w, k v = Ok w -> j v = Ok w) ->
    forall w, (do v <- r; k v) = Ok w -> (do v <- q; j v) = Ok w).
  { intros A B r q k j S K w E. destruct r as [v| | |]; try discriminate E. rewrite (S v eq_refl). cbn [rbind] in *. now apply (K v eq_refl). }
  intros f g ts s s' E L. revert s s' E. induction ts as [|t ts IH]; intros s s'; [auto|]. cbn [run]. apply BI; [|intros v _; apply IH].
  destruct s as [[h ms] o], t as [k l]. cbn [step]. unfold body.
  assert (MS : forall m v, message_step f m k l = Ok v -> message_step g m k l = Ok v).
  { intros m. destruct k; cbn [message_step]; cbv zeta; auto;
      repeat first [apply DS; exact L | match goal with |- forall v, Ok _ = Ok v -> Ok _ = Ok v => auto end | match goal with |- forall v, (if ?b then _ else _) = _ -> _ => destruct b end
        | apply BI; [|intros ? ?] | intros ? X; exact X]. }
  assert (CS : forall c v, comment_step f c k l = Ok v -> comment_step g c k l = Ok v).
  { intros m. destruct k; cbn [comment_step]; cbv zeta; auto;
      repeat first [apply DS; exact L | match goal with |- forall v, (match ?b with [] => _ | _ => _ end) = _ -> _ => destruct b end
        | apply BI; [|intros ? ?] | intros ? X; exact X]. }
  destruct o; repeat first [apply MS | apply CS | intros ? X; exact X | match goal with |- forall v, (if ?b then _ else _) = _ -> _ => destruct b end
    | apply BI; [|intros ? ?]].
Qed.

(** ** Lines and tokens *)
Lemma split_tokens : forall ign ls last blank D k t r, scan_all ign last blank ls = D ++ (k, t) :: r ->
  exists a l c, ls = a ++ l :: c /\ scan_all ign last blank a = D /\ scan_all ign last blank (a ++ [l]) = D ++ [(k, t)] /\
    (k = TWs \/ (t = trim_space l /\ scan_line ign (fst (PoErrProofs.scan_end ign last blank a)) t = Some k)).
Proof.
  intros ign. induction ls as [|l ls IH]; intros last blank D k t r E; [destruct D; discriminate E|]. cbn [scan_all] in E. cbv zeta in E.
  destruct (is_nil (trim_space l)) eqn:B.
  - destruct blank.
    + destruct (IH _ _ _ _ _ _ E) as (a & l' & c & -> & A1 & A2 & A3). exists (l :: a), l', c. cbn [app scan_all PoErrProofs.scan_end]. cbv zeta. rewrite B. auto.
    + destruct D as [|d D]; cbn [app] in E.
      * injection E as <- <- _. exists [], l, ls. cbn [app scan_all]. cbv zeta. rewrite B. auto.
      * injection E as <- E. destruct (IH _ _ _ _ _ _ E) as (a & l' & c & -> & A1 & A2 & A3). exists (l :: a), l', c.
        cbn [app scan_all PoErrProofs.scan_end]. cbv zeta. rewrite B. rewrite A1, A2. auto.
  - destruct (scan_line ign last (trim_space l)) as [k0|] eqn:S.
    + destruct D as [|d D]; cbn [app] in E.
      * injection E as <- <- _. exists [], l, ls. cbn [app scan_all PoErrProofs.scan_end fst]. cbv zeta. rewrite B, S. auto 10.
      * injection E as <- E. destruct (IH _ _ _ _ _ _ E) as (a & l' & c & -> & A1 & A2 & A3). exists (l :: a), l', c.
        cbn [app scan_all PoErrProofs.scan_end]. cbv zeta. rewrite B, S. rewrite A1, A2. auto.
    + destruct (IH _ _ _ _ _ _ E) as (a & l' & c & -> & A1 & A2 & A3). exists (l :: a), l', c. cbn [app scan_all PoErrProofs.scan_end]. cbv zeta. rewrite B, S. auto.
Qed.
Lemma end_blank : forall ign ls last blank, (blank = true -> last = TWs) ->
  snd (PoErrProofs.scan_end ign last blank ls) = true -> fst (PoErrProofs.scan_end ign last blank ls) = TWs.
Proof.
  intros ign. induction ls as [|l ls IH]; intros last blank H; [exact H|]. cbn [PoErrProofs.scan_end].
  destruct (is_nil (trim_space l)); [destruct blank; apply IH; auto|]. destruct (scan_line ign last (trim_space l)); apply IH; discriminate.
Qed.
Lemma exists_last' : forall A (l : list A), l = [] \/ exists l' z, l = l' ++ [z].
Proof. intros A l. destruct l as [|x l]; [now left|right]. destruct (@exists_last _ (x :: l)) as (l' & z & E); [discriminate|eauto]. Qed.
Lemma behind_snoc : forall ign a l, behind_field ign (a ++ [l]) <-> field_start l \/ (passed_over ign (trim_space l) /\ behind_field ign a).
Proof.
  intros ign a l. split.
  - intros (a' & l' & b & E & F & P). destruct (exists_last' _ b) as [->|(b' & z & ->)].
    + apply app_inj_tail in E as [-> ->]. now left.
    + change (l' :: b' ++ [z]) with ((l' :: b') ++ [z]) in E. rewrite app_assoc in E. apply app_inj_tail in E as [-> ->].
      apply Forall_app in P as [P1 P2]. right. split; [exact (Forall_inv P2)|]. exists a', l', b'. auto.
  - intros [F|[P (a' & l' & b & -> & F & Q)]]; [exists a, l, []; auto|]. exists a', l', (b ++ [l]). rewrite <- app_assoc. split; [reflexivity|]. split; [exact F|].
    apply Forall_app. auto.
Qed.
Notation toks ign := (scan_all ign TEof false).
Notation tend ign := (PoErrProofs.scan_end ign TEof false).
Lemma run_snoc : forall fuel D t s s', run fuel s (D ++ [t]) = Ok s' -> exists s1, run fuel s D = Ok s1 /\ step fuel s1 t = Ok s'.
Proof.
  intros fuel D t s s' E. rewrite run_app in E. destruct (run fuel s D) as [s1| | |]; try discriminate E. cbn [rbind run] in E.
  exists s1. split; [reflexivity|]. destruct (step fuel s1 t); try discriminate E. exact E.
Qed.
Lemma body_place : forall fuel ign a s, run fuel start (toks ign a) = Ok s -> (is_body s = true <-> place_of (fst (tend ign a)) = InString).
Proof.
  intros fuel ign. induction a as [|l a IH] using rev_ind; intros s E; [injection E as <-; split; discriminate|].
  rewrite PoErrProofs.scan_all_app in E. rewrite PoErrProofs.scan_end_app. cbn [scan_all PoErrProofs.scan_end] in *. cbv zeta in E.
  destruct (is_nil (trim_space l)).
  - destruct (snd (tend ign a)); cbn [fst]; [rewrite app_nil_r in E; now apply IH|].
    apply run_snoc in E as (s1 & _ & S). apply step_ok in S as (_ & _ & S). exact S.
  - destruct (scan_line ign (fst (tend ign a)) (trim_space l)) as [k|]; cbn [fst]; [|rewrite app_nil_r in E; now apply IH].
    apply run_snoc in E as (s1 & _ & S). apply step_ok in S as (_ & _ & S). exact S.
Qed.
Lemma place_behind : forall ign a, Forall good (toks ign a) -> (place_of (fst (tend ign a)) = InString <-> behind_field ign a).
Proof.
  intros ign. induction a as [|l a IH] using rev_ind; intros G.
  { split; [discriminate|]. intros (a' & l & b & E & _). destruct a'; discriminate E. }
  rewrite PoErrProofs.scan_all_app in G. apply Forall_app in G as [G G1]. specialize (IH G).
  rewrite behind_snoc, PoErrProofs.scan_end_app. cbn [scan_all PoErrProofs.scan_end] in *. cbv zeta in G1.
  pose proof (end_blank ign a TEof false ltac:(discriminate)) as EB. set (la := fst (tend ign a)) in *.
  destruct (is_nil (trim_space l)) eqn:B.
  - assert (T : trim_space l = []) by (destruct (trim_space l); [reflexivity|discriminate]).
    assert (K : place_of (fst (if snd (tend ign a) then (la, true) else (TWs, true))) = Elsewhere).
    { destruct (snd (tend ign a)); cbn [fst]; [rewrite EB by reflexivity|]; reflexivity. }
    rewrite K. split; [discriminate|]. intros [[F _]|[P _]]; [congruence|]. rewrite T in P. apply (passed_scans ign TWs) in P as [_ P]. congruence.
  - destruct (trim_space l) as [|c t] eqn:T; [discriminate|]. destruct (Ascii.eqb c "#") eqn:H.
    + apply Ascii.eqb_eq in H as ->. pose proof (comment_scan ign la t) as C. cbv zeta in C.
      change (scan_line ign la ("#"%char :: t)) with (scan_comment ign la ("#"%char :: t)) in *.
      assert (NF : ~ field_start l) by (intros [_ F]; apply F; exists t; exact T).
      destruct (scan_comment ign la ("#"%char :: t)) as [k|] eqn:S; cbn [fst].
      * specialize (C (Forall_inv G1)). assert (K : place_of k <> InString).
        { destruct C as [[_ ->]|[(_ & _ & ->)|(_ & _ & _ & ->)]]; discriminate. }
        split; [contradiction|]. intros [F|[P _]]; [contradiction|]. apply (passed_scans ign la) in P as [P _].
        change (scan_line ign la ("#"%char :: t)) with (scan_comment ign la ("#"%char :: t)) in P. congruence.
      * rewrite IH. tauto.
    + cbn [scan_line] in *. rewrite H in *. cbn [fst]. pose proof (Forall_inv G1) as G2. apply scan_message_good in G2 as [-> _].
      split; [|reflexivity]. intros _. left. split; [congruence|]. intros [y F]. rewrite T in F. injection F as -> _. discriminate H.
Qed.

(** ** Previous texts *)
Lemma skip_unclosed : forall n t, unclosed t -> ~ In QUOTE (firstn n t) -> unclosed (skipn n t).
Proof.
  intros n t (a & b & c & -> & NA & NC & O) N. rewrite firstn_app in N. rewrite skipn_app.
  destruct (n - length a)%nat as [|d] eqn:E.
  - exists (skipn n a), b, c. cbn [skipn]. split; [reflexivity|]. split; [|auto]. intro I. apply NA. rewrite <- (firstn_skipn n a). apply in_or_app. now right.
  - exfalso. apply N, in_or_app. right. cbn [firstn]. now left.
Qed.
Lemma cut_unclosed : forall q w, unclosed (q ++ w) -> ~ In QUOTE w -> unclosed q.
Proof.
  intros q w (a & b & c & E & NA & NC & O) N.
  assert (E' : q ++ w = (a ++ QUOTE :: b ++ [QUOTE]) ++ c).
  { rewrite E, <- !app_assoc. cbn [app]. rewrite <- app_assoc. reflexivity. }
  apply app_eq_app in E' as (z & [[-> ->]|[Q ->]]).
  - exists a, b, z. rewrite <- app_assoc. cbn [app]. rewrite <- app_assoc. split; [reflexivity|]. repeat split; try assumption.
    intro I. apply NC, in_or_app. now left.
  - destruct (exists_last' _ z) as [->|(z' & x & ->)].
    + rewrite app_nil_r in Q. subst q. exists a, b, []. repeat split; try assumption. intros [].
    + exfalso. apply N. change (a ++ QUOTE :: b ++ [QUOTE]) with (a ++ (QUOTE :: b) ++ [QUOTE]) in Q. rewrite !app_assoc in Q.
      apply app_inj_tail in Q as [_ <-]. apply in_or_app. left. apply in_or_app. right. now left.
Qed.
Lemma strip_unclosed : forall s s', strip_space s = Some s' -> unclosed s -> unclosed s'.
Proof.
  intros s s' E U. destruct s as [|c s]; [discriminate|]. unfold strip_space in E.
  destruct (decode_rune (c :: s)) as [r w] eqn:D. destruct (is_space r) eqn:SP; [|discriminate]. injection E as <-.
  apply skip_unclosed; [exact U|]. rewrite <- (Utf8Proofs.encode_decode _ _ _ D) by (intros [-> _]; discriminate SP).
  intro I. apply PoItemProofs.enc_no_ascii in I; [|now apply space_scalar|reflexivity].
  change [QUOTE] with (encode_rune 34) in I. apply encode_inj in I; [|now apply space_scalar|reflexivity]. subst r. discriminate.
Qed.
Lemma trim_unclosed : forall s, unclosed s -> unclosed (trim_space s).
Proof.
  intros s U. unfold trim_space. assert (L : unclosed (trim_left s)).
  { unfold trim_left. generalize (length s). intro n. revert s U. induction n as [|n IH]; intros s U; [exact U|]. cbn [trim_left_fuel].
    destruct (strip_space s) as [s'|] eqn:E; [|exact U]. apply IH. eapply strip_unclosed; eassumption. }
  unfold trim_right. set (t := trim_left s) in *.
  assert (X : forall n t, exists w, t = w ++ trim_rev_fuel n t /\ ~ In QUOTE w).
  { induction n as [|n IH]; intro q; [exists []; split; [reflexivity|intros []]|]. cbn [trim_rev_fuel].
    destruct (strip_rev space_runes q) as [t'|] eqn:E; [|exists []; split; [reflexivity|intros []]].
    apply strip_rev_within in E as (w & -> & N); [|intros r R; now apply space_in].
    destruct (IH t') as (w' & E' & N'). exists (w ++ w'). split; [rewrite <- app_assoc; now f_equal|].
    intro I. apply in_app_or in I as [I|I]; auto. }
  destruct (X (length t) (rev t)) as (w & E & N). apply (cut_unclosed _ (rev w)).
  - apply (f_equal (@rev ascii)) in E. rewrite rev_involutive, rev_app_distr in E. rewrite <- E. exact L.
  - intro I. apply in_rev in I. auto.
Qed.
Lemma white_no_quote : forall w, whites w -> ~ In QUOTE w.
Proof. intros w W I. apply (proj1 (Forall_forall _ _) W) in I. apply white_iff in I. discriminate. Qed.
(** how a line of a previous text starts *)
Lemma previous_token : forall last t k, scan_line false last t = Some k -> place_of k = InPrevious ->
  match k with
  | TPrevCtx => (10 <= length t)%nat /\ ~ In QUOTE (firstn 10 t)
  | TPrevId => (8 <= length t)%nat /\ ~ In QUOTE (firstn 8 t)
  | _ => (2 <= length t)%nat /\ ~ In QUOTE (firstn 2 t)
  end.
Proof.
  intros last t k S P. unfold scan_line in S. destruct t as [|c0 t]; [injection S as <-; discriminate P|].
  destruct (Ascii.eqb_spec c0 "#") as [->|_].
  2:{ exfalso. injection S as <-. unfold scan_message in P.
      repeat match type of P with context [if ?b then _ else _] => destruct b | context [match last with _ => _ end] => destruct last end; discriminate P. }
  destruct t as [|c r]; cbn [scan_comment] in S; [injection S as <-; discriminate P|].
  destruct (is_nil r && _); [discriminate|]. cbn [andb] in S.
  destruct (Ascii.eqb c "."); [injection S as <-; discriminate P|].
  destruct (Ascii.eqb c ":"); [injection S as <-; discriminate P|].
  destruct (Ascii.eqb c ","); [injection S as <-; discriminate P|].
  destruct (Ascii.eqb_spec c "|") as [->|_]; [|injection S as <-; discriminate P].
  assert (K : forall kw n y w, w <> [] -> whites w -> ~ In QUOTE kw -> (n = 3 + length kw)%nat -> "#"%char :: "|"%char :: r = bs "#|" ++ w ++ kw ++ y ->
    (n <= length ("#"%char :: "|"%char :: r))%nat /\ ~ In QUOTE (firstn n ("#"%char :: "|"%char :: r))).
  { intros kw n y w NW W NK -> ->. destruct w as [|w0 w]; [congruence|]. split.
    - rewrite !app_length. change (length (bs "#|")) with 2%nat. cbn [length]. lia.
    - intro I. assert (J : In QUOTE (bs "#|" ++ (w0 :: w) ++ kw)).
      { replace (bs "#|" ++ (w0 :: w) ++ kw ++ y) with ((bs "#|" ++ (w0 :: w) ++ kw) ++ y) in I by (now rewrite <- !app_assoc).
        rewrite firstn_app in I. replace (3 + length kw - length (bs "#|" ++ (w0 :: w) ++ kw))%nat with 0%nat in I.
        2:{ rewrite !app_length. change (length (bs "#|")) with 2%nat. cbn [length]. lia. }
        cbn [firstn] in I. rewrite app_nil_r in I. rewrite <- (firstn_skipn (3 + length kw) (bs "#|" ++ (w0 :: w) ++ kw)). apply in_or_app. now left. }
      apply in_app_or in J as [J|J]; [vm_compute in J; intuition discriminate|]. apply in_app_or in J as [J|J]; [now apply (white_no_quote _ W)|contradiction]. }
  destruct (rmatch re_prev_ctx _) eqn:M1.
  { injection S as <-. apply (prev_match (bs "msgctxt")) in M1 as (w & y & N & W & E). apply (K (bs "msgctxt") 10%nat y w); auto. vm_compute. intuition discriminate. }
  destruct (rmatch re_prev_id _) eqn:M2.
  { injection S as <-. apply (prev_match (bs "msgid")) in M2 as (w & y & N & W & E). apply (K (bs "msgid") 8%nat y w); auto. vm_compute. intuition discriminate. }
  assert (Z : (2 <= length ("#"%char :: "|"%char :: r))%nat /\ ~ In QUOTE (firstn 2 ("#"%char :: "|"%char :: r))).
  { cbn [length firstn]. split; [lia|]. intros [X|[X|[]]]; discriminate X. }
  destruct k; try discriminate P; try exact Z; exfalso;
    repeat match type of S with context [if ?b then _ else _] => destruct b | context [match last with _ => _ end] => destruct last end; discriminate S.
Qed.
Lemma previous_hangs : forall last t k fuel c, scan_line false last t = Some k -> place_of k = InPrevious -> unclosed t -> ~ In LF t ->
  comment_step fuel c k t = OutOfFuel.
Proof.
  intros last t k fuel c S P U N. pose proof (previous_token last t k S P) as T.
  assert (D : forall n, ~ In QUOTE (firstn n t) -> dec fuel (trim_space (skipn n t)) = OutOfFuel).
  { intros n Q. apply unclosed_hang; [apply trim_unclosed; now apply skip_unclosed|]. intro I. apply N.
    eapply within_in; [apply (within_skipn n)|]. eapply within_in; [apply trim_within|exact I]. }
  assert (NE : forall n, ~ In QUOTE (firstn n t) -> trim_space (skipn n t) <> []).
  { intros n Q X. assert (UX : unclosed (trim_space (skipn n t))) by (apply trim_unclosed; now apply skip_unclosed).
    rewrite X in UX. destruct UX as ([|? ?] & ? & ? & UX & _); discriminate UX. }
  destruct k; try discriminate P; destruct T as [L T]; cbn [comment_step]; destruct (from_outc False _ t L) as [-> _]; cbn [rbind];
    specialize (D _ T); specialize (NE _ T).
  - destruct (trim_space (skipn 10 t)); [congruence|]. now rewrite D.
  - now rewrite D.
  - destruct (trim_space (skipn 8 t)); [congruence|]. now rewrite D.
  - now rewrite D.
Qed.
Lemma previous_hung : forall fuel c k t, comment_step fuel c k t = OutOfFuel -> place_of k = InPrevious /\ exists x, within x t /\ dec fuel x = OutOfFuel.
Proof.
  intros fuel c k t E.
  assert (W : forall n, within (trim_space (skipn n t)) t) by (intro n; eapply within_trans; [apply trim_within|apply within_skipn]).
  assert (FR : forall n A (g : bytes -> res A), (do x <- from n t; g x) = OutOfFuel -> g (skipn n t) = OutOfFuel).
  { intros n A g X. unfold from in X. destruct (Nat.ltb (length t) n); [discriminate|exact X]. }
  destruct k; cbn [comment_step] in E; try discriminate E; apply FR in E; cbn [rbind] in E; try discriminate E; (split; [reflexivity|]).
  - exists (trim_space (skipn 10 t)). split; [apply W|]. destruct (trim_space (skipn 10 t)); [discriminate|]. destruct (dec fuel _); try discriminate E. reflexivity.
  - exists (trim_space (skipn 2 t)). split; [apply W|]. destruct (dec fuel _); try discriminate E. reflexivity.
  - exists (trim_space (skipn 8 t)). split; [apply W|]. destruct (trim_space (skipn 8 t)); [discriminate|]. destruct (dec fuel _); try discriminate E. reflexivity.
  - exists (trim_space (skipn 2 t)). split; [apply W|]. destruct (dec fuel _); try discriminate E. reflexivity.
Qed.

(** ** A further message *)
Lemma long_id : forall ms : list message, exists n, forall m, In m ms -> (length (m_id m) < S n)%nat.
Proof.
  induction ms as [|m ms [n H]]; [exists O; intros ? []|]. exists (n + length (m_id m))%nat. intros x [<-|I]; [lia|]. apply H in I. lia.
Qed.
Definition more_toks (n : nat) : list (ptok * bytes) := (TId, bs "msgid """"") :: repeat (TIdL, bs """a""") n.
Definition more_lines (n : nat) : list bytes := bs "msgid """"" :: repeat (bs """a""") n.
Lemma more_scan : forall ign last blank n, scan_all ign last blank (more_lines n) = more_toks n.
Proof.
  intros ign last blank n. unfold more_lines, more_toks. cbn [scan_all]. replace (trim_space (bs "msgid """"")) with (bs "msgid """"") by reflexivity.
  replace (is_nil (bs "msgid """"")) with false by reflexivity.
  replace (scan_line ign last (bs "msgid """"")) with (Some TId) by (symmetry; vm_compute; reflexivity). f_equal.
  assert (R : forall k, k = TId \/ k = TIdL -> scan_all ign k false (repeat (bs """a""") n) = repeat (TIdL, bs """a""") n).
  { induction n as [|n IH]; intros k K; [reflexivity|]. cbn [repeat scan_all]. replace (trim_space (bs """a""")) with (bs """a""") by reflexivity.
    replace (is_nil (bs """a""")) with false by reflexivity.
    replace (scan_line ign k (bs """a""")) with (Some TIdL) by (destruct K as [-> | ->]; vm_compute; reflexivity). rewrite IH by auto. reflexivity. }
  apply R. now left.
Qed.
Lemma more_run : forall g n h ms m, (3 < g)%nat -> run g (h, ms, MBody m) (repeat (TIdL, bs """a""") n) =
  Ok (h, ms, MBody (set_id m (m_id m ++ repeat "a"%char n))).
Proof.
  intros g n h ms m G. assert (D : dec g (bs """a""") = Ok (bs "a")) by (apply (dec_mono 4); [reflexivity|lia]). revert m.
  induction n as [|n IH]; intro m; cbn [repeat run].
  - rewrite app_nil_r. destruct m; reflexivity.
  - assert (S : step g (h, ms, MBody m) (TIdL, bs """a""") = Ok (h, ms, MBody (set_id m (m_id m ++ bs "a")))).
    { cbn [step]. unfold body. cbn [ends is_comment message_step]. now rewrite D. }
    rewrite S. cbn [rbind]. rewrite IH. cbn [set_id m_id m_com m_ctx m_pl m_str]. unfold set_id. cbn [m_id m_com m_ctx m_pl m_str].
    rewrite <- app_assoc. reflexivity.
Qed.
Lemma more_accepted : forall fuel D s, run fuel start D = Ok s -> exists n g f, drive g start (D ++ more_toks n) = Ok f.
Proof.
  intros fuel D [[h ms] o] R. destruct (long_id ms) as [n H]. exists (S n). set (g := (fuel + 4)%nat). apply (run_over _ g) in R; [|unfold g; lia].
  exists g. unfold drive, more_toks. rewrite run_app, R. cbn [rbind].
  assert (ST : step g (h, ms, o) (TId, bs "msgid """"") = Ok (h, ms, MBody (set_id (body_msg o) []))).
  { destruct (step_cases g h ms o TId (bs "msgid """"")) as [(X & _)|[((X & _) & _)|(_ & ->)]]; try discriminate X. reflexivity. }
  cbn [run]. rewrite ST. cbn [rbind]. rewrite more_run by (unfold g; lia). cbn [rbind fin]. unfold close. cbn [set_id m_id app].
  set (i := repeat "a"%char (S n)). assert (Li : length i = S n) by apply repeat_length.
  replace (is_nil i) with false by reflexivity.
  replace (existsb _ ms) with false; [cbn [rbind fst snd]; destruct h; [|destruct ms]; eexists; reflexivity|].
  symmetry. apply not_true_iff_false. intro X. apply existsb_exists in X as (m & I & X). unfold same_key in X. cbn [set_id m_id m_ctx] in X.
  apply andb_true_iff in X as [_ X]. apply beq_eq in X. apply H in I. rewrite <- X, Li in I. lia.
Qed.
Lemma lines_read_prefix : forall a ls b, lines_read ls (a ++ b) ->
  exists la lb, ls = la ++ lb /\ forall x y, lines_read x y -> lines_read (la ++ x) (a ++ y).
Proof.
  induction a as [|l a IH]; intros ls b L; [exists [], ls; auto|]. cbn [app] in L. inversion L as [| |l0 l' ls0 rs0 N C R]; subst.
  destruct (IH _ _ R) as (la & lb & -> & H). exists (l0 :: la), lb. split; [reflexivity|]. intros x y XY. cbn [app]. constructor; auto.
Qed.
Lemma more_lines_read : forall n, lines_read (more_lines n) (more_lines n).
Proof.
  assert (C : forall l, ~ (exists x, l = x ++ [CR]) -> without_cr l l) by (intros l H; right; auto).
  intro n. unfold more_lines. constructor; [reflexivity|apply without_cr_drop; reflexivity|].
  induction n as [|n IH]; constructor; [reflexivity|apply without_cr_drop; reflexivity|exact IH].
Qed.
Lemma more_reads : forall s a b n, reads_lines s (a ++ b) -> exists s', reads_lines s' (a ++ more_lines n).
Proof.
  intros s a b n (ls & [F _] & R). apply lines_read_prefix in R as (la & lb & -> & H). apply Forall_app in F as [F _].
  exists (with_ends (la ++ more_lines n)), (la ++ more_lines n). split; [|apply H, more_lines_read]. split; [|now left].
  apply Forall_app. split; [exact F|]. constructor; [vm_compute; intuition discriminate|].
  apply Forall_forall. intros x I. apply repeat_spec in I as ->. vm_compute. intuition discriminate.
Qed.
Lemma read_line : forall s rs l, reads_lines s rs -> In l rs -> ~ In LF l /\ (length l <= length s)%nat.
Proof.
  intros s rs l R I. apply reads_file_lines in R as ->. apply file_lines_in in I as (l' & L & W). split.
  - intro X. apply (proj1 L). eapply within_in; eassumption.
  - apply line_length in L. apply within_length in W. lia.
Qed.
Lemma string_of_shape : forall t x, string_of t x -> (exists c y, t = c :: y /\ c <> "#"%char) /\ within x t.
Proof.
  assert (WS : forall p x : bytes, within x (p ++ x)) by (intros p x; exists p, []; split; [now rewrite app_nil_r|intros []]).
  intros t x [y Y|y Y|y Y|c y Y|w d y p z W D Y LP E|u (b & -> & B)]; (split; [|try apply WS]).
  - do 2 eexists. split; [reflexivity|discriminate].
  - do 2 eexists. split; [reflexivity|discriminate].
  - do 2 eexists. split; [reflexivity|discriminate].
  - do 2 eexists. split; [reflexivity|discriminate].
  - change (bs "msgstr" ++ c :: y) with ((bs "msgstr" ++ [c]) ++ y). apply WS.
  - rewrite E. do 2 eexists. split; [reflexivity|discriminate].
  - do 2 eexists. split; [reflexivity|discriminate].
  - apply within_refl.
Qed.
Lemma scan_string : forall ign last c y, c <> "#"%char -> scan_line ign last (c :: y) = Some (scan_message last (c :: y)).
Proof. intros ign last c y N. cbn [scan_line]. apply Ascii.eqb_neq in N. now rewrite N. Qed.

Theorem hangs_only : forall fuel ign s rs, reads_lines s rs -> (length s < fuel)%nat -> parse_po_fuel fuel ign s = OutOfFuel ->
  exists a l c, rs = a ++ l :: c /\ stops ign a l.
Proof.
  intros fuel ign s rs R LF0 E. pose proof R as R0. apply reads_file_lines in R0. rewrite po_drive, <- R0 in E.
  apply drive_hang in E as (D & (k, t) & r & [[h ms] o] & T & RD & SO).
  apply split_tokens in T as (a & l & c & EQ & TA & TL & KT).
  assert (GD : Forall good D) by (eapply run_good; exact RD).
  assert (XL : ~ In LF l /\ (length l < fuel)%nat).
  { destruct (read_line s rs l R) as [X1 X2]; [rewrite EQ; apply in_or_app; right; now left|]. split; [exact X1|lia]. }
  destruct XL as [NL SL].
  assert (UN : forall x, within x (trim_space l) -> dec fuel x = OutOfFuel -> unclosed x).
  { intros x W X. assert (W' : within x l) by (eapply within_trans; [exact W|apply trim_within]). apply (dec_hang fuel); [exact X| |].
    - intro I. apply NL. eapply within_in; eassumption.
    - apply within_length in W'. lia. }
  exists a, l, c. split; [exact EQ|].
  assert (BG : begins ign a).
  { destruct (more_accepted _ _ _ RD) as (n & g & f & DR). rewrite EQ in R. destruct (more_reads s a (l :: c) n R) as [s2 R2].
    exists (more_lines n), s2, f, g. split; [exact R2|]. rewrite po_drive. apply reads_file_lines in R2. rewrite <- R2.
    rewrite PoErrProofs.scan_all_app, TA, more_scan. exact DR. }
  assert (UD : good (k, t) -> understood ign Elsewhere (a ++ [l])).
  { intro G. apply (scan_understood ign (a ++ [l]) TEof false); [discriminate|]. rewrite TL. apply Forall_app. auto. }
  destruct (step_cases fuel h ms o k t) as [(K & (c0 & S) & NB)|[((K & m & S) & _)|(K & S)]]; rewrite S in SO.
  - assert (G : good (k, t)) by now apply comment_good. split; [now apply UD|]. split; [exact BG|]. right.
    destruct KT as [->|[-> SC]]; [discriminate K|].
    assert (CO : comment_step fuel c0 k (trim_space l) = OutOfFuel) by (destruct (comment_step fuel c0 k (trim_space l)); try discriminate SO; reflexivity).
    apply previous_hung in CO as (P & x & W & DX). set (la := fst (tend ign a)) in *.
    assert (H : ign = false /\ previous (trim_space l)).
    { destruct (trim_space l) as [|ch y] eqn:TR; [injection SC as <-; discriminate K|]. destruct (ascii_dec ch "#") as [->|N].
      - change (scan_line ign la ("#"%char :: y)) with (scan_comment ign la ("#"%char :: y)) in SC.
        pose proof (comment_scan ign la y) as C. cbv zeta in C. rewrite SC in C. specialize (C G).
        destruct C as [[_ C]|[(-> & C & _)|(-> & C & _)]]; [congruence|split; [reflexivity|now left]|split; [reflexivity|now right]].
      - rewrite scan_string in SC by exact N. injection SC as <-. apply scan_message_good in G as [G _]. congruence. }
    destruct H as [-> H]. split; [reflexivity|]. split; [exact H|]. split.
    + eapply unclosed_within; [exact (UN x W DX)|]. eapply within_trans; [exact W|apply trim_within].
    + intro B. rewrite <- TA in *. apply (place_behind false a GD) in B. apply (body_place _ _ _ _ RD) in B. congruence.
  - exfalso. pose proof (close_fuel h ms m) as X. destruct (close h ms m); try discriminate SO. now apply X.
  - assert (MO : message_step fuel (body_msg o) k t = OutOfFuel) by (destruct (message_step fuel (body_msg o) k t); try discriminate SO; reflexivity).
    destruct (field_good fuel (body_msg o) k t (or_intror MO)) as [G P]. split; [now apply UD|]. split; [exact BG|]. left.
    destruct KT as [->|[-> SC]]; [discriminate P|]. set (la := fst (tend ign a)) in *.
    assert (KM : k = scan_message la (trim_space l)).
    { destruct (trim_space l) as [|ch y] eqn:TR; [injection SC as <-; discriminate P|]. destruct (ascii_dec ch "#") as [->|N].
      - exfalso. change (scan_line ign la ("#"%char :: y)) with (scan_comment ign la ("#"%char :: y)) in SC.
        pose proof (comment_scan ign la y) as C. cbv zeta in C. rewrite SC in C. specialize (C G).
        destruct C as [[_ C]|[(_ & _ & C)|(_ & _ & _ & C)]]; congruence.
      - rewrite scan_string in SC by exact N. congruence. }
    subst k. destruct (field_token la (trim_space l) G) as (x & SX & W & H). exists x. split; [exact SX|]. apply UN; [exact W|]. eapply H. exact MO.
Qed.

Theorem hangs_if : forall ign s rs a l c, reads_lines s rs -> rs = a ++ l :: c -> stops ign a l ->
  forall fuel, parse_po_fuel fuel ign s = OutOfFuel.
Proof.
  intros ign s rs a l c R EQ (UD & (b & s0 & f & g & R2 & OK) & ST) fuel. pose proof R as R0. apply reads_file_lines in R0. rewrite po_drive, <- R0, EQ.
  apply (scan_understood ign (a ++ [l]) TEof false) in UD; [|discriminate].
  rewrite PoErrProofs.scan_all_app in *. apply Forall_app in UD as [GD GL].
  rewrite po_drive in OK. apply reads_file_lines in R2. rewrite <- R2, PoErrProofs.scan_all_app in OK.
  pose proof (scan_linked ign (a ++ [l]) TEof false) as LK. rewrite PoErrProofs.scan_all_app in LK.
  unfold drive in OK. rewrite run_app in OK. destruct (run g start (toks ign a)) as [s1| | |] eqn:RG; try discriminate OK. clear OK.
  unfold drive. rewrite run_app. destruct (run_same g fuel (toks ign a) start s1 RG) as [RF|RF]; rewrite RF; [|reflexivity]. cbn [rbind].
  destruct (read_line s rs l R) as [NL _]; [rewrite EQ; apply in_or_app; right; now left|].
  assert (NT : ~ In LF (trim_space l)) by (intro I; apply NL; eapply within_in; [apply trim_within|exact I]).
  set (la := fst (tend ign a)) in *. cbn [scan_all] in GL, LK |- *. cbv zeta in *.
  assert (GO : forall k, trim_space l <> [] -> scan_line ign la (trim_space l) = Some k ->
    (good (k, trim_space l) -> (k = TStrPL -> filled s1) -> step fuel s1 (k, trim_space l) = OutOfFuel) ->
    (do s' <- run fuel s1 (if is_nil (trim_space l) then if snd (tend ign a) then scan_all ign la true c else (TWs, []) :: scan_all ign TWs true c
       else match scan_line ign la (trim_space l) with Some k => (k, trim_space l) :: scan_all ign k false c | None => scan_all ign la false c end); fin s') = OutOfFuel).
  { intros k NE SC H. assert (N : is_nil (trim_space l) = false) by (destruct (trim_space l); [congruence|reflexivity]).
    rewrite N, SC in *. cbn [run]. rewrite H; [reflexivity|exact (Forall_inv GL)|].
    intro K. eapply run_linked; [exact LK|intros [X|X]; discriminate X|exact RF|exact K]. }
  destruct ST as [(x & SX & U)|(-> & P & U & NB)].
  - destruct (string_of_shape _ _ SX) as [(ch & y & T & N) W].
    apply (GO (scan_message la (trim_space l))); [congruence|rewrite T; now apply scan_string|].
    intros G F. pose proof (scan_message_good _ _ G) as [PI _]. destruct s1 as [[h ms] o].
    destruct (step_cases fuel h ms o (scan_message la (trim_space l)) (trim_space l)) as [(K & _)|[((K & _) & _)|(K & ->)]].
    + destruct (scan_message la (trim_space l)); discriminate.
    + destruct (scan_message la (trim_space l)); discriminate.
    + rewrite (field_hangs la (trim_space l) x fuel (body_msg o) G SX); [reflexivity| |].
      * apply unclosed_hang; [exact U|]. intro I. apply NT. eapply within_in; eassumption.
      * intro K0. apply F in K0. unfold filled in K0. cbn [snd] in K0. destruct o; cbn [body_msg] in *; (contradiction || exact K0).
  - assert (SH : exists y, trim_space l = "#"%char :: "|"%char :: y /\ y <> []).
    { destruct P as [(w & y & N & _ & [->| ->])|(w & x & N & _ & _ & ->)]; eexists; (split; [reflexivity|]); destruct w; (contradiction || discriminate). }
    destruct SH as (y & T & NY). pose proof (comment_scan false la ("|"%char :: y)) as C. cbv zeta in C.
    change (scan_comment false la ("#"%char :: "|"%char :: y)) with (scan_line false la ("#"%char :: "|"%char :: y)) in C. rewrite <- T in C.
    destruct (scan_line false la (trim_space l)) as [k|] eqn:SC.
    + apply (GO k); [congruence|reflexivity|]. intros G _. specialize (C G).
      assert (PK : place_of k = InPrevious).
      { destruct C as [[[_ [X|(c1 & r1 & X & X2)]] _]|[(_ & _ & X)|(_ & _ & _ & X)]]; try exact X; rewrite T in X; [discriminate X|]. injection X as <- _. congruence. }
      destruct s1 as [[h ms] o].
      assert (IB : is_body (h, ms, o) = false).
      { apply not_true_iff_false. intro X. apply NB. apply (place_behind false a GD). now apply (body_place _ _ _ _ RF). }
      destruct (step_cases fuel h ms o k (trim_space l)) as [(K & (c0 & ->) & _)|[((K & _) & X)|(K & _)]].
      * rewrite (previous_hangs la (trim_space l) k fuel c0 SC PK); [reflexivity|now apply trim_unclosed|exact NT].
      * assert (K2 : is_comment k = true) by (destruct k; try discriminate PK; reflexivity). apply X in K2. congruence.
      * destruct k; discriminate.
    + exfalso. destruct C as [I|[X _]]; [|discriminate X]. rewrite T in I. cbn [In] in I. repeat destruct I as [I|I]; try exact I; injection I as I; congruence.
Qed.
