(** What Parse gives does not depend on the maps made earlier. *)
From Coq Require Import String Ascii List ZArith Bool Lia.
From Verif Require Import Base StrModel PoStrModel PoFileModel PoStateModel PoStateSpec PoStateProofs.
Import ListNotations.
Open Scope Z_scope.

Lemma used_n : forall p, used p -> p_n p = false.
Proof.
  induction 1 as [mem|p ign _ IH|p fuel s p' _ IH L]; [reflexivity|exact IH|].
  pose proof (p_parse_spec fuel p s IH) as S. destruct L as [[f L]|[e L]]; rewrite L in S;
    destruct (parse_po_fuel fuel (p_ign p) s); cbn [fsim] in S; try discriminate S.
  - destruct S as (p1 & E & (N & _) & _). injection E as _ ->. exact N.
  - destruct S as (e & p1 & E & _). discriminate E.
  - destruct S as (p1 & E & _). discriminate E.
  - destruct S as (e' & p1 & E & N & _). injection E as _ ->. exact N.
Qed.

(** The same parser with other maps. *)
Definition setm (mp : option nat) (me : list (list message)) (p : parser) : parser :=
  Parser (p_s p) (p_last p) (p_lit p) (p_n p) (p_header p) mp (p_ign p) me.
Definition omap {A} (g : parser -> parser) (o : out A) : out A :=
  match o with OGot a p => OGot a (g p) | OErr e p => OErr e (g p) | OPanic => OPanic | OFuel => OFuel end.
Lemma obind_omap : forall A B g (o : out A) (f : A -> parser -> out B) f', (forall a p, f' a (g p) = omap g (f a p)) ->
  obind (omap g o) f' = omap g (obind o f).
Proof. intros A B g [a p|e p| |] f f' H; cbn [omap obind]; auto. Qed.

Section Moved.
  Variables (mp : option nat) (me : list (list message)).
  Notation g := (setm mp me).
  Lemma p_scan_moved : forall k p, p_scan k (g p) = omap g (p_scan k p).
  Proof.
    intros k p. unfold p_scan. cbn [setm p_n p_s]. destruct (p_n p); [reflexivity|].
    destruct (sc_scan k (p_s p)) as [[[t l] s]| | |]; reflexivity.
  Qed.
  Lemma of_res_moved : forall A (r : res A) e p, of_res r e (g p) = omap g (of_res r e p).
  Proof. intros A [a| | |] e p; reflexivity. Qed.
  Lemma p_comment_moved : forall k fuel n c p, p_comment k fuel n c (g p) = omap g (p_comment k fuel n c p).
  Proof.
    intros k fuel. induction n as [|n IH]; intros c p; [reflexivity|]. cbn [p_comment]. rewrite p_scan_moved.
    apply obind_omap. intros [t l] p1.
    assert (X : obind (of_res (comment_step fuel c t l) (pos_error (g p1)) (g p1)) (fun c' p2 => p_comment k fuel n c' p2) =
      omap g (obind (of_res (comment_step fuel c t l) (pos_error p1) p1) (fun c' p2 => p_comment k fuel n c' p2))).
    { change (pos_error (g p1)) with (pos_error p1). rewrite of_res_moved. apply obind_omap. intros. apply IH. }
    destruct t; try reflexivity; exact X.
  Qed.
  Lemma p_comments_moved : forall k fuel n m p, p_comments k fuel n m (g p) = omap g (p_comments k fuel n m p).
  Proof.
    intros k fuel. induction n as [|n IH]; intros m p; [reflexivity|]. cbn [p_comments]. rewrite p_scan_moved.
    apply obind_omap. intros [t l] p1. cbn [fst]. destruct (is_comment t); [|reflexivity].
    change (p_unscan (g p1)) with (g (p_unscan p1)). rewrite p_comment_moved. apply obind_omap. intros [c|] p2; [apply IH|reflexivity].
  Qed.
  Lemma p_fields_moved : forall k fuel n m p, p_fields k fuel n m (g p) = omap g (p_fields k fuel n m p).
  Proof.
    intros k fuel. induction n as [|n IH]; intros m p; [reflexivity|]. cbn [p_fields]. rewrite p_scan_moved.
    apply obind_omap. intros [t l] p1.
    assert (X : obind (of_res (message_step fuel m t l) (step_error t (g p1)) (g p1)) (fun m' p2 => p_fields k fuel n m' p2) =
      omap g (obind (of_res (message_step fuel m t l) (step_error t p1) p1) (fun m' p2 => p_fields k fuel n m' p2))).
    { change (step_error t (g p1)) with (step_error t p1). rewrite of_res_moved. apply obind_omap. intros. apply IH. }
    destruct t; try reflexivity; exact X.
  Qed.
  Lemma p_message_moved : forall k fuel n p, p_message k fuel n (g p) = omap g (p_message k fuel n p).
  Proof.
    intros k fuel n p. unfold p_message. rewrite p_scan_moved. apply obind_omap. intros [t l] p1. cbn [fst].
    assert (X : obind (p_comments k fuel n new_message (p_unscan (g p1))) (fun o p2 =>
          match o with None => OGot None p2 | Some m => obind (p_fields k fuel n m p2) (fun m' p3 => OGot (Some m') p3) end) =
      omap g (obind (p_comments k fuel n new_message (p_unscan p1)) (fun o p2 =>
          match o with None => OGot None p2 | Some m => obind (p_fields k fuel n m p2) (fun m' p3 => OGot (Some m') p3) end))).
    { change (p_unscan (g p1)) with (g (p_unscan p1)). rewrite p_comments_moved. apply obind_omap. intros [m|] p2; [|reflexivity].
      rewrite p_fields_moved. apply obind_omap. reflexivity. }
    destruct t; try reflexivity; exact X.
  Qed.
End Moved.

(** [q] is [p] with other maps but the same messages. *)
Definition like (p q : parser) : Prop :=
  exists old old' ms, p_map p = Some (length old) /\ p_mem p = old ++ [ms] /\ q = setm (Some (length old')) (old' ++ [ms]) p.
Lemma like_messages : forall p q, like p q -> p_messages q = p_messages p.
Proof.
  intros p q (old & old' & ms & M & E & ->). unfold p_messages. cbn [setm p_map p_mem]. rewrite M, E. now rewrite !nth_last.
Qed.
Lemma like_finish : forall p q, like p q -> seen_of (p_finish p) = seen_of (p_finish q).
Proof.
  intros p q L. unfold p_finish. rewrite (like_messages p q L). destruct L as (old & old' & ms & M & E & ->).
  cbn [setm p_header p_map]. rewrite M.
  assert (T : forall h, look h (Some (length old)) p = look h (Some (length old')) (setm (Some (length old')) (old' ++ [ms]) p)).
  { intros h. unfold look. cbn [setm p_mem]. now rewrite E, !nth_last. }
  destruct (p_header p); [cbn [seen_of]; now rewrite T|]. destruct (p_messages p); [reflexivity|]. cbn [seen_of]. now rewrite T.
Qed.
Lemma like_put : forall p q m, like p q -> like (p_put p m) (p_put q m).
Proof.
  intros p q m L. pose proof (like_messages p q L) as MS. destruct L as (old & old' & ms & M & E & ->).
  exists old, old', (ms ++ [m]). unfold p_put, setm in *. cbn [p_map p_mem p_s p_last p_lit p_n p_header p_ign] in *.
  unfold p_messages in *. cbn [p_map p_mem] in *. rewrite M, E in *. rewrite !nth_last in *. rewrite !set_nth_last. auto.
Qed.
Lemma p_file_like : forall k fuel n p q, like p q -> good k p -> (length (p_tokens p) < n)%nat ->
  seen_of (p_file k fuel n p) = seen_of (p_file k fuel n q).
Proof.
  intros k fuel. induction n as [|n IH]; intros p q L G LE; [reflexivity|]. cbn [p_file].
  pose proof (p_message_spec k fuel (S n) p G LE) as S.
  assert (EQ : exists mp me, q = setm mp me p /\ (forall p1, frame p p1 -> like p1 (setm mp me p1))).
  { destruct L as (old & old' & ms & M & E & ->). do 2 eexists. split; [reflexivity|]. intros p1 (F1 & F2 & F3 & F4).
    exists old, old', ms. rewrite F2, F4. auto. }
  destruct EQ as (mp & me & -> & LK). rewrite p_message_moved.
  destruct (parse_message fuel (p_tokens p)) as [[[[m ts'] e]|]| | |] eqn:PM; cbn [sim R_message R_fields] in S.
  - destruct S as (b & p1 & -> & F & m' & -> & -> & T & G1 & N & _). cbn [omap obind]. specialize (LK p1 F).
    apply parse_message_shorter in PM.
    destruct (is_nil (m_id m)); [destruct (is_nil (m_str m))|].
    + apply IH; [exact LK|exact G1|rewrite T; lia].
    + cbn [setm p_header]. destruct (p_header p1); [reflexivity|]. apply IH; [|exact G1|change (length (p_tokens p1) < n)%nat; rewrite T; lia].
      destruct LK as (old & old' & ms & M & E & Q). exists old, old', ms. split; [exact M|]. split; [exact E|].
      assert (Q' : mp = p_map (setm (Some (length old')) (old' ++ [ms]) p1) /\ me = p_mem (setm (Some (length old')) (old' ++ [ms]) p1)) by (rewrite <- Q; auto).
      cbn [setm p_map p_mem] in Q'. destruct Q' as [-> ->]. reflexivity.
    + rewrite (like_messages _ _ LK). destruct (existsb (same_key m) (p_messages p1)); [reflexivity|]. cbv zeta.
      change (p_last (p_put (setm mp me p1) m)) with (p_last p1). change (p_last (p_put p1 m)) with (p_last p1).
      pose proof (like_put _ _ m LK) as LP.
      assert (Z : seen_of (p_file k fuel n (p_put p1 m)) = seen_of (p_file k fuel n (p_put (setm mp me p1) m))).
      { apply IH; [exact LP|exact G1|change (length (p_tokens p1) < n)%nat; rewrite T; lia]. }
      destruct (p_last p1); try exact Z. now apply like_finish.
  - destruct S as (b & p1 & -> & F & -> & _). cbn [omap obind]. apply like_finish. auto.
  - destruct S as (e & p1 & -> & _). reflexivity.
  - rewrite S. reflexivity.
  - rewrite S. reflexivity.
Qed.

Lemma p_parse_like : forall fuel p q s, p_n p = false -> p_n q = false -> p_ign q = p_ign p ->
  seen_of (p_parse fuel p s) = seen_of (p_parse fuel q s).
Proof.
  intros fuel p q s N N' I. unfold p_parse. cbv zeta. set (k := S (length (file_lines s))).
  unfold p_scan. cbn [p_n p_reset p_s p_ign p_last p_lit p_header p_map p_mem]. rewrite N, N', I.
  pose proof (sc_scan_spec k (new_scanner s (p_ign p))) as S. cbn [new_scanner sc_lines sc_n sc_rest] in S.
  specialize (S ltac:(subst k; cbn; lia)).
  pose proof (scan_all_length (p_ign p) (file_lines s) TEof false) as LL.
  change (sc_tokens (new_scanner s (p_ign p))) with (scan_all (p_ign p) TEof false (file_lines s)) in S.
  destruct (scan_all (p_ign p) TEof false (file_lines s)) as [|[t l] ts].
  - destruct S as (s1 & -> & _). reflexivity.
  - destruct S as (NE & s1 & -> & La & T & IG & L). cbn [obind fst].
    assert (Q : forall X Y : out (header * option nat), match t with TEof => X | _ => Y end = Y) by (destruct t; congruence).
    rewrite !Q. apply p_file_like.
    + exists (p_mem p), (p_mem q), []. split; [reflexivity|]. split; reflexivity.
    + split; [cbn [p_unscan p_s]; subst k; cbn [new_scanner sc_lines sc_n sc_rest] in L; unfold new_scanner, sc_lines in L; cbn in L; unfold sc_lines; lia|intros _; exact NE].
    + unfold p_tokens. cbn [p_unscan p_n p_s p_last p_lit length]. rewrite T. cbn [length] in LL. subst k. lia.
Qed.
