(** Parsing never panics, and does not terminate only because of a line
    whose closing quote is escaped. *)
From Coq Require Import String Ascii List ZArith Bool Lia ZifyBool.
From Verif Require Import Base BaseProofs Utf8Model Utf8Proofs StrModel ReModel ReProofs PoStrModel
  PoStrSpec PoStrProofs PoDecodeProofs PoFileModel PoFileSpec TrimProofs PoScanProofs PoItemProofs PoParseProofs.
Import ListNotations.
Open Scope Z_scope.

Ltac app_norm := repeat (progress (rewrite <- ?app_assoc; cbn [app])).

(** ** Parts of a line *)
Definition within (q l : bytes) : Prop := exists u w, l = u ++ q ++ w /\ ~ In QUOTE w.
Lemma within_refl : forall l, within l l.
Proof. intro l. exists [], []. split; [now rewrite app_nil_r|intros []]. Qed.
Lemma within_trans : forall a b c, within a b -> within b c -> within a c.
Proof.
  intros a b c (u & w & -> & N) (u' & w' & -> & N'). exists (u' ++ u), (w ++ w'). split; [now rewrite <- !app_assoc|].
  intro I. apply in_app_or in I as [I|I]; auto.
Qed.
Lemma within_skipn : forall n l, within (skipn n l) l.
Proof. intros n l. exists (firstn n l), []. split; [now rewrite app_nil_r, firstn_skipn|intros []]. Qed.
Lemma within_length : forall q l, within q l -> (length q <= length l)%nat.
Proof. intros q l (u & w & -> & _). rewrite !app_length. lia. Qed.
Lemma within_in : forall q l c, within q l -> In c q -> In c l.
Proof. intros q l c (u & w & -> & _) I. apply in_or_app. right. apply in_or_app. now left. Qed.
Lemma within_drop_cr : forall l, within (drop_cr l) l.
Proof.
  intro l. unfold drop_cr. destruct (rev l) as [|c r] eqn:E; [apply within_refl|].
  destruct (Ascii.eqb_spec c CR) as [->|]; [|apply within_refl]. exists [], [CR]. cbn [app].
  apply (f_equal (@rev ascii)) in E. rewrite rev_involutive in E. split; [exact E|].
  intros [X|[]]. discriminate.
Qed.
Lemma trim_left_within : forall s, within (trim_left s) s.
Proof.
  intro s. unfold trim_left. generalize (length s). intro n. revert s.
  induction n as [|n IH]; intro s; [apply within_refl|]. cbn [trim_left_fuel].
  destruct (strip_space s) as [s'|] eqn:E; [|apply within_refl].
  eapply within_trans; [apply IH|]. destruct s as [|c s]; [discriminate|]. unfold strip_space in E.
  destruct (decode_rune (c :: s)) as [r w]. destruct (is_space r); [|discriminate]. injection E as <-. apply within_skipn.
Qed.
Lemma strip_rev_within : forall l t t', strip_rev l t = Some t' -> (forall r, In r l -> is_space r = true) ->
  exists w, t = w ++ t' /\ ~ In QUOTE w.
Proof.
  induction l as [|r l IH]; intros t t' E F; [discriminate|]. cbn [strip_rev] in E. cbv zeta in E.
  destruct (has_prefix t (rev (encode_rune r))) eqn:HP.
  - injection E as <-. apply has_prefix_iff in HP as (x & ->). rewrite skipn_len_app.
    exists (rev (encode_rune r)). split; [reflexivity|]. intro I. apply in_rev in I.
    pose proof (F r (or_introl eq_refl)) as SP. apply enc_no_ascii in I; [|now apply space_scalar|reflexivity].
    change [QUOTE] with (encode_rune 34) in I. apply encode_inj in I; [|now apply space_scalar|reflexivity]. subst r. discriminate.
  - eapply IH; [exact E|]. intros q Q. apply F. now right.
Qed.
Lemma trim_right_within : forall s, within (trim_right s) s.
Proof.
  intro s. unfold trim_right.
  assert (X : forall n t, exists w, t = w ++ trim_rev_fuel n t /\ ~ In QUOTE w).
  { induction n as [|n IH]; intro t; [exists []; split; [reflexivity|intros []]|]. cbn [trim_rev_fuel].
    destruct (strip_rev space_runes t) as [t'|] eqn:E; [|exists []; split; [reflexivity|intros []]].
    apply strip_rev_within in E as (w & -> & N); [|intros r R; now apply space_in].
    destruct (IH t') as (w' & E' & N'). exists (w ++ w'). split; [rewrite <- app_assoc; now f_equal|].
    intro I. apply in_app_or in I as [I|I]; auto. }
  destruct (X (length s) (rev s)) as (w & E & N). exists [], (rev w). cbn [app].
  split; [|intro I; apply in_rev in I; auto]. apply (f_equal (@rev ascii)) in E.
  rewrite rev_involutive, rev_app_distr in E. exact E.
Qed.
Lemma trim_within : forall s, within (trim_space s) s.
Proof. intro s. unfold trim_space. eapply within_trans; [apply trim_right_within|apply trim_left_within]. Qed.

Lemma first_quote : forall p : bytes, In QUOTE p -> exists a b, p = a ++ QUOTE :: b /\ ~ In QUOTE a.
Proof.
  induction p as [|c p IH]; intro I; [destruct I|]. destruct (Ascii.eqb_spec c QUOTE) as [->|N].
  - exists [], p. split; [reflexivity|intros []].
  - destruct I as [I|I]; [congruence|]. destruct (IH I) as (a & b & -> & NA). exists (c :: a), b.
    split; [reflexivity|]. intros [J|J]; auto.
Qed.
Lemma odd_tail_after : forall p b, odd_tail b -> odd_tail (p ++ QUOTE :: b).
Proof.
  intros p b (x & n & -> & X & O). exists (p ++ QUOTE :: x), n. split; [now rewrite <- app_assoc|]. split; [|exact O].
  right. destruct X as [->|(q & c & -> & N)].
  - exists p, QUOTE. split; [reflexivity|discriminate].
  - exists (p ++ QUOTE :: q), c. split; [now rewrite <- app_assoc|exact N].
Qed.
Lemma unclosed_within : forall q l, unclosed q -> within q l -> unclosed l.
Proof.
  intros q l (a & b & c & -> & NA & NC & O) (u & w & -> & NW).
  destruct (in_dec ascii_dec QUOTE u) as [I|I].
  - destruct (first_quote u I) as (x & y & -> & NX). exists x, (y ++ a ++ QUOTE :: b), (c ++ w).
    split; [app_norm; reflexivity|].
    split; [exact NX|]. split; [intro J; apply in_app_or in J as [J|J]; auto|].
    rewrite app_assoc. now apply odd_tail_after.
  - exists (u ++ a), b, (c ++ w).
    split; [app_norm; reflexivity|].
    split; [intro J; apply in_app_or in J as [J|J]; auto|].
    split; [intro J; apply in_app_or in J as [J|J]; auto|exact O].
Qed.

(** ** Outcomes *)
(** neither a panic nor, unless [P], out of fuel *)
Definition outc {A} (P : Prop) (r : res A) : Prop :=
  match r with Panic => False | OutOfFuel => P | _ => True end.
Lemma outc_bind : forall A B P (r : res A) (f : A -> res B), outc P r -> (forall x, r = Ok x -> outc P (f x)) ->
  outc P (do x <- r ; f x).
Proof. intros A B P [x| | |] f H F; cbn in *; auto. Qed.

(** a text that the decoder finishes *)
Definition closed (fuel : nat) (l : bytes) : Prop := ~ unclosed l /\ ~ In LF l /\ (length l < fuel)%nat.
Lemma closed_within : forall fuel q l, closed fuel l -> within q l -> closed fuel q.
Proof.
  intros fuel q l (U & N & L) W. split; [intro X; apply U; eapply unclosed_within; eauto|].
  split; [intro I; apply N; eapply within_in; eauto|]. apply within_length in W. lia.
Qed.
Lemma dec_outc : forall P fuel l, P \/ closed fuel l -> outc P (dec fuel l).
Proof.
  intros P fuel l H. unfold dec, decode_po_fuel. destruct (beq l [QUOTE; QUOTE]); [exact I|].
  destruct H as [H|(U & N & L)].
  - apply outc_bind; [|intros; exact I]. generalize (split_on LF l). intro ls.
    induction ls as [|x ls IH]; [exact I|]. cbn [decode_lines]. apply outc_bind; [|intros; apply outc_bind; [exact IH|intros; exact I]].
    destruct (decode_line_outcome x fuel) as [[v ->]| ->]; [exact I|exact H].
  - rewrite split_no_lf_end by exact N. cbn [decode_lines].
    destruct (decode_line_total l fuel U L) as [v ->]. exact I.
Qed.
Lemma from_outc : forall P n l, (n <= length l)%nat -> from n l = Ok (skipn n l) /\ outc P (from n l).
Proof.
  intros P n l L. unfold from. replace (Nat.ltb (length l) n) with false by (symmetry; now apply Nat.ltb_ge). split; [reflexivity|exact I].
Qed.

(** ** The text of a token *)
Definition least (k : ptok) : nat :=
  match k with
  | TTrans => 1 | TExtr | TFlags | TRefs | TPrevCtxL | TPrevIdL => 2 | TPrevCtx => 10 | TPrevId => 8
  | TCtx => 8 | TId => 6 | TPl => 13 | TStr => 7 | TStrP => 10 | _ => 0
  end.
Definition shape (k : ptok) (l : bytes) : Prop :=
  (least k <= length l)%nat /\
  (k = TStrP -> exists a d b, l = a ++ "["%char :: d ++ "]"%char :: b /\ ~ In "["%char a /\ ~ In "]"%char a /\ ~ In "]"%char d).

Lemma prefix_length : forall l p, has_prefix l p = true -> (length p <= length l)%nat.
Proof. intros l p H. apply has_prefix_iff in H as (t & ->). rewrite app_length. lia. Qed.
Lemma lang_quoted_length : forall s, lang rquoted s -> (2 <= length s)%nat.
Proof.
  intros s H. unfold rquoted in H. cbn [rseq] in H. apply lang_seq in H as (x & y & -> & X & H).
  apply lang_seq in H as (z & w & -> & Z & H). apply lang_seq in H as (a & b & -> & A & _).
  apply lang_set in X as (c & -> & _). apply lang_set in A as (e & -> & _). rewrite !app_length. cbn [length]. lia.
Qed.
Lemma rseq_last : forall a s, lang (rseq [a]) s -> lang a s.
Proof.
  intros a s H. cbn [rseq] in H. apply lang_seq in H as (x & y & -> & X & Y). apply lang_empty in Y. subst.
  now rewrite app_nil_r.
Qed.
Lemma re_str_length : forall l, rmatch re_str l = true -> (8 <= length l)%nat.
Proof.
  intros l H. apply rmatch_lang in H.
  change re_str with (RSeq (rlit (bs "msgstr")) (RSeq (RStar rspace) (rseq [rquoted]))) in H.
  apply lang_seq in H as (a & b & -> & A & H). apply lang_rlit in A. subst a.
  apply lang_seq in H as (w & q & -> & _ & Q). apply rseq_last, lang_quoted_length in Q. rewrite !app_length.
  change (length (bs "msgstr")) with 6%nat. lia.
Qed.
Lemma spaces_not : forall w c, forallb re_space w = true -> re_space c = false -> ~ In c w.
Proof. intros w c F N I. rewrite forallb_forall in F. apply F in I. congruence. Qed.
Lemma re_strp_shape : forall l, rmatch re_strp l = true -> shape TStrP l.
Proof.
  intros l H. apply rmatch_lang in H.
  change re_strp with (RSeq (rlit (bs "msgstr")) (RSeq (RStar rspace) (RSeq (rchar "[")
      (RSeq (rplus rdigit) (RSeq (rchar "]") (RSeq (RStar rspace) (rseq [rquoted]))))))) in H.
  apply lang_seq in H as (a & b & -> & A & H). apply lang_rlit in A. subst a.
  apply lang_seq in H as (w & b' & -> & W & H). apply lang_star_set in W.
  apply lang_seq in H as (o & b'' & -> & O & H). apply lang_set in O as (oc & -> & O). apply Ascii.eqb_eq in O. subst oc.
  apply lang_seq in H as (d & b3 & -> & D & H).
  apply lang_seq in H as (o & b4 & -> & O & H). apply lang_set in O as (oc & -> & O). apply Ascii.eqb_eq in O. subst oc.
  apply lang_seq in H as (w2 & q & -> & _ & Q). apply rseq_last, lang_quoted_length in Q.
  unfold rplus in D. apply lang_seq in D as (d1 & d2 & -> & D1 & D2). apply lang_set in D1 as (c & -> & D1).
  apply lang_star_set in D2.
  split.
  - rewrite !app_length. cbn [length least]. change (length (bs "msgstr")) with 6%nat. lia.
  - intros _. exists (bs "msgstr" ++ w), (c :: d2), (w2 ++ q). split; [rewrite <- !app_assoc; reflexivity|].
    assert (DD : forall x, In x (c :: d2) -> is_digit x = true).
    { intros x [<-|I]; [exact D1|]. rewrite forallb_forall in D2. now apply D2. }
    split; [|split].
    + intro I. apply in_app_or in I as [I|I]; [cbn in I; repeat (destruct I as [I|I]; [discriminate|]); exact I|].
      revert I. now apply spaces_not.
    + intro I. apply in_app_or in I as [I|I]; [cbn in I; repeat (destruct I as [I|I]; [discriminate|]); exact I|].
      revert I. now apply spaces_not.
    + intro I. apply DD in I. discriminate.
Qed.
Lemma scan_message_shape : forall last l, shape (scan_message last l) l.
Proof.
  intros last l. unfold scan_message.
  destruct (has_prefix l (bs "msgid ")) eqn:P1; cbn [andb].
  { destruct (rmatch re_id l).
    - split; [exact (prefix_length _ _ P1)|discriminate].
    - destruct (has_prefix l (bs "msgstr")) eqn:P2.
      { exfalso. apply has_prefix_iff in P1 as (t & ->). discriminate. }
      destruct (has_prefix l (bs "msgid_plural ")) eqn:P3.
      { exfalso. apply has_prefix_iff in P1 as (t & ->). discriminate. }
      destruct (has_prefix l (bs "msgctxt ")) eqn:P4.
      { exfalso. apply has_prefix_iff in P1 as (t & ->). discriminate. }
      destruct (has_prefix l [QUOTE]) eqn:P5.
      { exfalso. apply has_prefix_iff in P1 as (t & ->). discriminate. }
      split; [cbn; lia|discriminate]. }
  destruct (has_prefix l (bs "msgstr")) eqn:P2.
  { destruct (beq l (bs "msgstr """"")) eqn:B; cbn [orb].
    - apply beq_eq in B. subst. split; [cbn; lia|discriminate].
    - destruct (rmatch re_str l) eqn:R.
      + apply re_str_length in R. split; [cbn [least]; lia|discriminate].
      + destruct (rmatch re_strp l) eqn:R2; [now apply re_strp_shape|]. split; [cbn; lia|discriminate]. }
  destruct (has_prefix l (bs "msgid_plural ")) eqn:P3; cbn [andb].
  { destruct (rmatch re_pl l).
    - split; [exact (prefix_length _ _ P3)|discriminate].
    - destruct (_ && rmatch re_ctx l) eqn:X.
      + exfalso. apply andb_true_iff in X as [X _]. apply has_prefix_iff in P3 as (t & ->). discriminate.
      + destruct (_ && rmatch re_line l) eqn:Y.
        * exfalso. apply andb_true_iff in Y as [Y _]. apply andb_true_iff in Y as [Y _].
          apply has_prefix_iff in P3 as (t & ->). discriminate.
        * split; [cbn; lia|discriminate]. }
  destruct (has_prefix l (bs "msgctxt ")) eqn:P4; cbn [andb].
  { destruct (rmatch re_ctx l).
    - split; [exact (prefix_length _ _ P4)|discriminate].
    - destruct (_ && rmatch re_line l) eqn:Y.
      + exfalso. apply andb_true_iff in Y as [Y _]. apply andb_true_iff in Y as [Y _].
        apply has_prefix_iff in P4 as (t & ->). discriminate.
      + split; [cbn; lia|discriminate]. }
  destruct (_ && rmatch re_line l); [|split; [cbn; lia|discriminate]].
  destruct last; (split; [cbn; lia|discriminate]).
Qed.
Lemma prev_length : forall kw l, rmatch (rseq [rlit (bs "#|"); rplus rspace; rlit kw; rany]) l = true ->
  (3 + length kw <= length l)%nat.
Proof.
  intros kw l H. apply prev_shape in H as (w & y & -> & N & _). rewrite !app_length.
  destruct w; [congruence|]. cbn [length bs list_ascii_of_string]. lia.
Qed.
Lemma scan_comment_shape : forall ign last l k, scan_comment ign last l = Some k -> shape k l.
Proof.
  intros ign last l k H. unfold scan_comment in H. destruct l as [|a [|c rest]].
  - injection H as <-. split; [cbn; lia|discriminate].
  - destruct ign; [discriminate|]. injection H as <-. split; [cbn; lia|discriminate].
  - destruct (_ && _); [discriminate|]. destruct (ign && _); [discriminate|].
    destruct (Ascii.eqb c "."); [injection H as <-; split; [cbn; lia|discriminate]|].
    destruct (Ascii.eqb c ":"); [injection H as <-; split; [cbn; lia|discriminate]|].
    destruct (Ascii.eqb c ","); [injection H as <-; split; [cbn; lia|discriminate]|].
    destruct (Ascii.eqb c "|"); [|injection H as <-; split; [cbn; lia|discriminate]].
    destruct (rmatch re_prev_ctx (a :: c :: rest)) eqn:R1.
    { injection H as <-. split; [exact (prev_length _ _ R1)|discriminate]. }
    destruct (rmatch re_prev_id (a :: c :: rest)) eqn:R2.
    { injection H as <-. split; [exact (prev_length _ _ R2)|discriminate]. }
    destruct (rmatch re_prev_line (a :: c :: rest)).
    + destruct last; injection H as <-; (split; [cbn; lia|discriminate]).
    + injection H as <-. split; [cbn; lia|discriminate].
Qed.

Definition tok_ok (P : Prop) (fuel : nat) (t : ptok * bytes) : Prop :=
  shape (fst t) (snd t) /\ (P \/ closed fuel (snd t)).
Lemma scan_all_ok : forall P fuel ign ls last blank, Forall (fun l => P \/ closed fuel l) ls ->
  Forall (tok_ok P fuel) (scan_all ign last blank ls).
Proof.
  intros P fuel ign. induction ls as [|l ls IH]; intros last blank F; [constructor|].
  pose proof (Forall_inv F) as FL. pose proof (Forall_inv_tail F) as F'. cbn beta in FL. cbn [scan_all]. cbv zeta.
  assert (C : P \/ closed fuel (trim_space l)).
  { destruct FL as [FL|FL]; [now left|right]. eapply closed_within; [exact FL|apply trim_within]. }
  destruct (is_nil (trim_space l)) eqn:E.
  - destruct blank; [now apply IH|]. constructor; [|now apply IH]. split; [split; [cbn; lia|discriminate]|].
    cbn [snd]. destruct (trim_space l); [exact C|discriminate].
  - destruct (scan_line ign last (trim_space l)) as [k|] eqn:SL; [|now apply IH]. constructor; [|now apply IH].
    split; [|exact C]. cbn [fst snd]. unfold scan_line in SL. destruct (trim_space l) as [|c t]; [discriminate|].
    destruct (Ascii.eqb c "#"); [exact (scan_comment_shape ign last _ k SL)|]. injection SL as <-. apply scan_message_shape.
Qed.

(** ** The parser *)
Lemma comment_step_outc : forall P fuel c k l, tok_ok P fuel (k, l) -> outc P (comment_step fuel c k l).
Proof.
  intros P fuel c k l [[L _] C]. cbn [fst snd] in *.
  assert (D : forall q, within q l -> outc P (dec fuel q)).
  { intros q W. apply dec_outc. destruct C as [C|C]; [now left|right]. eapply closed_within; eauto. }
  destruct k; try exact I; cbn [least] in L; unfold comment_step;
    destruct (from_outc P _ l L) as [-> _]; cbn [rbind]; try exact I.
  - pose proof (within_trans _ _ _ (trim_within (skipn 10 l)) (within_skipn 10 l)) as W.
    destruct (trim_space (skipn 10 l)) as [|x y]; [exact I|]. apply outc_bind; [now apply D|intros; exact I].
  - apply outc_bind; [|intros; exact I]. apply D.
    eapply within_trans; [apply trim_within|apply within_skipn].
  - pose proof (within_trans _ _ _ (trim_within (skipn 8 l)) (within_skipn 8 l)) as W.
    destruct (trim_space (skipn 8 l)) as [|x y]; [exact I|]. apply outc_bind; [now apply D|intros; exact I].
  - apply outc_bind; [|intros; exact I]. apply D.
    eapply within_trans; [apply trim_within|apply within_skipn].
Qed.
Lemma plural_index_outc : forall P l, shape TStrP l -> outc P (plural_index l).
Proof.
  intros P l [_ SH]. destruct (SH eq_refl) as (a & d & b & -> & NA1 & NA2 & ND). unfold plural_index.
  rewrite index_app by exact NA1.
  replace (a ++ "["%char :: d ++ "]"%char :: b) with ((a ++ "["%char :: d) ++ "]"%char :: b) by (rewrite <- app_assoc; reflexivity).
  rewrite index_app.
  2: { intro I. apply in_app_or in I as [I|[I|I]]; [auto|discriminate|auto]. }
  rewrite app_length. cbn [length]. destruct (Nat.ltb_spec (length a + S (length d)) (S (length a))); [lia|].
  destruct (parse_int _); exact I.
Qed.
Lemma message_step_outc : forall P fuel m k l, tok_ok P fuel (k, l) -> outc P (message_step fuel m k l).
Proof.
  intros P fuel m k l [S C]. cbn [fst snd] in *. pose proof S as [L _].
  assert (D : forall q, within q l -> outc P (dec fuel q)).
  { intros q W. apply dec_outc. destruct C as [C|C]; [now left|right]. eapply closed_within; eauto. }
  destruct k; try exact I; cbn [least] in L; unfold message_step; cbv zeta.
  1, 3, 5, 7: destruct (from_outc P _ l L) as [-> _]; cbn [rbind];
    (apply outc_bind; [apply D, within_skipn|intros; exact I]).
  1, 2, 3, 4: (apply outc_bind; [apply D, within_refl|intros; exact I]).
  - apply outc_bind; [now apply plural_index_outc|]. intros i _.
    destruct (from_outc P _ l L) as [-> _]; cbn [rbind]. apply outc_bind; [apply D, within_skipn|intros; exact I].
  - destruct (_ <? 0); [exact I|]. apply outc_bind; [apply D, within_refl|intros; exact I].
Qed.
Lemma parse_comment_outc : forall P fuel ts c, Forall (tok_ok P fuel) ts -> outc P (parse_comment fuel c ts) /\
  forall c' ts', parse_comment fuel c ts = Ok (Some (c', ts')) -> exists pre, ts = pre ++ ts'.
Proof.
  intros P fuel. induction ts as [|[k l] ts IH]; intros c F; [split; [exact I|discriminate]|].
  pose proof (Forall_inv F) as T. pose proof (Forall_inv_tail F) as F'. cbn [parse_comment].
  assert (X : outc P (if is_comment k then do c' <- comment_step fuel c k l; parse_comment fuel c' ts else Ok (Some (c, (k, l) :: ts))) /\
    forall c' ts', (if is_comment k then do c' <- comment_step fuel c k l; parse_comment fuel c' ts else Ok (Some (c, (k, l) :: ts))) = Ok (Some (c', ts')) ->
      exists pre, (k, l) :: ts = pre ++ ts').
  { destruct (is_comment k).
    - split.
      + apply outc_bind; [now apply comment_step_outc|]. intros c' _. now apply IH.
      + intros c' ts' E. destruct (comment_step fuel c k l) as [c1| | |]; try discriminate. cbn [rbind] in E.
        destruct (IH c1 F') as [_ IH2]. destruct (IH2 _ _ E) as (pre & ->). exists ((k, l) :: pre). reflexivity.
    - split; [exact I|]. intros c' ts' E. injection E as <- <-. exists []. reflexivity. }
  destruct k; try exact X. split; [exact I|discriminate].
Qed.
Lemma parse_body_outc : forall P fuel ts m, Forall (tok_ok P fuel) ts -> outc P (parse_body fuel m ts) /\
  forall m' ts' e, parse_body fuel m ts = Ok (m', ts', e) ->
    exists pre, ts = pre ++ ts' /\ (ts <> [] -> pre <> []).
Proof.
  intros P fuel. induction ts as [|[k l] ts IH]; intros m F.
  { split; [exact I|]. intros m' ts' e E. injection E as <- <- <-. exists []. split; [reflexivity|congruence]. }
  pose proof (Forall_inv F) as T. pose proof (Forall_inv_tail F) as F'. cbn [parse_body].
  assert (X : outc P (if is_comment k then Ok (m, ts, false) else do m' <- message_step fuel m k l; parse_body fuel m' ts) /\
    forall m' ts' e, (if is_comment k then Ok (m, ts, false) else do m' <- message_step fuel m k l; parse_body fuel m' ts) = Ok (m', ts', e) ->
      exists pre, (k, l) :: ts = pre ++ ts' /\ ((k, l) :: ts <> [] -> pre <> [])).
  { destruct (is_comment k).
    - split; [exact I|]. intros m' ts' e E. injection E as <- <- <-. exists [(k, l)]. split; [reflexivity|discriminate].
    - split.
      + apply outc_bind; [now apply message_step_outc|]. intros m' _. now apply IH.
      + intros m' ts' e E. destruct (message_step fuel m k l) as [m1| | |]; try discriminate. cbn [rbind] in E.
        destruct (IH m1 F') as [_ IH2]. destruct (IH2 _ _ _ E) as (pre & -> & _). exists ((k, l) :: pre). split; [reflexivity|discriminate]. }
  destruct k; try exact X. split; [exact I|]. intros m' ts' e E. injection E as <- <- <-.
  exists [(TWs, l)]. split; [reflexivity|discriminate].
Qed.
Lemma parse_comment_ne : forall fuel ts c c' ts', parse_comment fuel c ts = Ok (Some (c', ts')) -> ts' <> [].
Proof.
  intros fuel. induction ts as [|[k l] ts IH]; intros c c' ts' E; [discriminate|]. cbn [parse_comment] in E.
  destruct (is_comment k) eqn:K.
  - destruct (comment_step fuel c k l) as [c1| | |] eqn:ST; destruct k; cbn [rbind] in E; try discriminate;
      eapply IH; exact E.
  - destruct k; try discriminate; injection E as <- <-; discriminate.
Qed.
Lemma parse_message_outc : forall P fuel ts, Forall (tok_ok P fuel) ts -> outc P (parse_message fuel ts) /\
  forall m ts' e, parse_message fuel ts = Ok (Some (m, ts', e)) -> exists pre, ts = pre ++ ts' /\ pre <> [].
Proof.
  intros P fuel ts F. destruct ts as [|[k l] ts]; [split; [exact I|discriminate]|]. unfold parse_message.
  destruct (is_comment k).
  - destruct (parse_comment_outc P fuel ((k, l) :: ts) new_comment F) as [A B]. split.
    + apply outc_bind; [exact A|]. intros [[c ts']|] E; [|exact I]. destruct (B _ _ E) as (pre & EP).
      rewrite EP in F. apply Forall_app in F as [_ F].
      destruct (parse_body_outc P fuel ts' (set_com new_message c) F) as [A' _]. apply outc_bind; [exact A'|intros; exact I].
    + intros m ts' e E. destruct (parse_comment fuel new_comment ((k, l) :: ts)) as [[[c ts1]|]| | |] eqn:EC; try discriminate.
      cbn [rbind] in E. destruct (B _ _ eq_refl) as (pre & EP). pose proof (parse_comment_ne _ _ _ _ _ EC) as NE.
      rewrite EP in F. apply Forall_app in F as [_ F].
      destruct (parse_body_outc P fuel ts1 (set_com new_message c) F) as [_ B'].
      destruct (parse_body fuel (set_com new_message c) ts1) as [[[m1 ts2] e1]| | |]; try discriminate.
      cbn [rbind] in E. injection E as -> -> ->. destruct (B' _ _ _ eq_refl) as (pre' & E1 & N1).
      exists (pre ++ pre'). split; [rewrite EP, E1; now rewrite app_assoc|].
      intro X. apply app_eq_nil in X as [_ X]. now apply N1.
  - destruct (parse_body_outc P fuel ((k, l) :: ts) new_message F) as [A B]. split.
    + apply outc_bind; [exact A|intros; exact I].
    + intros m ts' e E. destruct (parse_body fuel new_message ((k, l) :: ts)) as [[[m1 ts2] e1]| | |]; try discriminate.
      cbn [rbind] in E. injection E as -> -> ->. destruct (B _ _ _ eq_refl) as (pre & E1 & N1).
      exists pre. split; [exact E1|]. apply N1. discriminate.
Qed.
Lemma finish_outc : forall P h ms, outc P (finish h ms).
Proof. intros P [h|] [|m ms]; exact I. Qed.
Lemma parse_file_outc : forall P fuel n h ms ts, Forall (tok_ok P fuel) ts -> (length ts < n)%nat ->
  outc P (parse_file fuel n h ms ts).
Proof.
  intros P fuel. induction n as [|n IH]; intros h ms ts F L; [lia|]. cbn [parse_file].
  destruct (parse_message_outc P fuel ts F) as [A B]. apply outc_bind; [exact A|].
  intros [[[m ts'] e]|] E; [|apply finish_outc]. destruct (B _ _ _ E) as (pre & EP & NE). subst ts.
  apply Forall_app in F as [_ F]. rewrite app_length in L. destruct pre as [|p pre]; [congruence|]. cbn [length] in L.
  destruct (is_nil (m_id m)).
  - destruct (is_nil (m_str m)); [apply IH; [exact F|lia]|]. destruct h; [exact I|]. apply IH; [exact F|lia].
  - destruct (existsb (same_key m) ms); [exact I|]. destruct e; [apply finish_outc|]. apply IH; [exact F|lia].
Qed.
Lemma parse_po_outc : forall P fuel ign s, Forall (fun l => P \/ closed fuel l) (file_lines s) ->
  outc P (parse_po_fuel fuel ign s).
Proof.
  intros P fuel ign s F. unfold parse_po_fuel. cbv zeta. pose proof (scan_all_ok P fuel ign _ TEof false F) as T.
  destruct (scan_all ign TEof false (file_lines s)) as [|t ts]; [exact I|]. apply parse_file_outc; [exact T|lia].
Qed.
Lemma file_lines_in : forall s l, In l (file_lines s) -> exists l', is_line s l' /\ within l l'.
Proof.
  intros s l I. unfold file_lines in I. cbv zeta in I.
  assert (X : forall ls, In l (cut_long ls) -> exists l', In l' ls /\ within l l').
  { induction ls as [|x ls IH]; intro J; [destruct J|]. cbn [cut_long] in J. destruct (too_long x); [destruct J|].
    destruct J as [<-|J]; [exists x; split; [now left|apply within_drop_cr]|].
    destruct (IH J) as (l' & A & B). exists l'. split; [now right|exact B]. }
  apply X in I as (l' & I & W). exists l'. split; [|exact W]. apply split_is_line.
  destruct (last (split_on LF s) []); [|exact I]. clear - I. revert I. generalize (split_on LF s). intro ls.
  induction ls as [|a ls IH]; intro I; [exact I|]. cbn [removelast] in I. destruct ls as [|b ls]; [destruct I|].
  destruct I as [I|I]; [now left|right; now apply IH].
Qed.

Theorem parse_no_panic : forall fuel ign s, parse_po_fuel fuel ign s <> Panic.
Proof.
  intros fuel ign s E. pose proof (parse_po_outc True fuel ign s) as X. rewrite E in X. apply X.
  apply Forall_forall. intros. now left.
Qed.
Theorem parse_terminates : forall fuel ign s, (forall l, is_line s l -> ~ unclosed l) -> (length s < fuel)%nat ->
  parse_po_fuel fuel ign s <> OutOfFuel.
Proof.
  intros fuel ign s U L E. pose proof (parse_po_outc False fuel ign s) as X. rewrite E in X. apply X.
  apply Forall_forall. intros l I. right. apply file_lines_in in I as (l' & IL & W).
  eapply closed_within; [|exact W]. split; [now apply U|]. split; [exact (proj1 IL)|]. apply line_length in IL. lia.
Qed.
