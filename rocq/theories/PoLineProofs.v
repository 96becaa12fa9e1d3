(** Proofs about the lines that are understood. *)
From Coq Require Import String Ascii List ZArith Bool Lia.
From Verif Require Import Base BaseProofs StrModel ReModel ReProofs Utf8Model PoStrModel PoStrSpec PoFileModel TrimProofs PoDecodeProofs PoItemProofs
  PoTotalProofs PoScanProofs CldrOperandProofs CldrGramSpec CldrGramProofs PoLineSpec.
Import ListNotations.
Open Scope Z_scope.

(** ** Regular expressions *)
Lemma white_iff : forall c, re_space c = true <-> white c.
Proof.
  intro c. unfold white. split.
  - destruct c as [a b d e f g h i]. destruct a, b, d, e, f, g, h, i; intro H; vm_compute in H; try discriminate H; auto 10.
  - intros [->|[->|[->|[->| ->]]]]; reflexivity.
Qed.
Lemma whites_iff : forall w, forallb re_space w = true <-> whites w.
Proof.
  intro w. unfold whites. rewrite forallb_forall, Forall_forall. split; intros H c I; apply white_iff, H, I.
Qed.
Lemma lang_spaces : forall w, lang (RStar rspace) w <-> whites w.
Proof. intro w. unfold rspace. now rewrite lang_star_set, whites_iff. Qed.
Lemma lang_plus : forall w, lang (rplus rspace) w <-> w <> [] /\ whites w.
Proof.
  intro w. unfold rplus. rewrite lang_seq. split.
  - intros (x & y & -> & X & Y). apply lang_set in X as (c & -> & C). apply lang_spaces in Y. split; [discriminate|].
    constructor; [now apply white_iff|exact Y].
  - intros (N & W). destruct w as [|c w]; [congruence|]. apply Forall_cons_iff in W as [C W]. exists [c], w. split; [reflexivity|].
    split; [apply lang_set; exists c; split; [reflexivity|now apply white_iff]|now apply lang_spaces].
Qed.
Lemma lang_char : forall c x, lang (rchar c) x <-> x = [c].
Proof.
  intros c x. unfold rchar. rewrite lang_set. split.
  - intros (d & -> & E). apply Ascii.eqb_eq in E. now subst.
  - intros ->. exists c. split; [reflexivity|apply Ascii.eqb_refl].
Qed.
Lemma lang_dots : forall b, lang (RStar rdot) b <-> ~ In LF b.
Proof.
  intro b. unfold rdot. rewrite lang_star_set, forallb_forall. split.
  - intros H I. apply H in I. discriminate.
  - intros H c I. destruct (Ascii.eqb_spec c LF) as [->|]; [contradiction|reflexivity].
Qed.
Lemma lang_any : forall b, lang rany b.
Proof. intro b. unfold rany. apply lang_star_set. now apply forallb_forall. Qed.
Lemma lang_quoted : forall x, lang rquoted x <-> exists b w', x = QUOTE :: b ++ QUOTE :: w' /\ whites w' /\ ~ In LF b.
Proof.
  intro x. unfold rquoted. cbn [rseq]. split.
  - intro H. apply lang_seq in H as (q & r & -> & Q & H). apply lang_char in Q. subst q.
    apply lang_seq in H as (b & r2 & -> & B & H). apply lang_dots in B.
    apply lang_seq in H as (q & r3 & -> & Q & H). apply lang_char in Q. subst q.
    apply rseq_last in H. apply lang_spaces in H. exists b, r3. auto.
  - intros (b & w' & -> & W & B). apply (LSeq _ _ [QUOTE]); [now apply lang_char|]. apply LSeq; [now apply lang_dots|].
    apply (LSeq _ _ [QUOTE] w'); [now apply lang_char|]. rewrite <- (app_nil_r w'). apply LSeq; [now apply lang_spaces|constructor].
Qed.
Lemma rseq_one : forall a s, lang a s -> lang (rseq [a]) s.
Proof. intros a s H. cbn [rseq]. rewrite <- (app_nil_r s). apply LSeq; [exact H|constructor]. Qed.
Lemma lang_string : forall x, lang (rseq [RStar rspace; rquoted]) x <-> string_part x.
Proof.
  intro x. change (rseq [RStar rspace; rquoted]) with (RSeq (RStar rspace) (rseq [rquoted])). split.
  - intro H. apply lang_seq in H as (w & r & -> & W & H). apply rseq_last, lang_quoted in H as (b & w' & -> & W' & B).
    apply lang_spaces in W. exists w, b, w'. auto.
  - intros (w & b & w' & -> & W & W' & B). apply LSeq; [now apply lang_spaces|]. apply rseq_one, lang_quoted. eauto.
Qed.
(** keyword, at least one white space, string; the keyword is followed by a blank *)
Lemma kw_match : forall kw l, has_prefix l (kw ++ bs " ") && rmatch (rseq [rlit kw; rplus rspace; rquoted]) l = true <->
  exists x, l = (kw ++ bs " ") ++ x /\ string_part x.
Proof.
  intros kw l. change (rseq [rlit kw; rplus rspace; rquoted]) with (RSeq (rlit kw) (RSeq (rplus rspace) (rseq [rquoted]))).
  rewrite andb_true_iff, has_prefix_iff, rmatch_lang. split.
  - intros [(t & ->) H]. exists t. split; [reflexivity|]. apply lang_seq in H as (a & b & E & A & H). apply lang_rlit in A. subst a.
    rewrite <- app_assoc in E. apply app_inv_head in E. cbn [app bs list_ascii_of_string] in E.
    apply lang_seq in H as (w & q & -> & W & Q). apply lang_plus in W as [N W]. destruct w as [|c w]; [congruence|]. injection E as <- ->.
    apply Forall_cons_iff in W as [_ W]. apply rseq_last, lang_quoted in Q as (b & w' & -> & W' & B). exists w, b, w'. auto.
  - intros (x & -> & w & b & w' & -> & W & W' & B). split; [now exists (w ++ QUOTE :: b ++ QUOTE :: w')|].
    rewrite <- app_assoc. apply LSeq; [now apply lang_rlit|].
    change (bs " " ++ w ++ QUOTE :: b ++ QUOTE :: w') with ((SP :: w) ++ QUOTE :: b ++ QUOTE :: w').
    apply LSeq; [apply lang_plus; split; [discriminate|constructor; [now left|exact W]]|]. apply rseq_one, lang_quoted. eauto.
Qed.
Lemma str_match : forall l, rmatch re_str l = true <-> exists x, l = bs "msgstr" ++ x /\ string_part x.
Proof.
  intro l. rewrite rmatch_lang. change re_str with (RSeq (rlit (bs "msgstr")) (rseq [RStar rspace; rquoted])). rewrite lang_seq. split.
  - intros (a & x & -> & A & X). apply lang_rlit in A. subst a. exists x. split; [reflexivity|now apply lang_string].
  - intros (x & -> & X). exists (bs "msgstr"), x. split; [reflexivity|]. split; [now apply lang_rlit|now apply lang_string].
Qed.
Definition form_line (l w d x : bytes) : Prop :=
  l = bs "msgstr" ++ w ++ "["%char :: d ++ "]"%char :: x /\ whites w /\ number_text d /\ string_part x.
Lemma digits_lang : forall d, lang (rplus rdigit) d <-> number_text d.
Proof.
  intro d. unfold rplus, rdigit, number_text. rewrite lang_seq. split.
  - intros (x & y & -> & X & Y). apply lang_set in X as (c & -> & C). apply lang_star_set in Y. rewrite forallb_forall in Y.
    split; [discriminate|]. constructor; [exact C|now apply Forall_forall].
  - intros (N & F). destruct d as [|c d]; [congruence|]. apply Forall_cons_iff in F as [C F]. exists [c], d. split; [reflexivity|].
    split; [apply lang_set; eauto|]. apply lang_star_set, forallb_forall. now rewrite Forall_forall in F.
Qed.
Lemma strp_match : forall l, rmatch re_strp l = true <-> exists w d x, form_line l w d x.
Proof.
  intro l. rewrite rmatch_lang.
  change re_strp with (RSeq (rlit (bs "msgstr")) (RSeq (RStar rspace) (RSeq (rchar "[")
      (RSeq (rplus rdigit) (RSeq (rchar "]") (rseq [RStar rspace; rquoted])))))). split.
  - intro H. apply lang_seq in H as (a & b & -> & A & H). apply lang_rlit in A. subst a.
    apply lang_seq in H as (w & b' & -> & W & H). apply lang_spaces in W.
    apply lang_seq in H as (o & b2 & -> & O & H). apply lang_char in O. subst o.
    apply lang_seq in H as (d & b3 & -> & D & H). apply digits_lang in D.
    apply lang_seq in H as (o & x & -> & O & H). apply lang_char in O. subst o.
    apply lang_string in H. exists w, d, x. repeat split; try apply D; assumption.
  - intros (w & d & x & -> & W & D & X). apply LSeq; [now apply lang_rlit|]. apply LSeq; [now apply lang_spaces|].
    apply (LSeq _ _ ["["%char]); [now apply lang_char|]. apply LSeq; [now apply digits_lang|].
    apply (LSeq _ _ ["]"%char]); [now apply lang_char|]. now apply lang_string.
Qed.
Lemma line_match : forall l, has_prefix l [QUOTE] && has_suffix l [QUOTE] && rmatch re_line l = true <-> string_line l.
Proof.
  intro l. rewrite !andb_true_iff, rmatch_lang. change re_line with (rseq [RStar rspace; rquoted]). rewrite lang_string. split.
  - intros [[P S] (w & b & w' & -> & W & W' & B)].
    apply has_prefix_iff in P as (t & P). destruct w as [|c w].
    2:{ injection P as -> _. apply Forall_cons_iff in W as [C _]. apply white_iff in C. discriminate. }
    unfold has_suffix in S. apply has_prefix_iff in S as (u & S). exists b. split; [|exact B].
    destruct w' as [|c w' _] using rev_ind; [reflexivity|]. exfalso.
    cbn [app] in S. 
    replace (QUOTE :: b ++ QUOTE :: w' ++ [c]) with ((QUOTE :: b ++ QUOTE :: w') ++ [c]) in S by (cbn; now rewrite <- app_assoc).
    rewrite rev_app_distr in S. injection S as -> _. apply Forall_app in W' as [_ C]. apply Forall_inv, white_iff in C. discriminate.
  - intros (b & -> & B). split; [split|].
    + reflexivity.
    + unfold has_suffix. change (QUOTE :: b ++ [QUOTE]) with ((QUOTE :: b) ++ [QUOTE]). rewrite rev_app_distr. reflexivity.
    + exists [], b, []. repeat split; try constructor. exact B.
Qed.
Lemma prev_match : forall kw l, rmatch (rseq [rlit (bs "#|"); rplus rspace; rlit kw; rany]) l = true <->
  exists w y, w <> [] /\ whites w /\ l = bs "#|" ++ w ++ kw ++ y.
Proof.
  intros kw l. rewrite rmatch_lang.
  change (rseq [rlit (bs "#|"); rplus rspace; rlit kw; rany]) with (RSeq (rlit (bs "#|")) (RSeq (rplus rspace) (RSeq (rlit kw) (rseq [rany])))). split.
  - intro H. apply lang_seq in H as (a & b & -> & A & H). apply lang_rlit in A. subst a.
    apply lang_seq in H as (w & b' & -> & W & H). apply lang_plus in W as [N W].
    apply lang_seq in H as (a & y & -> & A & H). apply lang_rlit in A. subst a. exists w, y. auto.
  - intros (w & y & N & W & ->). apply LSeq; [now apply lang_rlit|]. apply LSeq; [now apply lang_plus|]. apply LSeq; [now apply lang_rlit|].
    apply rseq_one, lang_any.
Qed.
Lemma more_match : forall l, rmatch re_prev_line l = true <-> exists w x, w <> [] /\ whites w /\ string_part x /\ l = bs "#|" ++ w ++ x.
Proof.
  intro l. rewrite rmatch_lang.
  change re_prev_line with (RSeq (rlit (bs "#|")) (RSeq (rplus rspace) (rseq [rquoted]))). split.
  - intro H. apply lang_seq in H as (a & b & -> & A & H). apply lang_rlit in A. subst a.
    apply lang_seq in H as (w & b' & -> & W & H). apply lang_plus in W as [N W]. apply rseq_last, lang_quoted in H as (b & w' & -> & W' & B).
    exists w, (QUOTE :: b ++ QUOTE :: w'). split; [exact N|]. split; [exact W|]. split; [|reflexivity]. exists [], b, w'. repeat split; auto. constructor.
  - intros (w & x & N & W & (w0 & b & w' & -> & W0 & W' & B) & ->). apply LSeq; [now apply lang_rlit|].
    rewrite app_assoc. apply LSeq.
    + apply lang_plus. split; [destruct w; [congruence|discriminate]|]. apply Forall_app. auto.
    + apply rseq_one, lang_quoted. eauto.
Qed.

(** ** The scanner *)
Definition place_of (k : ptok) : place :=
  match k with
  | TId | TIdL | TPl | TPlL | TStr | TStrL | TStrP | TStrPL | TCtx | TCtxL => InString
  | TPrevCtx | TPrevCtxL | TPrevId | TPrevIdL => InPrevious
  | _ => Elsewhere
  end.
Definition good (t : ptok * bytes) : Prop :=
  fst t <> TFail /\ fst t <> TPrevUnknown /\ (fst t = TStrP -> exists i, plural_index (snd t) = Ok i).
Lemma bad_fail : forall t, ~ good (TFail, t).
Proof. intros t (H & _). now apply H. Qed.
Lemma bad_unknown : forall t, ~ good (TPrevUnknown, t).
Proof. intros t (_ & H & _). now apply H. Qed.
Lemma form_index : forall l w d x, form_line l w d x ->
  ((exists i, plural_index l = Ok i) <-> dec_val d <= 9223372036854775807).
Proof.
  intros l w d x (-> & W & (N & D) & X). unfold plural_index.
  assert (NA : forall c, re_space c = false -> ~ In c (bs "msgstr") -> ~ In c (bs "msgstr" ++ w)).
  { intros c C M I. apply in_app_or in I as [I|I]; [auto|]. unfold whites in W. rewrite Forall_forall in W. apply W, white_iff in I. congruence. }
  assert (NM : ~ In "["%char (bs "msgstr") /\ ~ In "]"%char (bs "msgstr")).
  { split; intro I; cbn in I; repeat (destruct I as [I|I]; [discriminate|]); exact I. }
  rewrite app_assoc. rewrite index_app by (apply NA; [reflexivity|apply NM]).
  replace ((bs "msgstr" ++ w) ++ "["%char :: d ++ "]"%char :: x) with (((bs "msgstr" ++ w) ++ "["%char :: d) ++ "]"%char :: x) by (rewrite <- app_assoc; reflexivity).
  rewrite index_app.
  2: { intro I. apply in_app_or in I as [I|[I|I]]; [revert I; apply NA; [reflexivity|apply NM]|discriminate|].
       rewrite Forall_forall in D. apply D in I. discriminate. }
  set (a := bs "msgstr" ++ w) in *. rewrite app_length. cbn [length].
  destruct (Nat.ltb_spec (length a + S (length d)) (S (length a))) as [H|_]; [lia|].
  assert (SL : slice (S (length a)) (length a + S (length d)) ((a ++ "["%char :: d) ++ "]"%char :: x) = d).
  { unfold slice. rewrite <- app_assoc. cbn [app]. replace (a ++ "["%char :: d ++ "]"%char :: x) with ((a ++ ["["%char]) ++ d ++ "]"%char :: x) by (rewrite <- app_assoc; reflexivity).
    replace (S (length a)) with (length (a ++ ["["%char])) by (rewrite app_length; cbn; lia).
    rewrite skipn_app, skipn_all, Nat.sub_diag. cbn [app skipn].
    replace (length a + S (length d) - length (a ++ ["["%char]))%nat with (length d) by (rewrite app_length; cbn; lia).
    rewrite firstn_app, Nat.sub_diag, firstn_all. cbn [firstn]. apply app_nil_r. }
  rewrite SL. assert (FD : forallb is_digit d = true) by (apply forallb_forall; now rewrite Forall_forall in D).
  change 9223372036854775807 with maxInt64. split.
  - intros [i E]. destruct (Z_le_gt_dec (dec_val d) maxInt64) as [L|G]; [exact L|]. exfalso.
    rewrite parse_big in E; [discriminate| |lia]. split; [exact N|]. now apply all_digits_b.
  - intro L. rewrite parse_int_digits by assumption. eauto.
Qed.

Lemma scan_message_good : forall last t, good (scan_message last t, t) ->
  place_of (scan_message last t) = InString /\ (keyword_line t \/ (string_line t /\ place_of last = InString)).
Proof.
  intros last t G. unfold scan_message in *. change re_id with (rseq [rlit (bs "msgid"); rplus rspace; rquoted]) in *.
  change re_pl with (rseq [rlit (bs "msgid_plural"); rplus rspace; rquoted]) in *.
  change re_ctx with (rseq [rlit (bs "msgctxt"); rplus rspace; rquoted]) in *.
  change (bs "msgid ") with (bs "msgid" ++ bs " ") in *. change (bs "msgid_plural ") with (bs "msgid_plural" ++ bs " ") in *.
  change (bs "msgctxt ") with (bs "msgctxt" ++ bs " ") in *.
  destruct (has_prefix t (bs "msgid" ++ bs " ") && _) eqn:A.
  { apply kw_match in A as (x & -> & X). split; [reflexivity|]. left. now apply kw_id. }
  destruct (has_prefix t (bs "msgstr")).
  { destruct (beq t (bs "msgstr """"")) eqn:B; cbn [orb] in *.
    - apply beq_eq in B. subst. split; [reflexivity|]. left. apply (kw_text (bs " """"")). exists [SP], [], []. split; [reflexivity|].
      split; [constructor; [now left|constructor]|]. split; [constructor|intros []].
    - destruct (rmatch re_str t) eqn:R.
      + apply str_match in R as (x & -> & X). split; [reflexivity|]. left. now apply kw_text.
      + destruct (rmatch re_strp t) eqn:R2; [|exfalso; revert G; (apply bad_fail || apply bad_unknown)].
        apply strp_match in R2 as (w & d & x & F). split; [reflexivity|]. left. destruct G as (_ & _ & G). cbn [fst snd] in G.
        apply (form_index t w d x F) in G; [|reflexivity]. destruct F as (-> & W & D & X). now apply kw_form. }
  destruct (has_prefix t (bs "msgid_plural" ++ bs " ") && _) eqn:B.
  { apply kw_match in B as (x & -> & X). split; [reflexivity|]. left. now apply kw_plural. }
  destruct (has_prefix t (bs "msgctxt" ++ bs " ") && _) eqn:C.
  { apply kw_match in C as (x & -> & X). split; [reflexivity|]. left. now apply kw_context. }
  destruct (has_prefix t [QUOTE] && has_suffix t [QUOTE] && rmatch re_line t) eqn:D; [|exfalso; revert G; (apply bad_fail || apply bad_unknown)].
  apply line_match in D. destruct last; try (exfalso; revert G; (apply bad_fail || apply bad_unknown)); (split; [reflexivity|]); right; split; (exact D || reflexivity).
Qed.
Lemma keyword_scans : forall last t, keyword_line t -> good (scan_message last t, t) /\ place_of (scan_message last t) = InString.
Proof.
  intros last t K. unfold scan_message. change re_id with (rseq [rlit (bs "msgid"); rplus rspace; rquoted]).
  change re_pl with (rseq [rlit (bs "msgid_plural"); rplus rspace; rquoted]).
  change re_ctx with (rseq [rlit (bs "msgctxt"); rplus rspace; rquoted]).
  change (bs "msgid ") with (bs "msgid" ++ bs " "). change (bs "msgid_plural ") with (bs "msgid_plural" ++ bs " ").
  change (bs "msgctxt ") with (bs "msgctxt" ++ bs " ").
  assert (G : forall k, k <> TFail -> k <> TPrevUnknown -> k <> TStrP -> good (k, t)) by (intros k A B C; repeat split; try assumption; intro; contradiction).
  destruct K as [x X|x X|x X|x X|w d x W D L X].
  - rewrite (proj2 (kw_match (bs "msgid") _)) by (exists x; auto). split; [apply G; discriminate|reflexivity].
  - replace (has_prefix _ (bs "msgid" ++ bs " ")) with false by reflexivity. cbn [andb].
    replace (has_prefix _ (bs "msgstr")) with false by reflexivity.
    rewrite (proj2 (kw_match (bs "msgid_plural") _)) by (exists x; auto). split; [apply G; discriminate|reflexivity].
  - replace (has_prefix _ (bs "msgid" ++ bs " ")) with false by reflexivity. cbn [andb].
    replace (has_prefix _ (bs "msgstr")) with false by reflexivity.
    replace (has_prefix _ (bs "msgid_plural" ++ bs " ")) with false by reflexivity. cbn [andb].
    rewrite (proj2 (kw_match (bs "msgctxt") _)) by (exists x; auto). split; [apply G; discriminate|reflexivity].
  - replace (has_prefix _ (bs "msgid" ++ bs " ")) with false by reflexivity. cbn [andb].
    replace (has_prefix _ (bs "msgstr")) with true by reflexivity.
    rewrite (proj2 (str_match _)) by (exists x; auto). rewrite orb_true_r. split; [apply G; discriminate|reflexivity].
  - replace (has_prefix _ (bs "msgid" ++ bs " ")) with false by reflexivity. cbn [andb].
    replace (has_prefix _ (bs "msgstr")) with true by reflexivity.
    assert (F : form_line (bs "msgstr" ++ w ++ "["%char :: d ++ "]"%char :: x) w d x) by (repeat split; try apply D; assumption).
    destruct (beq _ _ || rmatch re_str _); [split; [apply G; discriminate|reflexivity]|].
    rewrite (proj2 (strp_match _)) by eauto. split; [|reflexivity]. repeat split; try discriminate. intros _. cbn [snd].
    now apply (form_index _ w d x F).
Qed.
Lemma string_scans : forall last t, string_line t -> place_of last = InString ->
  good (scan_message last t, t) /\ place_of (scan_message last t) = InString.
Proof.
  intros last t S P. pose proof (proj2 (line_match t) S) as M. destruct S as (b & -> & B). unfold scan_message.
  replace (has_prefix _ (bs "msgid ")) with false by reflexivity. replace (has_prefix _ (bs "msgstr")) with false by reflexivity.
  replace (has_prefix _ (bs "msgid_plural ")) with false by reflexivity. replace (has_prefix _ (bs "msgctxt ")) with false by reflexivity.
  cbn [andb] in *. rewrite M. destruct last; try discriminate P; (split; [|reflexivity]); repeat split; discriminate.
Qed.
Lemma comment_scan : forall ign last y, let t := "#"%char :: y in
  match scan_comment ign last t with
  | None => passed_over ign t
  | Some k => good (k, t) ->
      (plain_comment ign t /\ place_of k = Elsewhere) \/
      (ign = false /\ previous_line t /\ place_of k = InPrevious) \/
      (ign = false /\ previous_more t /\ place_of last = InPrevious /\ place_of k = InPrevious)
  end.
Proof.
  intros ign last [|c r] t; subst t; cbn [scan_comment].
  { destruct ign; [right; split; [reflexivity|now left]|]. intros _. left. split; [|reflexivity]. split; [|now left].
    intros [I|[I _]]; [|discriminate]. cbn in I. repeat (destruct I as [I|I]; [discriminate|]). exact I. }
  destruct (is_nil r && _) eqn:A.
  { apply andb_true_iff in A as [R A]. destruct r; [|discriminate]. left. rewrite !orb_true_iff, !Ascii.eqb_eq in A.
    cbn [In]. destruct A as [[[->| ->]| ->]| ->]; auto. }
  assert (NP : ign && negb (Ascii.eqb c ",") = false -> ~ passed_over ign ("#"%char :: c :: r)).
  { intros B [I|(-> & [I|(c' & y & E & N)])]; [|discriminate|].
    - cbn [In] in I. apply andb_false_iff in A as [A|A]; (repeat destruct I as [I|I]); try exact I; injection I as <- <-; discriminate.
    - injection E as <- <-. cbn [andb] in B. apply negb_false_iff, Ascii.eqb_eq in B. congruence. }
  destruct (ign && negb (Ascii.eqb c ",")) eqn:B.
  { apply andb_true_iff in B as [-> B]. right. split; [reflexivity|]. right. exists c, r. split; [reflexivity|].
    apply negb_true_iff, Ascii.eqb_neq in B. exact B. }
  specialize (NP eq_refl).
  assert (PC : c <> "|"%char -> plain_comment ign ("#"%char :: c :: r)) by (intro N; split; [exact NP|right; eauto]).
  destruct (Ascii.eqb_spec c ".") as [->|_]; [intros _; left; split; [apply PC; discriminate|reflexivity]|].
  destruct (Ascii.eqb_spec c ":") as [->|_]; [intros _; left; split; [apply PC; discriminate|reflexivity]|].
  destruct (Ascii.eqb_spec c ",") as [->|N1]; [intros _; left; split; [apply PC; discriminate|reflexivity]|].
  assert (ign = false) as -> by (destruct ign; [discriminate B|reflexivity]).
  destruct (Ascii.eqb_spec c "|") as [->|N2]; [|intros _; left; split; [now apply PC|reflexivity]].
  destruct (rmatch re_prev_ctx _) eqn:M1.
  { intros _. right. left. apply (prev_match (bs "msgctxt")) in M1 as (w & y & N & W & E). split; [reflexivity|]. split; [|reflexivity]. exists w, y. auto. }
  destruct (rmatch re_prev_id _) eqn:M2.
  { intros _. right. left. apply (prev_match (bs "msgid")) in M2 as (w & y & N & W & E). split; [reflexivity|]. split; [|reflexivity]. exists w, y. auto. }
  destruct (rmatch re_prev_line _) eqn:M3; [|intros G; exfalso; revert G; (apply bad_fail || apply bad_unknown)].
  apply more_match in M3.
  destruct last; intro G; try (exfalso; revert G; (apply bad_fail || apply bad_unknown)); right; right; repeat split; exact M3.
Qed.
Lemma passed_scans : forall ign last t, passed_over ign t -> scan_line ign last t = None /\ t <> [].
Proof.
  intros ign last t [I|(-> & [->|(c & y & -> & N)])].
  - cbn [In] in I. repeat destruct I as [I|I]; try destruct I; try subst t; (split; [reflexivity|discriminate]).
  - split; [reflexivity|discriminate].
  - split; [|discriminate]. cbn [scan_line scan_comment Ascii.eqb]. replace (Ascii.eqb "#" "#") with true by reflexivity.
    destruct (is_nil y && _); [reflexivity|]. apply Ascii.eqb_neq in N. rewrite N. reflexivity.
Qed.
Lemma good_plain : forall k t, k <> TFail -> k <> TPrevUnknown -> k <> TStrP -> good (k, t).
Proof. intros k t A B C. repeat split; try assumption. intro; contradiction. Qed.
Lemma plain_scans : forall ign last t, plain_comment ign t -> t <> [] /\
  exists k, scan_line ign last t = Some k /\ good (k, t) /\ place_of k = Elsewhere.
Proof.
  intros ign last t [NP S]. split; [destruct S as [->|(c & y & -> & _)]; discriminate|].
  assert (S' : exists y, t = "#"%char :: y /\ (y = [] \/ exists c r, y = c :: r /\ c <> "|"%char)).
  { destruct S as [->|(c & y & -> & N)]; [exists []; auto|]. exists (c :: y). split; [reflexivity|]. right. eauto. }
  destruct S' as (y & -> & S'). pose proof (comment_scan ign last y) as X. cbv zeta in X.
  change (scan_line ign last ("#"%char :: y)) with (scan_comment ign last ("#"%char :: y)).
  destruct (scan_comment ign last ("#"%char :: y)) as [k|] eqn:E; [|contradiction]. exists k. split; [reflexivity|].
  destruct S' as [->|(c & r & -> & N)]; cbn [scan_comment] in E.
  { destruct ign; [discriminate|]. injection E as <-. split; [apply good_plain; discriminate|reflexivity]. }
  destruct (is_nil r && _); [discriminate|]. destruct (ign && negb (Ascii.eqb c ",")); [discriminate|].
  apply Ascii.eqb_neq in N. rewrite N in E.
  destruct (Ascii.eqb c "."); [injection E as <-; split; [apply good_plain; discriminate|reflexivity]|].
  destruct (Ascii.eqb c ":"); [injection E as <-; split; [apply good_plain; discriminate|reflexivity]|].
  destruct (Ascii.eqb c ","); injection E as <-; (split; [apply good_plain; discriminate|reflexivity]).
Qed.
Lemma previous_scans : forall last t, previous_line t \/ (previous_more t /\ place_of last = InPrevious) -> t <> [] /\
  exists k, scan_line false last t = Some k /\ good (k, t) /\ place_of k = InPrevious.
Proof.
  intros last t H.
  assert (S : exists r, t = "#"%char :: "|"%char :: r /\ r <> []).
  { destruct H as [(w & y & N & _ & [->| ->])|[(w & x & N & _ & _ & ->) _]]; eexists; (split; [reflexivity|]); destruct w; (contradiction || discriminate). }
  destruct S as (r & -> & N). split; [discriminate|].
  change (scan_line false last ("#"%char :: "|"%char :: r)) with (scan_comment false last ("#"%char :: "|"%char :: r)).
  unfold scan_comment. destruct r as [|c r]; [contradiction|]. cbn [is_nil andb negb].
  replace (Ascii.eqb "|" ".") with false by reflexivity. replace (Ascii.eqb "|" ":") with false by reflexivity.
  replace (Ascii.eqb "|" ",") with false by reflexivity. replace (Ascii.eqb "|" "|") with true by reflexivity.
  destruct (rmatch re_prev_ctx _) eqn:M1; [eexists; split; [reflexivity|]; split; [apply good_plain; discriminate|reflexivity]|].
  destruct (rmatch re_prev_id _) eqn:M2; [eexists; split; [reflexivity|]; split; [apply good_plain; discriminate|reflexivity]|].
  destruct H as [(w & y & Nw & W & [E|E])|[(w & x & Nw & W & X & E) P]].
  - assert (rmatch re_prev_ctx ("#"%char :: "|"%char :: c :: r) = true) by (apply (prev_match (bs "msgctxt")); eauto). congruence.
  - assert (rmatch re_prev_id ("#"%char :: "|"%char :: c :: r) = true) by (apply (prev_match (bs "msgid")); eauto). congruence.
  - rewrite (proj2 (more_match _)) by (exists w, x; auto).
    destruct last; try discriminate P; (eexists; split; [reflexivity|]; split; [apply good_plain; discriminate|reflexivity]).
Qed.
Lemma keyword_head : forall t, keyword_line t -> exists y, t = "m"%char :: y.
Proof. intros t [x X|x X|x X|x X|w d x W D L X]; eexists; reflexivity. Qed.

Lemma scan_understood : forall ign ls last blank, (blank = true -> last = TWs) ->
  (Forall good (scan_all ign last blank ls) <-> understood ign (place_of last) ls).
Proof.
  intros ign. induction ls as [|l ls IH]; intros last blank BL; [split; intros _; constructor|].
  cbn [scan_all]. cbv zeta. remember (trim_space l) as t eqn:T. destruct (is_nil t) eqn:N.
  - assert (T0 : trim_space l = []) by (rewrite <- T; destruct t; [reflexivity|discriminate]).
    assert (U : understood ign (place_of last) (l :: ls) <-> understood ign Elsewhere ls).
    { split; [|now constructor]. intro U. inversion U as [|p l0 ls0 _ H|p l0 ls0 H _|p l0 ls0 H _|p l0 ls0 _ H _|l0 ls0 _ H _|p l0 ls0 H _|l0 ls0 H _]; subst; [exact H|exfalso..]; rewrite T0 in H.
      - now apply (passed_scans ign TWs) in H.
      - now apply (plain_scans ign TWs) in H.
      - now apply (fun x => previous_scans TWs _ (or_introl x)) in H.
      - destruct H as (w & x & _ & _ & _ & H). discriminate.
      - apply keyword_head in H as [y H]. discriminate.
      - destruct H as (b & H & _). discriminate. }
    rewrite U. destruct blank.
    + rewrite (BL eq_refl). now apply (IH TWs true).
    + rewrite <- (IH TWs true (fun _ => eq_refl)). split; [intro F; now apply Forall_inv_tail in F|].
      intro F. constructor; [apply good_plain; discriminate|exact F].
  - split.
    + destruct t as [|c y]; [discriminate|]. cbn [scan_line]. destruct (Ascii.eqb_spec c "#") as [->|NC].
      * pose proof (comment_scan ign last y) as X. cbv zeta in X. destruct (scan_comment ign last _) as [k|]; intro F.
        -- specialize (X (Forall_inv F)). apply Forall_inv_tail, (IH k false) in F; [|discriminate]. rewrite T in X.
           destruct X as [[A P]|[(-> & A & P)|(-> & A & Q & P)]]; rewrite P in F.
           ++ now apply un_comment.
           ++ now apply un_previous.
           ++ rewrite Q. now apply un_more.
        -- rewrite T in X. apply un_passed; [exact X|]. apply (IH last false) in F; [exact F|discriminate].
      * intro F. pose proof (scan_message_good last _ (Forall_inv F)) as [P X]. apply Forall_inv_tail, (IH _ false) in F; [|discriminate].
        rewrite P in F. rewrite T in X. destruct X as [X|[X Q]]; [now apply un_keyword|]. rewrite Q. now apply un_string.
    + assert (K : forall k q, scan_line ign last t = Some k -> good (k, t) -> place_of k = q -> understood ign q ls ->
        Forall good (match scan_line ign last t with None => scan_all ign last false ls | Some k => (k, t) :: scan_all ign k false ls end)).
      { intros k q -> G <- U. constructor; [exact G|]. apply IH; [discriminate|exact U]. }
      assert (M : forall p, place_of last = p -> understood ign p (l :: ls) ->
        Forall good (match scan_line ign last t with None => scan_all ign last false ls | Some k => (k, t) :: scan_all ign k false ls end)).
      { intros p P U. inversion U as [|p' l0 ls0 H U'|p' l0 ls0 H U'|p' l0 ls0 H U'|p' l0 ls0 I H U'|l0 ls0 I H U'|p' l0 ls0 H U'|l0 ls0 H U']; subst l0 ls0; rewrite <- T in H.
        - subst t. rewrite H in N. discriminate.
        - subst p'. destruct (passed_scans ign last t H) as [-> _]. apply IH; [discriminate|]. now rewrite P.
        - apply (plain_scans ign last) in H as (_ & k & S & G & Q). eapply K; eauto.
        - apply (fun x => previous_scans last _ (or_introl x)) in H as (_ & k & S & G & Q). subst ign. eapply K; eauto.
        - subst p ign. destruct (previous_scans last t) as (_ & k & S & G & Q); [right; split; [exact H|congruence]|]. eapply K; eauto.
        - destruct (keyword_head _ H) as [y Y]. destruct (keyword_scans last t H) as [G Q].
          eapply (K (scan_message last t)); eauto. now rewrite Y.
        - subst p. destruct (string_scans last t H) as [G Q]; [congruence|].
          eapply (K (scan_message last t)); eauto. destruct H as (b & -> & _). reflexivity. }
      intro U. exact (M _ eq_refl U).
Qed.

(** ** The parser *)
Lemma comment_good : forall k t, is_comment k = true -> good (k, t).
Proof. intros k t H. destruct k; try discriminate H; apply good_plain; discriminate. Qed.
Lemma message_step_good : forall fuel m k l m', message_step fuel m k l = Ok m' -> good (k, l).
Proof.
  intros fuel m k l m' E. destruct k; cbn [message_step] in E; try discriminate E; try (apply good_plain; discriminate).
  repeat split; try discriminate. intros _. cbn [snd]. destruct (plural_index l) as [i| | |]; try discriminate E. eauto.
Qed.
Lemma parse_comment_good : forall fuel ts c r, parse_comment fuel c ts = Ok r ->
  match r with None => Forall good ts | Some (_, ts') => Forall good ts' -> Forall good ts end.
Proof.
  intro fuel. induction ts as [|[k l] ts IH]; intros c r E.
  - injection E as <-. constructor.
  - cbn [parse_comment] in E. destruct (is_comment k) eqn:K.
    + assert (G := comment_good k l K).
      destruct (comment_step fuel c k l) as [c'| | |]; [|destruct k; discriminate..].
      assert (E' : parse_comment fuel c' ts = Ok r) by (destruct k; try discriminate; exact E).
      apply IH in E'. destruct r as [[c2 ts']|]; [intro F; constructor; auto|constructor; assumption].
    + assert (E' : r = Some (c, (k, l) :: ts)) by (destruct k; try discriminate; injection E as <-; reflexivity). subst r. auto.
Qed.
Lemma parse_body_good : forall fuel ts m m' ts' e, parse_body fuel m ts = Ok (m', ts', e) -> (Forall good ts' -> Forall good ts) /\ (e = true -> ts' = []).
Proof.
  intro fuel. induction ts as [|[k l] ts IH]; intros m m' ts' e E.
  - injection E as <- <- <-. auto.
  - assert (X : (k = TWs \/ is_comment k = true) /\ Ok (m, ts, false) = Ok (m', ts', e) \/
      (exists m1, message_step fuel m k l = Ok m1 /\ parse_body fuel m1 ts = Ok (m', ts', e))).
    { cbn [parse_body] in E. destruct (is_comment k) eqn:K; [left; split; [now right|destruct k; try discriminate; exact E]|].
      assert (S : k = TWs \/ (do m1 <- message_step fuel m k l; parse_body fuel m1 ts) = Ok (m', ts', e)) by (destruct k; auto).
      destruct S as [->|S]; [left; split; [now left|exact E]|right].
      destruct (message_step fuel m k l) as [m1| | |]; try discriminate S. eauto. }
    destruct X as [[K X]|(m1 & S & X)].
    + injection X as <- <- <-. split; [|discriminate]. intro F. constructor; [|exact F].
      destruct K as [->|K]; [apply good_plain; discriminate|now apply comment_good].
    + apply IH in X as [X1 X2]. split; [|exact X2]. intro F. constructor; [eapply message_step_good; exact S|auto].
Qed.
Lemma parse_message_good : forall fuel ts r, parse_message fuel ts = Ok r ->
  match r with None => Forall good ts | Some (_, ts', e) => (Forall good ts' -> Forall good ts) /\ (e = true -> ts' = []) end.
Proof.
  intros fuel ts r E. destruct ts as [|[k l] ts]; [injection E as <-; constructor|]. unfold parse_message in E. destruct (is_comment k).
  - destruct (parse_comment fuel new_comment ((k, l) :: ts)) as [x| | |] eqn:C; try discriminate E. cbn [rbind] in E.
    apply parse_comment_good in C. destruct x as [[c ts1]|]; [|injection E as <-; exact C].
    destruct (parse_body fuel (set_com new_message c) ts1) as [[[m ts2] e]| | |] eqn:B; try discriminate E. injection E as <-.
    apply parse_body_good in B as [B1 B2]. auto.
  - destruct (parse_body fuel new_message ((k, l) :: ts)) as [[[m ts2] e]| | |] eqn:B; try discriminate E. injection E as <-.
    now apply parse_body_good in B.
Qed.
Lemma parse_file_good : forall fuel n h ms ts f, parse_file fuel n h ms ts = Ok f -> Forall good ts.
Proof.
  intro fuel. induction n as [|n IH]; intros h ms ts f E; [discriminate|]. cbn [parse_file] in E.
  destruct (parse_message fuel ts) as [x| | |] eqn:M; try discriminate E. cbn [rbind] in E. apply parse_message_good in M.
  destruct x as [[[m ts'] e]|]; [|exact M]. destruct M as [M1 M2]. apply M1.
  destruct (is_nil (m_id m)).
  - destruct (is_nil (m_str m)); [eapply IH; exact E|]. destruct h; [discriminate|]. eapply IH; exact E.
  - destruct (existsb (same_key m) ms); [discriminate|]. destruct e; [rewrite M2 by reflexivity; constructor|]. eapply IH; exact E.
Qed.
Lemma parse_po_understood : forall fuel ign s f, parse_po_fuel fuel ign s = Ok f -> understood ign Elsewhere (file_lines s).
Proof.
  intros fuel ign s f E. unfold parse_po_fuel in E. cbv zeta in E.
  apply (scan_understood ign (file_lines s) TEof false); [discriminate|].
  destruct (scan_all ign TEof false (file_lines s)) as [|t ts]; [constructor|]. eapply parse_file_good. exact E.
Qed.

(** ** The lines *)
Lemma without_cr_drop : forall l l', without_cr l l' <-> l' = drop_cr l.
Proof.
  intros l l'. unfold without_cr, drop_cr. destruct (rev l) as [|c r] eqn:R.
  - assert (l = []) as -> by (rewrite <- (rev_involutive l), R; reflexivity). split.
    + intros [E|[-> _]]; [symmetry in E; apply app_eq_nil in E as [_ E]; discriminate|reflexivity].
    + intros ->. right. split; [reflexivity|]. intros [x E]. symmetry in E. apply app_eq_nil in E as [_ E]. discriminate.
  - assert (E : l = rev r ++ [c]) by (rewrite <- (rev_involutive l), R; reflexivity). subst l. destruct (Ascii.eqb_spec c CR) as [->|N].
    + split; [intros [X|[_ X]]|intros ->; now left].
      * apply app_inj_tail in X as [X _]. congruence.
      * exfalso. apply X. eauto.
    + split; [intros [X|[-> _]]|intros ->; right].
      * apply app_inj_tail in X as [_ X]. congruence.
      * reflexivity.
      * split; [reflexivity|]. intros [x X]. apply app_inj_tail in X as [_ X]. congruence.
Qed.
Lemma lines_read_cut : forall ls rs, lines_read ls rs <-> rs = cut_long ls.
Proof.
  induction ls as [|l ls IH]; intro rs.
  - split; [intro H; now inversion H|intros ->; constructor].
  - cbn [cut_long]. unfold too_long. destruct (Z.leb_spec 65536 (Z.of_nat (length l))) as [L|L].
    + split; [intro H; inversion H; subst; [reflexivity|lia]|intros ->; now constructor].
    + split.
      * intro H. inversion H; subst; [lia|]. f_equal; [now apply without_cr_drop|now apply IH].
      * intros ->. constructor; [exact L|now apply without_cr_drop|now apply IH].
Qed.
Lemma with_ends_concat : forall ls, with_ends ls = concat (map (fun l => l ++ [LF]) ls).
Proof. induction ls as [|l ls IH]; [reflexivity|]. cbn [with_ends map concat]. rewrite <- app_assoc. cbn [app]. now rewrite IH. Qed.
Lemma lines_of_split : forall s ls, lines_of s ls -> (match last (split_on LF s) [] with [] => removelast (split_on LF s) | _ => split_on LF s end) = ls.
Proof.
  intros s ls [F [->|(ls' & l & -> & N & ->)]]; rewrite with_ends_concat.
  - rewrite <- (app_nil_r (concat _)). rewrite PoParseProofs.split_lines by (auto || intros []). now rewrite last_last, removelast_last.
  - apply Forall_app in F as [F F']. apply Forall_inv in F'. rewrite PoParseProofs.split_lines by assumption.
    rewrite last_last. destruct l as [|c l]; [congruence|]. reflexivity.
Qed.
Lemma first_lf : forall s : bytes, In LF s -> exists a b, s = a ++ LF :: b /\ ~ In LF a.
Proof.
  induction s as [|c s IH]; intro I; [destruct I|]. destruct (ascii_dec c LF) as [->|N]; [exists [], s; auto|].
  destruct I as [I|I]; [contradiction|]. destruct (IH I) as (a & b & -> & NA). exists (c :: a), b. split; [reflexivity|].
  intros [E|E]; contradiction.
Qed.
Lemma split_parts : forall s, exists ls l, split_on LF s = ls ++ [l] /\ s = with_ends ls ++ l /\ Forall (fun x => ~ In LF x) (ls ++ [l]).
Proof.
  assert (X : forall n s, (length s <= n)%nat -> exists ls l, split_on LF s = ls ++ [l] /\ s = with_ends ls ++ l /\ Forall (fun x => ~ In LF x) (ls ++ [l])).
  { induction n as [|n IH]; intros s L.
    - destruct s; [|cbn [length] in L; lia]. exists [], []. split; [reflexivity|]. split; [reflexivity|]. constructor; [intros []|constructor].
    - destruct (in_dec ascii_dec LF s) as [I|I].
      + destruct (first_lf s I) as (a & b & -> & N).
        rewrite app_length in L. cbn [length] in L. destruct (IH b) as (ls & l & E & S & F); [lia|].
        exists (a :: ls), l. rewrite PoItemProofs.split_sep by exact N. rewrite E. split; [reflexivity|]. split; [|constructor; assumption].
        cbn [with_ends]. rewrite <- app_assoc. cbn [app]. now rewrite <- S.
      + exists [], s. rewrite PoItemProofs.split_one by exact I. split; [reflexivity|]. split; [reflexivity|]. constructor; [exact I|constructor]. }
  intro s. now apply (X (length s)).
Qed.
Lemma lines_exist : forall s, exists ls, lines_of s ls.
Proof.
  intro s. destruct (split_parts s) as (ls & l & _ & E & F). destruct l as [|c l].
  - exists ls. apply Forall_app in F as [F _]. split; [exact F|]. left. now rewrite app_nil_r in E.
  - exists (ls ++ [c :: l]). split; [exact F|]. right. exists ls, (c :: l). split; [reflexivity|]. split; [discriminate|exact E].
Qed.
Lemma reads_file_lines : forall s rs, reads_lines s rs <-> rs = file_lines s.
Proof.
  intros s rs. unfold file_lines. cbv zeta. split.
  - intros (ls & L & R). apply lines_of_split in L. rewrite L. now apply lines_read_cut.
  - intros ->. destruct (lines_exist s) as [ls L]. exists ls. split; [exact L|]. apply lines_of_split in L. rewrite L. now apply lines_read_cut.
Qed.

(** ** One entry *)
Definition no_err {A} (r : res A) : Prop := r <> Err.
Lemma unescape_loop_no_err : forall f s, no_err (unescape_loop f s).
Proof.
  unfold no_err. induction f as [|f IH]; intros s; [discriminate|]. cbn [unescape_loop]. destruct s as [|c s1]; [discriminate|].
  assert (B : forall (t : bytes) (g : bytes -> bytes), (do x <- unescape_loop f t; Ok (g x)) <> Err).
  { intros t g. specialize (IH t). destruct (unescape_loop f t); cbn [rbind]; (discriminate || congruence). }
  destruct (Ascii.eqb c BSLASH).
  - destruct s1 as [|e s2]; [apply IH|]. destruct (unescape_char e); apply B.
  - destruct (bval c <? 128); [apply B|]. destruct (decode_rune (c :: s1)) as [r w]. apply B.
Qed.
Lemma dec_no_err : forall fuel l, dec fuel l <> Err.
Proof.
  intros fuel l. unfold dec, decode_po_fuel. destruct (beq l [QUOTE; QUOTE]); [discriminate|].
  assert (X : forall ls, decode_lines fuel ls <> Err).
  { induction ls as [|x ls IH]; [discriminate|]. cbn [decode_lines]. destruct (decode_line_outcome x fuel) as [[v ->]| ->]; [|discriminate].
    cbn [rbind]. destruct (decode_lines fuel ls); cbn [rbind]; (discriminate || congruence). }
  specialize (X (split_on LF l)). destruct (decode_lines fuel (split_on LF l)); cbn [rbind]; (discriminate || congruence).
Qed.
Lemma outc_ok : forall A (r : res A), outc False r -> r <> Err -> exists x, r = Ok x.
Proof. intros A [x| | |] H N; [eauto|congruence|destruct H|destruct H]. Qed.
Lemma comment_step_ok : forall fuel c k l, tok_ok False fuel (k, l) -> is_comment k = true -> exists c', comment_step fuel c k l = Ok c'.
Proof.
  intros fuel c k l T K. apply outc_ok; [now apply comment_step_outc|]. destruct T as [[L _] _]. cbn [fst snd] in L.
  assert (D : forall q (g : bytes -> comment), (do v <- dec fuel q; Ok (g v)) <> Err).
  { intros q g. pose proof (dec_no_err fuel q). destruct (dec fuel q); cbn [rbind]; (discriminate || congruence). }
  destruct k; try discriminate K; cbn [least] in L; unfold comment_step; destruct (from_outc False _ l L) as [-> _]; cbn [rbind]; try discriminate; try apply D.
  - destruct (trim_space (skipn 10 l)); [discriminate|apply D].
  - destruct (trim_space (skipn 8 l)); [discriminate|apply D].
Qed.
Lemma parse_comment_ok : forall fuel ct c ts, Forall (tok_ok False fuel) ct -> Forall (fun t => is_comment (fst t) = true) ct ->
  (match ts with t :: _ => is_comment (fst t) = false /\ fst t <> TFail | [] => False end) ->
  exists c', parse_comment fuel c (ct ++ ts) = Ok (Some (c', ts)).
Proof.
  intros fuel. induction ct as [|[k l] ct IH]; intros c ts T K H.
  - cbn [app]. destruct ts as [|[k l] ts]; [destruct H|]. cbn [fst] in H. destruct H as [H N]. exists c. cbn [parse_comment]. rewrite H.
    destruct k; (reflexivity || congruence).
  - cbn [app parse_comment]. pose proof (Forall_inv K) as K1. cbn [fst] in K1. rewrite K1.
    destruct (comment_step_ok fuel c k l (Forall_inv T) K1) as [c' E].
    destruct (IH c' ts (Forall_inv_tail T) (Forall_inv_tail K) H) as [c2 E2]. exists c2.
    rewrite E. cbn [rbind]. destruct k; (discriminate K1 || exact E2).
Qed.

(** a further line of a form follows a line of a form *)
Definition is_form (k : ptok) : Prop := k = TStrP \/ k = TStrPL.
Fixpoint linked (prev : ptok) (ts : list (ptok * bytes)) : Prop :=
  match ts with [] => True | (k, _) :: ts' => (k = TStrPL -> is_form prev) /\ linked k ts' end.
Lemma scan_linked : forall ign ls last blank, linked last (scan_all ign last blank ls).
Proof.
  intro ign. induction ls as [|l ls IH]; intros last blank; [exact I|]. cbn [scan_all]. cbv zeta.
  destruct (is_nil (trim_space l)).
  - destruct blank; [apply IH|]. split; [discriminate|apply IH].
  - destruct (scan_line ign last (trim_space l)) as [k|] eqn:S; [|apply IH]. split; [|apply IH]. intros ->.
    unfold scan_line in S. destruct (trim_space l) as [|c t]; [discriminate|]. destruct (Ascii.eqb c "#").
    + exfalso. clear - S. unfold scan_comment in S. destruct t as [|d t]; [destruct ign; discriminate|].
      repeat match type of S with (if ?b then _ else _) = _ => destruct b | match last with _ => _ end = _ => destruct last end; discriminate.
    + injection S as S. unfold scan_message in S.
      repeat match type of S with (if ?b then _ else _) = _ => destruct b | match last with _ => _ end = _ => destruct last end; try discriminate S; [now left|now right].
Qed.
Lemma str_set_ne : forall m i v, str_set m i v <> [].
Proof. intros [|[j w] m] i v; cbn [str_set]; [discriminate|]. destruct (_ =? _); try discriminate; destruct (_ <? _); discriminate. Qed.
(** the text of a msgid line *)
Definition id_filled (fuel : nat) (t : ptok * bytes) : Prop := fst t = TId -> dec fuel (skipn 6 (snd t)) <> Ok [].
Lemma message_step_ok : forall fuel m k l, tok_ok False fuel (k, l) -> good (k, l) -> is_comment k = false -> k <> TWs -> k <> TEof ->
  k <> TPrevCtxL -> k <> TPrevIdL ->
  (k = TStrPL -> m_str m <> []) -> id_filled fuel (k, l) ->
  exists m', message_step fuel m k l = Ok m' /\ (is_form k -> m_str m' <> []) /\ (m_id m <> [] \/ k = TId -> m_id m' <> []).
Proof.
  intros fuel m k l T (G1 & G2 & G3) K NW NE NC NI SM IF. cbn [fst snd] in *.
  assert (O : exists m', message_step fuel m k l = Ok m').
  { apply outc_ok; [now apply message_step_outc|]. destruct T as [[L _] _]. cbn [fst snd] in L.
    assert (D : forall q (g : bytes -> message), (do v <- dec fuel q; Ok (g v)) <> Err).
    { intros q g. pose proof (dec_no_err fuel q). destruct (dec fuel q); cbn [rbind]; (discriminate || congruence). }
    destruct k; try discriminate K; try congruence; cbn [least] in L; unfold message_step; cbv zeta; try apply D;
      try (destruct (from_outc False _ l L) as [-> _]; cbn [rbind]; apply D).
    - destruct (G3 eq_refl) as [i ->]. cbn [rbind]. destruct (from_outc False _ l L) as [-> _]; cbn [rbind]. apply D.
    - destruct (Z.ltb_spec (Z.of_nat (length (m_str m)) - 1) 0) as [H|H]; [|apply D].
      exfalso. specialize (SM eq_refl). destruct (m_str m); [congruence|]. cbn [length] in H. lia. }
  destruct O as [m' E]. exists m'. split; [exact E|]. destruct T as [[L _] _]. cbn [fst snd] in L.
  assert (NN : forall a b : bytes, a <> [] -> a ++ b <> []) by (intros a b A X; apply app_eq_nil in X as [X _]; contradiction).
  destruct k; try discriminate K; try congruence; cbn [least] in L; unfold message_step in E; cbv zeta in E;
    try (destruct (from_outc False _ l L) as [X _]; rewrite X in E; clear X; cbn [rbind] in E).
  - destruct (dec fuel (skipn 8 l)) as [v| | |]; try discriminate E. injection E as <-. split; [intros [H|H]; discriminate|]. intros [H|H]; [exact H|discriminate].
  - destruct (dec fuel l) as [v| | |]; try discriminate E. injection E as <-. split; [intros [H|H]; discriminate|]. intros [H|H]; [exact H|discriminate].
  - unfold id_filled in IF. cbn [fst snd] in IF. specialize (IF eq_refl).
    destruct (dec fuel (skipn 6 l)) as [v| | |]; try discriminate E. injection E as <-. split; [intros [H|H]; discriminate|]. intros _. cbn [set_id m_id]. congruence.
  - destruct (dec fuel l) as [v| | |]; try discriminate E. injection E as <-. split; [intros [H|H]; discriminate|]. intros [H|H]; [|discriminate]. cbn [set_id m_id]. now apply NN.
  - destruct (dec fuel (skipn 13 l)) as [v| | |]; try discriminate E. injection E as <-. split; [intros [H|H]; discriminate|]. intros [H|H]; [exact H|discriminate].
  - destruct (dec fuel l) as [v| | |]; try discriminate E. injection E as <-. split; [intros [H|H]; discriminate|]. intros [H|H]; [exact H|discriminate].
  - destruct (dec fuel (skipn 7 l)) as [v| | |]; try discriminate E. injection E as <-. split; [intros [H|H]; discriminate|]. intros [H|H]; [exact H|discriminate].
  - destruct (dec fuel l) as [v| | |]; try discriminate E. injection E as <-. split; [intros [H|H]; discriminate|]. intros [H|H]; [exact H|discriminate].
  - destruct (plural_index l) as [i| | |]; try discriminate E. cbn [rbind] in E.
    try (destruct (from_outc False _ l L) as [X _]; rewrite X in E; clear X); cbn [rbind] in E.
    destruct (dec fuel (skipn 10 l)) as [v| | |]; try discriminate E. injection E as <-. split; [intros _; apply str_set_ne|]. intros [H|H]; [exact H|discriminate].
  - destruct (_ <? 0); [discriminate|]. destruct (dec fuel l) as [v| | |]; try discriminate E. injection E as <-. split; [intros _; apply str_set_ne|]. intros [H|H]; [exact H|discriminate].
Qed.
Definition field_tok (k : ptok) : Prop := is_comment k = false /\ k <> TWs /\ k <> TEof /\ k <> TPrevCtxL /\ k <> TPrevIdL.
Lemma parse_body_ok : forall fuel ts m prev, Forall (tok_ok False fuel) ts -> Forall good ts -> Forall (fun t => field_tok (fst t)) ts ->
  linked prev ts -> (is_form prev -> m_str m <> []) -> Forall (id_filled fuel) ts ->
  exists m', parse_body fuel m ts = Ok (m', [], true) /\ (m_id m <> [] \/ Exists (fun t => fst t = TId) ts -> m_id m' <> []).
Proof.
  intros fuel. induction ts as [|[k l] ts IH]; intros m prev T G K L P F.
  - exists m. split; [reflexivity|]. intros [H|H]; [exact H|inversion H].
  - pose proof (Forall_inv K) as (K1 & K2 & K3 & K4 & K5). cbn [fst] in *. destruct L as [L1 L2].
    destruct (message_step_ok fuel m k l (Forall_inv T) (Forall_inv G) K1 K2 K3 K4 K5) as (m1 & E & S & N); [intro X; apply P, L1, X|exact (Forall_inv F)|].
    destruct (IH m1 k (Forall_inv_tail T) (Forall_inv_tail G) (Forall_inv_tail K) L2 S (Forall_inv_tail F)) as (m2 & E2 & N2).
    exists m2. split.
    + cbn [parse_body]. rewrite K1, E. cbn [rbind]. destruct k; (congruence || exact E2).
    + intro H. apply N2. destruct H as [H|H]; [left; apply N; now left|]. inversion H as [? ? X|? ? X]; subst; cbn [fst] in *; [left; apply N; now right|now right].
Qed.
Lemma scan_comments : forall ign cs last ls, ~ is_form last -> Forall comment_start cs -> Forall good (scan_all ign last false (cs ++ ls)) ->
  exists ct last', scan_all ign last false (cs ++ ls) = ct ++ scan_all ign last' false ls /\ Forall (fun t => is_comment (fst t) = true) ct /\ ~ is_form last'.
Proof.
  intros ign. induction cs as [|l cs IH]; intros last ls NF C G; [exists [], last; split; [reflexivity|]; split; [constructor|exact NF]|].
  destruct (Forall_inv C) as [y E]. cbn [app scan_all] in *. cbv zeta in *. rewrite E in *. cbn [is_nil] in *.
  change (scan_line ign last ("#"%char :: y)) with (scan_comment ign last ("#"%char :: y)) in *.
  destruct (scan_comment ign last ("#"%char :: y)) as [k|] eqn:S; [|apply IH; [exact NF|now apply Forall_inv_tail in C|exact G]].
  assert (K : is_comment k = true).
  2: { destruct (IH k ls) as (ct & last' & E2 & F & NF'); [intros [->| ->]; discriminate K|now apply Forall_inv_tail in C|now apply Forall_inv_tail in G|].
       exists ((k, "#"%char :: y) :: ct), last'. cbn [app]. rewrite E2. split; [reflexivity|]. split; [|exact NF']. constructor; [exact K|exact F]. }
  apply Forall_inv in G. clear - S G.
  unfold scan_comment in S. destruct y as [|d y]; [destruct ign; [discriminate|]; injection S as <-; reflexivity|].
  repeat match type of S with (if ?b then _ else _) = _ => destruct b | match last with _ => _ end = _ => destruct last end; try discriminate S; injection S as <-;
    try reflexivity; exfalso; revert G; (apply bad_fail || apply bad_unknown).
Qed.
Lemma scan_message_kind : forall last t, scan_message last t = TFail \/ field_tok (scan_message last t).
Proof.
  intros last t. unfold scan_message, field_tok. 
  repeat match goal with |- context [if ?b then _ else _] => destruct b | |- context [match last with _ => _ end] => destruct last end;
    try (now left); right; repeat split; discriminate.
Qed.
Lemma scan_fields : forall ign ls last, Forall field_start ls -> Forall good (scan_all ign last false ls) ->
  Forall (fun t => field_tok (fst t)) (scan_all ign last false ls) /\ map snd (scan_all ign last false ls) = map trim_space ls.
Proof.
  intros ign. induction ls as [|l ls IH]; intros last F G; [split; [constructor|reflexivity]|].
  destruct (Forall_inv F) as [N C]. cbn [scan_all map] in *. cbv zeta in *. destruct (trim_space l) as [|c t] eqn:T; [congruence|]. cbn [is_nil] in *.
  assert (S : scan_line ign last (c :: t) = Some (scan_message last (c :: t))).
  { cbn [scan_line]. destruct (Ascii.eqb_spec c "#") as [->|_]; [|reflexivity]. exfalso. apply C. exists t. exact T. }
  rewrite S in *. destruct (IH _ (Forall_inv_tail F) (Forall_inv_tail G)) as [A B]. split.
  - constructor; [|exact A]. cbn [fst]. apply Forall_inv in G. destruct (scan_message_kind last (c :: t)) as [X|X]; [|exact X].
    rewrite X in G. exfalso. now apply bad_fail in G.
  - cbn [map snd]. now rewrite B.
Qed.
Lemma scan_ids : forall ign ls last blank t, In t (scan_all ign last blank ls) -> fst t = TId ->
  exists l x, In l ls /\ snd t = trim_space l /\ trim_space l = bs "msgid " ++ x /\ string_part x.
Proof.
  intros ign. induction ls as [|l ls IH]; intros last blank t I E; [destruct I|]. cbn [scan_all] in I. cbv zeta in I.
  assert (R : forall la b, In t (scan_all ign la b ls) -> exists l0 x, In l0 (l :: ls) /\ snd t = trim_space l0 /\ trim_space l0 = bs "msgid " ++ x /\ string_part x).
  { intros la b J. destruct (IH la b t J E) as (l0 & x & A & B). exists l0, x. split; [now right|exact B]. }
  destruct (is_nil (trim_space l)) eqn:N.
  - destruct blank; [eapply R; exact I|]. destruct I as [<-|I]; [discriminate E|eapply R; exact I].
  - destruct (scan_line ign last (trim_space l)) as [k|] eqn:S; [|eapply R; exact I]. destruct I as [<-|I]; [|eapply R; exact I].
    cbn [fst snd] in *. subst k. unfold scan_line in S. destruct (trim_space l) as [|c y] eqn:T; [discriminate|]. destruct (Ascii.eqb c "#").
    + exfalso. clear - S. unfold scan_comment in S. destruct y as [|d y]; [destruct ign; discriminate|].
      repeat match type of S with (if ?b then _ else _) = _ => destruct b | match last with _ => _ end = _ => destruct last end; discriminate.
    + injection S as S. unfold scan_message in S. destruct (has_prefix (c :: y) (bs "msgid ") && rmatch re_id (c :: y)) eqn:M.
      * apply (kw_match (bs "msgid")) in M as (x & E' & X). exists l, x. split; [now left|]. rewrite T. split; [reflexivity|]. split; [exact E'|exact X].
      * exfalso. clear - S. repeat match type of S with (if ?b then _ else _) = _ => destruct b | match last with _ => _ end = _ => destruct last end; discriminate.
Qed.
Lemma id_scans : forall ign ls last l x, In l ls -> trim_space l = bs "msgid " ++ x -> string_part x -> forall blank,
  Exists (fun t => fst t = TId) (scan_all ign last blank ls).
Proof.
  intros ign. induction ls as [|l' ls IH]; intros last l x I E X blank; [destruct I|]. cbn [scan_all]. cbv zeta. destruct I as [->|I].
  - rewrite E. cbn [is_nil]. replace (is_nil (bs "msgid " ++ x)) with false by reflexivity.
    replace (scan_line ign last (bs "msgid " ++ x)) with (Some (scan_message last (bs "msgid " ++ x))) by reflexivity.
    left. cbn [fst]. unfold scan_message. change re_id with (rseq [rlit (bs "msgid"); rplus rspace; rquoted]). change (bs "msgid ") with (bs "msgid" ++ bs " ").
    now rewrite (proj2 (kw_match (bs "msgid") _)) by (exists x; auto).
  - destruct (is_nil (trim_space l')).
    + destruct blank; [eapply IH; eassumption|right; eapply IH; eassumption].
    + destruct (scan_line ign last (trim_space l')); [right|]; eapply IH; eassumption.
Qed.
Lemma one_entry : forall fuel ign s cs fs, (forall l, is_line s l -> ~ unclosed l) -> (length s < fuel)%nat ->
  file_lines s = cs ++ fs -> understood ign Elsewhere (cs ++ fs) -> Forall comment_start cs -> Forall field_start fs ->
  (exists l x, In l fs /\ trim_space l = bs "msgid " ++ x /\ string_part x) ->
  (forall l x, In l fs -> trim_space l = bs "msgid " ++ x -> string_part x -> decode_po_fuel fuel x <> Ok []) ->
  exists f m, parse_po_fuel fuel ign s = Ok f /\ f_messages f = [m].
Proof.
  intros fuel ign s cs fs U L E UN C F (l & x & I & EX & X) ID. unfold parse_po_fuel. cbv zeta. rewrite E.
  apply (scan_understood ign (cs ++ fs) TEof false) in UN; [|discriminate].
  assert (T : Forall (tok_ok False fuel) (scan_all ign TEof false (cs ++ fs))).
  { apply scan_all_ok. rewrite <- E. apply Forall_forall. intros l0 J. right. apply file_lines_in in J as (l' & IL & W).
    eapply closed_within; [|exact W]. split; [now apply U|]. split; [exact (proj1 IL)|]. apply line_length in IL. lia. }
  destruct (scan_comments ign cs TEof fs) as (ct & last & SC & CT & NF); [intros [H|H]; discriminate|exact C|exact UN|].
  rewrite SC in *. apply Forall_app in T as [T1 T2]. apply Forall_app in UN as [_ G].
  destruct (scan_fields ign fs last F G) as [FT _].
  pose proof (id_scans ign fs last l x I EX X false) as EI. pose proof (scan_linked ign fs last false) as LK.
  assert (IF : Forall (id_filled fuel) (scan_all ign last false fs)).
  { apply Forall_forall. intros t J K. destruct (scan_ids ign fs last false t J K) as (l0 & x0 & A & B & D & Y).
    rewrite B, D. change (skipn 6 (bs "msgid " ++ x0)) with x0. now apply (ID l0 x0). }
  set (ts := scan_all ign last false fs) in *. clearbody ts.
  assert (PB : forall m, exists m', parse_body fuel m ts = Ok (m', [], true) /\ m_id m' <> []).
  { intro m. destruct (parse_body_ok fuel ts m last T2 G FT LK) as (m' & B & N); [intro Y; contradiction|exact IF|]. exists m'. split; [exact B|]. apply N. now right. }
  destruct ts as [|t ts]; [inversion EI|].
  assert (PM : exists m, parse_message fuel (ct ++ t :: ts) = Ok (Some (m, [], true)) /\ m_id m <> []).
  { destruct (Forall_inv FT) as [K _]. destruct ct as [|[k y] ct].
    - cbn [app]. destruct t as [k y]. unfold parse_message. cbn [fst] in K. rewrite K.
      destruct (PB new_message) as (m & -> & N). exists m. split; [reflexivity|exact N].
    - destruct (parse_comment_ok fuel ((k, y) :: ct) new_comment (t :: ts) T1 CT) as [c' PC].
      { split; [exact K|]. intro Y. destruct t as [k' y']. cbn [fst] in Y. subst k'. apply Forall_inv, bad_fail in G. exact G. }
      pose proof (Forall_inv CT) as K2. cbn [fst] in K2. cbn [app] in *. unfold parse_message. rewrite K2, PC. cbn [rbind].
      destruct (PB (set_com new_message c')) as (m & -> & N). exists m. split; [reflexivity|exact N]. }
  destruct PM as (m & PM & N). exists (PoFile new_header [m]), m. split; [|reflexivity].
  destruct (ct ++ t :: ts) as [|t0 ts0] eqn:ET; [destruct ct; discriminate|]. cbn [parse_file]. rewrite PM. cbn [rbind].
  destruct (m_id m) as [|c r]; [congruence|]. reflexivity.
Qed.

(** ** Long lines *)
Lemma cut_long_cut : forall a l b, 65536 <= Z.of_nat (length l) -> cut_long (a ++ l :: b) = cut_long a.
Proof.
  intros a l b L. induction a as [|x a IH]; cbn [app cut_long].
  - unfold too_long. now destruct (Z.leb_spec 65536 (Z.of_nat (length l))); [|lia].
  - destruct (too_long x); [reflexivity|]. now rewrite IH.
Qed.
Lemma with_ends_app : forall a b, with_ends (a ++ b) = with_ends a ++ with_ends b.
Proof. induction a as [|l a IH]; intro b; [reflexivity|]. cbn [app with_ends]. rewrite <- app_assoc. cbn [app]. now rewrite IH. Qed.
Lemma lines_cons : forall ls s r, Forall (fun l => ~ In LF l) ls -> lines_of s r -> lines_of (with_ends ls ++ s) (ls ++ r).
Proof.
  intros ls s r F [G H]. split; [apply Forall_app; auto|]. destruct H as [->|(ls' & l & -> & N & ->)].
  - left. symmetry. apply with_ends_app.
  - right. exists (ls ++ ls'), l. rewrite app_assoc. split; [reflexivity|]. split; [exact N|]. now rewrite with_ends_app, <- app_assoc.
Qed.
Lemma file_lines_of : forall s ls, lines_of s ls -> file_lines s = cut_long ls.
Proof. intros s ls L. unfold file_lines. cbv zeta. now rewrite (lines_of_split s ls L). Qed.
Lemma file_lines_cut : forall a l rest, ~ In LF l -> 65536 <= Z.of_nat (length l) ->
  file_lines (a ++ LF :: l ++ LF :: rest) = file_lines (a ++ [LF]).
Proof.
  intros a l rest N L. destruct (split_parts a) as (ls & x & _ & E & F). destruct (lines_exist rest) as [r R].
  assert (A1 : a ++ [LF] = with_ends (ls ++ [x])) by (rewrite with_ends_app; cbn [with_ends]; rewrite E, <- app_assoc; reflexivity).
  assert (A2 : a ++ LF :: l ++ LF :: rest = with_ends ((ls ++ [x]) ++ [l]) ++ rest).
  { rewrite with_ends_app, <- A1. cbn [with_ends]. rewrite <- !app_assoc. reflexivity. }
  rewrite A1, A2. rewrite (file_lines_of (with_ends (ls ++ [x])) (ls ++ [x])) by (split; [exact F|now left]).
  rewrite (file_lines_of _ (((ls ++ [x]) ++ [l]) ++ r)).
  - rewrite <- app_assoc. cbn [app]. now apply cut_long_cut.
  - apply lines_cons; [|exact R]. apply Forall_app. split; [exact F|]. constructor; [exact N|constructor].
Qed.
Lemma understood_tail : forall ign p l ls, understood ign p (l :: ls) -> exists p', understood ign p' ls.
Proof. intros ign p l ls U. inversion U; subst; eauto. Qed.
