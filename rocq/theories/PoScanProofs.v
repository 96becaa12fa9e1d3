(** The scanner on the line grammar of PoFileSpec. *)
From Coq Require Import String Ascii List ZArith Bool Lia ZifyBool.
From Verif Require Import Base BaseProofs Utf8Model Utf8Proofs StrModel ReModel ReProofs PoStrModel
  PoStrSpec PoStrProofs PoDecodeProofs PoFileModel PoFileSpec TrimProofs.
Import ListNotations.
Open Scope Z_scope.

(** ** Padding *)
Lemma pad_enc : forall w, pad w -> exists rs, w = encode_all rs /\ Forall (fun r => is_space r = true) rs.
Proof.
  induction 1 as [|c w C W (rs & -> & R)].
  - exists []. split; [reflexivity|constructor].
  - exists (bval c :: rs). split.
    + unfold encode_all. cbn [map concat]. rewrite encode_byte; [reflexivity|].
      destruct C as [->|[->| ->]]; reflexivity.
    + constructor; [|exact R]. destruct C as [->|[->| ->]]; reflexivity.
Qed.
Lemma gap_pad : forall w, gap w -> pad w.
Proof. intros w H. eapply Forall_impl; [|exact H]. cbn. tauto. Qed.
Lemma trim_padded : forall t l, padded t l -> clean t -> trim_space l = t.
Proof.
  intros t l (w1 & w2 & P1 & P2 & ->) C. destruct (pad_enc w1 P1) as (r1 & -> & R1).
  destruct (pad_enc w2 P2) as (r2 & -> & R2). now apply trim_pad.
Qed.
Lemma trim_blank : forall w, pad w -> trim_space w = [].
Proof.
  intros w P. apply (trim_padded [] w); [|left; reflexivity]. exists w, []. split; [exact P|].
  split; [constructor|]. now rewrite !app_nil_r.
Qed.
Lemma trim_gap : forall g t, gap g -> clean t -> trim_space (g ++ t) = t.
Proof.
  intros g t G C. apply trim_padded; [|exact C]. exists g, []. split; [now apply gap_pad|].
  split; [constructor|]. now rewrite app_nil_r.
Qed.
Lemma drop_cr_pad : forall w, pad w -> pad (drop_cr w).
Proof.
  intros w P. unfold drop_cr. destruct (rev w) as [|c r] eqn:E; [exact P|].
  destruct (Ascii.eqb c CR); [|exact P]. apply (f_equal (@rev ascii)) in E. rewrite rev_involutive in E.
  cbn [rev] in E. rewrite E in P. apply Forall_app in P as [P _]. exact P.
Qed.
Lemma drop_cr_app : forall a b, b <> [] -> drop_cr (a ++ b) = a ++ drop_cr b.
Proof.
  intros a b N. unfold drop_cr. rewrite rev_app_distr. destruct (rev b) as [|c r] eqn:E.
  - apply (f_equal (@rev ascii)) in E. rewrite rev_involutive in E. contradiction.
  - cbn [app]. destruct (Ascii.eqb c CR); [|reflexivity]. rewrite rev_app_distr, rev_involutive. reflexivity.
Qed.
(** clean texts do not end in a carriage return *)
Lemma drop_cr_clean : forall t, clean t -> drop_cr t = t.
Proof.
  intros t [->|(r & u & s & v & _ & _ & _ & S & NS & E)]; [reflexivity|].
  unfold drop_cr. rewrite E, rev_app_distr.
  destruct (rev (encode_rune s)) as [|c x] eqn:R.
  - apply (f_equal (@rev ascii)) in R. rewrite rev_involutive in R. destruct (encode_rune_ne s R).
  - cbn [app]. destruct (Ascii.eqb_spec c CR) as [->|]; [|reflexivity]. exfalso.
    assert (X : rev x ++ encode_rune 13 = [] ++ encode_rune s).
    { apply (f_equal (@rev ascii)) in R. rewrite rev_involutive in R. cbn [rev app] in *. rewrite R. reflexivity. }
    apply enc_suffix in X as [_ X]; [|reflexivity|exact S]. subst s. discriminate.
Qed.
Lemma padded_drop_cr : forall t l, clean t -> padded t l -> padded t (drop_cr l).
Proof.
  intros t l C (w1 & w2 & P1 & P2 & ->). destruct w2 as [|c w2].
  - rewrite app_nil_r. destruct t as [|a t].
    + rewrite app_nil_r. exists (drop_cr w1), []. split; [now apply drop_cr_pad|]. split; [constructor|].
      now rewrite !app_nil_r.
    + rewrite drop_cr_app by discriminate. rewrite drop_cr_clean by exact C. exists w1, [].
      rewrite app_nil_r. repeat split; [exact P1|constructor].
  - rewrite app_assoc, drop_cr_app by discriminate. exists w1, (drop_cr (c :: w2)).
    split; [exact P1|]. split; [now apply drop_cr_pad|]. now rewrite app_assoc.
Qed.

(** ** Scanning a sequence of lines *)
Definition scans (ign : bool) (last : ptok) (ls : list bytes) (ts : list (ptok * bytes)) (last' : ptok) : Prop :=
  forall blank rest, scan_all ign last blank (ls ++ rest) =
    ts ++ scan_all ign last' (match ls with [] => blank | _ => false end) rest.

Lemma scans_nil : forall ign last, scans ign last [] [] last.
Proof. intros ign last blank rest. reflexivity. Qed.
Lemma scans_app : forall ign a ls ts b ls' ts' c, scans ign a ls ts b -> scans ign b ls' ts' c ->
  scans ign a (ls ++ ls') (ts ++ ts') c.
Proof.
  intros ign a ls ts b ls' ts' c H H' blank rest. rewrite <- app_assoc, H, H', <- app_assoc.
  destruct ls; [reflexivity|]. destruct ls'; reflexivity.
Qed.
Lemma scans_line : forall ign last t l k, padded t l -> clean t -> t <> [] ->
  scan_line ign last t = Some k -> scans ign last [l] [(k, t)] k.
Proof.
  intros ign last t l k P C N S blank rest. cbn [app scan_all]. cbv zeta. rewrite (trim_padded t l P C), S.
  destruct t; [congruence|]. reflexivity.
Qed.
Lemma scans_skip : forall ign last t l, padded t l -> clean t -> t <> [] ->
  scan_line ign last t = None -> scans ign last [l] [] last.
Proof.
  intros ign last t l P C N S blank rest. cbn [app scan_all]. cbv zeta. rewrite (trim_padded t l P C), S.
  destruct t; [congruence|]. reflexivity.
Qed.
Lemma scan_blanks : forall ign last pre rest, Forall pad pre ->
  scan_all ign last true (pre ++ rest) = scan_all ign last true rest.
Proof.
  induction 1 as [|w pre P PR IH]; [reflexivity|]. cbn [app scan_all]. cbv zeta. rewrite trim_blank by exact P.
  exact IH.
Qed.
Lemma scan_blank_first : forall ign last blank w rest, pad w ->
  scan_all ign last blank (w :: rest) =
  if blank then scan_all ign last true rest else (TWs, []) :: scan_all ign TWs true rest.
Proof. intros. cbn [scan_all]. cbv zeta. rewrite trim_blank by assumption. reflexivity. Qed.

(** ** Quoted strings *)
Lemma body_no_lf : forall q v, quoted_text q v -> ~ In LF q.
Proof. intros q v (b & -> & B). apply quoted_no_lf. exact (po_body_no_lf b v B). Qed.

Lemma index_app : forall c a b, ~ In c a -> index_byte c (a ++ c :: b) = Some (length a).
Proof.
  induction a as [|x a IH]; intros b N; cbn [app index_byte length].
  - now rewrite Ascii.eqb_refl.
  - destruct (Ascii.eqb_spec x c) as [->|]; [exfalso; apply N; now left|].
    rewrite IH by (intro I; apply N; now right). reflexivity.
Qed.
Lemma body_unescape : forall b v f, po_body b v -> (length b < f)%nat -> unescape f b = Ok v.
Proof.
  intros b v f B L. destruct (po_body_loop b v B) as [f' E]. eapply unescape_ok; eauto.
Qed.
(** decoding a literal with something before the quoted part *)
Lemma dec_quoted : forall f p q v, ~ In QUOTE p -> ~ In LF p -> quoted_text q v ->
  (length q < f)%nat -> dec f (p ++ q) = Ok v.
Proof.
  intros f p q v NQ NL (b & -> & B) L. unfold dec, decode_po_fuel.
  destruct (beq (p ++ QUOTE :: b ++ [QUOTE]) [QUOTE; QUOTE]) eqn:E.
  - apply beq_eq in E. destruct p as [|c p].
    + injection E as E. destruct b as [|x b].
      * inversion B; subst; [reflexivity|]. pose proof (encode_rune_ne r).
        destruct (encode_rune r); [congruence|discriminate].
      * apply (f_equal (@length ascii)) in E. cbn [app length] in E. rewrite app_length in E. cbn in E. lia.
    + injection E as -> E. exfalso. apply NQ. now left.
  - rewrite split_no_lf_end.
    2: { intro I. apply in_app_or in I as [I|I]; [now apply NL|].
         exact (quoted_no_lf b (po_body_no_lf b v B) I). }
    cbn [decode_lines]. unfold decode_line.
    rewrite index_app by exact NQ.
    change (QUOTE :: b ++ [QUOTE]) with ((QUOTE :: b) ++ [QUOTE]). rewrite app_assoc, last_index_end.
    rewrite app_length. cbn [length].
    destruct (Nat.eqb_spec (length p) (length p + S (length b))); [lia|].
    replace (slice (S (length p)) (length p + S (length b)) ((p ++ QUOTE :: b) ++ [QUOTE])) with b.
    + rewrite (body_unescape b v f B) by (cbn [length] in L; rewrite app_length in L; lia).
      cbn [rbind concat]. now rewrite app_nil_r.
    + unfold slice. rewrite <- app_assoc.
      replace (S (length p)) with (length (p ++ [QUOTE])) by (rewrite app_length; cbn; lia).
      cbn [app]. change (p ++ QUOTE :: b ++ [QUOTE]) with (p ++ [QUOTE] ++ b ++ [QUOTE]).
      rewrite app_assoc, skipn_len_app.
      rewrite app_length. cbn [length]. replace (length p + S (length b) - (length p + 1))%nat with (length b) by lia.
      now rewrite firstn_len_app.
Qed.

Lemma gap_no : forall g c, gap g -> c <> SP -> c <> TAB -> ~ In c g.
Proof. intros g c G A B I. unfold gap in G. rewrite Forall_forall in G. apply G in I as [I|I]; congruence. Qed.

Lemma quoted_solid : forall kw q v, quoted_text q v -> kw <> [] -> solid (hd NUL kw) = true -> clean (kw ++ q).
Proof.
  intros kw q v (b & -> & _) N S. destruct kw as [|a kw]; [congruence|]. cbn [hd] in S. cbn [app].
  change (kw ++ QUOTE :: b ++ [QUOTE]) with (kw ++ (QUOTE :: b) ++ [QUOTE]). rewrite app_assoc.
  apply clean_ascii; [exact S|reflexivity].
Qed.
Lemma quoted_clean : forall q v, quoted_text q v -> clean q.
Proof.
  intros q v (b & -> & _). apply clean_ascii; reflexivity.
Qed.

(** ** Regular expressions *)
Lemma re_gap : forall g, gap g -> forallb re_space g = true.
Proof.
  induction 1 as [|c g C G IH]; [reflexivity|]. cbn [forallb]. rewrite IH.
  destruct C as [->| ->]; reflexivity.
Qed.
Lemma lang_quoted : forall q v, quoted_text q v -> lang rquoted q.
Proof.
  intros q v (b & -> & B). unfold rquoted, rseq.
  apply lang_seq. exists [QUOTE], (b ++ [QUOTE]). split; [reflexivity|]. split.
  { apply lang_set. exists QUOTE. split; [reflexivity|apply Ascii.eqb_refl]. }
  apply lang_seq. exists b, [QUOTE]. split; [reflexivity|]. split.
  { apply lang_star_set. apply forallb_forall. intros c C. apply negb_true_iff.
    destruct (Ascii.eqb_spec c LF) as [->|]; [|reflexivity]. exfalso. exact (po_body_no_lf b v B C). }
  apply lang_seq. exists [QUOTE], []. split; [reflexivity|]. split.
  { apply lang_set. exists QUOTE. split; [reflexivity|apply Ascii.eqb_refl]. }
  apply lang_seq. exists [], []. split; [reflexivity|]. split; [|constructor].
  apply lang_star_set. reflexivity.
Qed.
Lemma lang_rseq2 : forall a b x y, lang a x -> lang b y -> lang (RSeq a b) (x ++ y).
Proof. intros a b x y A B. apply lang_seq. exists x, y. auto. Qed.
Lemma lang_plus_gap : forall g, gap g -> lang (rplus rspace) (SP :: g).
Proof.
  intros g G. unfold rplus. change (SP :: g) with ([SP] ++ g). apply lang_rseq2.
  - apply lang_set. exists SP. split; reflexivity.
  - apply lang_star_set. now apply re_gap.
Qed.
Lemma lang_rseq1 : forall a x, lang a x -> lang (rseq [a]) x.
Proof. intros a x A. cbn [rseq]. rewrite <- (app_nil_r x). apply lang_rseq2; [exact A|constructor]. Qed.

Lemma lang_field : forall kw g q v, gap g -> quoted_text q v ->
  lang (rseq [rlit kw; rplus rspace; rquoted]) (kw ++ SP :: g ++ q).
Proof.
  intros kw g q v G Q. change (rseq [rlit kw; rplus rspace; rquoted])
    with (RSeq (rlit kw) (RSeq (rplus rspace) (rseq [rquoted]))).
  apply lang_rseq2; [now apply lang_rlit|]. change (SP :: g ++ q) with ((SP :: g) ++ q).
  apply lang_rseq2; [now apply lang_plus_gap|]. apply lang_rseq1. now apply (lang_quoted q v).
Qed.

(** ** Message lines *)
Lemma scan_id : forall last g q v, gap g -> quoted_text q v ->
  scan_message last (bs "msgid" ++ SP :: g ++ q) = TId.
Proof.
  intros last g q v G Q. unfold scan_message.
  replace (rmatch re_id (bs "msgid" ++ SP :: g ++ q)) with true
    by (symmetry; apply rmatch_lang; exact (lang_field _ _ _ _ G Q)).
  reflexivity.
Qed.
Lemma scan_pl : forall last g q v, gap g -> quoted_text q v ->
  scan_message last (bs "msgid_plural" ++ SP :: g ++ q) = TPl.
Proof.
  intros last g q v G Q. unfold scan_message.
  replace (rmatch re_pl (bs "msgid_plural" ++ SP :: g ++ q)) with true
    by (symmetry; apply rmatch_lang; exact (lang_field _ _ _ _ G Q)).
  reflexivity.
Qed.
Lemma scan_ctx : forall last g q v, gap g -> quoted_text q v ->
  scan_message last (bs "msgctxt" ++ SP :: g ++ q) = TCtx.
Proof.
  intros last g q v G Q. unfold scan_message.
  replace (rmatch re_ctx (bs "msgctxt" ++ SP :: g ++ q)) with true
    by (symmetry; apply rmatch_lang; exact (lang_field _ _ _ _ G Q)).
  reflexivity.
Qed.
Lemma lang_star_gap : forall g, gap g -> lang (RStar rspace) (SP :: g).
Proof. intros g G. apply lang_star_set. cbn [forallb]. now rewrite re_gap. Qed.
Lemma scan_str : forall last g q v, gap g -> quoted_text q v ->
  scan_message last (bs "msgstr" ++ SP :: g ++ q) = TStr.
Proof.
  intros last g q v G Q. unfold scan_message.
  replace (rmatch re_str (bs "msgstr" ++ SP :: g ++ q)) with true.
  - rewrite orb_true_r. reflexivity.
  - symmetry. apply rmatch_lang.
    change re_str with (RSeq (rlit (bs "msgstr")) (RSeq (RStar rspace) (rseq [rquoted]))).
    apply lang_rseq2; [now apply lang_rlit|]. change (SP :: g ++ q) with ((SP :: g) ++ q).
    apply lang_rseq2; [now apply lang_star_gap|]. apply lang_rseq1. now apply (lang_quoted q v).
Qed.
Lemma not_re_str : forall x, rmatch re_str (bs "msgstr[" ++ x) = false.
Proof.
  intro x. destruct (rmatch re_str (bs "msgstr[" ++ x)) eqn:E; [|reflexivity]. exfalso.
  apply rmatch_lang in E.
  change re_str with (RSeq (rlit (bs "msgstr")) (RSeq (RStar rspace) (rseq [rquoted]))) in E.
  apply lang_seq in E as (a & b & E & A & B). apply lang_rlit in A. subst a.
  change (bs "msgstr[" ++ x) with (bs "msgstr" ++ "["%char :: x) in E. apply app_inv_head in E. subst b.
  apply lang_seq in B as (w & y & E & W & Y). apply lang_star_set in W. destruct w as [|c w].
  - cbn [app] in E. subst y. unfold rquoted in Y. cbn [rseq] in Y.
    apply lang_seq in Y as (y1 & y2 & E & Y1 & _). apply lang_seq in Y1 as (z1 & z2 & E2 & Z1 & _).
    apply lang_set in Z1 as (c & -> & C). subst y1. injection E as E _. subst c. discriminate.
  - injection E as E _. subst c. discriminate.
Qed.
Lemma scan_strp : forall last i g q v, 0 <= i -> gap g -> quoted_text q v ->
  scan_message last ((bs "msgstr[" ++ utoa i ++ bs "]") ++ SP :: g ++ q) = TStrP.
Proof.
  intros last i g q v I G Q. destruct (utoa_spec i I) as (N & D & _).
  assert (R : rmatch re_strp ((bs "msgstr[" ++ utoa i ++ bs "]") ++ SP :: g ++ q) = true).
  { apply rmatch_lang.
    change ((bs "msgstr[" ++ utoa i ++ bs "]") ++ SP :: g ++ q)
      with ((bs "msgstr" ++ [] ++ ["["%char] ++ utoa i ++ ["]"%char]) ++ (SP :: g) ++ q).
    rewrite <- !app_assoc.
    change re_strp with (RSeq (rlit (bs "msgstr")) (RSeq (RStar rspace) (RSeq (rchar "[")
      (RSeq (rplus rdigit) (RSeq (rchar "]") (RSeq (RStar rspace) (rseq [rquoted]))))))).
    apply lang_rseq2; [now apply lang_rlit|].
    apply lang_rseq2; [now apply lang_star_set|].
    apply lang_rseq2; [apply lang_set; exists "["%char; split; reflexivity|].
    apply lang_rseq2.
    { destruct (utoa i) as [|c d] eqn:U; [congruence|]. cbn [forallb] in D. apply andb_true_iff in D as [D1 D2].
      change (c :: d) with ([c] ++ d). apply lang_rseq2; [apply lang_set; eauto|now apply lang_star_set]. }
    apply lang_rseq2; [apply lang_set; exists "]"%char; split; reflexivity|].
    apply lang_rseq2; [now apply lang_star_gap|]. apply lang_rseq1. now apply (lang_quoted q v). }
  unfold scan_message. rewrite R. rewrite <- app_assoc.
  change (has_prefix (bs "msgstr[" ++ (utoa i ++ bs "]") ++ SP :: g ++ q) (bs "msgid ")) with false.
  change (has_prefix (bs "msgstr[" ++ (utoa i ++ bs "]") ++ SP :: g ++ q) (bs "msgstr")) with true.
  rewrite not_re_str.
  replace (beq (bs "msgstr[" ++ (utoa i ++ bs "]") ++ SP :: g ++ q) (bs "msgstr """"")) with false by reflexivity.
  reflexivity.
Qed.

Lemma has_suffix_snoc : forall x c, has_suffix (x ++ [c]) [c] = true.
Proof. intros x c. unfold has_suffix. rewrite rev_app_distr. cbn. now rewrite Ascii.eqb_refl. Qed.
Definition cont_tok (k : ptok) : ptok :=
  match k with
  | TId | TIdL => TIdL | TPl | TPlL => TPlL | TStr | TStrL => TStrL
  | TStrP | TStrPL => TStrPL | TCtx | TCtxL => TCtxL | _ => TFail
  end.
Lemma scan_cont : forall last q v, quoted_text q v -> scan_message last q = cont_tok last.
Proof.
  intros last q v Q. pose proof (lang_quoted q v Q) as L. destruct Q as (b & -> & B). unfold scan_message.
  replace (rmatch re_line (QUOTE :: b ++ [QUOTE])) with true.
  - change (QUOTE :: b ++ [QUOTE]) with ((QUOTE :: b) ++ [QUOTE]). rewrite has_suffix_snoc. reflexivity.
  - symmetry. apply rmatch_lang. change re_line with (RSeq (RStar rspace) (rseq [rquoted])).
    change (QUOTE :: b ++ [QUOTE]) with ([] ++ (QUOTE :: b ++ [QUOTE])).
    apply lang_rseq2; [now apply lang_star_set|]. now apply lang_rseq1.
Qed.

(** ** Comment lines *)
Lemma spaces_head : forall a b c d x y, forallb re_space a = true -> forallb re_space b = true ->
  re_space c = false -> re_space d = false -> a ++ c :: x = b ++ d :: y -> c = d /\ x = y.
Proof.
  induction a as [|e a IH]; intros b c d x y A B C D E.
  - destruct b as [|f b]; [injection E; auto|]. injection E as -> _. cbn [forallb] in B.
    apply andb_true_iff in B as [B _]. congruence.
  - cbn [forallb] in A. apply andb_true_iff in A as [A1 A2]. destruct b as [|f b].
    + injection E as -> _. congruence.
    + cbn [forallb] in B. apply andb_true_iff in B as [B1 B2]. injection E as _ E. eapply IH; eauto.
Qed.
Lemma re_space_char : forall c, re_space c = true -> is_space (bval c) = true.
Proof. intros c H. unfold re_space in H. unfold is_space, in_rng. lia. Qed.

Lemma prev_shape : forall kw x, rmatch (rseq [rlit (bs "#|"); rplus rspace; rlit kw; rany]) x = true ->
  exists w y, x = bs "#|" ++ w ++ kw ++ y /\ w <> [] /\ forallb re_space w = true.
Proof.
  intros kw x H. apply rmatch_lang in H.
  change (rseq [rlit (bs "#|"); rplus rspace; rlit kw; rany])
    with (RSeq (rlit (bs "#|")) (RSeq (rplus rspace) (RSeq (rlit kw) (rseq [rany])))) in H.
  apply lang_seq in H as (a & b & -> & A & H). apply lang_rlit in A. subst a.
  apply lang_seq in H as (w & c & -> & W & H). apply lang_seq in H as (k & y & -> & K & _).
  apply lang_rlit in K. subst k. unfold rplus in W. apply lang_seq in W as (w1 & w2 & -> & W1 & W2).
  apply lang_set in W1 as (s & -> & S). apply lang_star_set in W2.
  exists ([s] ++ w2), y. split; [reflexivity|]. split; [discriminate|]. cbn [app forallb]. now rewrite S, W2.
Qed.
Lemma prev_match : forall kw w y, w <> [] -> forallb re_space w = true ->
  rmatch (rseq [rlit (bs "#|"); rplus rspace; rlit kw; rany]) (bs "#|" ++ w ++ kw ++ y) = true.
Proof.
  intros kw w y N W. apply rmatch_lang.
  change (rseq [rlit (bs "#|"); rplus rspace; rlit kw; rany])
    with (RSeq (rlit (bs "#|")) (RSeq (rplus rspace) (RSeq (rlit kw) (rseq [rany])))).
  apply lang_rseq2; [now apply lang_rlit|]. apply lang_rseq2.
  - destruct w as [|c w]; [congruence|]. cbn [forallb] in W. apply andb_true_iff in W as [W1 W2].
    unfold rplus. change (c :: w) with ([c] ++ w). apply lang_rseq2; [apply lang_set; eauto|now apply lang_star_set].
  - apply lang_rseq2; [now apply lang_rlit|]. apply lang_rseq1. apply lang_star_set. now apply forallb_forall.
Qed.

Lemma scan_prev_ctx : forall last x,
  scan_comment false last (bs "#| msgctxt" ++ x) = Some TPrevCtx.
Proof.
  intros last x. unfold scan_comment. cbn [bs app list_ascii_of_string].
  change ("#"%char :: "|"%char :: " "%char :: "m"%char :: "s"%char :: "g"%char :: "c"%char :: "t"%char
    :: "x"%char :: "t"%char :: x) with (bs "#|" ++ [SP] ++ bs "msgctxt" ++ x).
  unfold re_prev_ctx. rewrite prev_match by (discriminate || reflexivity). reflexivity.
Qed.
Lemma scan_prev_id : forall last x,
  scan_comment false last (bs "#| msgid" ++ x) = Some TPrevId.
Proof.
  intros last x. unfold scan_comment. cbn [bs app list_ascii_of_string].
  change ("#"%char :: "|"%char :: " "%char :: "m"%char :: "s"%char :: "g"%char :: "i"%char :: "d"%char
    :: x) with (bs "#|" ++ [SP] ++ bs "msgid" ++ x).
  unfold re_prev_id. rewrite prev_match by (discriminate || reflexivity).
  destruct (rmatch re_prev_ctx (bs "#|" ++ [SP] ++ bs "msgid" ++ x)) eqn:E; [|reflexivity]. exfalso.
  apply prev_shape in E as (w & y & E & N & W). apply app_inv_head in E.
  change ([SP] ++ bs "msgid" ++ x) with ([SP] ++ "m"%char :: bs "sgid" ++ x) in E.
  change (w ++ bs "msgctxt" ++ y) with (w ++ "m"%char :: bs "sgctxt" ++ y) in E.
  apply spaces_head in E as [_ E]; try reflexivity; [|exact W]. discriminate.
Qed.
Definition prev_cont_tok (k : ptok) : ptok :=
  match k with
  | TPrevCtx | TPrevCtxL => TPrevCtxL | TPrevId | TPrevIdL => TPrevIdL | _ => TPrevUnknown
  end.
Lemma scan_prev_cont : forall last g q v, gap g -> quoted_text q v ->
  scan_comment false last (bs "#| " ++ g ++ q) = Some (prev_cont_tok last).
Proof.
  intros last g q v G Q.
  assert (X : forall kw c k, kw = c :: k -> re_space c = false -> c <> QUOTE ->
    rmatch (rseq [rlit (bs "#|"); rplus rspace; rlit kw; rany]) (bs "#| " ++ g ++ q) = false).
  { intros kw c k -> NS NQ.
    destruct (rmatch _ (bs "#| " ++ g ++ q)) eqn:E; [|reflexivity]. exfalso.
    apply prev_shape in E as (w & y & E & N & W).
    change (bs "#| " ++ g ++ q) with (bs "#|" ++ (SP :: g) ++ q) in E. apply app_inv_head in E.
    destruct Q as (b & -> & B). cbn [app] in E.
    change (SP :: g ++ QUOTE :: b ++ [QUOTE]) with ((SP :: g) ++ QUOTE :: b ++ [QUOTE]) in E.
    apply spaces_head in E as [E _]; try reflexivity; try assumption; [congruence|].
    cbn [forallb]. now rewrite re_gap. }
  assert (Y : rmatch re_prev_line (bs "#| " ++ g ++ q) = true).
  { apply rmatch_lang. exact (lang_field (bs "#|") g q v G Q). }
  assert (X1 : rmatch re_prev_ctx (bs "#| " ++ g ++ q) = false)
    by (apply (X _ "m"%char (bs "sgctxt")); [reflexivity|reflexivity|discriminate]).
  assert (X2 : rmatch re_prev_id (bs "#| " ++ g ++ q) = false)
    by (apply (X _ "m"%char (bs "sgid")); [reflexivity|reflexivity|discriminate]).
  unfold scan_comment. cbn [bs app list_ascii_of_string]. cbn [bs app list_ascii_of_string] in X1, X2, Y.
  rewrite X1, X2, Y. cbn [is_nil andb]. destruct last; reflexivity.
Qed.
(** with ignoreComments every comment but flags is skipped *)
Lemma scan_ign : forall last c x, c <> ","%char -> scan_comment true last ("#"%char :: c :: x) = None.
Proof.
  intros last c x N. unfold scan_comment. destruct (_ && _); [reflexivity|].
  destruct (Ascii.eqb_spec c ","); [contradiction|]. reflexivity.
Qed.
