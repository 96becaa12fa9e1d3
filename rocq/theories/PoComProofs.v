(** The comments of PO files of any layout. *)
From Coq Require Import String Ascii List ZArith Bool Lia.
From Verif Require Import Base BaseProofs Utf8Model Utf8Proofs StrModel TrimProofs PoStrModel PoStrSpec PoFileModel PoFileSpec ReModel PoItemProofs PoFieldSpec.
From Verif Require PoFieldProofs PoScanProofs.
From Verif Require Import PoLineSpec PoLineProofs PoHangSpec PoHangProofs PoAnySpec PoAnyProofs PoComSpec.
Import ListNotations.
Open Scope Z_scope.

Lemma flag_end_sep : forall c, flag_end c -> bval c < 128 /\ fsep (bval c) = true.
Proof. intros c [-> | [-> | ->]]; split; reflexivity. Qed.
Lemma flag_words_ok : forall t fs, flag_words t fs -> flag_fields t = fs.
Proof.
  unfold flag_fields. fold fsep. intros t fs H. fold (fsegs t). induction H as [|c y fs C _ IH|f F|f c y fs F C _ IH].
  - reflexivity.
  - change (c :: y) with ([c] ++ y). rewrite fields_seps by (constructor; [exact C|constructor]). exact IH.
  - pose proof (proj1 (proj1 F)) as N. destruct (flag_runes f F) as (rs & -> & R).
    rewrite <- (app_nil_r (encode_all rs)) at 1. rewrite fields_word by exact R. cbn [fsegs length segs_fuel fields app].
    destruct (encode_all rs); [congruence|reflexivity].
  - pose proof (proj1 (proj1 F)) as N. destruct (flag_runes f F) as (rs & -> & R). rewrite fields_word by exact R. cbn [app].
    destruct (flag_end_sep c C) as [B S]. change (c :: y) with ([c] ++ y). rewrite <- (encode_byte c B), fsegs_enc by (now apply solid_scalar).
    cbn [fields]. rewrite S. destruct (encode_all rs) as [|x u] eqn:E; [congruence|]. now rewrite IH.
Qed.
Lemma whites_head : forall w w' c c' y y', whites w -> whites w' -> ~ white c -> ~ white c' -> w ++ c :: y = w' ++ c' :: y' -> c = c' /\ y = y'.
Proof.
  induction w as [|a w IH]; intros [|b w'] c c' y y' W W' N N' E; cbn [app] in E.
  - injection E as -> ->. auto.
  - injection E as -> _. inversion W'; contradiction.
  - injection E as <- _. inversion W; contradiction.
  - injection E as _ E. eapply IH; [inversion W; eassumption|inversion W'; eassumption|exact N|exact N'|exact E].
Qed.
Lemma not_white : forall c, re_space c = false -> ~ white c.
Proof. intros c R W. destruct W as [-> | [-> | [-> | [-> | ->]]]]; discriminate R. Qed.

(** the kind of the last line, as far as it matters *)
Definition follows (is : list citem) (k : ptok) : Prop :=
  match rev is with IPrevCtx _ :: _ => PoScanProofs.prev_cont_tok k = TPrevCtxL | IPrevId _ :: _ => PoScanProofs.prev_cont_tok k = TPrevIdL | _ => True end.
Lemma follows_last : forall is i k, follows (is ++ [i]) k <->
  match i with IPrevCtx _ => PoScanProofs.prev_cont_tok k = TPrevCtxL | IPrevId _ => PoScanProofs.prev_cont_tok k = TPrevIdL | _ => True end.
Proof. intros is i k. unfold follows. rewrite rev_app_distr. cbn [rev app]. destruct i; reflexivity. Qed.
Lemma prev_scan : forall last r, r <> [] -> scan_comment false last (bs "#|" ++ r) =
  if rmatch re_prev_ctx (bs "#|" ++ r) then Some TPrevCtx
  else if rmatch re_prev_id (bs "#|" ++ r) then Some TPrevId
  else if rmatch re_prev_line (bs "#|" ++ r) then Some (PoScanProofs.prev_cont_tok last) else Some TFail.
Proof. intros last [|c r] N; [contradiction|]. unfold scan_comment. cbn [bs list_ascii_of_string app is_nil andb negb]. destruct last; reflexivity. Qed.
Lemma not_prev : forall kw c k r, kw = c :: k -> re_space c = false ->
  (forall w y, w <> [] -> whites w -> r = w ++ kw ++ y -> False) ->
  rmatch (rseq [rlit (bs "#|"); rplus rspace; rlit kw; rany]) (bs "#|" ++ r) = false.
Proof.
  intros kw c k r K R H. destruct (rmatch _ _) eqn:M; [|reflexivity]. exfalso. apply prev_match in M as (w & y & N & W & E). apply app_inv_head in E.
  exact (H w y N W E).
Qed.
Lemma ign_prev : forall ign r, ~ passed_over ign (bs "#|" ++ r) -> ign = false /\ r <> [].
Proof.
  intros ign r N. split.
  - destruct ign; [|reflexivity]. exfalso. apply N. right. split; [reflexivity|]. right. exists "|"%char, r. split; [reflexivity|discriminate].
  - intros ->. apply N. left. cbn. auto.
Qed.
Lemma from_split : forall n p x v, length p = n -> from n (p ++ x) = Ok v -> v = x.
Proof.
  intros n p x v L F. unfold from in F. rewrite app_length in F. replace (Nat.ltb (length p + length x) n) with false in F by (symmetry; apply Nat.ltb_ge; lia).
  injection F as <-. rewrite <- L. rewrite skipn_app, Nat.sub_diag, skipn_all. reflexivity.
Qed.
Lemma from_ok : forall n p x, length p = n -> from n (p ++ x) = Ok x.
Proof.
  intros n p x L. unfold from. rewrite app_length. replace (Nat.ltb (length p + length x) n) with false by (symmetry; apply Nat.ltb_ge; lia).
  rewrite <- L. now rewrite skipn_app, Nat.sub_diag, skipn_all.
Qed.

Lemma line_step : forall fuel ign last before t i c c' k, line_says before t i -> ~ passed_over ign t -> follows before last ->
  scan_comment ign last t = Some k -> comment_step fuel c k t = Ok c' -> c' = add_item c i /\ follows (before ++ [i]) k.
Proof.
  intros fuel ign last before t i c c' k L NP FO S C. rewrite follows_last.
  destruct L as [y NC|y|y rs R|y fs R|w y p x v N W E LP T|w y p x v N W E LP T|b u x v -> PM T|b u x v -> PM T].
  - split; [|exact I]. assert (k = TTrans) as ->.
    { cbn [scan_comment] in S. destruct y as [|a r]; [destruct ign; [discriminate|now injection S]|]. pose proof (NC a r eq_refl) as X. cbn [In] in X.
      destruct (Ascii.eqb_spec a ".") as [->|]; [exfalso; tauto|]. destruct (Ascii.eqb_spec a ":") as [->|]; [exfalso; tauto|].
      destruct (Ascii.eqb_spec a ",") as [->|]; [exfalso; tauto|]. destruct (Ascii.eqb_spec a "|") as [->|]; [exfalso; tauto|].
      cbn [orb] in S. rewrite andb_false_r in S. destruct ign; cbn [negb andb] in S; [discriminate|now injection S]. }
    cbn [comment_step] in C. change ("#"%char :: y) with (bs "#" ++ y) in C. rewrite (from_ok 1 (bs "#") y eq_refl) in C. now injection C as <-.
  - split; [|exact I]. assert (k = TExtr) as ->.
    { cbn [bs list_ascii_of_string app scan_comment] in S. destruct (is_nil y && _); [discriminate|]. destruct (ign && _); [discriminate|]. now injection S. }
    cbn [comment_step] in C. rewrite (from_ok 2 (bs "#.") y eq_refl) in C. now injection C as <-.
  - split; [|exact I]. assert (k = TRefs) as ->.
    { cbn [bs list_ascii_of_string app scan_comment] in S. destruct (is_nil y && _); [discriminate|]. destruct (ign && _); [discriminate|]. now injection S. }
    cbn [comment_step] in C. rewrite (from_ok 2 (bs "#:") y eq_refl) in C. cbn [rbind] in C. rewrite (refs_split rs _ R) in C. now injection C as <-.
  - split; [|exact I]. assert (k = TFlags) as ->.
    { cbn [bs list_ascii_of_string app scan_comment] in S. destruct (is_nil y && _); [discriminate|]. destruct (ign && _); [discriminate|]. now injection S. }
    cbn [comment_step] in C. rewrite (from_ok 2 (bs "#,") y eq_refl) in C. cbn [rbind] in C. rewrite (flag_words_ok _ fs R) in C. now injection C as <-.
  - assert (NP' := NP). rewrite E in NP'. apply ign_prev in NP' as [-> NR]. assert (k = TPrevCtx) as ->.
    { rewrite E, prev_scan in S by exact NR. replace (rmatch re_prev_ctx _) with true in S; [now injection S|]. symmetry. apply (prev_match (bs "msgctxt")).
      exists w, y. auto. }
    split; [|reflexivity]. cbn [comment_step] in C. rewrite (from_ok 10 p x LP) in C. cbn [rbind] in C.
    destruct T as [[T ->]|[TN T]].
    + rewrite T in C. injection C as <-. cbn [add_item]. rewrite app_nil_r. now destruct c.
    + destruct (trim_space x) as [|a r]; [contradiction|]. destruct (dec fuel (a :: r)) as [u| | |] eqn:D; try discriminate C.
      apply (text_same _ _ _ _ T) in D as ->. now injection C as <-.
  - assert (NP' := NP). rewrite E in NP'. apply ign_prev in NP' as [-> NR]. assert (k = TPrevId) as ->.
    { rewrite E, prev_scan in S by exact NR. unfold re_prev_ctx in S. rewrite (not_prev (bs "msgctxt") "m" (bs "sgctxt")) in S; [|reflexivity|reflexivity|].
      - replace (rmatch re_prev_id _) with true in S; [now injection S|]. symmetry. apply (prev_match (bs "msgid")). exists w, y. auto.
      - intros w' y' N' W' E'. change (w ++ "m"%char :: (bs "sgid" ++ y) = w' ++ "m"%char :: (bs "sgctxt" ++ y')) in E'.
        apply whites_head in E' as [_ E']; [discriminate E'|exact W|exact W'|now apply not_white..]. }
    split; [|reflexivity]. cbn [comment_step] in C. rewrite (from_ok 8 p x LP) in C. cbn [rbind] in C.
    destruct T as [[T ->]|[TN T]].
    + rewrite T in C. injection C as <-. cbn [add_item]. rewrite app_nil_r. now destruct c.
    + destruct (trim_space x) as [|a r]; [contradiction|]. destruct (dec fuel (a :: r)) as [u| | |] eqn:D; try discriminate C.
      apply (text_same _ _ _ _ T) in D as ->. now injection C as <-.
  - rewrite follows_last in FO. apply ign_prev in NP as [-> NR]. rewrite prev_scan in S by exact NR.
    assert (K : Some k = Some TPrevCtxL).
    { rewrite <- S. pose proof PM as (w & q & N & W & (w2 & b2 & w3 & EQ & W2 & _) & E). apply app_inv_head in E.
      assert (NK : forall w' z y', whites w' -> x = w' ++ ("m"%char :: z) ++ y' -> False).
      { intros w' z y' W' E'. rewrite E, EQ, app_assoc in E'. change ((w ++ w2) ++ QUOTE :: (b2 ++ QUOTE :: w3) = w' ++ "m"%char :: (z ++ y')) in E'.
        apply whites_head in E' as [E' _]; [discriminate E'|now apply Forall_app|exact W'|now apply not_white..]. }
      unfold re_prev_ctx, re_prev_id. rewrite (not_prev (bs "msgctxt") "m" (bs "sgctxt")); [|reflexivity|reflexivity|intros w' y' _ W' E'; exact (NK w' _ y' W' E')].
      rewrite (not_prev (bs "msgid") "m" (bs "sgid")); [|reflexivity|reflexivity|intros w' y' _ W' E'; exact (NK w' _ y' W' E')].
      rewrite (proj2 (more_match _)) by exact PM. now rewrite FO. }
    injection K as ->. split; [|reflexivity]. cbn [comment_step] in C. rewrite (from_ok 2 (bs "#|") x eq_refl) in C. cbn [rbind] in C.
    destruct (dec fuel (trim_space x)) as [z| | |] eqn:D; try discriminate C. apply (text_same _ _ _ _ T) in D as ->. now injection C as <-.
  - rewrite follows_last in FO. apply ign_prev in NP as [-> NR]. rewrite prev_scan in S by exact NR.
    assert (K : Some k = Some TPrevIdL).
    { rewrite <- S. pose proof PM as (w & q & N & W & (w2 & b2 & w3 & EQ & W2 & _) & E). apply app_inv_head in E.
      assert (NK : forall w' z y', whites w' -> x = w' ++ ("m"%char :: z) ++ y' -> False).
      { intros w' z y' W' E'. rewrite E, EQ, app_assoc in E'. change ((w ++ w2) ++ QUOTE :: (b2 ++ QUOTE :: w3) = w' ++ "m"%char :: (z ++ y')) in E'.
        apply whites_head in E' as [E' _]; [discriminate E'|now apply Forall_app|exact W'|now apply not_white..]. }
      unfold re_prev_ctx, re_prev_id. rewrite (not_prev (bs "msgctxt") "m" (bs "sgctxt")); [|reflexivity|reflexivity|intros w' y' _ W' E'; exact (NK w' _ y' W' E')].
      rewrite (not_prev (bs "msgid") "m" (bs "sgid")); [|reflexivity|reflexivity|intros w' y' _ W' E'; exact (NK w' _ y' W' E')].
      rewrite (proj2 (more_match _)) by exact PM. now rewrite FO. }
    injection K as ->. split; [|reflexivity]. cbn [comment_step] in C. rewrite (from_ok 2 (bs "#|") x eq_refl) in C. cbn [rbind] in C.
    destruct (dec fuel (trim_space x)) as [z| | |] eqn:D; try discriminate C. apply (text_same _ _ _ _ T) in D as ->. now injection C as <-.
Qed.
Lemma line_says_start : forall before t i, line_says before t i -> exists y, t = "#"%char :: y.
Proof.
  intros before t i [y NC|y|y rs R|y fs R|w y p x v N W E LP T|w y p x v N W E LP T|b u x v B PM T|b u x v B PM T]; rewrite ?E; eexists; reflexivity.
Qed.

Lemma step_com : forall fuel m k l m', message_step fuel m k l = Ok m' -> m_com m' = m_com m.
Proof.
  intros fuel m k l m' H. destruct k; cbn [message_step] in H; try discriminate H;
    repeat (match type of H with
            | (do x <- ?r; _) = Ok _ => destruct r; cbn [rbind] in H; try discriminate H
            | context [if ?b then _ else _] => destruct b; try discriminate H
            end);
    try (injection H as <-; reflexivity).
Qed.
Lemma fields_com : forall fuel fl m last m', fields_run fuel m last fl = Ok m' -> m_com m' = m_com m.
Proof.
  intros fuel. induction fl as [|l fl IH]; intros m last m' H; cbn [fields_run] in H; [now injection H as <-|].
  destruct (message_step fuel m _ _) as [m1| | |] eqn:S; try discriminate H. cbn [rbind] in H. rewrite (IH _ _ _ H). now apply step_com in S.
Qed.
(** the state with these items *)
Definition holding (is : list citem) (o : mode) : Prop :=
  match is with [] => o = MStart | _ => o = MCom (com_of is) end.
Lemma com_snoc : forall is i, com_of (is ++ [i]) = add_item (com_of is) i.
Proof. intros is i. rewrite <- !com_of_fold, fold_left_app. reflexivity. Qed.
Lemma snoc_holding : forall is i, holding (is ++ [i]) (MCom (com_of (is ++ [i]))).
Proof. intros is i. unfold holding. destruct (is ++ [i]) eqn:E; [destruct is; discriminate|reflexivity]. Qed.
Lemma holding_com : forall is o, holding is o -> outside o /\ m_com (body_msg o) = Some (com_of is).
Proof. intros [|i is] o ->; split; (exact I || reflexivity). Qed.
Lemma comments_collect : forall fuel ign is rs cs, any_comments ign is rs cs -> forall last blank o ms,
  holding is o -> (blank = true -> is = []) -> follows is last -> collect fuel o (scan_all ign last blank rs) = Ok ms ->
  Forall2 (fun c m => m_com m = Some (com_of c)) cs ms.
Proof.
  intros fuel ign is rs cs. induction 1 as [is|is l ls cs T _ IH|is l ls cs P _ IH|is i l ls cs NP LS _ IH|is l ls fl rest cs F L E _ IH]; intros last blank o ms O B FO C.
  - cbn [scan_all collect] in C. injection C as <-. destruct is; rewrite O; constructor.
  - cbn [scan_all] in C. cbv zeta in C. rewrite T in C. cbn [is_nil] in C. destruct blank.
    + rewrite (B eq_refl) in O. refine (IH _ _ _ _ O _ _ C); [reflexivity|exact I].
    + cbn [collect ends is_comment] in C. refine (IH TWs true MStart ms eq_refl _ _ _); [reflexivity|exact I|]. destruct is; rewrite O in C; exact C.
  - cbn [scan_all] in C. cbv zeta in C. destruct (passed_scans ign last _ P) as [S N]. rewrite S in C. destruct (trim_space l) as [|a r]; [contradiction|]. cbn [is_nil] in C.
    refine (IH _ _ _ _ O _ FO C). discriminate.
  - destruct (line_says_start _ _ _ LS) as [y Y]. cbn [scan_all] in C. cbv zeta in C. rewrite Y in C. cbn [is_nil] in C.
    change (scan_line ign last ("#"%char :: y)) with (scan_comment ign last ("#"%char :: y)) in C. rewrite Y in LS, NP.
    pose proof (comment_scan ign last y) as CS. cbv zeta in CS. destruct (scan_comment ign last ("#"%char :: y)) as [k|] eqn:S; [|contradiction].
    cbn [collect] in C. destruct (comment_kind _ _ _ _ S) as [K|[-> | ->]]; [|discriminate C..]. destruct (comment_place k K) as [PL EN]. rewrite EN, K in C.
    assert (X : exists c', comment_step fuel (com_of is) k ("#"%char :: y) = Ok c' /\ collect fuel (MCom c') (scan_all ign k false ls) = Ok ms).
    { destruct is as [|j is]; rewrite O in C.
      - change new_comment with (com_of []) in C. destruct (comment_step fuel (com_of []) k _) as [c'| | |]; try discriminate C. eauto.
      - destruct (comment_step fuel (com_of (j :: is)) k _) as [c'| | |]; try discriminate C. eauto. }
    destruct X as (c' & ST & C'). destruct (line_step _ _ _ _ _ _ _ _ _ LS NP FO S ST) as [EQ FO']. rewrite EQ, <- com_snoc in C'.
    refine (IH _ _ _ _ (snoc_holding is i) _ FO' C'). discriminate.
  - destruct (holding_com is o O) as [OU CM]. destruct (entry_collect _ _ _ _ _ _ _ _ _ _ F L OU C) as (m & k & R & C').
    apply fields_com in R. rewrite CM in R. destruct rest as [|l' rest].
    + cbn [scan_all collect] in C'. injection C' as <-. constructor; [exact R|]. cbn [tl] in IH. eapply IH with (last := TEof) (blank := false) (o := MStart); [reflexivity|discriminate|exact I|reflexivity].
    + destruct (quiet_body _ _ _ _ _ _ _ E C') as (la & b & ms' & -> & _ & C2). constructor; [exact R|]. cbn [tl] in IH.
      eapply IH; [|reflexivity| |exact C2]; [reflexivity|exact I].
Qed.
Lemma comments_with_id : forall es ms, Forall2 entry_says es ms -> forall cs, Forall2 (fun c m => m_com m = Some (com_of c)) cs ms -> file_comments es cs (with_id ms).
Proof.
  induction 1 as [|e m es ms S _ IH]; intros cs F; inversion F as [|c m' cs' ms' H F']; subst; [constructor|].
  unfold PoFieldProofs.with_id. cbn [filter]. destruct (m_id m) eqn:E; cbn [is_nil negb].
  - constructor; [|now apply IH]. rewrite <- E. apply S.
  - constructor; [exact S|congruence|exact H|now apply IH].
Qed.
Theorem file_comments_of : forall fuel ign s f rs es cs, parse_po_fuel fuel ign s = Ok f -> reads_lines s rs -> any_file ign rs es -> any_comments ign [] rs cs ->
  file_comments es cs (f_messages f).
Proof.
  intros fuel ign s f rs es cs H R A AC. apply reads_file_lines in R as ->. rewrite po_drive in H. apply drive_collect in H as (l & C & RE).
  pose proof (proj1 (any_collect fuel ign _ es A) TEof false MStart l I C) as S. pose proof (PoFieldProofs.result_messages _ _ _ _ RE) as E. cbn [app] in E.
  rewrite E. apply comments_with_id; [exact S|]. eapply comments_collect; [exact AC| | | |exact C]; [reflexivity|discriminate|exact I].
Qed.

Lemma word_ascii : forall w, w <> [] -> forallb solid w = true -> word w.
Proof.
  intros w N F. split; [exact N|]. clear N. induction w as [|c w IH]; [exists []; split; [reflexivity|constructor]|].
  cbn [forallb] in F. apply andb_true_iff in F as [C F]. destruct (IH F) as (rs & -> & R). destruct (word_solid c C) as (_ & qs & E & Q).
  exists (qs ++ rs). split; [|now apply Forall_app]. unfold encode_all in *. rewrite map_app, concat_app, <- E. reflexivity.
Qed.
(** every file of ordinary comments has them *)
Lemma ordinary_says : forall before t, ordinary t -> (exists y, t = "#"%char :: y) -> exists i, line_says before t i.
Proof.
  intros before t O [y ->]. specialize (O y eq_refl). destruct y as [|c z]; [exists (ITrans (trim_space [])); constructor; intros; discriminate|].
  destruct (Ascii.eqb_spec c ".") as [->|N1]; [exists (IExtr (trim_space z)); apply (ls_extr before z)|].
  destruct (Ascii.eqb_spec c ":") as [->|N2]; [destruct O as [rs R]; exists (IRefs rs); now apply (ls_refs before z)|].
  destruct (Ascii.eqb_spec c ",") as [->|N3]; [destruct O as [fs R]; exists (IFlags fs); now apply (ls_flags before z)|].
  destruct (Ascii.eqb_spec c "|") as [->|N4]; [destruct O|].
  exists (ITrans (trim_space (c :: z))). constructor. intros c' r E. injection E as -> ->. cbn [In]. intuition congruence.
Qed.
Lemma comments_exist : forall ign n rs is, (length rs <= n)%nat -> Forall (fun l => ordinary (trim_space l)) rs -> exists cs, any_comments ign is rs cs.
Proof.
  intros ign. induction n as [|n IH]; intros rs is L F.
  { destruct rs; [exists []; constructor|cbn in L; lia]. }
  destruct rs as [|l ls]; [exists []; constructor|]. cbn [length] in L. inversion F as [|? ? O F']; subst.
  destruct (trim_space l) as [|a y] eqn:T; [destruct (IH ls []) as [cs X]; [lia|exact F'|]; exists cs; now apply ac_blank|].
  destruct (Ascii.eqb_spec a "#") as [->|NA].
  - pose proof (comment_scan ign TEof y) as CS. cbv zeta in CS.
    assert (D : passed_over ign ("#"%char :: y) \/ ~ passed_over ign ("#"%char :: y)).
    { destruct (scan_comment ign TEof ("#"%char :: y)) eqn:S; [|now left]. right. intro P. apply (passed_scans ign TEof) in P as [P _].
      change (scan_line ign TEof ("#"%char :: y)) with (scan_comment ign TEof ("#"%char :: y)) in P. congruence. }
    destruct D as [P|P].
    + destruct (IH ls is) as [cs X]; [lia|exact F'|]. exists cs. apply ac_passed; [now rewrite T|exact X].
    + destruct (ordinary_says is _ O) as [i LS]; [eauto|]. destruct (IH ls (is ++ [i])) as [cs X]; [lia|exact F'|]. exists cs.
      apply (ac_comment ign is i); [now rewrite T|now rewrite T|exact X].
  - destruct (span ign ls) as (u & fl & v & -> & LO & E & _). apply Forall_app in F' as [_ FV].
    destruct (IH (tl v) []) as [cs X]; [rewrite app_length in L; destruct v; cbn [tl length] in *; lia|destruct v; [constructor|now inversion FV]|].
    exists (is :: cs). eapply ac_entry; [|exact LO|exact E|exact X]. split; [rewrite T; discriminate|]. intros [z Z]. rewrite T in Z. congruence.
Qed.
