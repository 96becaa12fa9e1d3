(** What the parser makes of paragraphs of fields. *)
From Coq Require Import String Ascii List ZArith Bool Lia ZifyBool Permutation.
From Verif Require Import Base BaseProofs Utf8Model Utf8Proofs StrModel ReModel ReProofs PoStrModel
  PoStrSpec PoStrProofs PoDecodeProofs PoFileModel PoFileSpec TrimProofs PoScanProofs PoItemProofs PoParseProofs
  PoOutcomeProofs PoTightSpec PoTightProofs PoFieldSpec.
Import ListNotations.
Open Scope Z_scope.

(** ** The map of the translations *)
Lemma str_set_set : forall m k u v, str_set (str_set m k u) k v = str_set m k v.
Proof.
  induction m as [|[j w] m IH]; intros k u v; cbn [str_set]; [now rewrite Z.eqb_refl|].
  destruct (Z.eqb_spec j k); cbn [str_set]; [now rewrite Z.eqb_refl|].
  destruct (Z.eqb_spec j k); [contradiction|]. now rewrite IH.
Qed.
Lemma str_at_set : forall m k u, str_at (str_set m k u) k = u.
Proof.
  unfold str_at. induction m as [|[j w] m IH]; intros k u; cbn [str_set str_get]; [now rewrite Z.eqb_refl|].
  destruct (Z.eqb_spec j k); cbn [str_get]; [now rewrite Z.eqb_refl|].
  destruct (Z.eqb_spec j k); [contradiction|]. apply IH.
Qed.
Lemma str_set_keys : forall m k v j, In j (map fst (str_set m k v)) <-> In j (map fst m) \/ j = k.
Proof.
  induction m as [|[i w] m IH]; intros k v j; cbn [str_set map fst In]; [intuition congruence|].
  destruct (Z.eqb_spec i k); cbn [map fst In]; [intuition congruence|]. rewrite IH. tauto.
Qed.
Lemma str_set_nodup : forall m k v, NoDup (map fst m) -> NoDup (map fst (str_set m k v)).
Proof.
  induction m as [|[i w] m IH]; intros k v N; cbn [str_set map fst] in *; [constructor; [intros []|constructor]|].
  inversion N as [|? ? NI N']; subst. destruct (Z.eqb_spec i k); cbn [map fst]; [subst; now constructor|].
  constructor; [|now apply IH]. intro I. apply str_set_keys in I as [I|I]; [contradiction|congruence].
Qed.
Lemma str_set_in : forall m k v i u, NoDup (map fst m) ->
  (In (i, u) (str_set m k v) <-> (i = k /\ u = v) \/ (i <> k /\ In (i, u) m)).
Proof.
  induction m as [|[j w] m IH]; intros k v i u N; cbn [str_set map fst] in *.
  - cbn [In]. split; [intros [E|[]]; injection E as <- <-; now left|intros [[-> ->]|[_ []]]; now left].
  - inversion N as [|? ? NI N']; subst. destruct (Z.eqb_spec j k) as [->|J]; cbn [In].
    + split.
      * intros [E|I]; [injection E as <- <-; now left|]. right. split; [|now right].
        intros ->. apply NI. apply in_map_iff. now exists (k, u).
      * intros [[-> ->]|[D [E|I]]]; [now left|injection E as -> _; contradiction|now right].
    + rewrite IH by exact N'. split.
      * intros [E|[X|[D X]]]; [injection E as <- <-; right; split; [exact J|now left]|now left|right; auto].
      * intros [X|[D [E|I]]]; [tauto|now left|tauto].
Qed.

(** ** Fields *)
Definition put (m : message) (f : pfield) : message :=
  match f with
  | FCtx v => set_ctx m v
  | FId v => set_id m v
  | FPlural v => set_pl m v
  | FText v => set_str m (str_set (m_str m) 0 v)
  | FForm i v => set_str m (str_set (m_str m) i v)
  end.
Definition puts (m : message) (fs : list pfield) : message := fold_left put fs m.

Lemma text_reads : forall ign fuel last ls v m, field (bs "msgstr") [] ls v -> short fuel ls ->
  mreads ign fuel last ls m (set_str m (str_set (m_str m) 0 v)).
Proof.
  intros ign fuel last ls v m F SH.
  eapply field_reads with (tk := TStr) (tl := TStrL) (put := fun v => set_str m (str_set (m_str m) 0 v));
    [exact F|exact SH|discriminate|reflexivity|discriminate| |reflexivity|reflexivity|reflexivity|reflexivity| |].
  - intros. eapply scan_str; eauto.
  - intros g q w G Q L. cbn [message_step]. rewrite rbind2, (first_line 7) with (w := w) by auto. reflexivity.
  - intros q u w Q L. cbn [message_step]. rewrite (dec_q fuel q w Q L). cbn [rbind].
    change (m_str (set_str m (str_set (m_str m) 0 u))) with (str_set (m_str m) 0 u).
    rewrite str_at_set, str_set_set. reflexivity.
Qed.
(** a form of one line *)
Lemma form_reads_one : forall ign fuel last i l v m, 0 <= i <= maxInt64 ->
  field (bs "msgstr[" ++ utoa i ++ bs "]") [] [l] v -> short fuel [l] ->
  mreads ign fuel last [l] m (set_str m (str_set (m_str m) i v)).
Proof.
  intros ign fuel last i l v m I F SH. inversion F as [l0 g q v0 ls vs P G Q CO E1 E2]; subst.
  inversion CO; subst. pose proof (Forall_inv SH) as FL. cbn beta in FL. set (kw := bs "msgstr[" ++ utoa i ++ bs "]") in *.
  assert (LQ : (length q < fuel)%nat).
  { destruct P as (w1 & w2 & _ & _ & ->). rewrite !app_length in FL. cbn [length] in FL. rewrite !app_length in FL. lia. }
  exists [(TStrP, kw ++ SP :: g ++ q)], TStrP. split; [|split; [|split]].
  - apply scans_line; [exact P| |discriminate|].
    + change (SP :: g ++ q) with ((SP :: g) ++ q). rewrite app_assoc. eapply quoted_solid; [exact Q|discriminate|reflexivity].
    + assert (X : scan_message last (kw ++ SP :: g ++ q) = TStrP) by (eapply scan_strp; eauto; lia).
      rewrite <- X. reflexivity.
  - constructor; [reflexivity|constructor].
  - intros _. discriminate.
  - cbn [brun]. unfold message_step. unfold kw. rewrite plural_index_ok by lia. cbn [rbind].
    rewrite rbind2, (strp_first fuel i g q v0 ltac:(lia) G Q LQ). cbn [rbind concat]. now rewrite app_nil_r.
Qed.
(** a form in its turn *)
Lemma form_reads : forall ign fuel last i ls v m, 0 <= i <= maxInt64 ->
  field (bs "msgstr[" ++ utoa i ++ bs "]") [] ls v -> short fuel ls ->
  (forall u, Z.of_nat (length (str_set (m_str m) i u)) = i + 1) ->
  mreads ign fuel last ls m (set_str m (str_set (m_str m) i v)).
Proof.
  intros ign fuel last i ls v m I F SH LEN.
  eapply field_reads with (tk := TStrP) (tl := TStrPL) (put := fun v => set_str m (str_set (m_str m) i v));
    [exact F|exact SH|discriminate|reflexivity|discriminate| |reflexivity|reflexivity|reflexivity|reflexivity| |].
  - intros. eapply scan_strp; eauto. lia.
  - intros g q w G Q L. unfold message_step. rewrite plural_index_ok by lia. cbn [rbind].
    rewrite rbind2, (strp_first fuel i g q w ltac:(lia) G Q L). reflexivity.
  - intros q u w Q L. unfold message_step. cbv zeta.
    change (m_str (set_str m (str_set (m_str m) i u))) with (str_set (m_str m) i u).
    rewrite LEN. replace (i + 1 - 1) with i by lia. destruct (Z.ltb_spec i 0); [lia|].
    rewrite (dec_q fuel q w Q L). cbn [rbind]. rewrite str_at_set, str_set_set. reflexivity.
Qed.

(** The indices of the map are those given. *)
Definition tracks (before : list pfield) (m : message) : Prop :=
  NoDup (map fst (m_str m)) /\ forall j, In j (map fst (m_str m)) <-> In j (indices before).
Lemma indices_app : forall a b, indices (a ++ b) = indices a ++ indices b.
Proof. intros. apply flat_map_app. Qed.
Lemma tracks_put : forall before m f, tracks before m -> tracks (before ++ [f]) (put m f).
Proof.
  intros before m f [N K]. destruct f as [v|v|v|v|i v]; split; try exact N;
    try (intro j; rewrite indices_app; cbn [indices flat_map app]; rewrite app_nil_r; exact (K j)).
  - cbn [put m_str set_str]. now apply str_set_nodup.
  - intro j. cbn [put m_str set_str]. rewrite str_set_keys, indices_app, K, in_app_iff. cbn. intuition congruence.
  - cbn [put m_str set_str]. now apply str_set_nodup.
  - intro j. cbn [put m_str set_str]. rewrite str_set_keys, indices_app, K, in_app_iff. cbn. intuition congruence.
Qed.
Lemma same_elements : forall (a b : list Z), NoDup a -> NoDup b -> (forall x, In x a <-> In x b) -> length a = length b.
Proof. intros a b A B H. apply Permutation_length. now apply NoDup_Permutation. Qed.

Lemma field_lines_read : forall before f ls, field_lines before f ls -> forall ign fuel last m, short fuel ls ->
  tracks before m -> mreads ign fuel last ls m (put m f).
Proof.
  intros before f ls H ign fuel last m SH TR. destruct H as [v ls F|v ls F|v ls F|v ls F|i v ls I F T].
  - now apply ctx_reads.
  - now apply id_reads.
  - now apply pl_reads.
  - now apply text_reads.
  - destruct T as [T|T].
    + destruct ls as [|l [|? ?]]; try discriminate T. now apply form_reads_one.
    + apply form_reads; try assumption. intro u. rewrite <- T. f_equal. rewrite <- (map_length fst). destruct TR as [N K].
      apply same_elements; [now apply str_set_nodup|apply NoDup_nodup|].
      intro x. rewrite str_set_keys, nodup_In, in_app_iff, K. cbn. intuition congruence.
Qed.
Lemma fields_lines_read : forall before fs ls, fields_lines before fs ls -> forall ign fuel last m, short fuel ls ->
  tracks before m -> mreads ign fuel last ls m (puts m fs).
Proof.
  induction 1 as [|before f fs ls ls' F FS IH]; intros ign fuel last m SH TR; [apply mreads_nil|].
  apply Forall_app in SH as [S1 S2]. cbn [puts fold_left]. apply mreads_app with (b := put m f).
  - eapply field_lines_read; eauto.
  - intro k. apply IH; [exact S2|now apply tracks_put].
Qed.
Lemma field_ne : forall kw cont ls v, field kw cont ls v -> ls <> [].
Proof. intros kw cont ls v []. discriminate. Qed.
Lemma fields_ne : forall before fs ls, fields_lines before fs ls -> (ls = [] <-> fs = []).
Proof.
  intros before fs ls H. destruct H as [|f fs ls ls' F FS]; [tauto|]. split; [|discriminate].
  intro E. apply app_eq_nil in E as [-> _]. exfalso. inversion F as [? ? X|? ? X|? ? X|? ? X|? ? ? ? X ?]; subst; now apply field_ne in X.
Qed.

(** ** Paragraphs *)
Definition par_message (ign : bool) (p : paragraph) : message :=
  puts (set_com new_message (seen_comment ign (com_of (p_items p)))) (p_fields p).
Lemma par_reads : forall ign fuel p ls, paragraph_lines p ls -> short fuel ls -> forall last,
  exists c ct bt k, scans ign last ls (ct ++ bt) k /\ ctoks ct /\ btoks bt /\ (bt = [] <-> p_fields p = []) /\
    crun fuel new_comment ct = Ok c /\ brun fuel (set_com new_message c) bt = Ok (par_message ign p).
Proof.
  intros ign fuel p ls (NE & il & fl & -> & I & F) SH last. apply Forall_app in SH as [S1 S2].
  destruct (items_read ign fuel (p_items p) il I S1 last) as (ct & k & S & C & R).
  assert (T : tracks [] (set_com new_message (com_of (kept ign (p_items p))))).
  { split; [constructor|]. intro j. reflexivity. }
  destruct (fields_lines_read [] _ fl F ign fuel k _ S2 T) as (bt & k' & S' & B & NB & R').
  exists (com_of (kept ign (p_items p))), ct, bt, k'. split; [eapply scans_app; eauto|]. split; [exact C|]. split; [exact B|].
  split.
  { rewrite <- (fields_ne [] _ fl F). split.
    - intro E. subst bt. destruct fl as [|x fl]; [reflexivity|]. exfalso. apply NB; [discriminate|reflexivity].
    - intros ->. specialize (S' false []). cbn [app scan_all] in S'. rewrite app_nil_r in S'. now symmetry. }
  split; [rewrite R, com_of_fold; reflexivity|]. rewrite R'. unfold par_message. now rewrite kept_com.
Qed.
Lemma items_ne : forall is ls, items_lines is ls -> is <> [] -> ls <> [].
Proof.
  intros is ls H N. destruct H as [|i is l ls I H]; [congruence|]. intro E. apply app_eq_nil in E as [-> _].
  inversion I as [| | | | |? ? F|? ? F]; subst; inversion F.
Qed.
Lemma par_ne : forall p ls, paragraph_lines p ls -> ls <> [].
Proof.
  intros p ls ([N|N] & il & fl & -> & I & F) E; apply app_eq_nil in E as [E1 E2].
  - exact (items_ne _ _ I N E1).
  - apply N. now apply (fields_ne [] _ fl F).
Qed.

(** parseMessage on a paragraph that is ended by a line. *)
Lemma par_sep : forall ign fuel p ls w, paragraph_lines p ls -> short fuel ls -> separates ign p w -> (length w < fuel)%nat ->
  forall last blank rest, exists toks t k b,
    scan_all ign last blank (ls ++ w :: rest) = toks ++ t :: scan_all ign k b rest /\
    parse_message fuel (toks ++ t :: scan_all ign k b rest) = Ok (Some (par_message ign p, scan_all ign k b rest, false)).
Proof.
  intros ign fuel p ls w PL SH SEP LW last blank rest. pose proof (par_ne p ls PL) as N.
  destruct (par_reads ign fuel p ls PL SH last) as (c & ct & bt & k0 & S & C & B & EM & R1 & R2).
  destruct SEP as [P|(NF & i & E & L)].
  - exists (ct ++ bt), (TWs, []), TWs, true. rewrite S. destruct ls as [|l ls]; [congruence|].
    rewrite scan_blank_first by exact P. split; [reflexivity|]. rewrite <- app_assoc. destruct bt as [|[k1 l1] bt].
    + cbn [app]. rewrite parse_message_app by (assumption || reflexivity || discriminate).
      rewrite R1. cbn [rbind brun] in *. injection R2 as <-. reflexivity.
    + pose proof (Forall_inv B) as K. cbn [fst] in K. change (((k1, l1) :: bt) ++ (TWs, []) :: scan_all ign TWs true rest)
        with ((k1, l1) :: bt ++ (TWs, []) :: scan_all ign TWs true rest).
      rewrite parse_message_app; [|exact C|destruct k1; try discriminate K; reflexivity|destruct k1; discriminate].
      rewrite R1. cbn [rbind].
      change ((k1, l1) :: bt ++ (TWs, []) :: scan_all ign TWs true rest)
        with (((k1, l1) :: bt) ++ (TWs, []) :: scan_all ign TWs true rest).
      rewrite parse_body_app by exact B. rewrite R2. reflexivity.
  - destruct (sep_token ign fuel k0 i w E L LW) as (k & t & k' & K & SC).
    exists (ct ++ bt), (k, t), k', false. rewrite S, SC. split; [reflexivity|].
    rewrite <- app_assoc. destruct bt as [|[k1 l1] bt]; [now elim NF; apply EM|].
    pose proof (Forall_inv B) as K1. cbn [fst] in K1.
    change (((k1, l1) :: bt) ++ (k, t) :: scan_all ign k' false rest)
      with ((k1, l1) :: bt ++ (k, t) :: scan_all ign k' false rest).
    rewrite parse_message_app; [|exact C|destruct k1; try discriminate K1; reflexivity|destruct k1; discriminate].
    rewrite R1. cbn [rbind].
    change ((k1, l1) :: bt ++ (k, t) :: scan_all ign k' false rest)
      with (((k1, l1) :: bt) ++ (k, t) :: scan_all ign k' false rest).
    rewrite parse_body_app by exact B. rewrite R2. cbn [rbind parse_body]. rewrite K. destruct k; try discriminate K; reflexivity.
Qed.
Lemma par_eof : forall ign fuel p ls, paragraph_lines p ls -> short fuel ls -> forall last blank,
  (p_fields p <> [] -> scan_all ign last blank ls <> []) /\
  parse_message fuel (scan_all ign last blank ls) =
  Ok (match p_fields p with [] => None | _ => Some (par_message ign p, [], true) end).
Proof.
  intros ign fuel p ls PL SH last blank.
  destruct (par_reads ign fuel p ls PL SH last) as (c & ct & bt & k0 & S & C & B & EM & R1 & R2).
  specialize (S blank []). cbn [scan_all] in S. rewrite !app_nil_r in S. rewrite S. split.
  { intros N E. apply app_eq_nil in E as [_ E]. now apply N, EM. }
  destruct bt as [|[k1 l1] bt].
  - rewrite (proj1 EM eq_refl). rewrite app_nil_r. destruct ct as [|[k2 l2] ct]; [reflexivity|].
    pose proof (Forall_inv C) as K. cbn [fst] in K. unfold parse_message. cbv beta iota. rewrite K.
    rewrite <- (app_nil_r ((k2, l2) :: ct)), parse_comment_app by exact C. rewrite R1. reflexivity.
  - pose proof (Forall_inv B) as K. cbn [fst] in K.
    rewrite parse_message_app; [|exact C|destruct k1; try discriminate K; reflexivity|destruct k1; discriminate].
    rewrite R1. cbn [rbind]. rewrite <- (app_nil_r ((k1, l1) :: bt)), parse_body_app by exact B. rewrite R2.
    cbn [rbind parse_body]. destruct (p_fields p) eqn:E; [|reflexivity]. discriminate (proj2 EM eq_refl).
Qed.

(** ** Files *)
Fixpoint result (h : option header) (ms todo : list message) : res pofile :=
  match todo with
  | [] => finish h ms
  | m :: todo' =>
      if is_nil (m_id m) then
        if is_nil (m_str m) then result h ms todo'
        else match h with Some _ => Err | None => result (parse_header m) ms todo' end
      else if existsb (same_key m) ms then Err else result h (ms ++ [m]) todo'
  end.
Theorem pars_parse : forall ign fuel ps ls, paragraphs ign ps ls -> short fuel ls ->
  forall last blank h ms n, (length (scan_all ign last blank ls) < n)%nat ->
  parse_file fuel n h ms (scan_all ign last blank ls) = result h ms (map (par_message ign) ps).
Proof.
  intros ign fuel. induction 1 as [pre F|p pre ls F PL|p ps pre ls w rest F PL SE L IH]; intros SH last blank h ms.
  - rewrite <- (app_nil_r pre). destruct (scan_pre ign last blank pre [] F) as (last' & blank' & ws & -> & W).
    apply parse_pre; [exact W|]. intros n Hn. destruct n as [|n]; [cbn in Hn; lia|]. reflexivity.
  - apply Forall_app in SH as [_ SH].
    destruct (scan_pre ign last blank pre ls F) as (last' & blank' & ws & -> & W).
    apply parse_pre; [exact W|]. intros n Hn. destruct n as [|n]; [lia|].
    destruct (par_eof ign fuel p ls PL SH last' blank') as [NE EP].
    rewrite parse_file_step, EP. cbn [rbind map result]. destruct (p_fields p) as [|f fs] eqn:EF.
    + unfold par_message. rewrite EF. reflexivity.
    + assert (1 <= n)%nat.
      { destruct (scan_all ign last' blank' ls); [exfalso; apply NE; [discriminate|reflexivity]|cbn [length] in Hn; lia]. }
      destruct n as [|n]; [lia|]. unfold round. set (m := par_message ign p).
      destruct (is_nil (m_id m)); [|reflexivity]. destruct (is_nil (m_str m)); [reflexivity|]. destruct h; reflexivity.
  - apply Forall_app in SH as [_ SH]. apply Forall_app in SH as [SH1 SH2].
    pose proof (Forall_inv SH2) as SHw. apply Forall_inv_tail in SH2. cbv beta in SHw.
    destruct (scan_pre ign last blank pre (ls ++ w :: rest) F) as (last' & blank' & ws & -> & W).
    apply parse_pre; [exact W|]. intros n Hn.
    destruct (par_sep ign fuel p ls w PL SH1 SE SHw last' blank' rest) as (toks & t & k & b & ES & EP).
    rewrite ES in *. destruct n as [|n]; [lia|].
    rewrite parse_file_step, EP. cbn [rbind map result]. rewrite app_length in Hn. cbn [length] in Hn.
    unfold round. set (m := par_message ign p).
    destruct (is_nil (m_id m)).
    + destruct (is_nil (m_str m)); [apply IH; [exact SH2|lia]|]. destruct h; [reflexivity|apply IH; [exact SH2|lia]].
    + destruct (existsb (same_key m) ms); [reflexivity|]. apply IH; [exact SH2|lia].
Qed.
Lemma fields_ok : forall before fs ls, fields_lines before fs ls -> Forall ok_line ls.
Proof.
  induction 1 as [|before f fs ls ls' F FS IH]; [constructor|]. apply Forall_app. split; [|exact IH].
  destruct F as [v ls F|v ls F|v ls F|v ls F|i v ls I F T]; (eapply field_ok; [exact F|discriminate|reflexivity|now left]).
Qed.
Lemma pars_ok : forall ign ps ls, paragraphs ign ps ls -> Forall ok_line ls.
Proof.
  assert (PO : forall p ls, paragraph_lines p ls -> Forall ok_line ls).
  { intros p ls (_ & il & fl & -> & I & F). apply Forall_app. split; [exact (items_ok _ _ I)|exact (fields_ok _ _ _ F)]. }
  intros ign. induction 1 as [pre F|p pre ls F PL|p ps pre ls w rest F PL SE L IH].
  - eapply Forall_impl; [|exact F]. exact ok_blank.
  - apply Forall_app. split; [eapply Forall_impl; [|exact F]; exact ok_blank|eauto].
  - apply Forall_app. split; [eapply Forall_impl; [|exact F]; exact ok_blank|]. apply Forall_app. split; [eauto|].
    constructor; [|exact IH]. destruct SE as [P|(_ & i & _ & IL)]; [now apply ok_blank|]. exact (Forall_inv (item_ok i [w] IL)).
Qed.
Theorem pars_file : forall ign ps ls s fuel, paragraphs ign ps ls -> text_of ls s -> (length s < fuel)%nat ->
  parse_po_fuel fuel ign s = result None [] (map (par_message ign) ps).
Proof.
  intros ign ps ls s fuel L T F. unfold parse_po_fuel. cbv zeta. rewrite (file_lines_ok ls s T).
  rewrite (scan_trim ign (map drop_cr ls) ls).
  2: { rewrite map_map. apply map_ext_in. intros l I. apply trim_drop_cr.
       pose proof (pars_ok ign ps ls L) as O. rewrite Forall_forall in O. now apply O. }
  pose proof (pars_parse ign fuel ps ls L (text_short ls s fuel T F) TEof false None []) as P.
  destruct (scan_all ign TEof false ls) as [|t ts] eqn:E.
  - rewrite <- (P 1%nat) by (cbn; lia). reflexivity.
  - apply P. lia.
Qed.

(** ** What the message of a paragraph says *)
Lemma last_snoc : forall pick fs f v, last_value_of pick (fs ++ [f]) v <->
  pick f = Some v \/ (pick f = None /\ last_value_of pick fs v).
Proof.
  intros pick fs f v. split.
  - intros (a & g & b & E & P & N). destruct b as [|x b _] using rev_ind.
    + apply app_inj_tail in E as [_ ->]. now left.
    + rewrite app_comm_cons, app_assoc in E. apply app_inj_tail in E as [-> ->]. apply Forall_app in N as [N NX].
      right. split; [exact (Forall_inv NX)|]. now exists a, g, b.
  - intros [P|[N (a & g & b & -> & P & NB)]].
    + exists fs, f, []. auto.
    + exists a, g, (b ++ [f]). split; [now rewrite <- app_assoc|]. split; [exact P|].
      apply Forall_app. split; [exact NB|constructor; [exact N|constructor]].
Qed.
Lemma last_or_none_snoc : forall pick fs f v, last_or_none pick fs v ->
  last_or_none pick (fs ++ [f]) (match pick f with Some u => u | None => v end).
Proof.
  intros pick fs f v H. unfold last_or_none. destruct (pick f) as [u|] eqn:P.
  - left. apply last_snoc. now left.
  - destruct H as [H|[-> H]]; [left; apply last_snoc; auto|]. right. split; [reflexivity|].
    apply Forall_app. split; [exact H|now constructor; [|constructor]].
Qed.
Lemma par_says : forall p, says p (par_message false p).
Proof.
  intros [is fs]. unfold says, par_message. cbn [p_items p_fields seen_comment]. set (m0 := set_com new_message (com_of is)).
  induction fs as [|f fs (CO & CT & ID & PL & ND & ST)] using rev_ind.
  - cbn [puts fold_left]. split; [reflexivity|]. repeat (split; [right; split; [reflexivity|constructor]|]).
    split; [constructor|]. intros i v. split; [intros []|]. intros (a & g & b & E & _). destruct a; discriminate.
  - assert (E : puts m0 (fs ++ [f]) = put (puts m0 fs) f) by apply fold_left_app. rewrite E.
    set (m := puts m0 fs) in *.
    split; [destruct f; exact CO|].
    split; [pose proof (last_or_none_snoc ctx_of fs f _ CT) as X; destruct f; exact X|].
    split; [pose proof (last_or_none_snoc id_of fs f _ ID) as X; destruct f; exact X|].
    split; [pose proof (last_or_none_snoc plural_of fs f _ PL) as X; destruct f; exact X|].
    split; [destruct f; cbn [put set_ctx set_id set_pl set_str m_str]; try exact ND; now apply str_set_nodup|].
    intros i v. rewrite last_snoc, <- ST.
    destruct f as [u|u|u|u|j u]; cbn [put set_ctx set_id set_pl set_str m_str form_of];
      try (split; [now right|intros [X|[_ X]]; [discriminate|exact X]]).
    + rewrite str_set_in by exact ND. destruct (Z.eq_dec i 0) as [->|D].
      * split; [intros [[_ ->]|[X _]]; [now left|congruence]|intros [X|[X _]]; [injection X as ->; now left|discriminate]].
      * split; [intros [[X _]|[_ X]]; [contradiction|now right]|intros [X|[_ X]]; [discriminate|now right]].
    + rewrite str_set_in by exact ND. destruct (Z.eq_dec i j) as [->|D].
      * split; [intros [[_ ->]|[X _]]; [now left|congruence]|intros [X|[X _]]; [injection X as ->; now left|discriminate]].
      * split; [intros [[X _]|[_ X]]; [contradiction|now right]|intros [X|[_ X]]; [discriminate|now right]].
Qed.
Lemma last_unique : forall pick fs u v, last_value_of pick fs u -> last_value_of pick fs v -> u = v.
Proof.
  intros pick fs. induction fs as [|f fs IH] using rev_ind; intros u v U V.
  - destruct U as (a & g & b & E & _). destruct a; discriminate.
  - apply last_snoc in U. apply last_snoc in V. destruct U as [U|[N U]], V as [V|[N' V]]; try congruence. now apply IH.
Qed.
Lemma none_last : forall pick fs v, Forall (fun g => pick g = None) fs -> ~ last_value_of pick fs v.
Proof.
  intros pick fs v N (a & g & b & -> & P & _). apply Forall_app in N as [_ N]. apply Forall_inv in N. congruence.
Qed.
Lemma last_or_none_unique : forall pick fs u v, last_or_none pick fs u -> last_or_none pick fs v -> u = v.
Proof.
  intros pick fs u v [U|[-> U]] [V|[-> V]]; [eapply last_unique; eauto| | |reflexivity].
  - exfalso. eapply none_last; eauto.
  - exfalso. eapply none_last; eauto.
Qed.

Definition with_id (ms : list message) : list message := filter (fun m => negb (is_nil (m_id m))) ms.
Lemma is_nil_false : forall A (l : list A), is_nil l = false <-> l <> [].
Proof. intros A [|x l]; cbn; split; congruence. Qed.
Lemma entries_par : forall ps, entries_of ps (with_id (map (par_message false) ps)).
Proof.
  induction ps as [|p ps IH]; [constructor|]. cbn [map with_id filter]. pose proof (par_says p) as S.
  destruct (m_id (par_message false p)) eqn:E; cbn [is_nil negb].
  - constructor; [|exact IH]. rewrite <- E. apply S.
  - constructor; [exact S|congruence|exact IH].
Qed.
Lemma entries_keys : forall ps ms, entries_of ps ms -> map key ms = map key (with_id (map (par_message false) ps)).
Proof.
  induction 1 as [|p ps ms S E IH|p ps m ms S N E IH]; [reflexivity| |]; cbn [map with_id filter];
    pose proof (par_says p) as (_ & C' & I' & _).
  - rewrite (last_or_none_unique id_of _ _ _ I' S). cbn [is_nil negb]. exact IH.
  - destruct S as (_ & C & I & _). pose proof (last_or_none_unique id_of _ _ _ I' I) as EI.
    rewrite EI. replace (is_nil (m_id m)) with false by (symmetry; now apply is_nil_false). cbn [negb map].
    rewrite IH. f_equal. unfold key. now rewrite EI, (last_or_none_unique ctx_of _ _ _ C' C).
Qed.

Lemma result_messages : forall todo h ms f, result h ms todo = Ok f -> f_messages f = ms ++ with_id todo.
Proof.
  induction todo as [|m todo IH]; intros h ms f H; cbn [result with_id filter] in *.
  - rewrite app_nil_r. unfold finish in H. destruct h; [|destruct ms]; try discriminate; injection H as <-; reflexivity.
  - destruct (is_nil (m_id m)); cbn [negb].
    + destruct (is_nil (m_str m)); [now apply IH in H|]. destruct h; [discriminate|now apply IH in H].
    + destruct (existsb (same_key m) ms); [discriminate|]. apply IH in H. rewrite H, <- app_assoc. reflexivity.
Qed.
Lemma result_dup : forall todo h ms, NoDup (map key ms) -> ~ NoDup (map key ms ++ map key (with_id todo)) ->
  result h ms todo = Err.
Proof.
  induction todo as [|m todo IH]; intros h ms N D; cbn [result with_id filter] in *.
  - cbn [map] in D. rewrite app_nil_r in D. contradiction.
  - destruct (is_nil (m_id m)); cbn [negb] in D.
    + destruct (is_nil (m_str m)); [now apply IH|]. destruct h; [reflexivity|now apply IH].
    + destruct (existsb (same_key m) ms) eqn:X; [reflexivity|].
      assert (NI : ~ In (key m) (map key ms)) by (intro I; apply exists_key in I; congruence).
      apply IH.
      * rewrite map_app. cbn [map]. apply (Permutation_NoDup (Permutation_cons_append _ _)). now constructor.
      * rewrite map_app, <- app_assoc. exact D.
Qed.
(** the messages read as headers *)
Definition heads (ms : list message) : list message := filter (fun m => is_nil (m_id m) && negb (is_nil (m_str m))) ms.
Lemma result_ok : forall todo h ms, NoDup (map key ms ++ map key (with_id todo)) ->
  (length (heads todo) + given h <= 1)%nat -> (ms <> [] \/ with_id todo <> [] \/ h <> None) -> exists f, result h ms todo = Ok f.
Proof.
  induction todo as [|m todo IH]; intros h ms N L NE; cbn [result with_id heads filter] in *.
  - unfold finish. destruct h; [eauto|]. destruct ms; [|eauto]. destruct NE as [NE|[NE|NE]]; congruence.
  - destruct (is_nil (m_id m)); cbn [negb andb] in *.
    + destruct (is_nil (m_str m)); cbn [negb] in *; [now apply IH|]. fold (heads todo) in L. cbn [length] in L.
      destruct h; [cbn [given] in L; lia|]. apply IH; [exact N|destruct (parse_header m); cbn [given] in *; lia|].
      destruct NE as [NE|[NE|NE]]; [now left|right; now left|congruence].
    + destruct (existsb (same_key m) ms) eqn:X.
      * apply exists_key in X. cbn [map] in N. apply NoDup_remove_2 in N. exfalso. apply N. apply in_or_app. now left.
      * apply IH; [rewrite map_app, <- app_assoc; exact N|exact L|]. left. destruct ms; discriminate.
Qed.
Lemma par_str_nil : forall p, is_nil (m_str (par_message false p)) = true <-> indices (p_fields p) = [].
Proof.
  intro p. assert (T : tracks (p_fields p) (par_message false p)).
  { unfold par_message. destruct p as [is fs]. cbn [p_fields p_items seen_comment].
    induction fs as [|f fs IH] using rev_ind; [split; [constructor|intro; reflexivity]|].
    replace (puts (set_com new_message (com_of is)) (fs ++ [f])) with (put (puts (set_com new_message (com_of is)) fs) f)
      by (symmetry; apply fold_left_app). now apply tracks_put. }
  destruct T as [_ K]. destruct (m_str (par_message false p)) as [|[j v] s]; cbn [is_nil].
  - split; [|reflexivity]. intros _. destruct (indices (p_fields p)) as [|x l]; [reflexivity|].
    exfalso. specialize (K x). cbn in K. apply K. now left.
  - split; [discriminate|]. intro E. exfalso. specialize (K j). rewrite E in K. cbn in K. apply K. now left.
Qed.
Lemma count_heads : forall ps n, header_count ps n -> length (heads (map (par_message false) ps)) = n.
Proof.
  induction 1 as [|p ps n v V N H IH|p ps n E H IH|p ps n E N H IH]; [reflexivity| | |]; cbn [map heads filter];
    pose proof (par_says p) as (_ & _ & I & _).
  - assert (E : m_id (par_message false p) = v) by (eapply last_or_none_unique; [exact I|now left]).
    rewrite E. replace (is_nil v) with false by (symmetry; now apply is_nil_false). cbn [andb]. exact IH.
  - replace (is_nil (m_str (par_message false p))) with true by (symmetry; now apply par_str_nil).
    rewrite andb_false_r. exact IH.
  - rewrite (last_or_none_unique _ _ _ _ I E). destruct (is_nil (m_str (par_message false p))) eqn:X.
    + apply par_str_nil in X. contradiction.
    + cbn [is_nil negb andb length]. fold (heads (map (par_message false) ps)). now rewrite IH.
Qed.

(** ** Comments ignored *)
Lemma puts_seen : forall fs m, seen_message true (puts m fs) = puts (seen_message true m) fs.
Proof.
  induction fs as [|f fs IH]; intro m; [reflexivity|]. cbn [puts fold_left]. fold (puts (put m f) fs).
  rewrite IH. destruct f; reflexivity.
Qed.
Lemma par_seen : forall p, par_message true p = seen_message true (par_message false p).
Proof. intro p. unfold par_message. rewrite puts_seen. reflexivity. Qed.
Lemma result_seen : forall todo h ms,
  result (option_map seen_header h) (map (seen_message true) ms) (map (seen_message true) todo) =
  match result h ms todo with
  | Ok f => Ok (PoFile (seen_header (f_header f)) (map (seen_message true) (f_messages f)))
  | x => x
  end.
Proof.
  induction todo as [|m todo IH]; intros h ms; cbn [map result].
  - unfold finish. destruct h as [h|]; [reflexivity|]. destruct ms; reflexivity.
  - change (m_id (seen_message true m)) with (m_id m). change (m_str (seen_message true m)) with (m_str m).
    destruct (is_nil (m_id m)).
    + destruct (is_nil (m_str m)); [apply IH|]. destruct h as [h|]; [reflexivity|]. cbn [option_map].
      rewrite <- IH. f_equal. unfold parse_header. change (m_str (seen_message true m)) with (m_str m).
      destruct (header_lines new_header (split_on LF (str_at (m_str m) 0))); reflexivity.
    + rewrite existsb_seen.
      assert (E : existsb (same_key m) (map (seen_message true) ms) = existsb (same_key m) ms).
      { clear. induction ms as [|x l IHl]; [reflexivity|]. cbn [map existsb]. now rewrite IHl. }
      rewrite E. destruct (existsb (same_key m) ms); [reflexivity|]. rewrite <- IH, map_app. reflexivity.
Qed.
