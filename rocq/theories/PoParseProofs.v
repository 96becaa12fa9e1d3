(** Entries, blocks and files of the PO line grammar: what the parser makes
    of them. *)
From Coq Require Import String Ascii List ZArith Bool Lia ZifyBool.
From Verif Require Import Base BaseProofs Utf8Model Utf8Proofs StrModel ReModel ReProofs PoStrModel
  PoStrSpec PoStrProofs PoDecodeProofs PoFileModel PoFileSpec TrimProofs PoScanProofs PoItemProofs.
Import ListNotations.
Open Scope Z_scope.

(** ** Tokens of a message body *)
Definition is_body (k : ptok) : bool :=
  match k with
  | TCtx | TCtxL | TId | TIdL | TPl | TPlL | TStr | TStrL | TStrP | TStrPL => true
  | _ => false
  end.
Definition btoks (ts : list (ptok * bytes)) : Prop := Forall (fun t => is_body (fst t) = true) ts.
Fixpoint brun (fuel : nat) (m : message) (ts : list (ptok * bytes)) : res message :=
  match ts with
  | [] => Ok m
  | (k, l) :: ts' => do m' <- message_step fuel m k l ; brun fuel m' ts'
  end.
Lemma brun_app : forall fuel ts ts' m, brun fuel m (ts ++ ts') = do m' <- brun fuel m ts ; brun fuel m' ts'.
Proof.
  induction ts as [|[k l] ts IH]; intros ts' m; cbn [app brun]; [reflexivity|].
  destruct (message_step fuel m k l); cbn [rbind]; [apply IH|reflexivity..].
Qed.
Lemma parse_body_app : forall fuel ts rest m, btoks ts ->
  parse_body fuel m (ts ++ rest) = do m' <- brun fuel m ts ; parse_body fuel m' rest.
Proof.
  induction ts as [|[k l] ts IH]; intros rest m B; [reflexivity|].
  inversion B as [|? ? K B']; subst. cbn [fst] in K. cbn [app parse_body brun].
  assert (X : is_comment k = false) by (destruct k; try discriminate K; reflexivity).
  assert (Y : parse_body fuel m ((k, l) :: ts ++ rest) =
    do m' <- message_step fuel m k l ; parse_body fuel m' (ts ++ rest)).
  { cbn [parse_body]. rewrite X. destruct k; try discriminate K; reflexivity. }
  cbn [parse_body] in Y. rewrite Y. destruct (message_step fuel m k l); cbn [rbind]; [now apply IH|reflexivity..].
Qed.
Lemma parse_comment_app : forall fuel ts rest c, ctoks ts ->
  parse_comment fuel c (ts ++ rest) = do c' <- crun fuel c ts ; parse_comment fuel c' rest.
Proof.
  induction ts as [|[k l] ts IH]; intros rest c B; [reflexivity|].
  inversion B as [|? ? K B']; subst. cbn [fst] in K. cbn [app parse_comment crun]. rewrite K.
  replace (match k with TFail => Err | _ =>
    do c' <- comment_step fuel c k l; parse_comment fuel c' (ts ++ rest) end)
    with (do c' <- comment_step fuel c k l; parse_comment fuel c' (ts ++ rest))
    by (destruct k; try discriminate K; reflexivity).
  destruct (comment_step fuel c k l); cbn [rbind]; [now apply IH|reflexivity..].
Qed.
Lemma parse_message_app : forall fuel ct k l ts, ctoks ct -> is_comment k = false -> k <> TFail ->
  parse_message fuel (ct ++ (k, l) :: ts) =
  do c <- crun fuel new_comment ct ;
  do r <- parse_body fuel (set_com new_message c) ((k, l) :: ts) ; Ok (Some r).
Proof.
  intros fuel ct k l ts C K NF. destruct ct as [|[k0 l0] ct].
  - cbn [app crun rbind parse_message]. rewrite K. reflexivity.
  - pose proof (Forall_inv C) as K0. cbn [fst] in K0. unfold parse_message.
    change (((k0, l0) :: ct) ++ (k, l) :: ts) with ((k0, l0) :: ct ++ (k, l) :: ts). cbv beta iota. rewrite K0.
    change ((k0, l0) :: ct ++ (k, l) :: ts) with (((k0, l0) :: ct) ++ (k, l) :: ts).
    rewrite parse_comment_app by exact C. destruct (crun fuel new_comment ((k0, l0) :: ct)); cbn [rbind]; try reflexivity.
    cbn [parse_comment]. rewrite K. destruct k; try congruence; reflexivity.
Qed.

(** lines read as a message: from m to m' *)
Definition mreads (ign : bool) (fuel : nat) (last : ptok) (ls : list bytes) (m m' : message) : Prop :=
  exists ts k, scans ign last ls ts k /\ btoks ts /\ (ls <> [] -> ts <> []) /\ brun fuel m ts = Ok m'.
Lemma mreads_nil : forall ign fuel last m, mreads ign fuel last [] m m.
Proof. intros. exists [], last. split; [apply scans_nil|]. split; [constructor|]. split; [auto|reflexivity]. Qed.
Lemma mreads_app : forall ign fuel last ls ls' a b c, mreads ign fuel last ls a b ->
  (forall k, mreads ign fuel k ls' b c) -> mreads ign fuel last (ls ++ ls') a c.
Proof.
  intros ign fuel last ls ls' a b c (ts & k & S & B & N & R) H. destruct (H k) as (ts' & k' & S' & B' & N' & R').
  exists (ts ++ ts'), k'. split; [eapply scans_app; eauto|]. split; [now apply Forall_app|]. split.
  - intros X E. apply app_eq_nil in E as [-> ->]. apply X. destruct ls as [|l ls]; [|exfalso; apply N; [discriminate|reflexivity]].
    destruct ls' as [|l ls']; [reflexivity|exfalso; apply N'; [discriminate|reflexivity]].
  - rewrite brun_app, R. exact R'.
Qed.

(** a field with its continuation lines *)
Lemma field_reads : forall ign fuel last kw ls v tk tl m (put : bytes -> message),
  field kw [] ls v -> short fuel ls -> kw <> [] -> solid (hd NUL kw) = true -> hd NUL kw <> "#"%char ->
  (forall g q w, gap g -> quoted_text q w -> scan_message last (kw ++ SP :: g ++ q) = tk) ->
  is_body tk = true -> cont_tok tk = tl -> cont_tok tl = tl -> is_body tl = true ->
  (forall g q w, gap g -> quoted_text q w -> (length q < fuel)%nat ->
     message_step fuel m tk (kw ++ SP :: g ++ q) = Ok (put w)) ->
  (forall q u w, quoted_text q w -> (length q < fuel)%nat ->
     message_step fuel (put u) tl q = Ok (put (u ++ w))) ->
  mreads ign fuel last ls m (put v).
Proof.
  intros ign fuel last kw ls v tk tl m put F SH NK SO NH SC BK T1 T2 BL ST1 ST2.
  destruct F as [l g q v ls vs P G Q CO]. pose proof (Forall_inv SH) as FL. pose proof (Forall_inv_tail SH) as SH'.
  cbn beta in FL.
  assert (CL : clean (kw ++ SP :: g ++ q)).
  { change (SP :: g ++ q) with ((SP :: g) ++ q). rewrite app_assoc. eapply quoted_solid; [exact Q| |].
    - destruct kw; [congruence|discriminate].
    - destruct kw; [congruence|exact SO]. }
  assert (LQ : (length q < fuel)%nat).
  { destruct P as (w1 & w2 & _ & _ & ->). rewrite !app_length in FL. cbn [length] in FL.
    rewrite !app_length in FL. lia. }
  assert (CONT : forall vs ls, Forall2 (cont_line []) ls vs -> short fuel ls -> forall last u,
    cont_tok last = tl -> exists ts k, scans ign last ls ts k /\ btoks ts /\ brun fuel (put u) ts = Ok (put (u ++ concat vs))).
  { clear - T2 BL ST2. induction vs as [|v vs IH]; intros ls CO SH last u T.
    - inversion CO; subst. exists [], last. split; [apply scans_nil|]. split; [constructor|].
      cbn [brun concat]. now rewrite app_nil_r.
    - inversion CO as [|l ? ls' ? (q & Q & g & G & NG & P) CO']; subst. rewrite (NG eq_refl) in P. cbn [app] in P.
      pose proof (Forall_inv SH) as FL. pose proof (Forall_inv_tail SH) as SH'. cbn beta in FL.
      assert (LQ : (length q < fuel)%nat).
      { destruct P as (w1 & w2 & _ & _ & ->). rewrite !app_length in FL. lia. }
      destruct (IH ls' CO' SH' (cont_tok last) (u ++ v) T2) as (ts & k & S & B & R).
      exists ([(cont_tok last, q)] ++ ts), k. split; [|split].
      + change (l :: ls') with ([l] ++ ls'). apply (scans_app ign last [l] _ (cont_tok last)); [|exact S].
        apply scans_line; [exact P|exact (quoted_clean q v Q)|exact (quoted_ne q v Q)|].
        rewrite <- (scan_cont last q v Q). destruct Q as (b & -> & _). reflexivity.
      + constructor; [exact BL|exact B].
      + cbn [app brun]. rewrite (ST2 q u v Q LQ). cbn [rbind]. rewrite R. cbn [concat]. now rewrite app_assoc. }
  destruct (CONT vs ls CO SH' tk v T1) as (ts & k & S & B & R).
  exists ([(tk, kw ++ SP :: g ++ q)] ++ ts), k. split; [|split; [|split]].
  - change (l :: ls) with ([l] ++ ls). apply (scans_app ign last [l] _ tk); [|exact S].
    apply scans_line; [exact P|exact CL| |].
    + destruct kw; [congruence|discriminate].
    + rewrite <- (SC g q v G Q). destruct kw as [|a kw]; [congruence|]. cbn [app scan_line hd] in *.
      destruct (Ascii.eqb_spec a "#"); [contradiction|reflexivity].
  - constructor; [exact BK|exact B].
  - intros _. discriminate.
  - cbn [app brun]. rewrite (ST1 g q v G Q LQ). cbn [rbind]. exact R.
Qed.

Lemma gap_quote : forall g, gap g -> ~ In QUOTE g.
Proof. intros g G. apply gap_no; [exact G|discriminate|discriminate]. Qed.
Lemma gap_lf : forall g, gap g -> ~ In LF g.
Proof. intros g G. apply gap_no; [exact G|discriminate|discriminate]. Qed.
(** the first line of a field, [n] bytes cut off *)
Lemma first_line : forall n a fuel g q w, gap g -> quoted_text q w -> (length q < fuel)%nat ->
  length (a ++ [SP]) = n -> (do x <- from n (a ++ SP :: g ++ q) ; dec fuel x) = Ok w.
Proof.
  intros n a fuel g q w G Q L E. change (SP :: g ++ q) with ([SP] ++ g ++ q). rewrite app_assoc, from_app by lia.
  rewrite <- E, skipn_all. cbn [rbind app]. apply dec_quoted; [now apply gap_quote|now apply gap_lf|exact Q|exact L].
Qed.
Lemma rbind2 : forall A B C (a : res A) (f : A -> res B) (g : B -> res C),
  (do x <- a ; do y <- f x ; g y) = do y <- (do x <- a ; f x) ; g y.
Proof. intros. destruct a; reflexivity. Qed.

Lemma ctx_reads : forall ign fuel last ls v m, field (bs "msgctxt") [] ls v -> short fuel ls ->
  mreads ign fuel last ls m (set_ctx m v).
Proof.
  intros ign fuel last ls v m F SH. eapply field_reads with (tk := TCtx) (tl := TCtxL) (put := set_ctx m);
    [exact F|exact SH|discriminate|reflexivity|discriminate| |reflexivity|reflexivity|reflexivity|reflexivity| |].
  - intros. eapply scan_ctx; eauto.
  - intros g q w G Q L. cbn [message_step]. rewrite rbind2, (first_line 8) with (w := w) by auto. reflexivity.
  - intros q u w Q L. cbn [message_step]. rewrite (dec_q fuel q w Q L). reflexivity.
Qed.
Lemma id_reads : forall ign fuel last ls v m, field (bs "msgid") [] ls v -> short fuel ls ->
  mreads ign fuel last ls m (set_id m v).
Proof.
  intros ign fuel last ls v m F SH. eapply field_reads with (tk := TId) (tl := TIdL) (put := set_id m);
    [exact F|exact SH|discriminate|reflexivity|discriminate| |reflexivity|reflexivity|reflexivity|reflexivity| |].
  - intros. eapply scan_id; eauto.
  - intros g q w G Q L. cbn [message_step]. rewrite rbind2, (first_line 6) with (w := w) by auto. reflexivity.
  - intros q u w Q L. cbn [message_step]. rewrite (dec_q fuel q w Q L). reflexivity.
Qed.
Lemma pl_reads : forall ign fuel last ls v m, field (bs "msgid_plural") [] ls v -> short fuel ls ->
  mreads ign fuel last ls m (set_pl m v).
Proof.
  intros ign fuel last ls v m F SH. eapply field_reads with (tk := TPl) (tl := TPlL) (put := set_pl m);
    [exact F|exact SH|discriminate|reflexivity|discriminate| |reflexivity|reflexivity|reflexivity|reflexivity| |].
  - intros. eapply scan_pl; eauto.
  - intros g q w G Q L. cbn [message_step]. rewrite rbind2, (first_line 13) with (w := w) by auto. reflexivity.
  - intros q u w Q L. cbn [message_step]. rewrite (dec_q fuel q w Q L). reflexivity.
Qed.
Lemma str_reads : forall ign fuel last ls v m, field (bs "msgstr") [] ls v -> short fuel ls -> m_str m = [] ->
  mreads ign fuel last ls m (set_str m [(0, v)]).
Proof.
  intros ign fuel last ls v m F SH E.
  eapply field_reads with (tk := TStr) (tl := TStrL) (put := fun v => set_str m [(0, v)]);
    [exact F|exact SH|discriminate|reflexivity|discriminate| |reflexivity|reflexivity|reflexivity|reflexivity| |].
  - intros. eapply scan_str; eauto.
  - intros g q w G Q L. cbn [message_step]. rewrite rbind2, (first_line 7) with (w := w) by auto. rewrite E. reflexivity.
  - intros q u w Q L. cbn [message_step]. rewrite (dec_q fuel q w Q L). reflexivity.
Qed.

(** ** Plural forms *)
Lemma str_set_new : forall m k v, ~ In k (map fst m) -> str_set m k v = m ++ [(k, v)].
Proof.
  induction m as [|[j w] m IH]; intros k v N; [reflexivity|]. cbn [str_set map fst In] in *.
  destruct (Z.eqb_spec j k); [exfalso; apply N; now left|]. rewrite IH by tauto. reflexivity.
Qed.
Lemma str_set_last : forall m k u v, ~ In k (map fst m) -> str_set (m ++ [(k, u)]) k v = m ++ [(k, v)].
Proof.
  induction m as [|[j w] m IH]; intros k u v N; cbn [app str_set]; [now rewrite Z.eqb_refl|].
  cbn [map fst In] in N. destruct (Z.eqb_spec j k); [exfalso; apply N; now left|]. rewrite IH by tauto. reflexivity.
Qed.
Lemma str_at_last : forall m k u, ~ In k (map fst m) -> str_at (m ++ [(k, u)]) k = u.
Proof.
  unfold str_at. induction m as [|[j w] m IH]; intros k u N; cbn [app str_get]; [now rewrite Z.eqb_refl|].
  cbn [map fst In] in N. destruct (Z.eqb_spec j k); [exfalso; apply N; now left|]. apply IH. tauto.
Qed.

Lemma utoa_no : forall i c, 0 <= i -> is_digit c = false -> ~ In c (utoa i).
Proof.
  intros i c I D J. destruct (utoa_spec i I) as (_ & U & _). rewrite forallb_forall in U. apply U in J. congruence.
Qed.
Lemma plural_index_ok : forall i x, 0 <= i <= maxInt64 ->
  plural_index ((bs "msgstr[" ++ utoa i ++ bs "]") ++ x) = Ok i.
Proof.
  intros i x I. destruct (utoa_spec i) as (N & D & V); [lia|]. unfold plural_index.
  replace ((bs "msgstr[" ++ utoa i ++ bs "]") ++ x) with ((bs "msgstr[" ++ utoa i) ++ "]"%char :: x)
    by (rewrite <- !app_assoc; reflexivity).
  rewrite index_app.
  2: { intro J. apply in_app_or in J as [J|J]; [cbn in J; repeat (destruct J as [J|J]; [discriminate|]); exact J|].
       revert J. apply utoa_no; [lia|reflexivity]. }
  replace (index_byte "[" ((bs "msgstr[" ++ utoa i) ++ "]"%char :: x)) with (Some 6%nat) by reflexivity.
  replace (length (bs "msgstr[" ++ utoa i)) with (7 + length (utoa i))%nat by (rewrite app_length; reflexivity).
  destruct (Nat.ltb_spec (7 + length (utoa i)) 7); [lia|].
  replace (slice 7 (7 + length (utoa i)) ((bs "msgstr[" ++ utoa i) ++ "]"%char :: x)) with (utoa i).
  - rewrite parse_int_digits by (auto; lia). now rewrite V.
  - unfold slice. rewrite <- app_assoc.
    replace (skipn 7 (bs "msgstr[" ++ utoa i ++ "]"%char :: x)) with (utoa i ++ "]"%char :: x) by reflexivity.
    replace (7 + length (utoa i) - 7)%nat with (length (utoa i)) by lia. now rewrite firstn_len_app.
Qed.
Lemma skipn_in : forall A n (l : list A) x, In x (skipn n l) -> In x l.
Proof. intros A n l x I. rewrite <- (firstn_skipn n l). apply in_or_app. now right. Qed.
Lemma strp_first : forall fuel i g q w, 0 <= i -> gap g -> quoted_text q w -> (length q < fuel)%nat ->
  (do x <- from 10 ((bs "msgstr[" ++ utoa i ++ bs "]") ++ SP :: g ++ q) ; dec fuel x) = Ok w.
Proof.
  intros fuel i g q w I G Q L. destruct (utoa_spec i I) as (N & D & _).
  replace ((bs "msgstr[" ++ utoa i ++ bs "]") ++ SP :: g ++ q)
    with (((bs "msgstr[" ++ utoa i ++ bs "]") ++ [SP] ++ g) ++ q) by (rewrite <- !app_assoc; reflexivity).
  rewrite from_app.
  2: { rewrite !app_length. destruct (utoa i); [congruence|]. cbn [length bs list_ascii_of_string]. lia. }
  cbn [rbind]. apply dec_quoted; [| |exact Q|exact L].
  - intro J. apply skipn_in in J. apply in_app_or in J as [J|J].
    + apply in_app_or in J as [J|J]; [cbn in J; repeat (destruct J as [J|J]; [discriminate|]); exact J|].
      apply in_app_or in J as [J|J]; [revert J; apply utoa_no; [lia|reflexivity]|].
      cbn in J; repeat (destruct J as [J|J]; [discriminate|]); exact J.
    + destruct J as [J|J]; [discriminate|]. exact (gap_quote g G J).
  - intro J. apply skipn_in in J. apply in_app_or in J as [J|J].
    + apply in_app_or in J as [J|J]; [cbn in J; repeat (destruct J as [J|J]; [discriminate|]); exact J|].
      apply in_app_or in J as [J|J]; [revert J; apply utoa_no; [lia|reflexivity]|].
      cbn in J; repeat (destruct J as [J|J]; [discriminate|]); exact J.
    + destruct J as [J|J]; [discriminate|]. exact (gap_lf g G J).
Qed.
(** the keys below i are 0, ..., i - 1 *)
Lemma forms_read : forall i ls fm, forms_lines i ls fm -> forall ign fuel last m, short fuel ls -> 0 <= i ->
  Z.of_nat (length (m_str m)) = i -> (forall k, In k (map fst (m_str m)) -> k < i) ->
  mreads ign fuel last ls m (set_str m (m_str m ++ fm)).
Proof.
  induction 1 as [i|i ls v ls' fm IM F FL IH]; intros ign fuel last m SH I LEN KEYS.
  - rewrite app_nil_r. replace (set_str m (m_str m)) with m by (destruct m; reflexivity). apply mreads_nil.
  - apply Forall_app in SH as [SH1 SH2].
    assert (NI : ~ In i (map fst (m_str m))) by (intro J; apply KEYS in J; lia).
    apply mreads_app with (b := set_str m (m_str m ++ [(i, v)])).
    + eapply field_reads with (tk := TStrP) (tl := TStrPL) (put := fun v => set_str m (m_str m ++ [(i, v)]));
        [exact F|exact SH1|discriminate|reflexivity|discriminate| |reflexivity|reflexivity|reflexivity|reflexivity| |].
      * intros. eapply scan_strp; eauto.
      * intros g q w G Q L. unfold message_step. rewrite plural_index_ok by lia. cbn [rbind].
        rewrite rbind2, (strp_first fuel i g q w I G Q L). cbn [rbind]. rewrite str_set_new by exact NI. reflexivity.
      * intros q u w Q L. unfold message_step. cbv zeta.
        change (m_str (set_str m (m_str m ++ [(i, u)]))) with (m_str m ++ [(i, u)]).
        rewrite app_length. cbn [length]. replace (Z.of_nat (length (m_str m) + 1) - 1) with i by lia.
        destruct (Z.ltb_spec i 0); [lia|]. rewrite (dec_q fuel q w Q L). cbn [rbind].
        rewrite str_set_last, str_at_last by exact NI. reflexivity.
    + intro k. specialize (IH ign fuel k (set_str m (m_str m ++ [(i, v)])) SH2).
      change (m_str (set_str m (m_str m ++ [(i, v)]))) with (m_str m ++ [(i, v)]) in IH.
      rewrite <- app_assoc in IH. apply IH; [lia|rewrite app_length; cbn [length]; lia|].
      intros j J. rewrite map_app in J. apply in_app_or in J as [J|J]; [apply KEYS in J; lia|].
      destruct J as [J|[]]. cbn [fst] in J. lia.
Qed.

Lemma trans_read : forall ls pl sm, trans_lines ls pl sm -> forall ign fuel last m, short fuel ls ->
  m_str m = [] -> m_pl m = [] -> mreads ign fuel last ls m (set_str (set_pl m pl) sm).
Proof.
  intros ls pl sm H. destruct H as [ls v F|ls p ls' sm F N FL]; intros ign fuel last m SH ES EP.
  - replace (set_str (set_pl m []) [(0, v)]) with (set_str m [(0, v)])
      by (destruct m; cbn in *; subst; reflexivity). now apply str_reads.
  - apply Forall_app in SH as [SH1 SH2]. apply mreads_app with (b := set_pl m p); [now apply pl_reads|].
    intro k. replace (set_str (set_pl m p) sm) with (set_str (set_pl m p) (m_str (set_pl m p) ++ sm))
      by (cbn; rewrite ES; reflexivity).
    apply (forms_read 0 ls' sm FL); [exact SH2|lia|cbn; now rewrite ES|]. cbn. rewrite ES. intros k' [].
Qed.
Lemma ctx_lines_read : forall ls v, ctx_lines ls v -> forall ign fuel last m, short fuel ls ->
  m_ctx m = [] -> mreads ign fuel last ls m (set_ctx m v).
Proof.
  intros ls v H. destruct H as [|ls v F]; intros ign fuel last m SH E.
  - replace (set_ctx m []) with m by (destruct m; cbn in *; subst; reflexivity). apply mreads_nil.
  - now apply ctx_reads.
Qed.

(** ** Blocks *)

(** comment tokens ct then body tokens bt *)
Definition breads (ign : bool) (fuel : nat) (last : ptok) (ls : list bytes) (c : comment) (m : message) : Prop :=
  exists ct bt k, scans ign last ls (ct ++ bt) k /\ ctoks ct /\ btoks bt /\ (bt = [] <-> m_str m = []) /\
    crun fuel new_comment ct = Ok c /\ brun fuel (set_com new_message c) bt = Ok m.

Lemma breads_join : forall ign fuel is il bl c m, items_lines is il -> short fuel il ->
  c = com_of (kept ign is) -> (bl = [] <-> m_str m = []) ->
  (forall last, mreads ign fuel last bl (set_com new_message c) m) -> forall last, breads ign fuel last (il ++ bl) c m.
Proof.
  intros ign fuel is il bl c m I SH E EM H last. destruct (items_read ign fuel is il I SH last) as (ct & k & S & C & R).
  destruct (H k) as (bt & k' & S' & B & NB & R'). exists ct, bt, k'. split; [eapply scans_app; eauto|].
  split; [exact C|]. split; [exact B|]. split.
  { destruct EM as [E1 E2]. split.
    - intros ->. destruct bl as [|x bl]; [now apply E1|]. exfalso. apply NB; [discriminate|reflexivity].
    - intro M. rewrite (E2 M) in *. assert (X : bt = []); [|exact X].
      specialize (S' false []). cbn [app scan_all] in S'. rewrite app_nil_r in S'. now symmetry. }
  split; [|exact R']. rewrite R, com_of_fold. now subst.
Qed.

Lemma kept_com : forall ign is, com_of (kept ign is) = seen_comment ign (com_of is).
Proof.
  intros [|] is; [|reflexivity]. unfold kept, seen_comment, com_of. cbn [cm_flags].
  assert (X : forall A (f : citem -> list A), (forall fs, f (IFlags fs) = []) -> flat_map f (filter is_flags is) = []).
  { intros A f H. induction is as [|i is IH]; [reflexivity|]. cbn [filter]. destruct i; cbn [is_flags]; try exact IH.
    cbn [flat_map]. now rewrite H, IH. }
  do 2 (rewrite (X bytes) by reflexivity). rewrite (X reference) by reflexivity. do 2 (rewrite (X ascii) by reflexivity). cbn [drop_empty lines_text]. f_equal. clear X.
  induction is as [|i is IH]; [reflexivity|]. cbn [filter]. destruct i; cbn [is_flags flat_map app]; try exact IH.
  now rewrite IH.
Qed.

(** The message the parser builds from a block. *)
Definition block_message (ign : bool) (b : block) : message :=
  match b with
  | BMsg m => seen_message ign m
  | BHeader is kvs => Msg (Some (seen_comment ign (com_of is))) [] [] []
                          [(0, concat (map (fun e => fst e ++ bs ": " ++ snd e ++ [LF]) kvs))]
  | BComment is => Msg (Some (seen_comment ign (com_of is))) [] [] [] []
  end.
Lemma block_reads : forall ign fuel b ls, block_lines b ls -> short fuel ls -> forall last,
  exists c, breads ign fuel last ls c (block_message ign b).
Proof.
  intros ign fuel b ls H SH last. destruct H as [m ls E|is kvs ls E|is ls N E].
  - destruct E as [is il ctx cl id idl pl tl sm I C F T NE].
    apply Forall_app in SH as [S1 S2]. apply Forall_app in S2 as [S2 S3]. apply Forall_app in S3 as [S3 S4].
    exists (com_of (kept ign is)). apply breads_join with (is := is); [exact I|exact S1|reflexivity| |].
    { cbn [block_message seen_message m_str]. destruct F as [l0 g0 q0 v0 ls0 vs0 ? ? ? ?].
      destruct T as [ls1 v1 ?|ls1 p1 ls2 m1 ? NM ?]; split; intro X; try discriminate X.
      - apply app_eq_nil in X as [_ X]. discriminate.
      - apply app_eq_nil in X as [_ X]. discriminate.
      - congruence. }
    clear last. intro last. unfold block_message, seen_message. cbn [m_com m_ctx m_id m_pl m_str option_map]. rewrite <- kept_com.
    apply mreads_app with (b := set_ctx (set_com new_message (com_of (kept ign is))) ctx);
      [now apply ctx_lines_read|]. clear last. intro last.
    apply mreads_app with (b := set_id (set_ctx (set_com new_message (com_of (kept ign is))) ctx) id);
      [now apply id_reads|]. clear last. intro last.
    exact (trans_read tl pl sm T ign fuel last
      (set_id (set_ctx (set_com new_message (com_of (kept ign is))) ctx) id) S4 eq_refl eq_refl).
  - destruct E as [is il idl sl kvs v I F1 F2 [_ ->]].
    apply Forall_app in SH as [S1 S2]. apply Forall_app in S2 as [S2 S3].
    exists (com_of (kept ign is)). apply breads_join with (is := is); [exact I|exact S1|reflexivity| |].
    { cbn [block_message m_str]. destruct F1. split; discriminate. }
    clear last. intro last. cbn [block_message]. rewrite <- kept_com.
    apply mreads_app with (b := set_com new_message (com_of (kept ign is))).
    + exact (id_reads ign fuel last idl [] (set_com new_message (com_of (kept ign is))) F1 S2).
    + clear last. intro last. exact (str_reads ign fuel last sl _ (set_com new_message (com_of (kept ign is))) F2 S3 eq_refl).
  - exists (com_of (kept ign is)). rewrite <- (app_nil_r ls). apply breads_join with (is := is); [exact E|exact SH|reflexivity|now split|].
    clear last. intro last. cbn [block_message]. rewrite <- kept_com. apply mreads_nil.
Qed.

(** ** parseMessage on a block *)
Lemma parse_block_ws : forall ign fuel ls c m last, breads ign fuel last ls c m -> ls <> [] ->
  forall blank w rest, pad w -> exists toks k,
    scan_all ign last blank (ls ++ w :: rest) = toks ++ (TWs, []) :: scan_all ign k true rest /\
    parse_message fuel (toks ++ (TWs, []) :: scan_all ign k true rest) = Ok (Some (m, scan_all ign k true rest, false)).
Proof.
  intros ign fuel ls c m last (ct & bt & k & S & C & B & _ & R1 & R2) N blank w rest P.
  exists (ct ++ bt), TWs. rewrite S. destruct ls as [|l ls]; [congruence|].
  rewrite scan_blank_first by exact P. split; [reflexivity|].
  rewrite <- app_assoc. destruct bt as [|[k1 l1] bt].
  - cbn [app]. rewrite parse_message_app by (assumption || reflexivity || discriminate).
    rewrite R1. cbn [rbind brun] in *. injection R2 as ->. reflexivity.
  - pose proof (Forall_inv B) as K. cbn [fst] in K. change (((k1, l1) :: bt) ++ (TWs, []) :: scan_all ign TWs true rest)
      with ((k1, l1) :: bt ++ (TWs, []) :: scan_all ign TWs true rest).
    rewrite parse_message_app; [|exact C|destruct k1; try discriminate K; reflexivity|destruct k1; discriminate].
    rewrite R1. cbn [rbind].
    change ((k1, l1) :: bt ++ (TWs, []) :: scan_all ign TWs true rest)
      with (((k1, l1) :: bt) ++ (TWs, []) :: scan_all ign TWs true rest).
    rewrite parse_body_app by exact B. rewrite R2. reflexivity.
Qed.
Lemma parse_block_eof : forall ign fuel ls c m last, breads ign fuel last ls c m -> forall blank,
  parse_message fuel (scan_all ign last blank ls) =
  Ok (if is_nil (m_str m) then None else Some (m, [], true)).
Proof.
  intros ign fuel ls c m last (ct & bt & k & S & C & B & EM & R1 & R2) blank.
  specialize (S blank []). cbn [scan_all] in S. rewrite !app_nil_r in S. rewrite S. destruct bt as [|[k1 l1] bt].
  - rewrite (proj1 EM eq_refl). cbn [is_nil]. rewrite app_nil_r. destruct ct as [|[k0 l0] ct]; [reflexivity|].
    pose proof (Forall_inv C) as K. cbn [fst] in K. unfold parse_message. cbv beta iota. rewrite K.
    rewrite <- (app_nil_r ((k0, l0) :: ct)), parse_comment_app by exact C. rewrite R1. reflexivity.
  - pose proof (Forall_inv B) as K. cbn [fst] in K.
    rewrite parse_message_app; [|exact C|destruct k1; try discriminate K; reflexivity|destruct k1; discriminate].
    rewrite R1. cbn [rbind]. rewrite <- (app_nil_r ((k1, l1) :: bt)), parse_body_app by exact B. rewrite R2.
    cbn [rbind parse_body]. destruct (m_str m) eqn:E; [|reflexivity]. discriminate (proj2 EM eq_refl).
Qed.

(** ** parseFile *)

(** parseHeader on a header block *)
Lemma header_lines_ok : forall kvs h,
  Forall (fun e => clean (fst e) /\ ~ In ":"%char (fst e) /\ ~ In LF (fst e) /\
                   clean (snd e) /\ ~ In LF (snd e)) kvs ->
  header_lines h (split_on LF (concat (map (fun e => fst e ++ bs ": " ++ snd e ++ [LF]) kvs))) =
  Some (fold_left (fun h e => header_set h (fst e) (snd e)) kvs h).
Proof.
  induction kvs as [|[k v] kvs IH]; intros h F; [reflexivity|].
  inversion F as [|? ? (C1 & N1 & L1 & C2 & L2) F']; subst. cbn [fst snd map concat fold_left] in *.
  replace ((k ++ bs ": " ++ v ++ [LF]) ++ concat (map (fun e => fst e ++ bs ": " ++ snd e ++ [LF]) kvs))
    with ((k ++ bs ": " ++ v) ++ LF :: concat (map (fun e : bytes * bytes => fst e ++ bs ": " ++ snd e ++ [LF]) kvs))
    by (rewrite <- !app_assoc; reflexivity).
  rewrite split_no_lf.
  2: { intro I. apply in_app_or in I as [I|I]; [contradiction|]. apply in_app_or in I as [I|I]; [|contradiction].
       destruct I as [I|[I|[]]]; discriminate. }
  cbn [header_lines]. change (k ++ bs ": " ++ v) with (k ++ ":"%char :: SP :: v). rewrite index_app by exact N1.
  rewrite firstn_len_app. change (S (length k)) with (1 + length k)%nat. rewrite <- skipn_skipn, skipn_len_app.
  cbn [skipn]. rewrite clean_trim by exact C1. change (SP :: v) with (SP :: [] ++ v). rewrite (gap_trim_sp [] v); [|constructor|exact C2]. now apply IH.
Qed.

Definition header_of (ign : bool) (is : list citem) (kvs : list (bytes * bytes)) : header :=
  let h := fold_left (fun h e => header_set h (fst e) (snd e)) kvs new_header in
  Hdr (Some (seen_comment ign (com_of is))) (h_known h) (h_unknown h).

(** What the parser does with the blocks of a file. *)
Fixpoint outcome (ign : bool) (h : option header) (ms : list message) (bl : list block) : res pofile :=
  match bl with
  | [] => finish h ms
  | BMsg m :: bl' =>
      if existsb (same_key m) ms then Err else outcome ign h (ms ++ [seen_message ign m]) bl'
  | BHeader is kvs :: bl' =>
      match h with Some _ => Err | None => outcome ign (Some (header_of ign is kvs)) ms bl' end
  | BComment _ :: bl' => outcome ign h ms bl'
  end.

Lemma same_key_seen : forall ign m x, same_key (seen_message ign m) x = same_key m x.
Proof. reflexivity. Qed.
Lemma existsb_seen : forall ign m ms, existsb (same_key (seen_message ign m)) ms = existsb (same_key m) ms.
Proof. intros. induction ms as [|x ms IH]; [reflexivity|]. cbn [existsb]. now rewrite IH, same_key_seen. Qed.

Lemma parse_header_block : forall ign is kvs ls, header_lines_of is kvs ls ->
  parse_header (block_message ign (BHeader is kvs)) = Some (header_of ign is kvs).
Proof.
  intros ign is kvs ls [is' il idl sl kvs' v _ _ _ [F _]]. unfold parse_header. cbn [block_message m_str m_com].
  cbn [str_at str_get Z.eqb]. unfold str_at, str_get. cbn [Z.eqb]. rewrite header_lines_ok by exact F. reflexivity.
Qed.
Lemma block_ne : forall b ls, block_lines b ls -> ls <> [].
Proof.
  intros b ls H. destruct H as [m ls [is il ctx cl id idl pl tl sm I C F T NE]|is kvs ls [is' il idl sl kvs' v I F1 F2 _]|is ls N E].
  - destruct F. intro X. apply app_eq_nil in X as [_ X]. apply app_eq_nil in X as [_ X]. discriminate.
  - destruct F1. intro X. apply app_eq_nil in X as [_ X]. discriminate.
  - destruct E as [|i is l ls I _]; [congruence|]. intro X. apply app_eq_nil in X as [X _]. subst.
    inversion I as [| | | | |? ? F|? ? F]; subst; inversion F.
Qed.

(** one round of parseFile *)
Definition round (fuel n : nat) (h : option header) (ms : list message)
  (x : option (message * list (ptok * bytes) * bool)) : res pofile :=
  match x with
  | None => finish h ms
  | Some (m, ts', ended) =>
      if is_nil (m_id m) then
        if is_nil (m_str m) then parse_file fuel n h ms ts'
        else match h with
             | Some _ => Err
             | None => parse_file fuel n (parse_header m) ms ts'
             end
      else if existsb (same_key m) ms then Err
      else if ended then finish h (ms ++ [m])
      else parse_file fuel n h (ms ++ [m]) ts'
  end.
Lemma parse_file_step : forall fuel n h ms ts, parse_file fuel (S n) h ms ts =
  do x <- parse_message fuel ts ; round fuel n h ms x.
Proof. reflexivity. Qed.

Lemma parse_ws : forall fuel n h ms ts, parse_file fuel (S n) h ms ((TWs, []) :: ts) = parse_file fuel n h ms ts.
Proof. reflexivity. Qed.

(** leading blank lines *)
Lemma scan_pre : forall ign last blank pre rest, Forall pad pre -> exists last' blank' ws,
  scan_all ign last blank (pre ++ rest) = ws ++ scan_all ign last' blank' rest /\ (ws = [] \/ ws = [(TWs, [])]).
Proof.
  intros ign last blank pre rest F. destruct pre as [|w pre]; [exists last, blank, []; auto|].
  inversion F as [|? ? P F']; subst. cbn [app]. rewrite scan_blank_first by exact P. destruct blank.
  - rewrite scan_blanks by exact F'. exists last, true, []. auto.
  - rewrite scan_blanks by exact F'. exists TWs, true, [(TWs, [])]. auto.
Qed.
Lemma parse_pre : forall fuel ws h ms ts (R : res pofile), ws = [] \/ ws = [(TWs, [])] ->
  (forall n, (length ts < n)%nat -> parse_file fuel n h ms ts = R) ->
  forall n, (length (ws ++ ts) < n)%nat -> parse_file fuel n h ms (ws ++ ts) = R.
Proof.
  intros fuel ws h ms ts R [->| ->] H n L; [now apply H|]. cbn [app length] in *. destruct n as [|n]; [lia|].
  rewrite parse_ws. apply H. lia.
Qed.

Theorem layout_parse : forall ign fuel bl ls, layout bl ls -> short fuel ls ->
  forall last blank h ms n, (length (scan_all ign last blank ls) < n)%nat ->
  parse_file fuel n h ms (scan_all ign last blank ls) = outcome ign h ms bl.
Proof.
  intros ign fuel. induction 1 as [pre F|b pre ls F B|b bl pre ls w rest F B P L IH]; intros SH last blank h ms.
  - rewrite <- (app_nil_r pre). destruct (scan_pre ign last blank pre [] F) as (last' & blank' & ws & -> & W).
    apply parse_pre; [exact W|]. intros n Hn. destruct n as [|n]; [cbn in Hn; lia|]. reflexivity.
  - apply Forall_app in SH as [_ SH].
    destruct (scan_pre ign last blank pre ls F) as (last' & blank' & ws & -> & W).
    apply parse_pre; [exact W|]. intros n Hn. destruct n as [|n]; [lia|].
    destruct (block_reads ign fuel b ls B SH last') as [c BR].
    rewrite parse_file_step, (parse_block_eof ign fuel ls c _ last' BR). cbn [rbind].
    destruct B as [m ls E|is kvs ls E|is ls N E]; cbn [outcome].
    + pose proof E as E0. destruct E as [is il ctx cl id idl pl tl sm I C Fd T NE].
      cbn [block_message seen_message m_str]. replace (is_nil sm) with false
        by (destruct T as [|? ? ? ? ? NM ?]; [reflexivity|destruct m; [congruence|reflexivity]]).
      unfold round. cbn [m_id]. destruct id as [|x id]; [congruence|]. cbn [is_nil].
      match goal with |- context [existsb ?f ms] => change f with (same_key (Msg (Some (com_of is)) ctx (x :: id) pl sm)) end.
      reflexivity.
    + cbn [block_message m_str is_nil]. unfold round. cbn [m_id m_str is_nil]. destruct h as [h|]; [reflexivity|].
      pose proof (parse_header_block ign is kvs ls E) as X. cbn [block_message] in X. rewrite X.
      destruct n as [|n].
      * exfalso. destruct BR as (ct & bt & k & S & _ & _ & EM & _). specialize (S blank' []).
        cbn [scan_all] in S. rewrite !app_nil_r in S. rewrite S, app_length in Hn.
        destruct bt; [discriminate (proj1 EM eq_refl)|cbn [length] in Hn; lia].
      * reflexivity.
    + reflexivity.
  - apply Forall_app in SH as [_ SH]. apply Forall_app in SH as [SH1 SH2]. apply Forall_inv_tail in SH2.
    destruct (scan_pre ign last blank pre (ls ++ w :: rest) F) as (last' & blank' & ws & -> & W).
    apply parse_pre; [exact W|]. intros n Hn.
    destruct (block_reads ign fuel b ls B SH1 last') as [c BR].
    destruct (parse_block_ws ign fuel ls c _ last' BR (block_ne b ls B) blank' w rest P) as (toks & k & ES & EP).
    rewrite ES in *. destruct n as [|n]; [lia|].
    rewrite parse_file_step, EP. cbn [rbind]. rewrite app_length in Hn. cbn [length] in Hn.
    destruct B as [m ls E|is kvs ls E|is ls N E]; cbn [outcome].
    + destruct E as [is il ctx cl id idl pl tl sm I C Fd T NE].
      unfold round. cbn [block_message seen_message m_id]. destruct id as [|x id]; [congruence|]. cbn [is_nil].
      match goal with |- context [existsb ?f ms] => change f with (same_key (Msg (Some (com_of is)) ctx (x :: id) pl sm)) end.
      destruct (existsb _ ms); [reflexivity|]. apply IH; [exact SH2|lia].
    + unfold round. cbn [block_message m_id m_str is_nil]. destruct h as [h|]; [reflexivity|].
      pose proof (parse_header_block ign is kvs ls E) as X. cbn [block_message] in X. rewrite X.
      apply IH; [exact SH2|lia].
    + unfold round. cbn [block_message m_id m_str is_nil]. apply IH; [exact SH2|lia].
Qed.

(** ** Files *)
Definition ok_line (l : bytes) : Prop := exists t, clean t /\ padded t l.
Lemma ok_blank : forall w, pad w -> ok_line w.
Proof.
  intros w P. exists []. split; [now left|]. exists w, []. split; [exact P|]. split; [constructor|]. now rewrite !app_nil_r.
Qed.
Lemma field_ok : forall kw cont ls v, field kw cont ls v -> kw <> [] -> solid (hd NUL kw) = true ->
  (cont = [] \/ solid (hd NUL cont) = true) -> Forall ok_line ls.
Proof.
  intros kw cont ls v F N S CS. destruct F as [l g q v ls vs P G Q CO]. constructor.
  - exists (kw ++ SP :: g ++ q). split; [|exact P].
    change (SP :: g ++ q) with ((SP :: g) ++ q). rewrite app_assoc. eapply quoted_solid; [exact Q| |].
    + destruct kw; [congruence|discriminate].
    + destruct kw; [congruence|exact S].
  - clear P. induction CO as [|l' v' ls vs (q' & Q' & g' & G' & NG & P') CO IH]; constructor; [|exact IH].
    exists (cont ++ g' ++ q'). split; [|exact P']. destruct cont as [|a cont].
    + rewrite (NG eq_refl). exact (quoted_clean q' v' Q').
    + destruct CS as [CS|CS]; [discriminate|]. rewrite app_assoc. eapply quoted_solid; [exact Q'|discriminate|exact CS].
Qed.
Lemma item_ok : forall i ls, item_lines i ls -> Forall ok_line ls.
Proof.
  intros i ls H. destruct H as [l P|t g l N C G P|t g l N C G P|rs t g l R G P|fs t g l R G P|ls v F|ls v F].
  - constructor; [|constructor]. exists (bs "#"). split; [apply word_clean, word_solid; reflexivity|exact P].
  - constructor; [|constructor]. eexists. split; [|exact P]. apply clean_after; [discriminate|reflexivity|exact N|exact C].
  - constructor; [|constructor]. eexists. split; [|exact P]. apply clean_after; [discriminate|reflexivity|exact N|exact C].
  - destruct (refs_ends rs t R) as [E1 E2]. constructor; [|constructor]. eexists. split; [|exact P].
    apply clean_after; [discriminate|reflexivity|now apply clean_ends_ne|now apply clean_ends].
  - destruct (flags_ends fs t R) as [E1 E2]. constructor; [|constructor]. eexists. split; [|exact P].
    apply clean_after; [discriminate|reflexivity|now apply clean_ends_ne|now apply clean_ends].
  - eapply field_ok; [exact F|discriminate|reflexivity|right; reflexivity].
  - eapply field_ok; [exact F|discriminate|reflexivity|right; reflexivity].
Qed.
Lemma items_ok : forall is ls, items_lines is ls -> Forall ok_line ls.
Proof. induction 1 as [|i is l ls I IS IH]; [constructor|]. apply Forall_app. split; [exact (item_ok i l I)|exact IH]. Qed.
Lemma forms_ok : forall i ls m, forms_lines i ls m -> Forall ok_line ls.
Proof.
  induction 1 as [i|i ls v ls' fm IM F FL IH]; [constructor|]. apply Forall_app. split; [|exact IH].
  eapply field_ok; [exact F|discriminate|reflexivity|now left].
Qed.
Lemma trans_ok : forall ls p m, trans_lines ls p m -> Forall ok_line ls.
Proof.
  intros ls p m H. destruct H as [ls v F|ls p ls' sm F N FL].
  - eapply field_ok; [exact F|discriminate|reflexivity|now left].
  - apply Forall_app. split; [eapply field_ok; [exact F|discriminate|reflexivity|now left]|exact (forms_ok 0 ls' sm FL)].
Qed.
Lemma block_ok : forall b ls, block_lines b ls -> Forall ok_line ls.
Proof.
  intros b ls H. destruct H as [m ls [is il ctx cl id idl pl tl sm I C F T NE]|is kvs ls [is' il idl sl kvs' v I F1 F2 _]|is ls N E].
  - apply Forall_app. split; [exact (items_ok is il I)|]. apply Forall_app. split.
    { destruct C as [|ls0 v0 C]; [constructor|]. eapply field_ok; [exact C|discriminate|reflexivity|now left]. }
    apply Forall_app. split; [eapply field_ok; [exact F|discriminate|reflexivity|now left]|exact (trans_ok tl pl sm T)].
  - apply Forall_app. split; [exact (items_ok is' il I)|]. apply Forall_app.
    split; eapply field_ok; eauto; try discriminate; reflexivity.
  - exact (items_ok is ls E).
Qed.
Lemma layout_ok : forall bl ls, layout bl ls -> Forall ok_line ls.
Proof.
  induction 1 as [pre F|b pre ls F B|b bl pre ls w rest F B P L IH].
  - eapply Forall_impl; [|exact F]. exact ok_blank.
  - apply Forall_app. split; [eapply Forall_impl; [|exact F]; exact ok_blank|exact (block_ok b ls B)].
  - apply Forall_app. split; [eapply Forall_impl; [|exact F]; exact ok_blank|]. apply Forall_app.
    split; [exact (block_ok b ls B)|]. constructor; [now apply ok_blank|exact IH].
Qed.

Lemma scan_trim : forall ign ls ls' last blank, map trim_space ls = map trim_space ls' ->
  scan_all ign last blank ls = scan_all ign last blank ls'.
Proof.
  induction ls as [|l ls IH]; intros [|l' ls'] last blank E; try discriminate; [reflexivity|].
  cbn [map] in E. injection E as E1 E2. cbn [scan_all]. cbv zeta. rewrite E1.
  destruct (is_nil (trim_space l')).
  - destruct blank; [now apply IH|]. f_equal. now apply IH.
  - destruct (scan_line ign last (trim_space l')); [f_equal|]; now apply IH.
Qed.
Lemma trim_drop_cr : forall l, ok_line l -> trim_space (drop_cr l) = trim_space l.
Proof.
  intros l (t & C & P). rewrite (trim_padded t l P C). apply trim_padded; [|exact C]. now apply padded_drop_cr.
Qed.

Lemma cut_long_all : forall ls, Forall (fun l => Z.of_nat (length l) < 65536) ls -> cut_long ls = map drop_cr ls.
Proof.
  induction 1 as [|l ls L F IH]; [reflexivity|]. cbn [cut_long map]. unfold too_long.
  destruct (Z.leb_spec 65536 (Z.of_nat (length l))); [lia|]. now rewrite IH.
Qed.
Lemma split_lines : forall ls t, Forall (fun l => ~ In LF l) ls -> ~ In LF t ->
  split_on LF (concat (map (fun l => l ++ [LF]) ls) ++ t) = ls ++ [t].
Proof.
  induction 1 as [|l ls L F IH]; intro N; cbn [map concat app]; [now apply split_no_lf_end|].
  rewrite <- !app_assoc. cbn [app]. rewrite split_no_lf by exact L. now rewrite IH.
Qed.
Lemma file_lines_ok : forall ls s, text_of ls s -> file_lines s = map drop_cr ls.
Proof.
  intros ls s [F H].
  assert (F1 : Forall (fun l => ~ In LF l) ls) by (eapply Forall_impl; [|exact F]; cbn; tauto).
  assert (F2 : Forall (fun l => Z.of_nat (length l) < 65536) ls) by (eapply Forall_impl; [|exact F]; cbn; tauto).
  unfold file_lines. cbv zeta. destruct H as [->|(ls' & l & -> & N & ->)].
  - rewrite <- (app_nil_r (concat _)). rewrite split_lines by (auto || intros []). rewrite last_last, removelast_last.
    now apply cut_long_all.
  - apply Forall_app in F1 as [F1 F1']. apply Forall_inv in F1'. rewrite split_lines by assumption.
    rewrite last_last. destruct l as [|c l]; [congruence|]. now apply cut_long_all.
Qed.
Lemma text_short : forall ls s fuel, text_of ls s -> (length s < fuel)%nat -> short fuel ls.
Proof.
  intros ls s fuel [_ H] L.
  assert (X : forall zs l, In l zs -> (length l <= length (concat (map (fun l => l ++ [LF]) zs)))%nat).
  { induction zs as [|a zs IH]; intros l I; [destruct I|]. cbn [map concat]. rewrite !app_length.
    destruct I as [->|I]; [lia|]. apply IH in I. lia. }
  unfold short. rewrite Forall_forall. intros l I. destruct H as [->|(ls' & l' & -> & N & ->)].
  - apply X in I. lia.
  - rewrite app_length in L. apply in_app_or in I as [I|[<-|[]]]; [apply X in I|]; lia.
Qed.

(** The parser on a file of the line grammar. *)
Theorem layout_file : forall ign bl ls s fuel, layout bl ls -> text_of ls s -> (length s < fuel)%nat ->
  parse_po_fuel fuel ign s = outcome ign None [] bl.
Proof.
  intros ign bl ls s fuel L T F. unfold parse_po_fuel. cbv zeta. rewrite (file_lines_ok ls s T).
  rewrite (scan_trim ign (map drop_cr ls) ls).
  2: { rewrite map_map. apply map_ext_in. intros l I. apply trim_drop_cr.
       pose proof (layout_ok bl ls L) as O. rewrite Forall_forall in O. now apply O. }
  pose proof (layout_parse ign fuel bl ls L (text_short ls s fuel T F) TEof false None []) as P.
  destruct (scan_all ign TEof false ls) as [|t ts] eqn:E.
  - rewrite <- (P 1%nat) by (cbn; lia). reflexivity.
  - apply P. lia.
Qed.

