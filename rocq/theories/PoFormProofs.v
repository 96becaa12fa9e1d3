(** The translations of an entry of any layout. *)
From Coq Require Import String Ascii List ZArith Bool Lia.
From Verif Require Import Base BaseProofs StrModel TrimProofs PoStrModel PoStrSpec PoFileModel PoFileSpec ReModel PoDecodeProofs PoTotalProofs PoFieldSpec.
From Verif Require PoFieldProofs PoScanProofs.
From Verif Require Import PoLineSpec PoLineProofs PoHangSpec PoHangProofs PoAnySpec PoAnyProofs PoComSpec PoComProofs GettextSpec GettextProofs PoHeadSpec PoHeadProofs PoFormSpec.
Import ListNotations.
Open Scope Z_scope.

Definition rep (m : message) (g : forms) : Prop := NoDup (map fst (m_str m)) /\ forall i v, In (i, v) (m_str m) <-> g i = Some v.
Lemma rep_set : forall m g i v, rep m g -> rep (set_str m (str_set (m_str m) i v)) (given g i v).
Proof.
  intros m g i v [ND IN]. split; cbn [set_str m_str]; [now apply PoFieldProofs.str_set_nodup|]. intros j u. rewrite PoFieldProofs.str_set_in by exact ND.
  unfold given. destruct (Z.eq_dec j i) as [->|D].
  - split; [intros [[_ ->]|[X _]]; [reflexivity|congruence]|intro E; injection E as ->; now left].
  - rewrite IN. split; [intros [[X _]|[_ X]]; [contradiction|exact X]|now right].
Qed.
Lemma rep_get : forall m g i, rep m g -> str_get (m_str m) i = g i.
Proof.
  intros m g i [ND IN]. assert (A : forall s, NoDup (map fst s) -> forall v, str_get s i = Some v <-> In (i, v) s).
  { induction s as [|[j w] s IH]; intros N v; cbn [str_get map fst In] in *; [split; [discriminate|intros []]|].
    inversion N as [|? ? NI N']; subst. destruct (Z.eqb_spec j i) as [->|D].
    - split; [intro E; injection E as ->; now left|]. intros [E|I]; [now injection E as ->|]. exfalso. apply NI. now apply (in_map fst) in I.
    - rewrite (IH N'). split; [now right|intros [E|I]; [congruence|exact I]]. }
  destruct (g i) as [v|] eqn:G; [apply (A _ ND), IN; exact G|]. destruct (str_get (m_str m) i) as [v|] eqn:E; [|reflexivity].
  apply (A _ ND), IN in E. congruence.
Qed.
Lemma rep_at : forall m g i, rep m g -> str_at (m_str m) i = so_far g i.
Proof. intros m g i R. unfold str_at, so_far. now rewrite (rep_get m g i R). Qed.
Lemma rep_keys : forall m g i, rep m g -> (In i (map fst (m_str m)) <-> g i <> None).
Proof.
  intros m g i [_ IN]. rewrite in_map_iff. split.
  - intros ([j v] & E & I). cbn [fst] in E. subst j. apply IN in I. congruence.
  - intro N. destruct (g i) as [v|] eqn:G; [|congruence]. exists (i, v). split; [reflexivity|]. now apply IN.
Qed.
Lemma rep_number : forall m g, rep m g -> number_of g (Z.of_nat (length (m_str m))).
Proof. intros m g R. exists (map fst (m_str m)). split; [apply R|]. split; [now rewrite map_length|]. intro i. now apply rep_keys. Qed.
Lemma rep_count : forall m g n, rep m g -> number_of g n -> Z.of_nat (length (m_str m)) = n.
Proof.
  intros m g n R (l & ND & <- & IN). f_equal. rewrite <- (map_length fst). apply PoFieldProofs.same_elements; [apply R|exact ND|].
  intro i. rewrite IN. now apply rep_keys.
Qed.
Lemma rep_str : forall m m' g, m_str m' = m_str m -> rep m g -> rep m' g.
Proof. intros m m' g E R. unfold rep. now rewrite E. Qed.

Definition part_of (k : ptok) : part := match k with TStr | TStrL => InText | TStrP | TStrPL => InForms | _ => InOther end.
Lemma string_scan : forall k t, string_line t -> scan_message k t =
  match k with TId | TIdL => TIdL | TPl | TPlL => TPlL | TStr | TStrL => TStrL | TStrP | TStrPL => TStrPL | TCtx | TCtxL => TCtxL | _ => TFail end.
Proof.
  intros k t S. pose proof (proj2 (line_match t) S) as M. destruct S as (b & -> & B). unfold scan_message.
  replace (has_prefix _ (bs "msgid ")) with false by reflexivity. replace (has_prefix _ (bs "msgstr")) with false by reflexivity.
  replace (has_prefix _ (bs "msgid_plural ")) with false by reflexivity. replace (has_prefix _ (bs "msgctxt ")) with false by reflexivity.
  cbn [andb] in *. rewrite M. reflexivity.
Qed.
(** one further line *)
Lemma string_step : forall fuel k t m m' g, string_line t -> rep m g -> message_step fuel m (scan_message k t) t = Ok m' ->
  place_of k = InString /\ exists u, dec fuel t = Ok u /\
  match part_of k with
  | InText => part_of (scan_message k t) = InText /\ rep m' (given g 0 (so_far g 0 ++ u))
  | InForms => part_of (scan_message k t) = InForms /\
      rep m' (given g (Z.of_nat (length (m_str m)) - 1) (so_far g (Z.of_nat (length (m_str m)) - 1) ++ u))
  | InOther => part_of (scan_message k t) = InOther /\ rep m' g
  end.
Proof.
  intros fuel k t m m' g S R E. rewrite (string_scan k t S) in *.
  destruct k; cbn [message_step] in E; cbv zeta in E; try discriminate E; try (destruct (_ <? 0); [discriminate E|]);
    destruct (dec fuel t) as [u| | |]; try discriminate E; cbn [rbind] in E; injection E as <-; split; try reflexivity; exists u; split; try reflexivity;
    cbn [part_of]; split; try reflexivity; try (apply (rep_str m); [reflexivity|exact R]); rewrite (rep_at m g _ R); now apply rep_set.
Qed.
Lemma keyed_part : forall mk, simple mk -> part_of (ftok (mk [])) = match mk [] with FText _ => InText | FForm _ _ => InForms | _ => InOther end.
Proof. intros mk [->|[->|[->|[->|[i ->]]]]]; reflexivity. Qed.

Lemma forms_found : forall fuel fl m k m' g, Forall (fun l => ~ In LF l) fl -> rep m g -> fields_run fuel m k fl = Ok m' ->
  exists g', forms_after (part_of k) g fl g' /\ rep m' g'.
Proof.
  intros fuel. induction fl as [|l fl IH]; intros m k m' g N R E; [injection E as <-; exists g; split; [constructor|exact R]|].
  cbn [fields_run] in E. destruct (message_step fuel m (scan_message k (trim_space l)) (trim_space l)) as [m1| | |] eqn:ST; try discriminate E. cbn [rbind] in E.
  pose proof (Forall_inv N) as NL. cbn beta in NL. assert (NT : ~ In LF (trim_space l)) by (eapply within_no_lf; [apply trim_within|exact NL]).
  pose proof (Forall_inv_tail N) as N'. pose proof (message_step_good _ _ _ _ _ ST) as G. destruct (scan_message_good _ _ G) as [_ [KW|[S _]]].
  - destruct (keyword_keyed _ KW) as (mk & x & KY). destruct (keyed_step _ _ _ KY) as (SI & WI & SC). destruct (SC k) as [SM MS]. rewrite SM in *. rewrite MS in ST.
    destruct (dec fuel x) as [v| | |] eqn:D; try discriminate ST. cbn [rbind] in ST. injection ST as <-.
    apply text_dec in D; [|eapply within_no_lf; [exact WI|exact NT]]. pose proof (keyed_part mk SI) as KP.
    destruct SI as [->|[->|[->|[->|[i ->]]]]]; cbn [PoFieldProofs.put] in E.
    1-3: match type of E with fields_run _ ?q _ _ = _ => assert (R0 : rep q g) by (apply (rep_str m); [reflexivity|exact R]) end;
      destruct (IH _ _ _ _ N' R0 E) as (g' & A & R');
      exists g'; split; [|exact R']; eapply fa_other with (2 := KY); [auto|exact A].
    + destruct (IH _ _ _ _ N' (rep_set m g 0 v R) E) as (g' & A & R'). exists g'. split; [|exact R']. eapply fa_text; eassumption.
    + destruct (IH _ _ _ _ N' (rep_set m g i v R) E) as (g' & A & R'). exists g'. split; [|exact R']. eapply fa_form; eassumption.
  - destruct (string_step _ _ _ _ _ _ S R ST) as (_ & u & D & X). apply text_dec in D; [|exact NT].
    destruct (part_of k); destruct X as [P R1]; destruct (IH _ _ _ _ N' R1 E) as (g' & A & R'); rewrite P in A; exists g'; (split; [|exact R']).
    + eapply fa_more_text; eassumption.
    + eapply fa_more_form; try eassumption. now apply rep_number.
    + now apply fa_more_other.
Qed.
Lemma forms_only : forall fuel p g fl g', forms_after p g fl g' -> forall m k m', part_of k = p -> rep m g -> fields_run fuel m k fl = Ok m' -> rep m' g'.
Proof.
  intros fuel p g fl g' A.
  assert (KEY : forall l ls mk x m k m', keyed (trim_space l) mk x -> fields_run fuel m k (l :: ls) = Ok m' ->
    exists v, dec fuel x = Ok v /\ fields_run fuel (put m (mk v)) (ftok (mk [])) ls = Ok m' /\ simple mk).
  { intros l ls mk x m k m' KY E. destruct (keyed_step _ _ _ KY) as (SI & _ & SC). destruct (SC k) as [SM MS]. cbn [fields_run] in E. rewrite SM, MS in E.
    destruct (dec fuel x) as [v| | |]; try discriminate E. exists v. auto. }
  assert (STR : forall l ls m k m' g0, string_line (trim_space l) -> rep m g0 -> fields_run fuel m k (l :: ls) = Ok m' ->
    exists m1, message_step fuel m (scan_message k (trim_space l)) (trim_space l) = Ok m1 /\ fields_run fuel m1 (scan_message k (trim_space l)) ls = Ok m').
  { intros l ls m k m' g0 S R E. cbn [fields_run] in E. destruct (message_step _ _ _ _) as [m1| | |]; try discriminate E. exists m1. auto. }
  induction A as [p g|p g l x v ls g' KY T _ IH|p g l i x v ls g' KY T _ IH|p g l mk x ls g' O KY _ IH|g l u ls g' S T _ IH|g l u n ls g' S T NU _ IH|g l ls g' S _ IH];
    intros m k m' P R E.
  - injection E as <-. exact R.
  - destruct (KEY _ _ _ _ _ _ _ KY E) as (w & D & E' & _). rewrite (text_same _ _ _ _ T D) in E'. eapply IH with (3 := E'); [reflexivity|now apply rep_set].
  - destruct (KEY _ _ _ _ _ _ _ KY E) as (w & D & E' & _). rewrite (text_same _ _ _ _ T D) in E'. eapply IH with (3 := E'); [reflexivity|now apply rep_set].
  - destruct (KEY _ _ _ _ _ _ _ KY E) as (w & _ & E' & _). eapply IH with (3 := E'); [|apply (rep_str m); [|exact R]]; destruct O as [->|[->| ->]]; reflexivity.
  - destruct (STR _ _ _ _ _ _ S R E) as (m1 & ST & E'). destruct (string_step _ _ _ _ _ _ S R ST) as (_ & w & D & X). rewrite P in X. destruct X as [P1 R1].
    rewrite (text_same _ _ _ _ T D) in R1. eapply IH; eassumption.
  - destruct (STR _ _ _ _ _ _ S R E) as (m1 & ST & E'). destruct (string_step _ _ _ _ _ _ S R ST) as (_ & w & D & X). rewrite P in X. destruct X as [P1 R1].
    rewrite (text_same _ _ _ _ T D), (rep_count m g n R NU) in R1. eapply IH; eassumption.
  - destruct (STR _ _ _ _ _ _ S R E) as (m1 & ST & E'). destruct (string_step _ _ _ _ _ _ S R ST) as (_ & w & D & X). rewrite P in X. destruct X as [P1 R1].
    eapply IH; eassumption.
Qed.
Lemma rep_new : forall m, m_str m = [] -> rep m no_forms.
Proof. intros m E. unfold rep. rewrite E. split; [constructor|]. intros i v. split; [intros []|discriminate]. Qed.
Lemma outside_part : forall k, place_of k <> InString -> part_of k = InOther.
Proof. intros k H. destruct k; try reflexivity; exfalso; now apply H. Qed.
Lemma forms_run : forall fuel fl m k m', Forall (fun l => ~ In LF l) fl -> place_of k <> InString -> m_str m = [] -> fields_run fuel m k fl = Ok m' -> forms_are fl m'.
Proof.
  intros fuel fl m k m' N P S E. apply outside_part in P. pose proof (rep_new m S) as R.
  destruct (forms_found fuel fl m k m' no_forms N R E) as (g' & A & R'). rewrite P in A. split; [apply R'|]. split; [eauto|].
  intros g A' . exact (proj2 (forms_only fuel _ _ _ _ A' m k m' P R E)).
Qed.

(** ** Files *)
Lemma lines_on_incl : forall ign ls fl, lines_on ign ls fl -> incl fl ls.
Proof.
  intros ign ls fl. induction 1 as [|l ls fl _ _ IH|l ls fl _ _ IH]; [apply incl_refl| |now apply incl_tl].
  intros x [->|I]; [now left|right; now apply IH].
Qed.
Lemma lines_collect : forall fuel ign rs es, entry_lines ign rs es -> Forall (fun l => ~ In LF l) rs ->
  (forall last blank o ms, place_of last <> InString -> outside o -> collect fuel o (scan_all ign last blank rs) = Ok ms -> Forall2 line_says es ms) /\
  (forall last m ms, ended ign rs -> collect fuel (MBody m) (scan_all ign last false rs) = Ok ms -> exists ms', ms = m :: ms' /\ Forall2 line_says es ms').
Proof.
  intros fuel ign rs es. induction 1 as [|l ls es Q _ IH|l ls fl rest es F L E _ IH]; intro N.
  - split.
    + intros last blank o ms _ O C. cbn [scan_all collect] in C. injection C as <-. destruct o; [constructor|constructor|destruct O].
    + intros last m ms _ C. injection C as <-. exists []. split; [reflexivity|constructor].
  - destruct (IH (Forall_inv_tail N)) as [IHA _]. split.
    + intros last blank o ms P O C. destruct (quiet_collect _ _ _ _ _ _ _ _ Q O C) as (la & b & o' & O' & C' & P'). eapply IHA; [now apply P'|exact O'|exact C'].
    + intros last m ms E C. destruct (quiet_body _ _ _ _ _ _ _ E C) as (la & b & ms' & -> & P & C'). exists ms'. split; [reflexivity|].
      eapply IHA; [exact P| |exact C']. exact I.
  - pose proof (Forall_inv_tail N) as N'. apply Forall_app in N' as [NA NB]. destruct (IH NB) as [_ IHB]. split.
    + intros last blank o ms P O C. destruct (entry_collect _ _ _ _ _ _ _ _ _ _ F L O C) as (m & k & R & C').
      destruct (IHB _ _ _ E C') as (ms' & -> & S). constructor; [|exact S]. destruct (outside_new o O) as (X1 & X2 & X3 & X4).
      assert (NF : Forall (fun l => ~ In LF l) (l :: fl)).
      { constructor; [exact (Forall_inv N)|]. apply Forall_forall. intros y Y. rewrite Forall_forall in NA. apply NA. now apply (lines_on_incl _ _ _ L). }
      destruct (PoAnyProofs.fields_exist fuel m (length (l :: fl)) (l :: fl) (body_msg o) last) as (fs & ks & AF); [apply le_n|exact NF|now left|exact R|].
      split; [eauto|]. split; [intros fs' ks' AF'; eapply entry_any; eassumption|]. eapply forms_run; eassumption.
    + intros last m ms [Q _] _. exfalso. exact (field_not_quiet l F Q).
Qed.
Lemma lines_with_id : forall es ms, Forall2 line_says es ms -> lines_say es (with_id ms).
Proof.
  induction 1 as [|e m es ms S _ IH]; [constructor|]. unfold PoFieldProofs.with_id. cbn [filter]. destruct (m_id m) eqn:E; cbn [is_nil negb].
  - eapply ls_skip; [exact S|exact E|exact IH].
  - apply ls_keep; [exact S|congruence|exact IH].
Qed.
Lemma lines_exist : forall ign n rs, (length rs <= n)%nat -> exists es, entry_lines ign rs es.
Proof.
  intros ign. induction n as [|n IH]; intros [|l ls] L; try (exists []; apply el_nil); [cbn [length] in L; lia|]. cbn [length] in L.
  assert (QD : quiet l \/ field_start l).
  { destruct (trim_space l) as [|c y] eqn:T; [left; now left|]. destruct (Ascii.eqb_spec c "#") as [->|NC]; [left; right; exists y; exact T|].
    right. split; [congruence|intros [z Z]; congruence]. }
  destruct QD as [Q|F].
  - destruct (IH ls) as [es A]; [lia|]. exists es. now constructor.
  - destruct (span ign ls) as (a & fl & b & -> & LO & E & _). destruct (IH b) as [es A]; [rewrite app_length in L; lia|].
    exists ((l :: fl) :: es). now apply (el_entry ign l a fl b).
Qed.
Theorem file_forms : forall fuel ign s f rs, parse_po_fuel fuel ign s = Ok f -> reads_lines s rs ->
  (exists es, entry_lines ign rs es) /\ forall es, entry_lines ign rs es -> lines_say es (f_messages f).
Proof.
  intros fuel ign s f rs H R. split; [apply (lines_exist ign (length rs)), le_n|]. intros es A. pose proof (lines_no_lf s rs R) as N.
  apply reads_file_lines in R as ->. rewrite po_drive in H. apply drive_collect in H as (l & C & RE).
  assert (P0 : place_of TEof <> InString) by discriminate.
  pose proof (proj1 (lines_collect fuel ign _ es A N) TEof false MStart l P0 I C) as S. pose proof (PoFieldProofs.result_messages _ _ _ _ RE) as E. cbn [app] in E.
  rewrite E. now apply lines_with_id.
Qed.

(** ** What lines say is settled *)
Lemma says_same : forall fl m m', line_says fl m -> line_says fl m' ->
  key m = key m' /\ m_id m = m_id m' /\ (m_str m = [] <-> m_str m' = []) /\ (forall v, text_of m v <-> text_of m' v).
Proof.
  intros fl m m' ((fs & ks & A) & S & (_ & (g & G) & F)) (_ & S' & (_ & _ & F')). specialize (S _ _ A). specialize (S' _ _ A). specialize (F g G). specialize (F' g G).
  destruct S as (C & I & _ & N & _), S' as (C' & I' & _ & N' & _). pose proof (PoFieldProofs.last_or_none_unique _ _ _ _ I I') as EI.
  split; [unfold key; now rewrite EI, (PoFieldProofs.last_or_none_unique _ _ _ _ C C')|]. split; [exact EI|]. split; [now rewrite N, N'|].
  assert (IN : forall i v, In (i, v) (m_str m) <-> In (i, v) (m_str m')) by (intros i v; now rewrite F, F').
  assert (KE : forall i, In i (map fst (m_str m)) <-> In i (map fst (m_str m'))).
  { intro i. rewrite !in_map_iff. split; intros ([j v] & E & J); exists (j, v); (split; [exact E|]); now apply IN. }
  intro v. unfold text_of. now rewrite IN, KE.
Qed.
Lemma text_at : forall m v, NoDup (map fst (m_str m)) -> text_of m v -> str_at (m_str m) 0 = v.
Proof.
  intros m v ND T. unfold str_at. destruct (str_get (m_str m) 0) as [w|] eqn:G.
  - apply get_in in G; [|exact ND]. destruct T as [T|[_ T]].
    + apply get_in in T, G; try exact ND. congruence.
    + exfalso. apply T. now apply (in_map fst) in G.
  - destruct T as [T|[-> _]]; [|reflexivity]. apply get_in in T; [congruence|exact ND].
Qed.
Lemma text_exists : forall m, NoDup (map fst (m_str m)) -> text_of m (str_at (m_str m) 0).
Proof.
  intros m ND. unfold str_at, text_of. destruct (str_get (m_str m) 0) as [w|] eqn:G; [left; now apply get_in|]. right. split; [reflexivity|].
  intro J. apply in_map_iff in J as ([j v] & E & J). cbn [fst] in E. subst j. apply get_in in J; [congruence|exact ND].
Qed.
Lemma plain_heads : forall es l, Forall2 line_says es l -> (Forall plain es <-> PoFieldProofs.heads l = []).
Proof.
  induction 1 as [|fl m es l S _ IH]; [split; [reflexivity|constructor]|]. unfold PoFieldProofs.heads. cbn [filter]. fold (PoFieldProofs.heads l).
  assert (P : plain fl <-> m_id m <> [] \/ m_str m = []).
  { split; [|intro H; exists m; auto]. intros (m' & S' & H). destruct (says_same _ _ _ S S') as (_ & -> & -> & _). exact H. }
  split.
  - intro F. inversion F as [|x y PF FF]; subst. apply P in PF. apply IH in FF. rewrite FF. destruct (m_id m); cbn [is_nil andb]; [|reflexivity].
    destruct PF as [PF| ->]; [congruence|reflexivity].
  - intro H. constructor.
    + apply P. destruct (m_id m); [|left; discriminate]. destruct (m_str m); [now right|discriminate H].
    + apply IH. destruct (is_nil (m_id m) && negb (is_nil (m_str m))); [discriminate H|exact H].
Qed.
Lemma result_lines : forall es l, Forall2 line_says es l -> forall ms f, PoFieldProofs.result None ms l = Ok f ->
  exists o, lines_head es o /\ (ms <> [] \/ with_id l <> [] \/ o <> None) /\ header_is o (f_header f).
Proof.
  induction 1 as [|fl m es l S F IH]; intros ms f R; cbn [PoFieldProofs.result] in R.
  - exists None. split; [constructor|]. unfold finish in R. destruct ms; [discriminate|]. injection R as <-. split; [left; discriminate|reflexivity].
  - unfold PoFieldProofs.with_id. cbn [filter]. fold (with_id l). pose proof S as (_ & _ & (ND & _)).
    destruct (m_id m) as [|c x] eqn:EI; cbn [is_nil negb] in *.
    + destruct (is_nil (m_str m)) eqn:ES.
      * destruct (IH _ _ R) as (o & H & NE & HI). exists o. split; [apply lh_plain; [|exact H]; exists m; split; [exact S|right; now destruct (m_str m)]|]. split; assumption.
      * assert (NS : m_str m <> []) by (destruct (m_str m); discriminate). pose proof (text_exists m ND) as V. unfold parse_header in R.
        set (v := str_at (m_str m) 0) in *.
        destruct (header_lines new_header (split_on LF v)) as [h|] eqn:HH.
        -- destruct (PoHeadProofs.fields_exist _ _ _ HH) as [kvs FK]. assert (VK : header_value v kvs) by (exists (split_on LF v); split; [apply cut_split|exact FK]).
           rewrite (value_read _ _ VK) in HH. injection HH as <-. apply result_some in R as [NH HE]. exists (Some kvs).
           split; [eapply lh_head; [exact S|exact EI|exact NS|exact V|exact VK|]; now apply (plain_heads es l)|]. split; [right; right; discriminate|]. rewrite HE. split; reflexivity.
        -- pose proof (proj2 (value_none v new_header) HH) as BB. destruct (IH _ _ R) as (o & H & NE & HI). exists o. split; [eapply lh_bad; eassumption|]. split; assumption.
    + destruct (existsb (same_key m) ms); [discriminate|]. destruct (IH _ _ R) as (o & H & NE & HI). exists o.
      split; [apply lh_plain; [exists m; split; [exact S|left; congruence]|exact H]|]. split; [right; left; discriminate|exact HI].
Qed.
Lemma lines_result : forall es l, Forall2 line_says es l -> forall o ms, lines_head es o -> NoDup (map key ms ++ map key (with_id l)) ->
  (ms <> [] \/ with_id l <> [] \/ o <> None) -> exists f, PoFieldProofs.result None ms l = Ok f.
Proof.
  induction 1 as [|fl m es l S F IH]; intros o ms H N NE; cbn [PoFieldProofs.result].
  - inversion H; subst. unfold finish. destruct ms; [|eauto]. destruct NE as [NE|[NE|NE]]; now destruct NE.
  - unfold PoFieldProofs.with_id in N, NE. cbn [filter] in N, NE. fold (with_id l) in N, NE. pose proof S as (_ & _ & (ND & _)).
    destruct (m_id m) as [|c x] eqn:EI; cbn [is_nil negb] in *.
    + inversion H as [|fl' es' o' (m' & S' & P) H'|fl' m' v es' o' S' I' NS' V' B H'|fl' m' v kvs es' S' I' NS' V' B H']; subst;
        destruct (says_same _ _ _ S S') as (_ & E1 & E2 & E3).
      * destruct P as [P|P]; [congruence|]. apply E2 in P. rewrite P. cbn [is_nil]. eapply IH; eassumption.
      * apply E3 in V'. rewrite <- E2 in NS'. destruct (is_nil (m_str m)) eqn:ES; [exfalso; apply NS'; now destruct (m_str m)|].
        unfold parse_header. rewrite (text_at m v ND V'), (proj1 (value_none v new_header) B). eapply IH; eassumption.
      * apply E3 in V'. rewrite <- E2 in NS'. destruct (is_nil (m_str m)) eqn:ES; [exfalso; apply NS'; now destruct (m_str m)|].
        unfold parse_header. rewrite (text_at m v ND V'), (value_read _ _ B). apply no_head_result; [exact N|]. now apply (plain_heads es l).
    + assert (H' : lines_head es o).
      { inversion H as [|fl' es' o' P H'|fl' m' v es' o' S' I' NS' V' B H'|fl' m' v kvs es' S' I' NS' V' B H']; subst; [assumption|..];
          destruct (says_same _ _ _ S S') as (_ & E1 & _); congruence. }
      cbn [map] in N. destruct (existsb (same_key m) ms) eqn:X.
      * apply PoOutcomeProofs.exists_key in X. apply NoDup_remove_2 in N. exfalso. apply N. apply in_or_app. now left.
      * eapply IH; [exact H'|rewrite map_app, <- app_assoc; exact N|]. left. destruct ms; discriminate.
Qed.
Lemma lines_keys : forall es l, Forall2 line_says es l -> forall ms, lines_say es ms -> map key (with_id l) = map key ms.
Proof.
  induction 1 as [|fl m es l S _ IH]; intros ms L; inversion L as [|fl' m' es' ms' S' I' L'|fl' m' es' ms' S' I' L']; subst; [reflexivity|..];
    unfold PoFieldProofs.with_id; cbn [filter]; destruct (says_same _ _ _ S S') as (E0 & E1 & _).
  - rewrite E1, I'. cbn [is_nil negb]. now apply IH.
  - destruct (m_id m) eqn:EI; [congruence|]. cbn [is_nil negb map]. f_equal; [exact E0|now apply IH].
Qed.
Theorem lines_accepted : forall fuel ign s rs es, reads_lines s rs -> (length s < fuel)%nat -> Forall (fun l => ~ unclosed l) rs -> entry_lines ign rs es ->
  ((exists f, parse_po_fuel fuel ign s = Ok f) <->
   understood ign Elsewhere rs /\ exists ms o, lines_say es ms /\ NoDup (map key ms) /\ lines_head es o /\ (ms <> [] \/ o <> None)).
Proof.
  intros fuel ign s rs es R L N A. pose proof (lines_no_lf s rs R) as NL. assert (P0 : place_of TEof <> InString) by discriminate. split.
  - intros [f E]. assert (U : understood ign Elsewhere rs) by (pose proof R as R'; apply reads_file_lines in R' as ->; eapply parse_po_understood; exact E).
    split; [exact U|]. destruct (file_any _ _ _ _ _ E R) as [es' A']. destruct (file_messages _ _ _ _ _ _ E R A') as [_ D].
    apply reads_file_lines in R as ->. rewrite po_drive in E. apply drive_collect in E as (l & C & RE).
    pose proof (proj1 (lines_collect fuel ign _ es A NL) TEof false MStart l P0 I C) as S.
    pose proof (PoFieldProofs.result_messages _ _ _ _ RE) as M. cbn [app] in M. rewrite M in D.
    destruct (result_lines es l S [] f RE) as (o & H & NE & _). exists (with_id l), o. split; [now apply lines_with_id|]. split; [exact D|]. split; [exact H|].
    destruct NE as [NE|NE]; [congruence|exact NE].
  - intros (U & ms & o & LS & D & H & NE). destruct (file_collects fuel ign s rs R L U N) as [l C]. apply reads_file_lines in R as ->.
    pose proof (proj1 (lines_collect fuel ign _ es A NL) TEof false MStart l P0 I C) as S. pose proof (lines_keys es l S ms LS) as K.
    destruct (lines_result es l S o [] H) as [f RE]; [cbn [map app]; now rewrite K|destruct NE as [NE|NE]; [right; left|right; now right]|].
    + intro X. rewrite X in K. destruct ms; [congruence|discriminate K].
    + exists f. rewrite po_drive. apply drive_collect. eauto.
Qed.
Lemma lines_head_fun : forall es o, lines_head es o -> forall o', lines_head es o' -> o = o'.
Proof.
  assert (Z : forall es o, lines_head es o -> Forall plain es -> o = None).
  { induction 1 as [|fl es o P _ IH|fl m v es o S I0 NS V B _ IH|fl m v kvs es S I0 NS V B F]; intro FP; [reflexivity|apply IH; now inversion FP|..];
      exfalso; inversion FP as [|x y (m' & S' & P) _]; subst; destruct (says_same _ _ _ S S') as (_ & E1 & E2 & _);
      (destruct P as [P|P]; [congruence|apply NS; now apply E2]). }
  assert (PL : forall fl m, plain fl -> line_says fl m -> m_id m = [] -> m_str m <> [] -> False).
  { intros fl m (m' & S' & P) S I0 NS. destruct (says_same _ _ _ S S') as (_ & E1 & E2 & _). destruct P as [P|P]; [congruence|apply NS; now apply E2]. }
  assert (TX : forall fl m m' v v', line_says fl m -> line_says fl m' -> text_of m v -> text_of m' v' -> v = v').
  { intros fl m m' v v' S S' T T'. destruct (says_same _ _ _ S S') as (_ & _ & _ & E). apply E in T'. destruct S as (_ & _ & (ND & _)).
    rewrite <- (text_at m v ND T). now apply text_at. }
  induction 1 as [|fl es o P H IH|fl m v es o S I0 NS V B H IH|fl m v kvs es S I0 NS V B F]; intros o' H';
    inversion H' as [|fl' es' o2 P' H2|fl' m' v' es' o2 S' I' NS' V' B' H2|fl' m' v' kvs' es' S' I' NS' V' B' F']; subst; auto;
    try (exfalso; eapply PL; eassumption).
  - exfalso. rewrite (TX _ _ _ _ _ S S' V V') in B. exact (B _ B').
  - exfalso. rewrite (TX _ _ _ _ _ S S' V V') in B. exact (B' _ B).
  - f_equal. rewrite (TX _ _ _ _ _ S S' V V') in B. eapply value_fun; eassumption.
Qed.
Theorem lines_header : forall fuel ign s f rs es, parse_po_fuel fuel ign s = Ok f -> reads_lines s rs -> entry_lines ign rs es ->
  exists o, lines_head es o /\ (forall o', lines_head es o' -> o' = o) /\
    match o with
    | None => f_header f = new_header
    | Some kvs => forall fold k, header_get fold (f_header f) k = header_get fold (PoHeaderProofs.set_all kvs new_header) k
    end.
Proof.
  intros fuel ign s f rs es E R A. pose proof (lines_no_lf s rs R) as NL. assert (P0 : place_of TEof <> InString) by discriminate.
  apply reads_file_lines in R as ->. rewrite po_drive in E. apply drive_collect in E as (l & C & RE).
  pose proof (proj1 (lines_collect _ ign _ es A NL) TEof false MStart l P0 I C) as S.
  destruct (result_lines es l S [] f RE) as (o & H & _ & HI). exists o. split; [exact H|]. split; [intros o' H'; exact (lines_head_fun _ _ H' _ H)|].
  destruct o as [kvs|]; [|exact HI]. intros fold k. destruct HI as [A1 A2]. now apply get_fields.
Qed.
(** An accepted file has a message or a header. *)
Theorem lines_nonempty : forall fuel ign s f rs es, parse_po_fuel fuel ign s = Ok f -> reads_lines s rs -> entry_lines ign rs es ->
  lines_head es None -> lines_say es [] -> False.
Proof.
  intros fuel ign s f rs es E R A H F. pose proof (lines_no_lf s rs R) as NL. assert (P0 : place_of TEof <> InString) by discriminate.
  apply reads_file_lines in R as ->. rewrite po_drive in E. apply drive_collect in E as (l & C & RE).
  pose proof (proj1 (lines_collect _ ign _ es A NL) TEof false MStart l P0 I C) as S. pose proof (lines_keys es l S [] F) as K.
  destruct (result_lines es l S [] f RE) as (o & HO & NE & _). rewrite <- (lines_head_fun _ _ H _ HO) in NE.
  destruct NE as [NE|[NE|NE]]; try congruence. apply NE. destruct (with_id l); [reflexivity|discriminate K].
Qed.

(** ** Files as the decoders read them *)
Lemma lines_alike : forall fls ms, lines_say fls ms -> forall ms', lines_say fls ms' ->
  Forall2 (fun m m' => key m = key m' /\ forall i, str_get (m_str m) i = str_get (m_str m') i) ms ms'.
Proof.
  induction 1 as [|fl m es ms S I0 _ IH|fl m es ms S I0 _ IH]; intros ms' L; inversion L as [|fl' m' es' ms2 S' I' L'|fl' m' es' ms2 S' I' L']; subst;
    [constructor|now apply IH|..]; pose proof (says_same _ _ _ S S') as (K & E1 & _); [congruence|congruence|]. constructor; [|now apply IH]. split; [exact K|].
  destruct S as (_ & _ & (ND & (g & G) & F)), S' as (_ & _ & (ND' & _ & F')). apply get_same; [exact ND|exact ND'|]. intros i v. now rewrite (F g G), (F' g G).
Qed.
Lemma comments_fuzzy : forall es cs ms, file_comments es cs ms -> forall ms', file_comments es cs ms' -> Forall2 (fun m m' => fuzzy m <-> fuzzy m') ms ms'.
Proof.
  induction 1 as [|e es c cs ms SK _ IH|e es c cs m ms S NE M _ IH]; intros ms' F2;
    inversion F2 as [|e2 es2 c2 cs2 ms2 SK2 R2|e2 es2 c2 cs2 m2 ms2 S2 NE2 M2 R2]; subst; [constructor|now apply IH| | |].
  - exfalso. apply NE2. eapply PoFieldProofs.last_or_none_unique; [apply S2|exact SK].
  - exfalso. apply NE. eapply PoFieldProofs.last_or_none_unique; [apply S|exact SK2].
  - constructor; [unfold fuzzy; now rewrite M, M2|now apply IH].
Qed.
Lemma both_alike : forall ms ms', Forall2 (fun m m' => key m = key m' /\ forall i, str_get (m_str m) i = str_get (m_str m') i) ms ms' ->
  Forall2 (fun m m' => fuzzy m <-> fuzzy m') ms ms' -> Forall2 alike ms ms'.
Proof.
  induction 1 as [|m m' ms ms' [K G] _ IH]; intro F; inversion F as [|x y l l' Z F']; subst; constructor; [|now apply IH]. split; [exact K|]. split; [exact G|exact Z].
Qed.
Theorem every_po_read : forall s ms kvs, every_po s ms kvs ->
  exists f, parse_po_fuel (S (length s)) true s = Ok f /\ NoDup (map key (f_messages f)) /\ Forall2 alike (f_messages f) ms /\
    ((kvs = [] /\ f_header f = new_header) \/ forall fold k, header_get fold (f_header f) k = header_get fold (PoHeaderProofs.set_all kvs new_header) k).
Proof.
  intros s ms kvs (rs & es & cs & fls & o & R & U & N & A & AC & FC & EL & LS & D & H & NE & ->).
  destruct (proj2 (lines_accepted (S (length s)) true s rs fls R (Nat.lt_succ_diag_r _) N EL)) as [f E]; [split; [exact U|]; exists ms, o; auto|].
  exists f. split; [exact E|]. split; [exact (proj2 (file_messages _ _ _ _ _ _ E R A))|]. split.
  - apply both_alike; [apply (lines_alike fls); [exact (proj2 (file_forms _ _ _ _ _ E R) fls EL)|exact LS]|].
    apply (comments_fuzzy es cs); [exact (file_comments_of _ _ _ _ _ _ _ E R A AC)|exact FC].
  - destruct (lines_header _ _ _ _ _ _ E R EL) as (o' & H' & _ & V). rewrite (lines_head_fun _ _ H _ H'). destruct o' as [kvs|]; [now right|now left].
Qed.
(** ... and every accepted one is such a file. *)
Theorem every_po_all : forall s f rs cs, parse_po_fuel (S (length s)) true s = Ok f -> reads_lines s rs -> Forall (fun l => ~ unclosed l) rs ->
  any_comments true [] rs cs -> exists kvs, every_po s (f_messages f) kvs.
Proof.
  intros s f rs cs E R N AC. destruct (file_any _ _ _ _ _ E R) as [es A]. destruct (file_forms _ _ _ _ _ E R) as [[fls EL] LS].
  destruct (proj1 (lines_accepted (S (length s)) true s rs fls R (Nat.lt_succ_diag_r _) N EL) (ex_intro _ f E)) as (U & ms & o & LS' & D & H & NE).
  exists match o with Some l => l | None => [] end. exists rs, es, cs, fls, o.
  assert (K : map key (f_messages f) = map key ms).
  { pose proof (lines_alike fls _ (LS fls EL) ms LS') as X. clear - X. induction X as [|m m' l l' [K _] _ IH]; [reflexivity|]. cbn [map]. now rewrite K, IH. }
  repeat (split; [assumption || exact (file_comments_of _ _ _ _ _ _ _ E R A AC) || exact (LS fls EL)|]).
  split; [rewrite K; exact D|]. split; [exact H|]. split; [|reflexivity]. destruct NE as [NE|NE]; [left|now right]. destruct (f_messages f), ms; try discriminate K; congruence.
Qed.
