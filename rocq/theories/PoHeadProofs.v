(** PO files of any layout: messages and header fields. *)
From Coq Require Import String Ascii List ZArith Bool Lia.
From Verif Require Import Base BaseProofs StrModel PoStrModel PoStrSpec PoFileModel PoFileSpec PoFieldSpec.
From Verif Require PoFieldProofs PoParseProofs PoHeaderProofs.
From Verif Require Import PoLineSpec PoLineProofs PoHangSpec PoHangProofs PoAnySpec PoAnyProofs PoComSpec PoComProofs GettextSpec GettextProofs PoHeadSpec.
Import ListNotations.
Open Scope Z_scope.

Lemma get_in : forall (m : strmap) i v, NoDup (map fst m) -> (str_get m i = Some v <-> In (i, v) m).
Proof.
  induction m as [|[j w] m IH]; intros i v N; cbn [str_get]; [split; [discriminate|intros []]|]. cbn [map fst] in N. inversion N as [|x y NI N']; subst.
  destruct (Z.eqb_spec j i) as [->|NE].
  - split; [intro E; injection E as ->; now left|]. intros [E|E]; [now injection E as ->|]. exfalso. apply NI. apply (in_map fst) in E. exact E.
  - rewrite IH by exact N'. split; [now right|]. intros [E|E]; [congruence|exact E].
Qed.
Lemma get_same : forall (m m' : strmap), NoDup (map fst m) -> NoDup (map fst m') -> (forall i v, In (i, v) m <-> In (i, v) m') -> forall i, str_get m i = str_get m' i.
Proof.
  intros m m' N N' E i. destruct (str_get m i) as [v|] eqn:G.
  - apply get_in in G; [|exact N]. symmetry. apply get_in; [exact N'|]. now apply E.
  - destruct (str_get m' i) as [v|] eqn:G'; [|reflexivity]. apply get_in in G'; [|exact N']. apply E, get_in in G'; [congruence|exact N].
Qed.
Lemma says_alike : forall e m m' c, in_turn [] (fst e) (snd e) -> entry_says e m -> entry_says e m' -> m_com m = Some (com_of c) -> m_com m' = Some (com_of c) -> alike m m'.
Proof.
  intros e m m' c T (C & I & _ & _ & S) (C' & I' & _ & _ & S') M M'. destruct (S T) as [N F]. destruct (S' T) as [N' F']. split; [|split].
  - unfold key. now rewrite (PoFieldProofs.last_or_none_unique _ _ _ _ C C'), (PoFieldProofs.last_or_none_unique _ _ _ _ I I').
  - apply get_same; [exact N|exact N'|]. intros i v. now rewrite F, F'.
  - unfold fuzzy. now rewrite M, M'.
Qed.
Lemma comments_alike : forall es cs ms, file_comments es cs ms -> Forall (fun e => in_turn [] (fst e) (snd e)) es -> forall ms', file_comments es cs ms' -> Forall2 alike ms ms'.
Proof.
  induction 1 as [|e es c cs ms SK _ IH|e es c cs m ms S NE M _ IH]; intros F ms' F2; inversion F as [|x y T F']; subst;
    inversion F2 as [|e2 es2 c2 cs2 ms2 SK2 R2|e2 es2 c2 cs2 m2 ms2 S2 NE2 M2 R2]; subst; [constructor|now apply IH| | |].
  - exfalso. apply NE2. eapply PoFieldProofs.last_or_none_unique; [apply S2|exact SK].
  - exfalso. apply NE. eapply PoFieldProofs.last_or_none_unique; [apply S|exact SK2].
  - constructor; [eapply says_alike; eassumption|now apply IH].
Qed.
Lemma comments_say : forall es cs ms, file_comments es cs ms -> file_says es ms.
Proof. induction 1; [constructor|now constructor|now constructor]. Qed.

(** ** The header *)
Lemma cut_split : forall v, cut v (split_on LF v).
Proof.
  intro v. remember (length v) as n eqn:E. revert v E. induction n as [n IH] using (well_founded_induction lt_wf). intros v ->.
  destruct (in_dec ascii_dec LF v) as [J|J]; [|rewrite PoStrProofs.split_no_lf_end by exact J; now constructor].
  assert (X : exists a t, v = a ++ LF :: t /\ ~ In LF a).
  { clear - J. induction v as [|c v IH]; [destruct J|]. destruct (ascii_dec c LF) as [->|N]; [exists [], v; split; [reflexivity|intros []]|].
    destruct J as [J|J]; [congruence|]. destruct (IH J) as (a & t & -> & NI). exists (c :: a), t. split; [reflexivity|]. intros [Y|Y]; congruence || contradiction. }
  destruct X as (a & t & -> & NI). rewrite PoStrProofs.split_no_lf by exact NI. constructor; [exact NI|].
  eapply IH; [|reflexivity]. rewrite app_length. cbn [length]. lia.
Qed.
Lemma cut_fun : forall v ls, cut v ls -> ls = split_on LF v.
Proof. induction 1 as [l N|l t ls N _ ->]; [now rewrite PoStrProofs.split_no_lf_end|now rewrite PoStrProofs.split_no_lf]. Qed.
Lemma fields_read : forall ls kvs, line_fields ls kvs -> forall h, header_lines h ls = Some (PoHeaderProofs.set_all kvs h).
Proof.
  induction 1 as [|l ls kvs N B _ IH|k v ls kvs N _ IH]; intro h; cbn [header_lines]; [reflexivity| |].
  - apply PoDecodeProofs.index_none in N. rewrite N, B. cbn [is_nil]. apply IH.
  - rewrite PoScanProofs.index_app by exact N. rewrite firstn_app, firstn_all, Nat.sub_diag, app_nil_r.
    replace (skipn (S (length k)) (k ++ ":"%char :: v)) with v; [apply IH|]. clear. induction k; [reflexivity|exact IHk].
Qed.
Lemma fields_exist : forall ls h h', header_lines h ls = Some h' -> exists kvs, line_fields ls kvs.
Proof.
  induction ls as [|l ls IH]; intros h h' H; cbn [header_lines] in H; [exists []; constructor|].
  destruct (index_byte ":" l) as [i|] eqn:X.
  - destruct (IH _ _ H) as [kvs F]. apply PoDecodeProofs.index_spec in X as (E & N & _).
    rewrite E. eexists. constructor; [|exact F]. exact N.
  - destruct (trim_space l) eqn:B; cbn [is_nil] in H; [|discriminate]. destruct (IH _ _ H) as [kvs F]. exists kvs. constructor; [|exact B|exact F]. now apply PoDecodeProofs.index_none.
Qed.
Lemma value_read : forall v kvs, header_value v kvs -> forall h, header_lines h (split_on LF v) = Some (PoHeaderProofs.set_all kvs h).
Proof. intros v kvs (ls & C & F) h. rewrite <- (cut_fun _ _ C). now apply fields_read. Qed.
Lemma value_none : forall v h, (forall kvs, ~ header_value v kvs) <-> header_lines h (split_on LF v) = None.
Proof.
  intros v h. split.
  - intro N. destruct (header_lines h (split_on LF v)) as [h'|] eqn:E; [|reflexivity]. exfalso.
    destruct (fields_exist _ _ _ E) as [kvs F]. apply (N kvs). exists (split_on LF v). split; [apply cut_split|exact F].
  - intros E kvs V. rewrite (value_read _ _ V) in E. discriminate.
Qed.
Lemma last_exists : forall pick fs, exists v, last_or_none pick fs v.
Proof.
  intros pick fs. induction fs as [|f fs [v IH]] using rev_ind; [exists []; right; split; [reflexivity|constructor]|].
  eexists. apply PoFieldProofs.last_or_none_snoc. exact IH.
Qed.
Lemma head_text : forall e m v, entry_says e m -> in_turn [] (fst e) (snd e) -> last_or_none (form_of 0) (fst e) v -> str_at (m_str m) 0 = v.
Proof.
  intros e m v (_ & _ & _ & _ & S) T L. destruct (S T) as [ND IN]. unfold str_at. destruct (str_get (m_str m) 0) as [w|] eqn:G.
  - apply get_in in G; [|exact ND]. apply IN in G. eapply PoFieldProofs.last_or_none_unique; [left; exact G|exact L].
  - destruct L as [L|[-> _]]; [|reflexivity]. apply IN, get_in in L; [congruence|exact ND].
Qed.
Lemma says_no_head : forall es l, Forall2 entry_says es l -> (heads es 0 <-> PoFieldProofs.heads l = []).
Proof.
  induction 1 as [|e m es l S F IH]; [split; [reflexivity|constructor]|]. unfold PoFieldProofs.heads. cbn [filter]. fold (PoFieldProofs.heads l).
  pose proof S as (_ & ID & _ & SN & _). destruct (m_id m) as [|c x] eqn:EI; cbn [is_nil andb].
  - destruct (m_str m) eqn:ES; cbn [is_nil negb].
    + rewrite <- IH. split; [|intro H; apply hd_empty; [now apply SN|exact H]].
      intro H. inversion H as [|e' es' n v V NE H'|e' es' n IX H'|]; subst; [|exact H'].
      exact H'.
    + split; [|discriminate]. intro H. exfalso. inversion H as [|e' es' n v V NE H'|e' es' n IX H'|]; subst.
      * apply NE. eapply PoFieldProofs.last_or_none_unique; [left; exact V|exact ID].
      * apply SN in IX. discriminate.
  - rewrite <- IH. split; [intro H; inversion H; subst; assumption|]. intro H. apply hd_id with (v := c :: x); [|discriminate|exact H].
    destruct ID as [ID|[ID _]]; [exact ID|discriminate].
Qed.
Lemma result_some : forall l h ms f, PoFieldProofs.result (Some h) ms l = Ok f -> PoFieldProofs.heads l = [] /\ f_header f = h.
Proof.
  induction l as [|m l IH]; intros h ms f R; cbn [PoFieldProofs.result] in R.
  - cbn [finish] in R. injection R as <-. split; reflexivity.
  - unfold PoFieldProofs.heads. cbn [filter]. fold (PoFieldProofs.heads l). destruct (is_nil (m_id m)); cbn [andb].
    + destruct (is_nil (m_str m)); cbn [negb]; [eauto|discriminate].
    + destruct (existsb (same_key m) ms); [discriminate|eauto].
Qed.
(** what the header of the file is *)
Definition header_is (o : option (list (bytes * bytes))) (h : header) : Prop :=
  match o with
  | None => h = new_header
  | Some kvs => h_known h = h_known (PoHeaderProofs.set_all kvs new_header) /\ h_unknown h = h_unknown (PoHeaderProofs.set_all kvs new_header)
  end.
Lemma result_says : forall es l, Forall2 entry_says es l -> heads_in_turn es -> forall ms f, PoFieldProofs.result None ms l = Ok f ->
  exists o, header_says es o /\ (ms <> [] \/ with_id l <> [] \/ o <> None) /\ header_is o (f_header f).
Proof.
  induction 1 as [|e m es l S F IH]; intros T ms f R; cbn [PoFieldProofs.result] in R.
  - exists None. split; [constructor|]. unfold finish in R. destruct ms; [discriminate|]. injection R as <-. split; [left; discriminate|reflexivity].
  - inversion T as [|x y T1 T2]; subst. specialize (IH T2). pose proof S as (_ & ID & _ & SN & _). unfold PoFieldProofs.with_id. cbn [filter]. fold (with_id l).
    destruct (m_id m) as [|c x] eqn:EI; cbn [is_nil negb] in *.
    + destruct (m_str m) as [|st sr] eqn:ES; cbn [is_nil] in R.
      * destruct (IH _ _ R) as (o & H & NE & HI). exists o. split; [apply hs_empty; [now apply SN|exact H]|]. split; assumption.
      * destruct (last_exists (form_of 0) (fst e)) as [v V]. assert (HL : headlike e v).
        { split; [exact ID|]. split; [|exact V]. intro X. apply SN in X. discriminate. }
        pose proof (head_text e m v S (T1 ID) V) as TX. unfold parse_header in R. rewrite TX in R.
        destruct (header_lines new_header (split_on LF v)) as [h|] eqn:HH.
        -- destruct (fields_exist _ _ _ HH) as [kvs FK]. assert (VK : header_value v kvs) by (exists (split_on LF v); split; [apply cut_split|exact FK]).
           rewrite (value_read _ _ VK) in HH. injection HH as <-. apply result_some in R as [NH HE]. exists (Some kvs).
           split; [eapply hs_head; [exact HL|exact VK|]; now apply (says_no_head es l)|]. split; [right; right; discriminate|]. rewrite HE. split; reflexivity.
        -- pose proof (proj2 (value_none v new_header) HH) as BB. destruct (IH _ _ R) as (o & H & NE & HI). exists o. split; [eapply hs_bad; eassumption|]. split; assumption.
    + destruct (existsb (same_key m) ms); [discriminate|]. destruct (IH _ _ R) as (o & H & NE & HI). exists o.
      split; [apply hs_id with (v := c :: x); [|discriminate|exact H]; destruct ID as [ID|[ID _]]; [exact ID|discriminate]|]. split; [right; left; discriminate|exact HI].
Qed.
Lemma no_head_result : forall l h ms, NoDup (map key ms ++ map key (with_id l)) -> PoFieldProofs.heads l = [] -> exists f, PoFieldProofs.result (Some h) ms l = Ok f.
Proof. intros l h ms N H. apply PoFieldProofs.result_ok; [exact N|rewrite H; cbn; lia|right; right; discriminate]. Qed.
Lemma says_result : forall es l, Forall2 entry_says es l -> heads_in_turn es -> forall o ms, header_says es o -> NoDup (map key ms ++ map key (with_id l)) ->
  (ms <> [] \/ with_id l <> [] \/ o <> None) -> exists f, PoFieldProofs.result None ms l = Ok f.
Proof.
  induction 1 as [|e m es l S F IH]; intros T o ms H N NE; cbn [PoFieldProofs.result].
  - inversion H; subst. unfold finish. destruct ms; [|eauto]. destruct NE as [NE|[NE|NE]]; now destruct NE.
  - inversion T as [|x y T1 T2]; subst. specialize (IH T2). pose proof S as (_ & ID & _ & SN & _). unfold PoFieldProofs.with_id in N, NE. cbn [filter] in N, NE. fold (with_id l) in N, NE.
    destruct (m_id m) as [|c x] eqn:EI; cbn [is_nil negb] in *.
    + assert (NV : forall v, last_value_of id_of (fst e) v -> v = []) by (intros v V; eapply PoFieldProofs.last_or_none_unique; [left; exact V|exact ID]).
      inversion H as [|e' es' o' v V NV' H'|e' es' o' IX H'|e' es' o' v HL B H'|e' es' v kvs HL B H']; subst.
      * exfalso. apply NV'. now apply NV.
      * apply SN in IX. rewrite IX. cbn [is_nil]. eapply IH; eassumption.
      * pose proof HL as (_ & IX & V). destruct (m_str m) as [|st sr] eqn:ES; [exfalso; apply IX; now apply SN|]. cbn [is_nil].
        unfold parse_header. rewrite (head_text e m v S (T1 ID) V), (proj1 (value_none v new_header) B). eapply IH; eassumption.
      * pose proof HL as (_ & IX & V). destruct (m_str m) as [|st sr] eqn:ES; [exfalso; apply IX; now apply SN|]. cbn [is_nil].
        unfold parse_header. rewrite (head_text e m v S (T1 ID) V), (value_read _ _ B). apply no_head_result; [exact N|]. now apply (says_no_head es l).
    + assert (H' : header_says es o).
      { inversion H as [|e' es' o' v V NV' H'|e' es' o' IX H'|e' es' o' v (I & _) B H'|e' es' v kvs (I & _) B H']; subst; try assumption;
          exfalso; pose proof (PoFieldProofs.last_or_none_unique _ _ _ _ ID I); discriminate. }
      cbn [map] in N. destruct (existsb (same_key m) ms) eqn:X.
      * apply PoOutcomeProofs.exists_key in X. apply NoDup_remove_2 in N. exfalso. apply N. apply in_or_app. now left.
      * eapply IH; [exact H'|rewrite map_app, <- app_assoc; exact N|]. left. destruct ms; discriminate.
Qed.
(** Which files are accepted. *)
Lemma keys_of : forall es l ms, Forall2 entry_says es l -> file_says es ms -> map key (with_id l) = map key ms /\ (with_id l <> [] <-> ms <> []).
Proof.
  intros es l ms S F. pose proof (says_keys es l S ms F) as K. split; [exact K|]. destruct (with_id l), ms; try discriminate K; split; congruence.
Qed.
Theorem file_accepted_only : forall fuel ign s f rs es ms, parse_po_fuel fuel ign s = Ok f -> reads_lines s rs -> any_file ign rs es -> file_says es ms -> heads_in_turn es ->
  understood ign Elsewhere rs /\ NoDup (map key ms) /\ exists o, header_says es o /\ (ms <> [] \/ o <> None).
Proof.
  intros fuel ign s f rs es ms E R A F T. assert (U : understood ign Elsewhere rs) by (pose proof R as R'; apply reads_file_lines in R' as ->; eapply parse_po_understood; exact E). split; [exact U|].
  destruct (file_messages _ _ _ _ _ _ E R A) as [FS D]. pose proof R as R'. apply reads_file_lines in R' as ->. rewrite po_drive in E. apply drive_collect in E as (l & C & RE).
  pose proof (proj1 (any_collect fuel ign _ es A) TEof false MStart l I C) as S. destruct (keys_of es l ms S F) as [K1 K2].
  pose proof (PoFieldProofs.result_messages _ _ _ _ RE) as M. cbn [app] in M. rewrite M in D.
  split; [now rewrite <- K1|]. destruct (result_says es l S T [] f RE) as (o & H & NE & _). exists o. split; [exact H|].
  destruct NE as [NE|[NE|NE]]; [congruence|left; now apply K2|now right].
Qed.
Theorem file_accepts_iff : forall fuel ign s rs es ms, reads_lines s rs -> (length s < fuel)%nat -> Forall (fun l => ~ unclosed l) rs ->
  any_file ign rs es -> file_says es ms -> heads_in_turn es ->
  ((exists f, parse_po_fuel fuel ign s = Ok f) <->
   understood ign Elsewhere rs /\ NoDup (map key ms) /\ exists o, header_says es o /\ (ms <> [] \/ o <> None)).
Proof.
  intros fuel ign s rs es ms R L N A F T. split; [intros [f E]; eapply file_accepted_only; eassumption|].
  intros (U & D & o & H & NE). destruct (file_collects fuel ign s rs R L U N) as [l C]. apply reads_file_lines in R as ->.
  pose proof (proj1 (any_collect fuel ign _ es A) TEof false MStart l I C) as S. destruct (keys_of es l ms S F) as [K1 K2].
  destruct (says_result es l S T o [] H) as [f RE]; [cbn [map app]; now rewrite K1|destruct NE as [NE|NE]; [right; left; now apply K2|right; now right]|].
  exists f. rewrite po_drive. apply drive_collect. eauto.
Qed.
Lemma get_fields : forall fold h h' k, h_known h = h_known h' -> h_unknown h = h_unknown h' -> header_get fold h k = header_get fold h' k.
Proof. intros fold h h' k K U. unfold header_get. now rewrite K, U. Qed.
Lemma fields_fun : forall ls kvs, line_fields ls kvs -> forall kvs', line_fields ls kvs' -> kvs = kvs'.
Proof.
  induction 1 as [|l ls kvs N B _ IH|k v ls kvs N _ IH]; intros kvs' F; inversion F as [|l' ls' k' N' B' F'|k' v' ls' k2 N' F' E]; subst; [reflexivity|auto| | |].
  - exfalso. apply N. apply in_or_app. right. now left.
  - exfalso. apply N'. apply in_or_app. right. now left.
  - assert (X : k = k' /\ v = v').
    { apply (f_equal (fun x => (index_byte ":" x, x))) in E. injection E as E1 E2. rewrite !PoScanProofs.index_app in E1 by assumption. injection E1 as E1.
      assert (Y : k' = k) by (apply (f_equal (firstn (length k'))) in E2; rewrite firstn_app, firstn_all, Nat.sub_diag, app_nil_r, E1, firstn_app, firstn_all, Nat.sub_diag, app_nil_r in E2; exact E2).
      subst k'. apply app_inv_head in E2. injection E2 as ->. auto. }
    destruct X as [-> ->]. f_equal. now apply IH.
Qed.
Lemma value_fun : forall v kvs kvs', header_value v kvs -> header_value v kvs' -> kvs = kvs'.
Proof. intros v kvs kvs' (ls & C & F) (ls' & C' & F'). apply cut_fun in C, C'. subst. eapply fields_fun; eassumption. Qed.
Lemma header_says_fun : forall es o, header_says es o -> forall o', header_says es o' -> o = o'.
Proof.
  assert (U : forall (e : entry) v, last_value_of id_of (fst e) v -> v <> [] -> last_or_none id_of (fst e) [] -> False).
  { intros e v V NE I. apply NE. eapply PoFieldProofs.last_or_none_unique; [left; exact V|exact I]. }
  assert (Z : forall es o, header_says es o -> heads es 0 -> o = None).
  { induction 1 as [|e es o v V NE _ IH|e es o IX _ IH|e es o v (I & IX & V) B _ IH|e es v kvs (I & IX & V) B H]; intro H0;
      [reflexivity|apply IH|apply IH|exfalso|exfalso]; inversion H0 as [|e' es' n' v' V' NE' H'|e' es' n' IX' H'|]; subst; auto; try congruence; eapply U; eassumption. }
  induction 1 as [|e es o v V NE _ IH|e es o IX _ IH|e es o v (I & IX & V) B H IH|e es v kvs (I & IX & V) B H]; intros o' H';
    inversion H' as [|e' es' o2 v' V' NE' H2|e' es' o2 IX' H2|e' es' o2 v' (I' & IX' & V') B' H2|e' es' v' kvs' (I' & IX' & V') B' H2]; subst; auto;
    try (exfalso; congruence); try (exfalso; eapply U; eassumption).
  - exfalso. rewrite (PoFieldProofs.last_or_none_unique _ _ _ _ V V') in B. exact (B _ B').
  - exfalso. rewrite (PoFieldProofs.last_or_none_unique _ _ _ _ V V') in B. exact (B' _ B).
  - f_equal. rewrite (PoFieldProofs.last_or_none_unique _ _ _ _ V V') in B. eapply value_fun; eassumption.
Qed.

Theorem file_header : forall fuel ign s f rs es, parse_po_fuel fuel ign s = Ok f -> reads_lines s rs -> any_file ign rs es -> heads_in_turn es ->
  exists o, header_says es o /\ (forall o', header_says es o' -> o' = o) /\
    match o with
    | None => f_header f = new_header
    | Some kvs => forall fold k, header_get fold (f_header f) k = header_get fold (PoHeaderProofs.set_all kvs new_header) k
    end.
Proof.
  intros fuel ign s f rs es E R A T. apply reads_file_lines in R as ->. rewrite po_drive in E. apply drive_collect in E as (l & C & RE).
  pose proof (proj1 (any_collect _ ign _ es A) TEof false MStart l I C) as S.
  destruct (result_says es l S T [] f RE) as (o & H & _ & HI). exists o. split; [exact H|]. split; [intros o' H'; exact (header_says_fun _ _ H' _ H)|].
  destruct o as [kvs|]; [|exact HI]. intros fold k. destruct HI as [A1 A2]. now apply get_fields.
Qed.
Theorem any_po_read : forall s ms kvs, any_po s ms kvs ->
  exists f, parse_po_fuel (S (length s)) true s = Ok f /\ NoDup (map key (f_messages f)) /\ Forall2 alike (f_messages f) ms /\
    ((kvs = [] /\ f_header f = new_header) \/ forall fold k, header_get fold (f_header f) k = header_get fold (PoHeaderProofs.set_all kvs new_header) k).
Proof.
  intros s ms kvs (rs & es & cs & o & R & U & N & A & AC & FC & D & T & H & NE & ->).
  assert (HT : heads_in_turn es) by (revert T; apply Forall_impl; auto).
  destruct (proj2 (file_accepts_iff (S (length s)) true s rs es ms R (Nat.lt_succ_diag_r _) N A (comments_say _ _ _ FC) HT)) as [f E]; [eauto|].
  exists f. split; [exact E|]. split; [exact (proj2 (file_messages _ _ _ _ _ _ E R A))|].
  split; [eapply comments_alike; [exact (file_comments_of _ _ _ _ _ _ _ E R A AC)|exact T|exact FC]|].
  apply reads_file_lines in R as ->. rewrite po_drive in E. apply drive_collect in E as (l & C & RE).
  pose proof (proj1 (any_collect _ true _ es A) TEof false MStart l I C) as S.
  destruct (result_says es l S HT [] f RE) as (o' & H' & _ & HI). rewrite (header_says_fun _ _ H _ H').
  destruct o' as [kvs|]; [|now left]. right. intros fold k. destruct HI as [A1 A2]. now apply get_fields.
Qed.
