(** Proofs about MO files of any bytes. *)
From Coq Require Import String Ascii List ZArith Bool Lia.
From Verif Require Import Base BaseProofs StrModel PoStrModel PoFileModel PoFileSpec PoDecodeProofs PoScanProofs
  PoItemProofs PoEditProofs MoModel MoSpec MoProofs MoAnySpec.
Import ListNotations.
Open Scope Z_scope.

Lemma f2_length : forall {A B} (P : A -> B -> Prop) l m, Forall2 P l m -> length l = length m.
Proof. intros A B P l m F. induction F; cbn [length]; congruence. Qed.
Lemma app_inv_length : forall (a c b d : bytes), a ++ b = c ++ d -> length a = length c -> a = c /\ b = d.
Proof.
  induction a as [|x a IH]; intros [|y c] b d E L; try discriminate L; [auto|]. injection E as -> E. injection L as L.
  destruct (IH c b d E L) as [-> ->]. auto.
Qed.
Lemma nth_ext : forall {A} (l m : list A), (forall i, nth_error l i = nth_error m i) -> l = m.
Proof.
  induction l as [|x l IH]; intros [|y m] H; [reflexivity|discriminate (H O)|discriminate (H O)|].
  pose proof (H O) as E. injection E as ->. f_equal. apply IH. intro i. exact (H (S i)).
Qed.

(** ** Texts *)
Lemma rows_texts : forall s be table ts,
  (forall i t, nth_error ts i = Some t -> row_text s be table i t) ->
  exists rows, length rows = length ts /\ (forall i len off, nth_error rows i = Some (len, off) -> row_at s be table i len off) /\
    rows_read s rows ts.
Proof.
  intros s be table ts. revert table. induction ts as [|t ts IH]; intros table H.
  - exists []. split; [reflexivity|]. split; [intros [|i] len off X; discriminate X|constructor].
  - destruct (H O t eq_refl) as (len & off & R & T).
    destruct (IH (table + 8)) as (rows & L & R' & T').
    { intros i t' N. destruct (H (S i) t' N) as (len' & off' & R' & T'). exists len', off'. split; [now apply row_step|exact T']. }
    exists ((len, off) :: rows). split; [cbn [length]; congruence|]. split.
    + intros [|i] len' off' N; [injection N as <- <-; exact R|]. apply row_step, R'. exact N.
    + constructor; [|exact T']. destruct R as ((L0 & _) & (O0 & _) & _). now apply text_iff.
Qed.
Lemma texts_rows : forall s be table rows ts,
  (forall i len off, nth_error rows i = Some (len, off) -> row_at s be table i len off) ->
  rows_read s rows ts -> forall i t, nth_error ts i = Some t -> row_text s be table i t.
Proof.
  intros s be table rows ts R F i t N. destruct (forall2_rows _ rows ts i t F N) as ([len off] & N' & T).
  pose proof (R i len off N') as RA. exists len, off. split; [exact RA|]. destruct RA as ((L0 & _) & (O0 & _) & _). now apply text_iff.
Qed.
Theorem pairs_iff : forall s f, parse_mo s = Ok f <-> exists ts, mo_pairs s ts /\ f = build (PoFile new_header []) ts.
Proof.
  intros s f. rewrite parse_mo_iff. split.
  - intros (be & count & ids & strs & r1 & r2 & ts & H & L1 & L2 & R1 & R2 & T1 & T2 & E). exists ts. split; [|exact E].
    exists be, ids, strs. split.
    + replace (Z.of_nat (length ts)) with count; [exact H|]. unfold rows_read in T1. apply f2_length in T1. rewrite map_length in T1.
      destruct H as ((F & _) & _). lia.
    + intros i e N. split.
      * apply (texts_rows s be ids r1 (map fst ts) R1 T1). now apply map_nth_error.
      * apply (texts_rows s be strs r2 (map snd ts) R2 T2). now apply map_nth_error.
  - intros (ts & (be & ids & strs & H & T) & E).
    destruct (rows_texts s be ids (map fst ts)) as (r1 & L1 & R1 & T1).
    { intros i t N. rewrite nth_error_map in N. destruct (nth_error ts i) as [e|] eqn:X; [|discriminate]. injection N as <-. now apply T. }
    destruct (rows_texts s be strs (map snd ts)) as (r2 & L2 & R2 & T2).
    { intros i t N. rewrite nth_error_map in N. destruct (nth_error ts i) as [e|] eqn:X; [|discriminate]. injection N as <-. now apply T. }
    rewrite map_length in L1, L2. exists be, (Z.of_nat (length ts)), ids, strs, r1, r2, ts.
    split; [exact H|]. split; [lia|]. split; [lia|]. auto 10.
Qed.
Lemma pairs_unique : forall s ts ts', mo_pairs s ts -> mo_pairs s ts' -> ts = ts'.
Proof.
  intros s ts ts' (be & ids & strs & H & T) (be' & ids' & strs' & H' & T').
  destruct (head_count s _ _ _ _ _ _ _ _ H H') as (<- & L & <- & <-).
  assert (U : forall table i t t', row_text s be table i t -> row_text s be table i t' -> t = t').
  { intros table i t t' (len & off & R & X) (len' & off' & R' & X').
    pose proof R as (FL & FO & A). pose proof R' as (FL' & FO' & A').
    assert (E : u32 be len ++ u32 be off = u32 be len' ++ u32 be off').
    { destruct A as (p & q & E & P), A' as (p' & q' & E' & P'). rewrite E in E'.
      assert (LP : length p = length p') by lia. apply app_inv_length in E' as [_ E']; [|exact LP].
      apply app_inv_length in E' as [E' _]; [exact E'|]. now rewrite !app_length, !u32_length. }
    apply app_inv_length in E as [E1 E2]; [|now rewrite !u32_length].
    assert (len = len') by (rewrite <- (uint_u32 be len FL), E1; now apply uint_u32).
    assert (off = off') by (rewrite <- (uint_u32 be off FO), E2; now apply uint_u32). subst len' off'.
    apply text_iff in X; [|apply FL|apply FO]. apply text_iff in X'; [|apply FL|apply FO]. congruence. }
  apply nth_ext. intro i.
  destruct (nth_error ts i) as [e|] eqn:N.
  - destruct (nth_error ts' i) as [e'|] eqn:N'.
    + destruct (T i e N) as [A B], (T' i e' N') as [A' B']. f_equal. destruct e, e'. cbn [fst snd] in *. f_equal; eauto.
    + apply nth_error_None in N'. assert (i < length ts)%nat by (apply nth_error_Some; congruence). lia.
  - destruct (nth_error ts' i) as [e'|] eqn:N'; [|reflexivity].
    apply nth_error_None in N. assert (i < length ts')%nat by (apply nth_error_Some; congruence). lia.
Qed.

Theorem complete_iff : forall s, mo_complete s <-> exists ts, mo_pairs s ts.
Proof.
  intro s. split.
  - intros (be & count & ids & strs & H & R). pose proof H as ((C0 & _) & _).
    assert (X : forall table n, In table [ids; strs] -> (n <= Z.to_nat count)%nat -> exists ts, length ts = n /\
      forall i t, nth_error ts i = Some t -> row_text s be table i t).
    { intros table n I. induction n as [|n IH]; intro LE.
      - exists []. split; [reflexivity|]. intros [|i] t X; discriminate X.
      - destruct IH as (ts & L & T); [lia|]. destruct (R table n I) as (len & off & RA & O); [lia|].
        assert (RT : exists t, read_text s (len, off) = Ok t).
        { unfold read_text. destruct (Z.leb_spec (Z.of_nat (length s)) off); [lia|]. eexists. reflexivity. }
        destruct RT as [t RT]. exists (ts ++ [t]). split; [rewrite app_length; cbn [length]; lia|].
        intros i t' N. destruct (Nat.lt_ge_cases i (length ts)) as [LT|GE].
        + rewrite nth_error_app1 in N by exact LT. now apply T.
        + rewrite nth_error_app2 in N by exact GE. destruct (i - length ts)%nat as [|k] eqn:K; [|destruct k; discriminate N].
          injection N as <-. replace i with n by lia. exists len, off. split; [exact RA|].
          destruct RA as ((L0 & _) & (O0 & _) & _). now apply text_iff. }
    destruct (X ids (Z.to_nat count)) as (a & LA & TA); [now left|lia|].
    destruct (X strs (Z.to_nat count)) as (b & LB & TB); [right; now left|lia|].
    exists (combine a b). exists be, ids, strs. split.
    + rewrite combine_length, LA, LB, Nat.min_id. replace (Z.of_nat (Z.to_nat count)) with count by lia. exact H.
    + assert (P : forall (x y : list bytes) i e, nth_error (combine x y) i = Some e -> nth_error x i = Some (fst e) /\ nth_error y i = Some (snd e)).
      { induction x as [|u x IH]; intros [|v y] [|i] e E; try discriminate E.
        - injection E as <-. auto.
        - exact (IH y i e E). }
      intros i e N. apply P in N as [N1 N2]. split; [now apply TA|now apply TB].
  - intros (ts & be & ids & strs & H & T). exists be, (Z.of_nat (length ts)), ids, strs. split; [exact H|].
    intros table i I LT. rewrite Nat2Z.id in LT. destruct (nth_error ts i) as [e|] eqn:N.
    + destruct (T i e N) as [(l1 & o1 & A & B) (l2 & o2 & A' & B')]. destruct I as [<-|[<-|[]]].
      * exists l1, o1. split; [exact A|apply B].
      * exists l2, o2. split; [exact A'|apply B'].
    + apply nth_error_None in N. lia.
Qed.

(** ** Messages *)
Lemma first_cut : forall (c : ascii) (k : bytes), ~ In c k \/ exists a b, k = a ++ c :: b /\ ~ In c a.
Proof.
  intro c. induction k as [|x k IH]; [now left|]. destruct (Ascii.eqb_spec x c) as [->|N].
  - right. exists [], k. split; [reflexivity|intros []].
  - destruct IH as [I|(a & b & -> & I)].
    + left. intros [E|E]; auto.
    + right. exists (x :: a), b. split; [reflexivity|]. intros [E|E]; auto.
Qed.
Lemma cut_unique : forall (c : ascii) (a b a' b' : bytes), a ++ c :: b = a' ++ c :: b' -> ~ In c a -> ~ In c a' -> a = a' /\ b = b'.
Proof.
  intros c. induction a as [|x a IH]; intros b [|x' a'] b' E N N'; cbn [app] in E; injection E.
  - intros ->. auto.
  - intros _ ->. exfalso. apply N'. now left.
  - intros _ ->. exfalso. apply N. now left.
  - intros E' ->. destruct (IH b a' b' E') as [-> ->]; [intro I; apply N; now right|intro I; apply N'; now right|auto].
Qed.
Lemma firstn_here : forall (a : bytes) c b, firstn (length a) (a ++ c :: b) = a /\ skipn (S (length a)) (a ++ c :: b) = b.
Proof.
  intros a c b. split.
  - rewrite firstn_app, Nat.sub_diag, firstn_all. cbn [firstn]. apply app_nil_r.
  - rewrite skipn_app, skipn_all2 by lia. cbn [app]. replace (S (length a) - length a)%nat with 1%nat by lia. reflexivity.
Qed.
Lemma split_forms : forall s, split_on NUL s <> [] /\ Forall (fun t => ~ In NUL t) (split_on NUL s) /\ nul_joined (split_on NUL s) = s.
Proof.
  intro s. assert (X : forall n s, (length s <= n)%nat -> split_on NUL s <> [] /\ Forall (fun t => ~ In NUL t) (split_on NUL s) /\ nul_joined (split_on NUL s) = s).
  { induction n as [|n IH]; intros t L.
    - destruct t; [|cbn [length] in L; lia]. split; [discriminate|]. split; [constructor; [intros []|constructor]|reflexivity].
    - destruct (first_cut NUL t) as [N|(a & b & -> & N)].
      + rewrite split_one by exact N. split; [discriminate|]. split; [constructor; [exact N|constructor]|reflexivity].
      + rewrite split_sep by exact N. rewrite app_length in L. cbn [length] in L. destruct (IH b ltac:(lia)) as (A & B & C).
        split; [discriminate|]. split; [constructor; assumption|]. destruct (split_on NUL b) as [|y l] eqn:Y; [congruence|].
        change (nul_joined (a :: y :: l)) with (a ++ NUL :: nul_joined (y :: l)). now rewrite C. }
  apply (X (length s)). lia.
Qed.
Lemma nul_joined_split : forall fs v, fs <> [] -> Forall (fun t => ~ In NUL t) fs -> v = nul_joined fs -> split_on NUL v = fs.
Proof. intros fs v N F ->. now apply split_nul_joined. Qed.

(** the message of a pair *)
Lemma reads_message : forall k v e, reads_as (k, v) e -> is_message e (mo_message k v).
Proof.
  intros k v e (ctx & rest & C & EC & I & F). cbn [fst snd] in *. unfold mo_message. change EOT with context_end.
  assert (E : match index_byte context_end k with Some i => (firstn i k, skipn (S i) k) | None => ([], k) end = (ctx, rest)).
  { destruct C as [(N & -> & ->)|(-> & N)].
    - now rewrite (proj2 (index_none context_end k) N).
    - rewrite index_app by exact N. destruct (firstn_here ctx context_end rest) as [-> ->]. reflexivity. }
  rewrite E. clear E. unfold is_message. destruct e as [oc id pl fs]. cbn [mm_ctx mm_id mm_pl mm_strs opt_text] in *. subst ctx. destruct pl as [p|].
  - destruct I as [-> N]. rewrite index_app by exact N. destruct (firstn_here id NUL p) as [-> ->]. cbn [m_ctx m_id m_pl m_com m_str].
    destruct F as (F1 & F2 & F3). rewrite (nul_joined_split fs v F1 F2 F3). destruct (number_from_ok fs 0) as [N1 N2].
    change (Z.of_nat 0) with 0 in *. auto 10.
  - destruct I as [N ->]. rewrite (proj2 (index_none NUL rest) N). cbn [m_ctx m_id m_pl m_com m_str]. rewrite F. repeat split.
Qed.
Lemma reads_exists : forall t, exists e, reads_as t e.
Proof.
  intros [k v].
  assert (C : exists ctx rest, context_of k ctx rest).
  { destruct (first_cut context_end k) as [N|(a & b & -> & N)]; [exists [], k; now left|exists a, b; now right]. }
  destruct C as (ctx & rest & C). destruct (first_cut NUL rest) as [N|(a & b & -> & N)].
  - exists (MoMsg (Some ctx) rest None [v]). exists ctx, rest. cbn. auto 10.
  - destruct (split_forms v) as (A & B & D). exists (MoMsg (Some ctx) a (Some b) (split_on NUL v)). exists ctx, (a ++ NUL :: b). cbn. auto 10.
Qed.

Lemma merge_new : forall m o, m_com m = Some (Com [] [] [] [] [] []) -> m_com o = Some (Com [] [] [] [] [] []) ->
  merge_message m o = Msg (Some (Com [] [] [] [] [] [])) (m_ctx m) (m_id m) (if is_nil (m_pl m) then m_pl o else m_pl m) (m_str m).
Proof. intros m o A B. unfold merge_message. rewrite A, B. reflexivity. Qed.
Lemma build_found : forall c i ts es, i <> [] -> Forall2 reads_as (filter kept ts) es ->
  found c i es (get_message (f_messages (build (PoFile new_header []) ts)) c i).
Proof.
  intros c i ts. induction ts as [|t ts IH] using rev_ind; intros es NI F.
  - inversion F; subst. constructor.
  - rewrite filter_app in F. unfold build. rewrite fold_left_app. cbn [fold_left]. fold (build (PoFile new_header []) ts).
    cbn [filter] in F. unfold kept in F at 2. destruct t as [k v]. cbn [fst snd] in *. unfold mo_add.
    destruct k as [|c0 k0] eqn:K; cbn [is_nil negb] in *.
    + rewrite app_nil_r in F. cbn [f_messages]. now apply IH.
    + rewrite <- K in *. assert (KN : k <> []) by congruence. clear c0 k0 K.
      apply Forall2_app_inv_l in F as (es1 & es2 & F1 & F2 & ->). inversion F2 as [|? e ? ? R F3]; subst. inversion F3; subst.
      specialize (IH es1 NI F1). pose proof (reads_message k v e R) as (MC & MI & MP & MM & MS1 & MS2). cbn [f_messages].
      unfold add_message. destruct (is_nil (m_id (mo_message k v))) eqn:Z.
      * (* an empty id is passed over *)
        assert (HK : ~ has_key c i e).
        { intro H. unfold has_key, mo_key in H. injection H as _ H. rewrite MI, H in Z. destruct i; [congruence|discriminate]. }
        destruct (get_message _ c i) as [m|]; cbn [found] in *.
        -- destruct IH as (e0 & (a & b & -> & H0 & H1) & A2 & A3 & A4 & A5 & A6 & A7). exists e0. split.
           { exists a, (b ++ [e]). rewrite <- app_assoc. auto. }
           repeat (split; [assumption|]). destruct A7 as [(P1 & P2)|(P1 & a' & e' & b' & P2 & P3)].
           { left. split; [exact P1|]. apply Forall_app. split; [exact P2|]. constructor; [contradiction|constructor]. }
           { right. split; [exact P1|]. exists a', e', (b' ++ [e]). rewrite P2, <- app_assoc. auto. }
        -- apply Forall_app. split; [exact IH|]. constructor; [exact HK|constructor].
      * rewrite (get_add _ (mo_message k v) (c, i)). cbn [fst snd].
        assert (KE : key (mo_message k v) = mo_key e) by (unfold key, mo_key; now rewrite MC, MI).
        destruct (key_dec (key (mo_message k v)) (c, i)) as [HK|HK]; rewrite KE in HK.
        -- destruct (get_message _ c i) as [m|]; cbn [found] in *.
           ++ destruct IH as (e0 & (a & b & -> & H0 & H1) & A2 & A3 & A4 & A5 & A6 & A7). exists e0. rewrite merge_new by assumption.
              cbn [m_ctx m_id m_com m_str m_pl]. split.
              { exists a, (b ++ [e]). rewrite <- app_assoc. auto. }
              repeat (split; [assumption || reflexivity|]). destruct A7 as [(P1 & P2)|(P1 & a' & e' & b' & P2 & P3)].
              { rewrite P1. cbn [is_nil]. rewrite MP. destruct (opt_text (mm_pl e)) as [|p0 p] eqn:PE.
                - left. split; [reflexivity|]. apply Forall_app. split; [exact P2|]. constructor; [intros _; exact PE|constructor].
                - right. split; [discriminate|]. exists (a ++ e0 :: b), e, []. auto. }
              { destruct (m_pl m) as [|p0 p]; [congruence|]. cbn [is_nil]. right. split; [exact P1|]. exists a', e', (b' ++ [e]).
                rewrite P2, <- app_assoc. auto. }
           ++ exists e. split.
              { exists es1, []. auto. }
              split; [rewrite MC; injection HK; auto|]. split; [rewrite MI; injection HK; auto|]. split; [exact MM|].
              split; [exact MS1|]. split; [exact MS2|]. rewrite MP.
              assert (Q : Forall (fun x => has_key c i x -> no_plural x) es1) by (eapply Forall_impl; [|exact IH]; cbn; intros x X Y; contradiction).
              destruct (opt_text (mm_pl e)) as [|p0 p] eqn:PE.
              { left. split; [reflexivity|]. apply Forall_app. split; [exact Q|]. constructor; [intros _; exact PE|constructor]. }
              { right. split; [discriminate|]. exists es1, e, []. auto. }
        -- destruct (get_message _ c i) as [m|]; cbn [found] in *.
           ++ destruct IH as (e0 & (a & b & -> & H0 & H1) & A2 & A3 & A4 & A5 & A6 & A7). exists e0. split.
              { exists a, (b ++ [e]). rewrite <- app_assoc. auto. }
              repeat (split; [assumption|]). destruct A7 as [(P1 & P2)|(P1 & a' & e' & b' & P2 & P3)].
              { left. split; [exact P1|]. apply Forall_app. split; [exact P2|]. constructor; [contradiction|constructor]. }
              { right. split; [exact P1|]. exists a', e', (b' ++ [e]). rewrite P2, <- app_assoc. auto. }
           ++ apply Forall_app. split; [exact IH|]. constructor; [exact HK|constructor].
Qed.
(** keys are distinct, and none has an empty id *)
Lemma build_keys : forall ts f, NoDup (map key (f_messages f)) -> Forall (fun m => m_id m <> []) (f_messages f) ->
  NoDup (map key (f_messages (build f ts))) /\ Forall (fun m => m_id m <> []) (f_messages (build f ts)).
Proof.
  induction ts as [|[k v] ts IH]; intros f N I; [auto|]. change (build f ((k, v) :: ts)) with (build (mo_add f k v) ts). apply IH.
  - unfold mo_add. destruct (is_nil k); cbn [f_messages]; [exact N|]. unfold add_message. destruct (is_nil _); [exact N|]. now apply keys_to.
  - unfold mo_add. destruct (is_nil k); cbn [f_messages]; [exact I|]. unfold add_message. destruct (is_nil (m_id (mo_message k v))) eqn:Z; [exact I|].
    assert (M : m_id (mo_message k v) <> []) by (intro E; rewrite E in Z; discriminate). clear -M I.
    induction (f_messages f) as [|x ms IH]; cbn [add_to]; [constructor; [exact M|constructor]|].
    apply Forall_cons_iff in I as [I1 I2]. destruct (same_key x _); constructor; auto.
Qed.

(** ** The header *)
Lemma lf_split : forall ls, ls <> [] -> Forall (fun l => ~ In LF l) ls -> split_on LF (lf_joined ls) = ls.
Proof.
  induction ls as [|x l IH]; intros N F; [congruence|]. pose proof (Forall_inv F) as X. apply Forall_inv_tail in F.
  destruct l as [|y l]; [now apply split_one|]. change (lf_joined (x :: y :: l)) with (x ++ LF :: lf_joined (y :: l)).
  rewrite split_sep by exact X. now rewrite IH.
Qed.
Lemma fields_read : forall ls kvs, header_fields ls kvs -> forall h,
  mo_header_lines h ls = fold_left (fun h e => header_set h (fst e) (snd e)) kvs h.
Proof.
  induction 1 as [|l ls kvs J H IH|l e ls kvs (a & b & -> & N & P1 & C1 & P2 & C2) H IH]; intro h; cbn [mo_header_lines fold_left].
  - reflexivity.
  - rewrite (proj2 (index_none ":" l) J). apply IH.
  - rewrite index_app by exact N. destruct (firstn_here a ":" b) as [-> ->].
    rewrite (trim_padded _ _ P1 C1), (trim_padded _ _ P2 C2). apply IH.
Qed.
Lemma header_kept : forall b f, Forall (fun t => fst t <> []) b -> f_header (build f b) = f_header f.
Proof.
  induction b as [|[k v] b IH]; intros f F; [reflexivity|]. apply Forall_cons_iff in F as [K F]. cbn [fst] in K.
  change (build f ((k, v) :: b)) with (build (mo_add f k v) b). rewrite IH by exact F. unfold mo_add.
  destruct k; [congruence|reflexivity].
Qed.
Lemma header_of : forall ts v kvs, last_header ts v -> header_reads v kvs ->
  f_header (build (PoFile new_header []) ts) = set_fields kvs.
Proof.
  intros ts v kvs (a & b & -> & F) (ls & N & NL & -> & H). unfold build. rewrite fold_left_app. cbn [fold_left fst snd].
  fold (build (PoFile new_header []) a). fold (build (mo_add (build (PoFile new_header []) a) [] (lf_joined ls)) b).
  rewrite header_kept by exact F. unfold mo_add. cbn [is_nil f_header]. rewrite lf_split by assumption. now apply fields_read.
Qed.
