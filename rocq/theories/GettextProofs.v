(** Lemmas about gettext catalogs. *)
From Coq Require Import String Ascii List ZArith Bool Lia.
From Verif Require Import Base BaseProofs StrModel PoStrModel PoFileModel PoFileSpec PoOutcomeProofs PoHeaderProofs MoModel MoSpec MoProofs
  Utf8Model NumModel CldrModel CldrBuiltin PopBuiltin LangModel LangSpec LangProofs GettextModel GettextSpec.
Import ListNotations.
Open Scope Z_scope.

Lemma beq_refl : forall s, beq s s = true.
Proof. intro s. now apply beq_eq. Qed.
Lemma map_get_set : forall V (m : list (bytes * V)) k v j,
  map_get (map_set m k v) j = if beq k j then Some v else map_get m j.
Proof.
  intros V. induction m as [|[a w] m IH]; intros k v j; cbn [map_set map_get]; [reflexivity|].
  destruct (beq a k) eqn:E; cbn [map_get].
  - apply beq_eq in E. subst a. destruct (beq k j); reflexivity.
  - rewrite IH. destruct (beq a j) eqn:F; [|reflexivity]. destruct (beq k j) eqn:G; [|reflexivity].
    apply beq_eq in F, G. subst. rewrite beq_refl in E. discriminate.
Qed.

Lemma fuzzy_iff : forall m, is_fuzzy m = true <-> fuzzy m.
Proof.
  intro m. unfold is_fuzzy, fuzzy. destruct (m_com m) as [c|]; [|split; [discriminate|intros (c & E & _); discriminate]].
  rewrite existsb_exists. split.
  - intros (x & I & E). apply beq_eq in E. subst x. eauto.
  - intros (c' & E & I). injection E as <-. exists (bs "fuzzy"). split; [exact I|apply beq_refl].
Qed.
Definition liveb (m : message) : bool := negb (is_nil (m_id m)) && negb (is_fuzzy m).
Lemma live_iff : forall m, liveb m = true <-> live m.
Proof.
  intro m. unfold liveb, live. rewrite andb_true_iff, !negb_true_iff. split.
  - intros [A B]. split; [intro E; rewrite E in A; discriminate|]. intro F. apply fuzzy_iff in F. congruence.
  - intros [A B]. split; [destruct (m_id m); [congruence|reflexivity]|]. destruct (is_fuzzy m) eqn:E; [|reflexivity].
    apply fuzzy_iff in E. contradiction.
Qed.

(** the last live message of a key *)
Definition pick (ms : list message) (ctx id : bytes) : option message :=
  find (fun m => liveb m && (beq (m_ctx m) ctx && beq (m_id m) id)) (rev ms).
Lemma build_map_get : forall ms ctx,
  match map_get (build_map ms) ctx with
  | None => ~ has_context ms ctx
  | Some l => has_context ms ctx /\ forall id, map_get l id = option_map m_str (pick ms ctx id)
  end.
Proof.
  intro ms. induction ms as [|m ms IH] using rev_ind; intro ctx.
  - cbn. intros (m & [] & _).
  - unfold build_map. rewrite fold_left_app. fold (build_map ms). cbn [fold_left].
    assert (P : forall id, pick (ms ++ [m]) ctx id =
      if liveb m && (beq (m_ctx m) ctx && beq (m_id m) id) then Some m else pick ms ctx id).
    { intro id. unfold pick. rewrite rev_unit. reflexivity. }
    assert (HC : has_context (ms ++ [m]) ctx <-> has_context ms ctx \/ m_ctx m = ctx).
    { unfold has_context. split.
      - intros (x & I & E). apply in_app_iff in I as [I|[->|[]]]; eauto.
      - intros [(x & I & E)|E]; [exists x|exists m]; (split; [apply in_app_iff; cbn; auto|exact E]). }
    unfold add_entry. set (lm := build_map ms) in *.
    set (lm1 := match map_get lm (m_ctx m) with None => map_set lm (m_ctx m) [] | Some _ => lm end).
    assert (G1 : forall c, map_get lm1 c = if beq (m_ctx m) c then Some (match map_get lm c with Some l => l | None => [] end) else map_get lm c).
    { intro c. unfold lm1. destruct (map_get lm (m_ctx m)) as [l|] eqn:E.
      - destruct (beq (m_ctx m) c) eqn:B; [|reflexivity]. apply beq_eq in B. subst c. now rewrite E.
      - rewrite map_get_set. destruct (beq (m_ctx m) c) eqn:B; [|reflexivity]. apply beq_eq in B. subst c. now rewrite E. }
    assert (D : (if is_nil (m_id m) then lm1 else if is_fuzzy m then lm1 else
        match map_get lm1 (m_ctx m) with Some l => map_set lm1 (m_ctx m) (map_set l (m_id m) (m_str m)) | None => lm1 end) =
      if liveb m then map_set lm1 (m_ctx m) (map_set (match map_get lm (m_ctx m) with Some l => l | None => [] end) (m_id m) (m_str m)) else lm1).
    { unfold liveb. destruct (is_nil (m_id m)); [reflexivity|]. destruct (is_fuzzy m); [reflexivity|]. cbn [negb andb].
      rewrite G1, beq_refl. reflexivity. }
    rewrite D. clear D. specialize (IH ctx).
    assert (N : map_get lm ctx = None -> forall id, pick ms ctx id = None).
    { intros E id. rewrite E in IH. unfold pick.
      destruct (find _ (rev ms)) as [x|] eqn:F; [|reflexivity]. exfalso. apply find_some in F as [I B]. apply in_rev in I.
      apply andb_prop in B as [_ B]. apply andb_prop in B as [B _]. apply beq_eq in B. apply IH. exists x. auto. }
    destruct (liveb m) eqn:L.
    + rewrite map_get_set. destruct (beq (m_ctx m) ctx) eqn:B.
      * apply beq_eq in B. subst ctx. split; [apply HC; now right|]. intro id. rewrite P. cbn [andb].
        rewrite map_get_set. destruct (beq (m_id m) id); [reflexivity|].
        destruct (map_get lm (m_ctx m)) as [l|] eqn:E; [apply IH|]. rewrite N; reflexivity.
      * rewrite G1, B. destruct (map_get lm ctx) as [l|] eqn:E.
        { destruct IH as [I1 I2]. split; [apply HC; now left|]. intro id. rewrite P. cbn [andb]. apply I2. }
        { rewrite HC. intros [I|I]; [contradiction|]. subst ctx. rewrite beq_refl in B. discriminate. }
    + rewrite G1. destruct (beq (m_ctx m) ctx) eqn:B.
      * apply beq_eq in B. subst ctx. split; [apply HC; now right|]. intro id. rewrite P. cbn [andb].
        destruct (map_get lm (m_ctx m)) as [l|] eqn:E; [apply IH|]. rewrite N; reflexivity.
      * destruct (map_get lm ctx) as [l|] eqn:E.
        { destruct IH as [I1 I2]. split; [apply HC; now left|]. intro id. rewrite P. cbn [andb]. apply I2. }
        { rewrite HC. intros [I|I]; [contradiction|]. subst ctx. rewrite beq_refl in B. discriminate. }
Qed.

Lemma pick_iff : forall ms ctx id m, NoDup (map key ms) ->
  (pick ms ctx id = Some m <-> In m ms /\ live m /\ key m = (ctx, id)).
Proof.
  intros ms ctx id m ND. unfold pick. split.
  - intro H. apply find_some in H as [I B]. apply in_rev in I. apply andb_prop in B as [L B]. apply andb_prop in B as [B C].
    apply beq_eq in B, C. apply live_iff in L. unfold key. rewrite B, C. auto.
  - intros (I & L & K). destruct (find _ (rev ms)) as [x|] eqn:F.
    + apply find_some in F as [J B]. apply in_rev in J. apply andb_prop in B as [_ B]. apply andb_prop in B as [B C].
      apply beq_eq in B, C. f_equal. assert (KX : key x = key m) by (rewrite K; unfold key; now rewrite B, C).
      clear - ND I J KX. induction ms as [|y ms IH]; [destruct I|]. cbn [map] in ND. inversion ND as [|? ? N ND']; subst.
      destruct I as [->|I], J as [->|J]; [reflexivity| | |now apply IH]; exfalso; apply N; apply in_map_iff; eauto.
    + exfalso. apply in_rev in I. apply find_none with (x := m) in F; [|exact I]. unfold key in K. injection K as <- <-.
      rewrite !beq_refl in F. rewrite (proj2 (live_iff m) L) in F. discriminate.
Qed.
Lemma pick_none : forall ms ctx id, NoDup (map key ms) -> (pick ms ctx id = None <-> ~ has_message ms ctx id).
Proof.
  intros ms ctx id ND. split.
  - intros E (m & H). apply (pick_iff ms ctx id m ND) in H. congruence.
  - intro N. destruct (pick ms ctx id) as [m|] eqn:E; [|reflexivity]. exfalso. apply N. exists m. now apply pick_iff.
Qed.

Section G.
  Variable tag : Type.
  Notation get c ctx id idx := (get_translations tag c ctx id idx).

  (** both lookups in terms of one answer *)
  Definition result (c : gcat tag) (ctx id : bytes) (idx : Z) : bytes * option (lookup_error tag) :=
    match get c ctx id idx with
    | inr e => (id, Some e)
    | inl trs => (str_at trs idx, None)
    end.
  Lemma result_answer : forall ms lang dom p ctx id idx, NoDup (map key ms) ->
    answer ms lang dom ctx id idx (result (GCat lang dom p (build_map ms)) ctx id idx).
  Proof.
    intros ms lang dom p ctx id idx ND. unfold result, get_translations. cbn [g_map g_lang g_domain].
    pose proof (build_map_get ms ctx) as H. destruct (map_get (build_map ms) ctx) as [l|]; [|now constructor].
    destruct H as [HC G]. rewrite G. destruct (pick ms ctx id) as [m|] eqn:P; cbn [option_map].
    - apply (pick_iff ms ctx id m ND) in P. destruct (str_get (m_str m) idx) as [t|] eqn:S.
      + destruct t as [|x t]; cbn [is_nil].
        * apply an_translation; [exists m; exact P|]. intros t (m' & I & L & K & S' & NE).
          assert (E : Some m' = Some m) by (transitivity (pick ms ctx id); [symmetry|]; apply (pick_iff ms ctx id _ ND); tauto).
          injection E as ->. congruence.
        * unfold str_at. rewrite S. apply an_found. exists m. destruct P as (I & L & K). repeat (split; [assumption|]). discriminate.
      + apply an_translation; [exists m; exact P|]. intros t (m' & I & L & K & S' & NE).
        assert (E : Some m' = Some m) by (transitivity (pick ms ctx id); [symmetry|]; apply (pick_iff ms ctx id _ ND); tauto).
        injection E as ->. congruence.
    - apply an_message; [exact HC|]. now apply pick_none.
  Qed.
  Lemma answer_fun : forall ms (lang : tag) dom ctx id idx r r', NoDup (map key ms) ->
    answer ms lang dom ctx id idx r -> answer ms lang dom ctx id idx r' -> r = r'.
  Proof.
    intros ms lang dom ctx id idx r r' ND H H'.
    assert (T2 : forall t t', translation ms ctx id idx t -> translation ms ctx id idx t' -> t = t').
    { intros t t' (m & I & L & K & S & _) (m' & I' & L' & K' & S' & _).
      assert (E : Some m' = Some m) by (transitivity (pick ms ctx id); [symmetry|]; apply (pick_iff ms ctx id _ ND); tauto).
      injection E as ->. congruence. }
    assert (TM : forall t, translation ms ctx id idx t -> has_message ms ctx id) by (intros t (m & I & L & K & _); exists m; auto).
    assert (MC : has_message ms ctx id -> has_context ms ctx).
    { intros (m & I & L & K). exists m. unfold key in K. injection K as K1 K2. auto. }
    destruct H as [t T|C|C M|M N], H' as [t' T'|C'|C' M'|M' N']; try reflexivity; [f_equal; now apply T2|..]; exfalso;
      first [now apply (C' (MC (TM t T)))|now apply (M' (TM t T))|now apply (N' t T)|now apply (C (MC (TM t' T')))|now apply (M (TM t' T'))
      |now apply (N t' T')|now apply C|now apply C'|now apply (C (MC M'))|now apply (C' (MC M))|now apply M|now apply M'].
  Qed.
  Lemma lookup_answer : forall ms lang dom p ctx id, NoDup (map key ms) ->
    answer ms lang dom ctx id 0 (lookup tag (GCat lang dom p (build_map ms)) ctx id).
  Proof. intros. apply (result_answer ms lang dom p ctx id 0). assumption. Qed.
  Lemma lookup_plural_answer : forall ms lang dom p ctx id n idx, NoDup (map key ms) -> p n = Ok idx ->
    exists r, lookup_plural tag (GCat lang dom p (build_map ms)) ctx id n = Ok r /\ answer ms lang dom ctx id idx r.
  Proof.
    intros ms lang dom p ctx id n idx ND E. exists (result (GCat lang dom p (build_map ms)) ctx id idx).
    split; [|now apply result_answer]. unfold lookup_plural, result. cbn [g_plural]. rewrite E.
    destruct (get_translations _ _ _ _); reflexivity.
  Qed.
End G.

(** ** Files have no two messages with one key *)
Lemma finish_messages : forall h ms f, finish h ms = Ok f -> f_messages f = ms.
Proof. intros h ms f H. unfold finish in H. destruct h; [|destruct ms]; try discriminate; injection H as <-; reflexivity. Qed.
Lemma nodup_snoc : forall A (l : list A) x, NoDup l -> ~ In x l -> NoDup (l ++ [x]).
Proof.
  intros A l x N I. induction N as [|y l Y N IH]; [repeat constructor; auto|]. cbn [app]. constructor.
  - intro H. apply in_app_iff in H as [H|[H|[]]]; [contradiction|]. subst. apply I. now left.
  - apply IH. intro H. apply I. now right.
Qed.
Lemma parse_file_nodup : forall fuel n h ms ts f, parse_file fuel n h ms ts = Ok f -> NoDup (map key ms) -> NoDup (map key (f_messages f)).
Proof.
  intros fuel n. induction n as [|n IH]; intros h ms ts f H ND; cbn [parse_file] in H; [discriminate|].
  destruct (parse_message fuel ts) as [x| | |]; cbn [rbind] in H; try discriminate.
  destruct x as [[[m ts'] ended]|]; [|apply finish_messages in H; now rewrite H].
  destruct (is_nil (m_id m)).
  - destruct (is_nil (m_str m)); [eauto|]. destruct h; [discriminate|eauto].
  - destruct (existsb (same_key m) ms) eqn:E; [discriminate|].
    assert (ND' : NoDup (map key (ms ++ [m]))).
    { rewrite map_app. apply nodup_snoc; [exact ND|]. intro I. apply exists_key in I. congruence. }
    destruct ended; [|eauto]. apply finish_messages in H. now rewrite H.
Qed.
Lemma parse_po_nodup : forall fuel ign s f, parse_po_fuel fuel ign s = Ok f -> NoDup (map key (f_messages f)).
Proof.
  intros fuel ign s f H. unfold parse_po_fuel in H. cbv zeta in H. destruct (scan_all ign TEof false (file_lines s)); [discriminate|].
  eapply parse_file_nodup; [exact H|constructor].
Qed.
Lemma add_to_keys : forall ms m, map key (add_to ms m) = if existsb (same_key m) ms then map key ms else map key ms ++ [key m].
Proof.
  induction ms as [|x ms IH]; intro m; [reflexivity|]. cbn [add_to existsb].
  assert (C : same_key x m = same_key m x).
  { destruct (same_key x m) eqn:A, (same_key m x) eqn:B; try reflexivity.
    - apply same_key_iff in A. symmetry in A. apply same_key_iff in A. congruence.
    - apply same_key_iff in B. symmetry in B. apply same_key_iff in B. congruence. }
  rewrite C. destruct (same_key m x); [reflexivity|]. cbn [map orb]. rewrite IH. destruct (existsb _ _); reflexivity.
Qed.
Lemma mo_messages_nodup : forall s r1 r2 f f', mo_messages s f r1 r2 = Ok f' -> NoDup (map key (f_messages f)) -> NoDup (map key (f_messages f')).
Proof.
  intros s. induction r1 as [|a r1 IH]; intros [|b r2] f f' H ND; cbn [mo_messages] in H; try (injection H as <-; exact ND).
  destruct (read_text s a) as [id| | |]; cbn [rbind] in H; try discriminate.
  destruct (read_text s b) as [str| | |]; cbn [rbind] in H; try discriminate.
  eapply IH; [exact H|]. unfold mo_add. destruct (is_nil id); [exact ND|]. cbn [f_messages]. unfold add_message.
  destruct (is_nil _); [exact ND|]. rewrite add_to_keys. destruct (existsb _ _) eqn:E; [exact ND|].
  apply nodup_snoc; [exact ND|]. intro I. apply exists_key in I. congruence.
Qed.
Lemma parse_mo_nodup : forall s f, parse_mo s = Ok f -> NoDup (map key (f_messages f)).
Proof.
  intros s f H. unfold parse_mo in H. destruct (byte_order s) as [be| | |]; cbn [rbind] in H; try discriminate.
  destruct (mo_header s be) as [[[count ido] stro]| | |]; cbn [rbind] in H; try discriminate.
  destruct (read_table s be ido _) as [ids| | |]; cbn [rbind] in H; try discriminate.
  destruct (read_table s be stro _) as [strs| | |]; cbn [rbind] in H; try discriminate.
  eapply mo_messages_nodup; [exact H|constructor].
Qed.

(** ** Building *)
Section B.
  Variable tag : Type.
  Variable is_root : tag -> bool.
  Variable tag_string : tag -> bytes.
  Variable base : tag -> bytes * bool.
  Variable parent : tag -> tag.
  Variable fold : rune -> rune.
  Variable fuel : nat.
  Notation cldr_function := (cldr_function tag is_root tag_string base parent fuel).
  Notation build := (build_catalog tag is_root tag_string base parent fold fuel).
  Notation flagof f := (header_get fold (f_header f) (bs "X-spreak-use-CLDR")).
  Notation formsof f := (header_get fold (f_header f) (bs "Plural-Forms")).

  Lemma build_cases : forall f lang dom u,
    build f lang dom u =
    (do p <- (if u || is_nil (formsof f) || equal_fold fold (flagof f) (bs "true") then cldr_function lang
              else do r <- parse_rule (formsof f) ; Ok (rule_function r)) ;
     Ok (GCat lang [] p (build_map (f_messages f)))).
  Proof.
    intros f lang dom u. unfold build_catalog. cbv zeta. destruct (u || is_nil (formsof f)); cbn [orb]; [reflexivity|].
    destruct (equal_fold fold (flagof f) (bs "true")); [reflexivity|]. destruct (parse_rule (formsof f)); reflexivity.
  Qed.
  Lemma build_ok : forall f lang dom u c, build f lang dom u = Ok c ->
    exists p, c = GCat lang [] p (build_map (f_messages f)).
  Proof.
    intros f lang dom u c H. rewrite build_cases in H.
    match type of H with rbind ?x _ = _ => destruct x as [p| | |] end; cbn [rbind] in H; try discriminate. injection H as <-. eauto.
  Qed.
  Lemma wants_iff : forall f u, ascii_fold fold -> ascii_text (flagof f) ->
    (u || is_nil (formsof f) || equal_fold fold (flagof f) (bs "true") = true <-> wants_cldr u (formsof f) (flagof f)).
  Proof.
    intros f u F A. unfold wants_cldr. rewrite !orb_true_iff.
    assert (T : ascii_text (bs "true")) by (repeat constructor). rewrite (fold_ci fold _ _ F A T).
    destruct (formsof f); cbn [is_nil]; intuition (auto; discriminate).
  Qed.

  Lemma en_rule : cldr_built_in (bs "en") = Some rs_ast.
  Proof. vm_compute. reflexivity. Qed.
  Lemma cldr_function_spec : forall lang d, depth tag is_root parent lang d -> (d <= fuel)%nat ->
    exists rs, cldr_function lang = Ok (fun n => do i <- cldr_plural_index rs (to_carg n) ; Ok (Z.of_nat i)) /\
      (nearest tag tag_string base parent rule_set cldr_built_in lang d rs \/
       cldr_built_in (bs "en") = Some rs /\ nothing tag tag_string base parent rule_set cldr_built_in lang d).
  Proof.
    intros lang d D L. unfold GettextModel.cldr_function.
    destruct (for_language_spec tag is_root tag_string base parent rule_set cldr_built_in d lang D fuel L) as [(r & E & N)|[E N]];
      rewrite E; cbn [rbind fst].
    - eauto.
    - destruct (cldr_built_in (bs "en")) as [rs|] eqn:X; [eauto|]. rewrite en_rule in X. discriminate.
  Qed.
  Lemma nearest_built_in : forall t d rs, nearest tag tag_string base parent rule_set cldr_built_in t d rs ->
    exists l, cldr_built_in l = Some rs.
  Proof.
    intros t d rs (k & _ & O & _). unfold own in O. destruct (cldr_built_in (tag_string _)) eqn:E; [injection O as <-; eauto|].
    destruct (snd _); [eauto|discriminate].
  Qed.

  (** ** Messages() *)
  Lemma copy_messages_panic : forall e ms, copy_messages [] (e :: ms) = Panic.
  Proof. intros [id s] ms. reflexivity. Qed.
  Lemma copy_contexts_panic : forall m cpy, (exists ctx ms, In (ctx, ms) m /\ ms <> []) -> copy_contexts cpy m = Panic.
  Proof.
    induction m as [|[c ms] m IH]; intros cpy (ctx & l & I & N); [destruct I|]. cbn [copy_contexts].
    destruct ms as [|e ms].
    - cbn [copy_messages rbind]. apply IH. destruct I as [I|I]; [injection I as -> <-; congruence|eauto].
    - rewrite copy_messages_panic. reflexivity.
  Qed.
  Lemma map_get_in : forall V (m : list (bytes * V)) k v, map_get m k = Some v -> In (k, v) m.
  Proof.
    intros V. induction m as [|[j w] m IH]; intros k v H; cbn [map_get] in H; [discriminate|].
    destruct (beq j k) eqn:E; [|right; auto]. apply beq_eq in E. subst. injection H as <-. now left.
  Qed.
  Lemma messages_panic : forall ms (lang : tag) dom p, NoDup (map key ms) -> (exists ctx id, has_message ms ctx id) ->
    messages tag (GCat lang dom p (build_map ms)) = Panic.
  Proof.
    intros ms lang dom p ND (ctx & id & H). unfold messages. cbn [g_map]. apply copy_contexts_panic.
    pose proof (build_map_get ms ctx) as G. destruct (map_get (build_map ms) ctx) as [l|] eqn:E.
    - exists ctx, l. split; [now apply map_get_in|]. destruct G as [_ G]. intros ->. specialize (G id). cbn [map_get] in G.
      destruct (pick ms ctx id) eqn:P; [discriminate|]. now apply (pick_none ms ctx id ND) in P.
    - exfalso. apply G. destruct H as (m & I & _ & K). exists m. unfold key in K. injection K as K _. auto.
  Qed.

  (** ** Decoders *)
  Lemma fuzzy_seen : forall ign m, fuzzy (seen_message ign m) <-> fuzzy m.
  Proof.
    intros ign m. unfold fuzzy, seen_message, seen_comment. cbn [m_com]. destruct (m_com m) as [c|]; cbn [option_map].
    - split; intros (x & E & I); injection E as <-; eexists; (split; [reflexivity|]); destruct ign; cbn [cm_flags] in *; exact I.
    - split; intros (x & E & I); discriminate.
  Qed.
  Lemma live_seen : forall ign m, live (seen_message ign m) <-> live m.
  Proof. intros ign m. unfold live. rewrite fuzzy_seen. reflexivity. Qed.
  (** only keys, texts and the fuzzy flag matter *)
  Definition alike (m m' : message) : Prop := key m = key m' /\ (forall i, str_get (m_str m) i = str_get (m_str m') i) /\ (fuzzy m <-> fuzzy m').
  Lemma answer_alike : forall ms ms' (lang : tag) dom ctx id idx r, Forall2 alike ms ms' ->
    answer ms lang dom ctx id idx r -> answer ms' lang dom ctx id idx r.
  Proof.
    intros ms ms' lang dom ctx id idx r F H.
    assert (S : forall m m', alike m m' -> alike m' m) by (intros m m' (A & B & C); split; [congruence|]; split; [intro i; symmetry; apply B|symmetry; exact C]).
    assert (F' : Forall2 alike ms' ms) by (clear - F S; induction F; constructor; auto).
    assert (LV : forall m m', alike m m' -> live m -> live m').
    { intros m m' (A & B & C) [L1 L2]. unfold key in A. injection A as _ A. split; [congruence|tauto]. }
    assert (IN : forall l l', Forall2 alike l l' -> forall m, In m l -> exists m', In m' l' /\ alike m m').
    { clear. intros l l' F. induction F as [|x y l l' E F IH]; intros m I; [destruct I|]. destruct I as [->|I].
      - exists y. split; [now left|exact E].
      - destruct (IH m I) as (z & J & E'). exists z. split; [now right|exact E']. }
    assert (HC : forall l l', Forall2 alike l l' -> has_context l ctx -> has_context l' ctx).
    { intros l l' G (m & I & E). destruct (IN l l' G m I) as (m' & I' & (A & _)). exists m'. split; [exact I'|].
      unfold key in A. injection A as A _. congruence. }
    assert (HM : forall l l', Forall2 alike l l' -> has_message l ctx id -> has_message l' ctx id).
    { intros l l' G (m & I & L & K). destruct (IN l l' G m I) as (m' & I' & A). exists m'. split; [exact I'|].
      split; [eapply LV; eauto|]. destruct A as [A _]. congruence. }
    assert (HT : forall l l' t, Forall2 alike l l' -> translation l ctx id idx t -> translation l' ctx id idx t).
    { intros l l' t G (m & I & L & K & X & N). destruct (IN l l' G m I) as (m' & I' & A). exists m'. split; [exact I'|].
      split; [eapply LV; eauto|]. destruct A as (A & B & _). split; [congruence|]. split; [rewrite <- B; exact X|exact N]. }
    destruct H as [t T|C|C M|M T].
    - apply an_found. eauto.
    - apply an_context. intro X. apply C. eauto.
    - apply an_message; [eauto|]. intro X. apply M. eauto.
    - apply an_translation; [eauto|]. intros t X. apply (T t). eauto.
  Qed.
End B.
