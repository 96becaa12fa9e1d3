(** Proofs about the file loader. *)
From Coq Require Import String Ascii List ZArith Bool Lia Permutation.
From Verif Require Import Base BaseProofs PoFileModel PoFileSpec PoSortProofs LocaleModel BundleModel
  LoaderModel LoaderSpec.
Import ListNotations.
Open Scope nat_scope.

(** ** Language expansion *)
Lemma existsb_beq s l : existsb (beq s) l = true <-> In s l.
Proof.
  rewrite existsb_exists. split.
  - intros (x & I & B). apply beq_eq in B. now subst.
  - intros I. exists s. split; [exact I|apply beq_refl].
Qed.
Lemma add_entry_in l s x : In x (add_entry l s) <-> In x l \/ x = s.
Proof.
  unfold add_entry. destruct (existsb (beq s) l) eqn:B.
  - apply existsb_beq in B. split; [auto|]. intros [I| ->]; auto.
  - rewrite in_app_iff. cbn [In]. intuition.
Qed.
Lemma add_entry_nodup l s : NoDup l -> NoDup (add_entry l s).
Proof.
  intros N. unfold add_entry. destruct (existsb (beq s) l) eqn:B; [exact N|].
  apply (Permutation_NoDup (Permutation_cons_append l s)). constructor; [|exact N].
  intros I. apply existsb_beq in I. congruence.
Qed.

Definition unsorted (p : tag_parts) : list bytes :=
  let l := add_entry [] (p_string p) in
  let l := match p_base p with
           | Some (b, iso3) => add_entry (add_entry l iso3) b
           | None => l
           end in
  let l := match p_region p, p_base p with
           | Some r, Some (b, _) => add_entry (add_entry l (b ++ bs "_" ++ r)) (b ++ bs "-" ++ r)
           | _, _ => l
           end in
  match p_script p, p_base p with
  | Some s, Some (b, _) => add_entry (add_entry l (b ++ bs "_" ++ s)) (b ++ bs "-" ++ s)
  | _, _ => l
  end.
Lemma expand_unsorted p : expand_language p = sort longest_cmp (unsorted p).
Proof. reflexivity. Qed.

Lemma unsorted_nodup p : NoDup (unsorted p).
Proof.
  unfold unsorted. destruct (p_base p) as [[b i]|], (p_region p), (p_script p);
    repeat apply add_entry_nodup; constructor.
Qed.

Lemma unsorted_in p x : In x (unsorted p) <-> expansion p x.
Proof.
  unfold unsorted. split.
  - intros I. destruct (p_base p) as [[b i]|] eqn:B, (p_region p) eqn:R, (p_script p) eqn:S;
      repeat (rewrite add_entry_in in I);
      repeat (destruct I as [I|I]; [|first
        [ rewrite I; apply e_tag
        | rewrite I; eapply e_base; exact B
        | rewrite I; eapply e_iso3; exact B
        | rewrite I; eapply e_pair; [exact B|auto|auto] ]]); try contradiction.
  - intros X. destruct X as [|b i B|b i B|b i y sep B RS SEP]; try rewrite B.
    + destruct (p_base p) as [[b i]|], (p_region p), (p_script p); repeat rewrite add_entry_in; tauto.
    + destruct (p_region p), (p_script p); repeat rewrite add_entry_in; tauto.
    + destruct (p_region p), (p_script p); repeat rewrite add_entry_in; tauto.
    + destruct RS as [R|S]; [rewrite R|rewrite S].
      * destruct (p_script p); repeat rewrite add_entry_in; destruct SEP as [-> | ->]; tauto.
      * destruct (p_region p); repeat rewrite add_entry_in; destruct SEP as [-> | ->]; tauto.
Qed.

Lemma longest_cmp_ok : cmp_ok (fun _ => True) more_specific longest_cmp.
Proof.
  apply cmp_ok_of_cases.
  - intros x y z _ _ _ [H|[H K]] [H'|[H' K']]; unfold more_specific; try (left; lia).
    right. split; [lia|]. eapply bytes_lt_trans; eassumption.
  - intros x _ [H|[_ H]]; [lia|]. now apply bytes_lt_irrefl in H.
  - intros x y _ _. unfold longest_cmp, or_cmp, more_specific.
    destruct (zcmp_spec (Z.of_nat (length y)) (Z.of_nat (length x))) as [[L ->]|[[L ->]|[L ->]]]; cbn [Z.eqb].
    + left. split; [left; lia|lia].
    + destruct (Z.lt_trichotomy (bcmp x y) 0) as [H|[H|H]].
      * left. split; [|exact H]. right. split; [lia|now apply bcmp_lt].
      * right. left. split; [now apply bcmp_eq|exact H].
      * right. right. split; [|exact H]. right. split; [lia|now apply bcmp_gt].
    + right. right. split; [left; lia|lia].
Qed.

Lemma expand_perm p : Permutation (unsorted p) (expand_language p).
Proof. rewrite expand_unsorted. apply sort_perm. Qed.
Lemma expand_in p x : In x (expand_language p) <-> expansion p x.
Proof.
  rewrite <- unsorted_in. split; apply Permutation_in; [apply Permutation_sym|]; apply expand_perm.
Qed.
Lemma expand_nodup p : NoDup (expand_language p).
Proof. eapply Permutation_NoDup; [apply expand_perm|apply unsorted_nodup]. Qed.
Lemma nodup_split_neq {A} (a b c : list A) x y : NoDup (a ++ x :: b ++ y :: c) -> x <> y.
Proof.
  intros N Q. subst y. apply NoDup_remove_2 in N. apply N. rewrite !in_app_iff. cbn. auto.
Qed.
Lemma expand_ordered p : ordered more_specific (expand_language p).
Proof.
  intros a x b y c Q.
  assert (O : ordered (fun x y => more_specific x y \/ x = y) (expand_language p)).
  { rewrite expand_unsorted. eapply sort_ordered; [exact longest_cmp_ok|]. apply Forall_forall. auto. }
  destruct (O a x b y c Q) as [H|H]; [exact H|].
  pose proof (expand_nodup p) as N. rewrite Q in N. apply nodup_split_neq in N. contradiction.
Qed.

Lemma underscores_app a b : underscores (a ++ b) = underscores a ++ underscores b.
Proof. apply map_app. Qed.
Lemma underscores_free s : hyphen_free s -> underscores s = s.
Proof.
  unfold hyphen_free. induction s as [|c s IH]; intros F; [reflexivity|]. cbn.
  destruct (Ascii.eqb_spec c "-") as [->|N].
  - exfalso. apply F. left. reflexivity.
  - f_equal. apply IH. intros I. apply F. right. exact I.
Qed.

(** ** First elements *)
Lemma first_of_fun {A} (P : A -> Prop) l x y : first_of P l x -> first_of P l y -> x = y.
Proof.
  intros (l1 & l2 & Q & X & F) (m1 & m2 & Q' & Y & F'). subst l.
  revert m1 Q' F'. induction l1 as [|a l1 IH]; intros [|b m1] Q' F'; cbn in Q'.
  - congruence.
  - injection Q' as -> _. inversion F'; subst. contradiction.
  - injection Q' as <- _. inversion F; subst. contradiction.
  - injection Q' as -> Q'. inversion F; inversion F'; subst. eauto.
Qed.
Lemma first_of_app_l {A} (P : A -> Prop) l m x : first_of P l x -> first_of P (l ++ m) x.
Proof.
  intros (l1 & l2 & -> & X & F). exists l1, (l2 ++ m). split; [|auto].
  rewrite <- app_assoc. reflexivity.
Qed.
Lemma first_of_app_r {A} (P : A -> Prop) l m x :
  Forall (fun y => ~ P y) l -> first_of P m x -> first_of P (l ++ m) x.
Proof.
  intros F (l1 & l2 & -> & X & F'). exists (l ++ l1), l2. split; [|split; [exact X|]].
  - rewrite <- app_assoc. reflexivity.
  - apply Forall_app. auto.
Qed.
Lemma first_of_map {A B} (f : A -> B) (P : A -> Prop) (Q : B -> Prop) l x :
  (forall a, P a <-> Q (f a)) -> first_of P l x -> first_of Q (map f l) (f x).
Proof.
  intros PQ (l1 & l2 & -> & X & F). exists (map f l1), (map f l2). split; [now rewrite map_app|].
  split; [now apply PQ|]. rewrite Forall_map. eapply Forall_impl; [|exact F].
  intros a N. cbn. now rewrite <- PQ.
Qed.

Section Proofs.
  Variable tag any E : Type.
  Variable parts : tag -> tag_parts.
  Variable clean : bytes -> bytes.
  Variable is_not_exist : E -> bool.
  Variable not_exist : E.
  Variable not_found : tag -> bytes -> E.
  Variable decode_error : bytes -> E -> E.
  Variable join_errors : E -> E -> E.
  Hypothesis not_exist_is : is_not_exist not_exist = true.
  Hypothesis decode_error_is : forall p e, is_not_exist (decode_error p e) = is_not_exist e.
  Hypothesis join_is : forall a b, is_not_exist (join_errors a b) = is_not_exist a || is_not_exist b.

  Notation fsys := (fsys E).
  Notation decoder := (decoder tag any E).
  Notation path := (path_join clean).
  Notation exists_in := (exists_in E).
  Notation search_file := (search_file E clean not_exist).
  Notation resolve_names := (resolve_names E clean is_not_exist not_exist).
  Notation default_resolver := (default_resolver tag E parts clean is_not_exist not_exist).
  Notation candidates := (candidates tag parts clean).
  Notation fs_loader := (fs_loader tag any E).
  Notation load_from_file := (load_from_file tag any E decode_error join_errors).
  Notation load_with := (load_with tag any E is_not_exist not_found decode_error join_errors).

  (** the outcome of a search in a list of paths *)
  Definition outcome (f : fsys) (l : list bytes) (r : bytes + E) : Prop :=
    (exists p, r = inl p /\ first_of (exists_in f) l p) \/
    (r = inr not_exist /\ Forall (fun p => ~ exists_in f p) l).

  Lemma out_cons f p l r : (exists_in f p -> r = inl p) -> (~ exists_in f p -> outcome f l r) ->
    outcome f (p :: l) r.
  Proof.
    intros H K. unfold LoaderSpec.exists_in in *. destruct (fs_stat E f p) eqn:S.
    - left. exists p. split; [auto|]. exists [], l. split; [reflexivity|]. split; [exact S|constructor].
    - destruct K as [(q & -> & F)|(-> & F)]; [discriminate| |].
      + left. exists q. split; [reflexivity|].
        apply (first_of_app_r _ [p] l q); [|exact F]. constructor; [|constructor].
        unfold LoaderSpec.exists_in. congruence.
      + right. split; [reflexivity|]. constructor; [|exact F]. unfold LoaderSpec.exists_in. congruence.
  Qed.
  Lemma out_try f els l k : (~ exists_in f (path els) -> outcome f l k) ->
    outcome f (path els :: l) (try_path E clean f els k).
  Proof.
    intros K. unfold try_path. apply out_cons.
    - unfold LoaderSpec.exists_in. intros ->. reflexivity.
    - intros N. unfold LoaderSpec.exists_in in N. destruct (fs_stat E f (path els)) eqn:S; [congruence|].
      apply K. unfold LoaderSpec.exists_in. congruence.
  Qed.
  Lemma out_skip f p l k : ~ exists_in f p -> outcome f l k -> outcome f (p :: l) k.
  Proof. intros N O. apply out_cons; [contradiction|auto]. Qed.
  Lemma out_nil f : outcome f [] (inr not_exist).
  Proof. right. split; [reflexivity|constructor]. Qed.

  Lemma search_outcome r f loc dom ext :
    outcome f (map path (patterns r dom ext loc)) (search_file r f loc dom ext).
  Proof.
    unfold LoaderModel.search_file, patterns, documented. destruct r as [search cat].
    cbn [r_search r_category].
    destruct dom as [|d0 dom'].
    - cbn [PoStrModel.is_nil negb app].
      destruct search; cbn [negb]; [|apply out_nil].
      destruct cat as [|c0 cat']; cbn [PoStrModel.is_nil negb map app].
      + apply out_try. intros _. cbn [beq]. apply out_try. intros _. apply out_nil.
      + apply out_try. intros _. apply out_try. intros N.
        destruct (beq (c0 :: cat') LC_MESSAGES) eqn:B; cbn [negb].
        * apply beq_eq in B. rewrite <- B. apply out_skip; [exact N|apply out_nil].
        * apply out_try. intros _. apply out_nil.
    - cbn [PoStrModel.is_nil negb]. set (dom := d0 :: dom').
      destruct search; cbn [negb].
      + cbn [map app]. apply out_try. intros N.
        destruct cat as [|c0 cat']; cbn [PoStrModel.is_nil negb map app].
        * apply out_try. intros _. apply out_try. intros _. apply out_try. intros _.
          apply out_try. intros _. cbn [beq]. apply out_try. intros _. apply out_nil.
        * apply out_skip; [exact N|].
          apply out_try. intros _. apply out_try. intros _. apply out_try. intros _.
          apply out_try. intros _. apply out_try. intros M.
          destruct (beq (c0 :: cat') LC_MESSAGES) eqn:B; cbn [negb].
          -- apply beq_eq in B. rewrite <- B. apply out_skip; [exact M|apply out_nil].
          -- apply out_try. intros _. apply out_nil.
      + cbn [map app]. apply out_try. intros _. apply out_nil.
  Qed.

  Lemma resolve_outcome r f ext dom names :
    outcome f (map path (flat_map (patterns r dom ext) names)) (resolve_names r f ext dom names).
  Proof.
    induction names as [|n names IH]; [apply out_nil|]. cbn [LoaderModel.resolve_names flat_map].
    rewrite map_app. destruct (search_outcome r f n dom ext) as [(p & -> & F)|(-> & F)].
    - left. exists p. split; [reflexivity|]. now apply first_of_app_l.
    - rewrite not_exist_is. destruct IH as [(p & -> & G)|(-> & G)].
      + left. exists p. split; [reflexivity|]. now apply first_of_app_r.
      + right. split; [reflexivity|]. apply Forall_app. auto.
  Qed.

  Lemma resolver_outcome r f ext t dom :
    outcome f (candidates r t dom ext) (default_resolver r f ext t dom).
  Proof. apply resolve_outcome. Qed.

  (** ** Loading *)
  Definition attempt (l : fs_loader) (t : tag) (dom p : bytes) (d : decoder) (r : catalog any E + E) : Prop :=
    exists fl, fs_open E (l_fsys _ _ _ l) p = inl fl /\
      match r with
      | inl c => decodes tag any E t dom fl d c /\ f_close E fl = None
      | inr e => is_not_exist e = false /\
                 ((forall c, ~ decodes tag any E t dom fl d c) \/ f_close E fl <> None)
      end.

  Lemma load_from_file_spec l r t dom ext d :
    l_resolver _ _ _ l = default_resolver r -> sound_fs E is_not_exist (l_fsys _ _ _ l) ->
    sound_decoder tag any E is_not_exist d ->
    (exists p, first_of (exists_in (l_fsys _ _ _ l)) (candidates r t dom ext) p /\
       attempt l t dom p d (load_from_file l t dom ext d)) \/
    (Forall (fun p => ~ exists_in (l_fsys _ _ _ l) p) (candidates r t dom ext) /\
     load_from_file l t dom ext d = inr not_exist).
  Proof.
    intros R SF SD. unfold LoaderModel.load_from_file. rewrite R.
    destruct (resolver_outcome r (l_fsys _ _ _ l) ext t dom) as [(p & -> & F)|(-> & F)].
    2:{ right. auto. }
    left. exists p. split; [exact F|].
    assert (X : exists_in (l_fsys _ _ _ l) p) by (destruct F as (? & ? & _ & X & _); exact X).
    destruct (SF p X) as (fl & O & RD & CL). rewrite O. exists fl. split; [exact O|].
    destruct d as [f|f]; cbn [sound_decoder] in SD.
    - destruct (f_err E fl) as [e|] eqn:RQ.
      2:{ destruct (f t dom (f_data E fl)) as [c|e] eqn:DQ.
        * destruct (f_close E fl) as [ce|] eqn:CQ.
          -- split; [now apply CL|]. right. congruence.
          -- split; [econstructor; eassumption|reflexivity].
        * assert (ND : forall c, ~ decodes tag any E t dom fl (DData _ _ _ f) c).
          { intros c H. inversion H; subst. congruence. }
          destruct (f_close E fl) as [ce|] eqn:CQ.
          -- rewrite join_is, decode_error_is, (SD _ _ _ _ DQ), (CL _ eq_refl). auto.
          -- rewrite decode_error_is, (SD _ _ _ _ DQ). auto. }
      assert (ND : forall c, ~ decodes tag any E t dom fl (DData _ _ _ f) c).
      { intros c H. inversion H; subst. congruence. }
      destruct (f_close E fl) as [ce|] eqn:CQ.
      + rewrite join_is, (RD _ eq_refl), (CL _ eq_refl). auto.
      + rewrite (RD _ eq_refl). auto.
    - destruct (f t dom (f_data E fl) (f_err E fl)) as [c|e] eqn:DQ.
      + destruct (f_close E fl) as [ce|] eqn:CQ.
        * split; [now apply CL|]. right. congruence.
        * split; [econstructor; eassumption|reflexivity].
      + assert (ND : forall c, ~ decodes tag any E t dom fl (DReader _ _ _ f) c).
        { intros c H. inversion H; subst. congruence. }
        assert (NE : is_not_exist e = false).
        { destruct (SD _ _ _ _ _ DQ) as [N|(e' & Q & N)]; [exact N|].
          apply RD in Q. congruence. }
        destruct (f_close E fl) as [ce|] eqn:CQ.
        * rewrite join_is, NE, (CL _ eq_refl). auto.
        * rewrite NE. auto.
  Qed.

  Definition lift (r : catalog any E + E) : catalog any E + error tag E :=
    match r with inl c => inl c | inr e => inr (EOther _ _ e) end.

  Lemma load_with_spec l r t dom ds :
    l_resolver _ _ _ l = default_resolver r -> sound_fs E is_not_exist (l_fsys _ _ _ l) ->
    Forall (fun ed => sound_decoder tag any E is_not_exist (snd ed)) ds ->
    (exists p d a, first_of (fun pd => exists_in (l_fsys _ _ _ l) (fst pd))
                     (all_candidates tag any E parts clean r ds t dom) (p, d) /\
       attempt l t dom p d a /\ load_with l t dom ds = lift a) \/
    (Forall (fun pd => ~ exists_in (l_fsys _ _ _ l) (fst pd)) (all_candidates tag any E parts clean r ds t dom) /\
     load_with l t dom ds = inr (ENotFound _ _ (not_found t dom))).
  Proof.
    intros R SF SD. induction SD as [|[ext d] ds D SD IH]; [right; split; [constructor|reflexivity]|].
    cbn [LoaderModel.load_with]. unfold all_candidates. cbn [flat_map fst snd].
    fold (all_candidates tag any E parts clean r ds t dom).
    destruct (load_from_file_spec l r t dom ext d R SF D) as [(p & F & A)|(F & Q)].
    - left. exists p, d, (load_from_file l t dom ext d). split; [|split; [exact A|]].
      + apply first_of_app_l.
        apply (first_of_map (fun p => (p, d)) (exists_in (l_fsys _ _ _ l))); [reflexivity|exact F].
      + destruct (load_from_file l t dom ext d) as [c|e]; [reflexivity|].
        destruct A as (fl & _ & N & _). rewrite N. reflexivity.
    - rewrite Q, not_exist_is.
      assert (G : Forall (fun pd => ~ exists_in (l_fsys _ _ _ l) (fst pd))
                    (map (fun p => (p, d)) (candidates r t dom ext))).
      { rewrite Forall_map. exact F. }
      destruct IH as [(p & d' & a & H & A & W)|(H & W)].
      + left. exists p, d', a. split; [now apply first_of_app_r|]. auto.
      + right. split; [apply Forall_app; auto|exact W].
  Qed.

  (** ** Options of the loader *)
  Variable dir_fs : bytes -> fsys.
  Notation fs_opt := (fs_opt tag any E).
  Notation apply_fs_opts := (apply_fs_opts tag any E dir_fs).
  Notation fs_builder := (fs_builder tag any E).

  Lemma once_some {A} (x : A) l v : set_at_most_once (Some x :: l) v <-> l = [] /\ v = Some x.
  Proof.
    split.
    - intros (k & Q). destruct k as [|k]; [|discriminate]. cbn in Q. destruct v; [|discriminate].
      injection Q as -> ->. auto.
    - intros [-> ->]. exists 0. reflexivity.
  Qed.
  Lemma once_none {A} l (v : option A) : set_at_most_once (None :: l) v <-> set_at_most_once l v.
  Proof.
    split.
    - intros (k & Q). destruct k as [|k]; cbn in Q.
      + destruct v; discriminate.
      + injection Q as Q. exists k. exact Q.
    - intros (k & ->). exists (S k). reflexivity.
  Qed.
  Lemma once_nil {A} (v : option A) : set_at_most_once [] v <-> v = None.
  Proof.
    split.
    - intros (k & Q). destruct v; [|reflexivity]. destruct k; discriminate.
    - intros ->. exists 0. reflexivity.
  Qed.

  (** the values of a builder in front of those still to come *)
  Definition before {A} (v : option A) (l : list (option A)) : list (option A) :=
    match v with Some _ => v :: l | None => l end.

  Lemma apply_fs_opts_spec os v w :
    apply_fs_opts os v = Some w <->
    ~ In (FNil _ _ _) os /\
    set_at_most_once (before (v_fsys _ _ _ v) (fs_args tag any E dir_fs os)) (v_fsys _ _ _ w) /\
    set_at_most_once (before (v_resolver _ _ _ v) (resolver_args tag any E os)) (v_resolver _ _ _ w) /\
    v_decoders _ _ _ w = v_decoders _ _ _ v ++ decoder_args tag any E os.
  Proof.
    revert v. induction os as [|o os IH]; intros v.
    - cbn. rewrite app_nil_r. unfold before. destruct v as [vf vr vd], w as [wf wr wd]; cbn.
      destruct vf, vr; rewrite ?once_some, ?once_nil; split.
      all: try (intros Q; injection Q as -> -> ->; auto 6).
      all: intros (_ & Q1 & Q2 & Q3); try destruct Q1 as [_ Q1]; try destruct Q2 as [_ Q2]; congruence.
    - cbn [LoaderModel.apply_fs_opts]. destruct o as [|f|p|r|ext d]; cbn [apply_fs_opt].
      + split; [discriminate|]. intros (N & _). exfalso. apply N. left. reflexivity.
      + unfold fs_args. cbn [flat_map app]. fold (fs_args tag any E dir_fs os).
        destruct (v_fsys _ _ _ v) as [x|] eqn:V.
        * split; [discriminate|]. intros (_ & Q & _). cbn [before] in Q. apply once_some in Q as [Q _]. discriminate.
        * rewrite IH. cbn [v_fsys v_resolver v_decoders before resolver_args decoder_args flat_map app].
          fold (resolver_args tag any E os). fold (decoder_args tag any E os).
          assert (X : before f (fs_args tag any E dir_fs os) = f :: fs_args tag any E dir_fs os \/
                      (f = None /\ before f (fs_args tag any E dir_fs os) = fs_args tag any E dir_fs os))
            by (destruct f; cbn; auto).
          assert (NI : ~ In (FNil _ _ _) os <-> ~ In (FNil tag any E) (FFs _ _ _ f :: os)).
          { cbn [In]. split; intros N; [intros [Q|Q]; [discriminate|auto]|auto]. }
          rewrite NI. destruct X as [X|[-> X]]; rewrite X; [reflexivity|]. rewrite once_none. reflexivity.
      + unfold fs_args. cbn [flat_map app]. fold (fs_args tag any E dir_fs os).
        destruct (v_fsys _ _ _ v) as [x|] eqn:V.
        * split; [discriminate|]. intros (_ & Q & _). cbn [before] in Q. apply once_some in Q as [Q _]. discriminate.
        * rewrite IH. cbn [v_fsys v_resolver v_decoders before resolver_args decoder_args flat_map app].
          fold (resolver_args tag any E os). fold (decoder_args tag any E os).
          assert (NI : ~ In (FNil _ _ _) os <-> ~ In (FNil tag any E) (FPath _ _ _ p :: os)).
          { cbn [In]. split; intros N; [intros [Q|Q]; [discriminate|auto]|auto]. }
          rewrite NI. reflexivity.
      + unfold resolver_args. cbn [flat_map app]. fold (resolver_args tag any E os).
        destruct (v_resolver _ _ _ v) as [x|] eqn:V.
        * split; [discriminate|]. intros (_ & _ & Q & _). cbn [before] in Q. apply once_some in Q as [Q _]. discriminate.
        * rewrite IH. cbn [v_fsys v_resolver v_decoders before fs_args decoder_args flat_map app].
          fold (fs_args tag any E dir_fs os). fold (decoder_args tag any E os).
          assert (X : before r (resolver_args tag any E os) = r :: resolver_args tag any E os \/
                      (r = None /\ before r (resolver_args tag any E os) = resolver_args tag any E os))
            by (destruct r; cbn; auto).
          assert (NI : ~ In (FNil _ _ _) os <-> ~ In (FNil tag any E) (FResolver _ _ _ r :: os)).
          { cbn [In]. split; intros N; [intros [Q|Q]; [discriminate|auto]|auto]. }
          rewrite NI. destruct X as [X|[-> X]]; rewrite X; [reflexivity|]. rewrite once_none. reflexivity.
      + rewrite IH. cbn [v_fsys v_resolver v_decoders fs_args resolver_args decoder_args flat_map app].
        fold (fs_args tag any E dir_fs os). fold (resolver_args tag any E os). fold (decoder_args tag any E os).
        assert (NI : ~ In (FNil _ _ _) os <-> ~ In (FNil tag any E) (FDecoder _ _ _ ext d :: os)).
        { cbn [In]. split; intros N; [intros [Q|Q]; [discriminate|auto]|auto]. }
        rewrite NI. rewrite <- app_assoc. reflexivity.
  Qed.
End Proofs.
