(** Property theorems C41, C42, C52: file loader, language expansion, language
    names.  Theorems, examples and Print Assumptions only. *)
From Coq Require Import String Ascii List ZArith Bool Lia Permutation.
From Verif Require Import Base BaseProofs PoFileModel PoFileSpec PoSortProofs LocaleModel BundleModel BundleSpec
  LoaderModel LoaderSpec LoaderProofs.
Import ListNotations.
Open Scope nat_scope.

(** C42: the expansion of a language tag. *)
Theorem C42_members : forall p x, In x (expand_language p) <-> expansion p x.
Proof. exact expand_in. Qed.
Theorem C42_no_duplicates : forall p, NoDup (expand_language p).
Proof. exact expand_nodup. Qed.
Theorem C42_order : forall p, ordered more_specific (expand_language p).
Proof. exact expand_ordered. Qed.
(** These three determine the list. *)
Theorem C42_unique : forall p l, NoDup l -> (forall x, In x l <-> expansion p x) ->
  ordered more_specific l -> l = expand_language p.
Proof.
  intros p l N M O. symmetry.
  assert (W : forall m, ordered more_specific m -> ordered (fun x y => more_specific x y \/ x = y) m).
  { intros m H a x b y c Q. left. eapply H. exact Q. }
  apply (ordered_unique _ (fun _ => True) more_specific longest_cmp).
  - exact longest_cmp_ok.
  - apply Forall_forall. auto.
  - apply NoDup_Permutation; [apply expand_nodup|exact N|]. intros x. rewrite M. apply expand_in.
  - apply W, expand_ordered.
  - apply W, O.
Qed.
(** A tag with a region or a script only is there in both spellings, together
    with its base language.  Missing from C42: longer tags, see
    [C42_spelling_refuted]. *)
Theorem C42_spelling_partial : forall p b iso3 x,
  p_base p = Some (b, iso3) -> p_region p = Some x \/ p_script p = Some x ->
  p_string p = b ++ bs "-" ++ x -> hyphen_free b -> hyphen_free x ->
  In (p_string p) (expand_language p) /\ In (underscores (p_string p)) (expand_language p) /\
  In b (expand_language p).
Proof.
  intros p b iso3 x B RS S HB HX. rewrite !C42_members. split; [apply e_tag|]. split.
  - rewrite S, !underscores_app, (underscores_free b HB), (underscores_free x HX).
    eapply e_pair; [exact B|exact RS|right; reflexivity].
  - eapply e_base. exact B.
Qed.
Definition zh_hant_tw : tag_parts :=
  {| p_string := bs "zh-Hant-TW"; p_base := Some (bs "zh", bs "zho");
     p_region := Some (bs "TW"); p_script := Some (bs "Hant") |}.
Theorem C42_spelling_refuted : exists p, ~ In (underscores (p_string p)) (expand_language p).
Proof.
  exists zh_hant_tw. intros I. apply existsb_beq in I. vm_compute in I. discriminate.
Qed.
Example C42_example : expand_language zh_hant_tw =
  [bs "zh-Hant-TW"; bs "zh-Hant"; bs "zh_Hant"; bs "zh-TW"; bs "zh_TW"; bs "zho"; bs "zh"].
Proof. vm_compute. reflexivity. Qed.
Example C42_spelling_example :
  expand_language {| p_string := bs "pt-BR"; p_base := Some (bs "pt", bs "por");
                     p_region := Some (bs "BR"); p_script := None |}
  = [bs "pt-BR"; bs "pt_BR"; bs "por"; bs "pt"].
Proof. vm_compute. reflexivity. Qed.

Section Theorems.
  Variable tag any E : Type.
  Variable parts : tag -> tag_parts.
  Variable clean : bytes -> bytes.
  Variable is_not_exist : E -> bool.
  Variable not_exist : E.
  Variable not_found : tag -> bytes -> E.
  Variable decode_error : bytes -> E -> E.
  Variable join_errors : E -> E -> E.
  (** errors.Is *)
  Hypothesis not_exist_is : is_not_exist not_exist = true.
  Hypothesis decode_error_is : forall p e, is_not_exist (decode_error p e) = is_not_exist e.
  Hypothesis join_is : forall a b, is_not_exist (join_errors a b) = is_not_exist a || is_not_exist b.

  Notation default_resolver := (default_resolver tag E parts clean is_not_exist not_exist).
  Notation candidates := (candidates tag parts clean).
  Notation all_candidates := (all_candidates tag any E parts clean).
  Notation exists_in := (exists_in E).
  Notation fs_loader := (fs_loader tag any E).
  Notation load := (load tag any E is_not_exist not_found decode_error join_errors).
  Notation l_fsys := (l_fsys tag any E).
  Notation l_resolver := (l_resolver tag any E).
  Notation l_decoders := (l_decoders tag any E).

  (** C41: the resolver gives the first existing candidate. *)
  Theorem C41_resolve : forall r f ext t dom,
    (forall p, default_resolver r f ext t dom = inl p <->
               first_of (exists_in f) (candidates r t dom ext) p) /\
    ((exists e, default_resolver r f ext t dom = inr e) <->
     forall p, In p (candidates r t dom ext) -> ~ exists_in f p) /\
    (forall e, default_resolver r f ext t dom = inr e -> e = not_exist).
  Proof.
    intros r f ext t dom.
    pose proof (resolver_outcome tag E parts clean is_not_exist not_exist not_exist_is r f ext t dom) as O.
    assert (NF : forall p, first_of (exists_in f) (candidates r t dom ext) p ->
              Forall (fun p => ~ exists_in f p) (candidates r t dom ext) -> False).
    { intros p (l1 & l2 & Q & X & _) F. rewrite Forall_forall in F. apply (F p); [|exact X].
      rewrite Q. apply in_or_app. right. left. reflexivity. }
    destruct O as [(p & Q & F)|(Q & F)]; rewrite Q.
    - split; [|split].
      + intros p'. split.
        * intros H. injection H as ->. exact F.
        * intros F'. f_equal. eapply first_of_fun; eassumption.
      + split; [intros (e & H); discriminate|]. intros H. exfalso.
        apply (NF p F). apply Forall_forall. exact H.
      + intros e H. discriminate.
    - split; [|split].
      + intros p. split; [discriminate|]. intros F'. exfalso. exact (NF p F' F).
      + split; [|eauto]. intros _. apply Forall_forall. exact F.
      + intros e H. congruence.
  Qed.

  (** With a category and search the candidates are, in order, those of the
      documentation. *)
  Lemma find_app_ A (p : A -> bool) l m :
    find p (l ++ m) = match find p l with Some x => Some x | None => find p m end.
  Proof. induction l as [|a l IH]; [reflexivity|]. cbn. destruct (p a); auto. Qed.
  Lemma first_of_find f l p : first_of (exists_in f) l p <-> find (fs_stat E f) l = Some p.
  Proof.
    split.
    - intros (l1 & l2 & -> & X & F). rewrite find_app_.
      replace (find (fs_stat E f) l1) with (@None bytes).
      + cbn. unfold LoaderSpec.exists_in in X. rewrite X. reflexivity.
      + symmetry. induction F as [|a l1 N F IH]; [reflexivity|]. cbn.
        unfold LoaderSpec.exists_in in N. destruct (fs_stat E f a); [congruence|exact IH].
    - revert p. induction l as [|a l IH]; intros p H; [discriminate|]. cbn in H.
      destruct (fs_stat E f a) eqn:S.
      + injection H as <-. exists [], l. split; [reflexivity|]. split; [exact S|constructor].
      + apply (first_of_app_r _ [a] l); [|apply IH, H]. constructor; [|constructor].
        unfold LoaderSpec.exists_in. congruence.
  Qed.

  Theorem C41_documented_partial : forall r f ext t dom p,
    r_search r = true -> r_category r <> [] ->
    default_resolver r f ext t dom = inl p <->
    first_of (exists_in f)
      (map (path_join clean)
         (flat_map (fun loc => documented (r_category r) dom loc ext) (expand_language (parts t)))) p.
  Proof.
    intros r f ext t dom p S K. rewrite (proj1 (C41_resolve r f ext t dom)), !first_of_find.
    unfold LoaderSpec.candidates.
    assert (Q : find (fs_stat E f) (map (path_join clean) (flat_map (patterns r dom ext) (expand_language (parts t))))
      = find (fs_stat E f) (map (path_join clean)
          (flat_map (fun loc => documented (r_category r) dom loc ext) (expand_language (parts t))))).
    { induction (expand_language (parts t)) as [|n names IH]; [reflexivity|].
      cbn [flat_map]. rewrite !map_app, !find_app_, IH.
      replace (find (fs_stat E f) (map (path_join clean) (patterns r dom ext n)))
        with (find (fs_stat E f) (map (path_join clean) (documented (r_category r) dom n ext))); [reflexivity|].
      unfold patterns. rewrite S. destruct dom as [|d0 dom']; [reflexivity|].
      unfold documented. destruct (r_category r) as [|c0 cat']; [congruence|].
      cbn [app map find]. destruct (fs_stat E f (path_join clean [n; c0 :: cat'; d0 :: dom' ++ ext])); reflexivity. }
    rewrite Q. reflexivity.
  Qed.

  (** C41: the loader decodes the first existing candidate (decoder order,
      then names, then paths); it says "not found" iff there is none; every
      other failure ends the search.  [sound_fs] and [sound_decoder]: reading
      and decoding do not fail with "does not exist". *)
  Theorem C41_load : forall (l : fs_loader) r t dom,
    l_resolver l = default_resolver r -> sound_fs E is_not_exist (l_fsys l) ->
    Forall (fun ed => sound_decoder tag any E is_not_exist (snd ed)) (l_decoders l) ->
    let cands := all_candidates r (l_decoders l) t dom in
    let present := fun pd : bytes * decoder tag any E => exists_in (l_fsys l) (fst pd) in
    (forall c, load l t dom = inl c <->
       exists p d fl, first_of present cands (p, d) /\ fs_open E (l_fsys l) p = inl fl /\
         decodes tag any E t dom fl d c /\ f_close E fl = None) /\
    ((exists e, load l t dom = inr (ENotFound _ _ e)) <-> forall pd, In pd cands -> ~ present pd) /\
    ((exists e, load l t dom = inr (EOther _ _ e)) <->
       exists p d fl, first_of present cands (p, d) /\ fs_open E (l_fsys l) p = inl fl /\
         ((forall c, ~ decodes tag any E t dom fl d c) \/ f_close E fl <> None)).
  Proof.
    intros l r t dom R SF SD cands present.
    assert (NF : forall pd, first_of present cands pd -> Forall (fun pd => ~ present pd) cands -> False).
    { intros pd (l1 & l2 & Q & X & _) F. rewrite Forall_forall in F. apply (F pd); [|exact X].
      rewrite Q. apply in_or_app. right. left. reflexivity. }
    assert (DF : forall fl d c c', decodes tag any E t dom fl d c -> decodes tag any E t dom fl d c' -> c = c').
    { intros fl d c c' H H'. inversion H; subst; inversion H'; subst; congruence. }
    destruct (load_with_spec tag any E parts clean is_not_exist not_exist not_found decode_error join_errors
                not_exist_is decode_error_is join_is l r t dom (l_decoders l) R SF SD)
      as [(p & d & a & F & A & Q)|(F & Q)]; unfold LoaderModel.load; rewrite Q.
    - destruct A as (fl & O & A). split; [|split].
      + intros c. split.
        * intros H. destruct a as [c'|e]; [|discriminate]. injection H as <-. exists p, d, fl. tauto.
        * intros (p' & d' & fl' & F' & O' & D & C). pose proof (first_of_fun _ _ _ _ F F') as X.
          injection X as <- <-. rewrite O in O'. injection O' as <-.
          destruct a as [c'|e]; cbn [lift].
          -- f_equal. eapply DF; [exact (proj1 A)|exact D].
          -- exfalso. destruct A as (_ & [A|A]); [exact (A c D)|contradiction].
      + split; [intros (e & H); destruct a; discriminate|]. intros H. exfalso.
        apply (NF _ F). apply Forall_forall. exact H.
      + split.
        * intros (e & H). destruct a as [c'|e']; [discriminate|]. exists p, d, fl. tauto.
        * intros (p' & d' & fl' & F' & O' & D). pose proof (first_of_fun _ _ _ _ F F') as X.
          injection X as <- <-. rewrite O in O'. injection O' as <-.
          destruct a as [c'|e]; [|eexists; reflexivity].
          exfalso. destruct A as (A1 & A2), D as [D|D]; [exact (D c' A1)|contradiction].
    - split; [|split].
      + intros c. split; [discriminate|]. intros (p & d & fl & F' & _). exfalso. exact (NF _ F' F).
      + split; [|eauto]. intros _. apply Forall_forall. exact F.
      + split; [intros (e & H); discriminate|]. intros (p & d & fl & F' & _). exfalso. exact (NF _ F' F).
  Qed.

  (** The file loader keeps the contract C35, C39 and C40 ask for. *)
  Theorem C41_contract : forall (l : fs_loader) d, contract tag any E [(d, load l)].
  Proof.
    intros l d d' ld t t' I. destruct I as [I|[]]. injection I as <- <-.
    unfold LoaderModel.load. induction (l_decoders l) as [|[ext dc] ds IH]; cbn [load_with]; [discriminate|].
    destruct (load_from_file _ _ _ _ _ l t d ext dc) as [c|e]; [discriminate|].
    destruct (is_not_exist e); [exact IH|discriminate].
  Qed.

  (** Creation: one file system, at most one resolver, nil values only before
      them; decoders in the given order, or the three default ones. *)
  Variable option_error : E.
  Variable dir_fs : bytes -> fsys E.
  Variable po_decoder mo_decoder json_decoder : decoder tag any E.
  Notation new_fs_loader := (new_fs_loader tag any E parts clean is_not_exist not_exist option_error dir_fs
                               po_decoder mo_decoder json_decoder).
  Theorem C41_options : forall os l,
    new_fs_loader os = inl l <->
    ~ In (FNil _ _ _) os /\
    set_at_most_once (fs_args tag any E dir_fs os) (Some (l_fsys l)) /\
    (set_at_most_once (resolver_args tag any E os) (Some (l_resolver l)) \/
     set_at_most_once (resolver_args tag any E os) None /\
       l_resolver l = default_resolver {| r_search := true; r_category := [] |}) /\
    (l_decoders l = decoder_args tag any E os /\ l_decoders l <> [] \/
     decoder_args tag any E os = [] /\
       l_decoders l = [(bs ".po", po_decoder); (bs ".mo", mo_decoder); (bs ".json", json_decoder)]).
  Proof.
    intros os l. unfold LoaderModel.new_fs_loader. set (v0 := Build_fs_builder _ _ _ None None []).
    split.
    - intros H. destruct (apply_fs_opts _ _ _ _ os v0) as [w|] eqn:A; [|discriminate].
      apply apply_fs_opts_spec in A. destruct A as (N & FS & RS & DS). cbn in FS, RS, DS.
      destruct (v_fsys _ _ _ w) as [f|]; [|discriminate]. injection H as <-. cbn [LoaderModel.l_fsys LoaderModel.l_resolver LoaderModel.l_decoders].
      split; [exact N|]. split; [exact FS|]. split.
      + destruct (v_resolver _ _ _ w); [left; exact RS|right; split; [exact RS|reflexivity]].
      + rewrite DS. destruct (decoder_args tag any E os); [right; auto|left; split; [reflexivity|discriminate]].
    - intros (N & FS & RS & DS). destruct l as [f r ds]. cbn [LoaderModel.l_fsys LoaderModel.l_resolver LoaderModel.l_decoders] in *.
      assert (X : exists w, apply_fs_opts tag any E dir_fs os v0 = Some w /\
                v_fsys _ _ _ w = Some f /\
                match v_resolver _ _ _ w with Some r' => r' | None => default_resolver {| r_search := true; r_category := [] |} end = r /\
                v_decoders _ _ _ w = decoder_args tag any E os).
      { destruct RS as [RS|[RS ->]].
        - exists {| v_fsys := Some f; v_resolver := Some r; v_decoders := decoder_args tag any E os |}.
          split; [|auto]. apply apply_fs_opts_spec. auto.
        - exists {| v_fsys := Some f; v_resolver := None; v_decoders := decoder_args tag any E os |}.
          split; [|auto]. apply apply_fs_opts_spec. auto. }
      destruct X as (w & -> & -> & RQ & ->).
      replace (match v_resolver _ _ _ w with Some r' => r' | None => _ end) with r by exact (eq_sym RQ).
      destruct DS as [[-> ND]|[-> ->]]; [|reflexivity].
      destruct (decoder_args tag any E os); [congruence|reflexivity].
  Qed.

  (** The options of the resolver: the search is off iff an option says so; the
      category is that of the last option giving one, else there is none. *)
  Theorem C41_resolver_options : forall os, exists search cat,
    new_resolver tag E parts clean is_not_exist not_exist os =
      default_resolver {| r_search := search; r_category := cat |} /\
    (search = false <-> In RNoSearch os) /\
    ((forall c, ~ In (RCategory c) os) /\ cat = [] \/
     exists l1 l2, os = l1 ++ RCategory cat :: l2 /\ forall c, ~ In (RCategory c) l2).
  Proof.
    intros os. unfold LoaderModel.new_resolver.
    set (r := fold_left apply_resolver_opt os default_config).
    exists (r_search r), (r_category r). split; [destruct r; reflexivity|]. subst r.
    induction os as [|o os [S C]] using rev_ind.
    - split; [split; [discriminate|intros []]|]. left. split; [intros c []|reflexivity].
    - rewrite fold_left_app. cbn [fold_left].
      set (r := fold_left apply_resolver_opt os default_config) in *. clearbody r.
      destruct o as [|c0]; cbn [apply_resolver_opt r_search r_category]; split.
      + split; [|reflexivity]. intros _. apply in_or_app. right. left. reflexivity.
      + destruct C as [[N Q]|(l1 & l2 & Q & N)].
        * left. split; [|exact Q]. intros c I. apply in_app_or in I. destruct I as [I|[I|[]]]; [exact (N c I)|discriminate].
        * right. exists l1, (l2 ++ [RNoSearch]). split.
          { rewrite Q at 1. rewrite <- app_assoc. reflexivity. }
          intros c I. apply in_app_or in I. destruct I as [I|[I|[]]]; [exact (N c I)|discriminate].
      + rewrite S. split; intro I; [apply in_or_app; left; exact I|].
        apply in_app_or in I. destruct I as [I|[I|[]]]; [exact I|discriminate].
      + right. exists os, []. split; [reflexivity|intros c []].
  Qed.
End Theorems.

(** C52: a language name is read up to the first ':', '@' or '.'. *)
Section Names.
  Variable tag E : Type.
  Variable parse : bytes -> tag + E.
  Variable trim_space : bytes -> bytes.
  Definition no_suffix (s : bytes) : Prop := forall c, In c s -> c <> ":"%char /\ c <> "@"%char /\ c <> "."%char.
  Lemma cut_at_spec c s : (~ In c s /\ cut_at c s = s) \/
    exists rest, s = cut_at c s ++ c :: rest /\ ~ In c (cut_at c s).
  Proof.
    induction s as [|a s IH]; cbn [cut_at]; [left; auto|].
    destruct (Ascii.eqb_spec a c) as [->|N]; [right; exists s; auto|].
    destruct IH as [[I ->]|(rest & Q & I)].
    - left. split; [|reflexivity]. intros [H|H]; [congruence|contradiction].
    - right. exists rest. cbn. split; [now f_equal|]. intros [H|H]; [congruence|contradiction].
  Qed.
  Lemma cut_at_incl c s x : In x (cut_at c s) -> In x s.
  Proof. induction s as [|a s IH]; cbn; [auto|]. destruct (Ascii.eqb a c); [contradiction|]. intros [H|H]; auto. Qed.
  Lemma cut_at_prefix c s : exists rest, s = cut_at c s ++ rest /\ (rest = [] \/ exists r, rest = c :: r).
  Proof.
    destruct (cut_at_spec c s) as [[_ ->]|(r & Q & _)]; [exists []; rewrite app_nil_r; auto|].
    exists (c :: r). eauto.
  Qed.
  Lemma cut_at_free c s : ~ In c (cut_at c s).
  Proof. destruct (cut_at_spec c s) as [[I ->]|(r & Q & I)]; assumption. Qed.

  Theorem C52_name : forall name suffix,
    no_suffix name ->
    (suffix = [] \/ exists c r, suffix = c :: r /\ (c = ":"%char \/ c = "@"%char \/ c = "."%char)) ->
    parse_language_name tag E parse trim_space (name ++ suffix) = parse (trim_space name).
  Proof.
    intros name suffix F S. unfold parse_language_name. do 2 f_equal.
    assert (K : forall c x, (forall d, In d x -> d <> c) -> cut_at c x = x).
    { intros c x H. induction x as [|a x IH]; [reflexivity|]. cbn.
      destruct (Ascii.eqb_spec a c) as [->|_]; [exfalso; apply (H c); [left|]; reflexivity|].
      f_equal. apply IH. intros d I. apply H. right. exact I. }
    assert (P : forall c x r, (forall d, In d x -> d <> c) -> cut_at c (x ++ r) = x ++ cut_at c r).
    { intros c x r H. induction x as [|a x IH]; [reflexivity|]. cbn.
      destruct (Ascii.eqb_spec a c) as [->|_]; [exfalso; apply (H c); [left|]; reflexivity|].
      f_equal. apply IH. intros d I. apply H. right. exact I. }
    assert (C1 : forall d, In d name -> d <> ":"%char) by (intros d I; apply F, I).
    assert (C2 : forall d, In d name -> d <> "@"%char) by (intros d I; apply F, I).
    assert (C3 : forall d, In d name -> d <> "."%char) by (intros d I; apply F, I).
    destruct S as [->|(c & r & -> & [->|[->| ->]])].
    - rewrite app_nil_r, (K _ _ C1), (K _ _ C2), (K _ _ C3). reflexivity.
    - rewrite (P _ _ _ C1). cbn [cut_at]. rewrite Ascii.eqb_refl, app_nil_r, (K _ _ C2), (K _ _ C3). reflexivity.
    - rewrite (P _ _ _ C1). cbn [cut_at]. cbn [Ascii.eqb Bool.eqb].
      rewrite (P _ _ _ C2). cbn [cut_at]. rewrite Ascii.eqb_refl, app_nil_r, (K _ _ C3). reflexivity.
    - rewrite (P _ _ _ C1). cbn [cut_at]. cbn [Ascii.eqb Bool.eqb].
      rewrite (P _ _ _ C2). cbn [cut_at]. cbn [Ascii.eqb Bool.eqb].
      rewrite (P _ _ _ C3). cbn [cut_at]. rewrite Ascii.eqb_refl, app_nil_r. reflexivity.
  Qed.
  (** every name has this form *)
  Theorem C52_total : forall s, exists name suffix, s = name ++ suffix /\ no_suffix name /\
    (suffix = [] \/ exists c r, suffix = c :: r /\ (c = ":"%char \/ c = "@"%char \/ c = "."%char)).
  Proof.
    induction s as [|a s (name & suffix & -> & F & S)].
    - exists [], []. split; [reflexivity|]. split; [intros c []|auto].
    - destruct (ascii_dec a ":") as [->|N1]; [exists [], (":"%char :: name ++ suffix); split; [reflexivity|]; split; [intros c []|eauto 6]|].
      destruct (ascii_dec a "@") as [->|N2]; [exists [], ("@"%char :: name ++ suffix); split; [reflexivity|]; split; [intros c []|eauto 7]|].
      destruct (ascii_dec a ".") as [->|N3]; [exists [], ("."%char :: name ++ suffix); split; [reflexivity|]; split; [intros c []|eauto 7]|].
      exists (a :: name), suffix. split; [reflexivity|]. split; [|exact S].
      intros c [<-|I]; auto.
  Qed.
End Names.
Example C52_example : parse_language_name bytes unit (fun s => inl s) (fun s => s) (bs "de_DE.UTF-8@euro:en") = inl (bs "de_DE").
Proof. vm_compute. reflexivity. Qed.

(** Concrete file systems: a file is its text; clean is the identity. *)
Definition y_cat (s : bytes) : catalog Z bool :=
  {| cat_lookup := fun _ _ => inl s; cat_lookup_plural := fun _ _ _ => inl s |}.
Definition z_fs (files : list (bytes * string)) : fsys bool :=
  {| fs_stat := fun p => existsb (fun f => beq (fst f) p) files;
     fs_open := fun p => match find (fun f => beq (fst f) p) files with
                         | Some f => inl {| f_data := bs (snd f); f_err := None; f_close := None |}
                         | None => inr true
                         end |}.
Definition z_dec : decoder tag_parts Z bool :=
  DData _ _ _ (fun _ _ s => if beq s (bs "bad") then inr false else inl (y_cat s)).
Definition pt_br : tag_parts :=
  {| p_string := bs "pt-BR"; p_base := Some (bs "pt", bs "por"); p_region := Some (bs "BR"); p_script := None |}.
Notation z_resolver := (default_resolver tag_parts bool (fun p => p) (fun s => s) (fun e => e) true).
Definition z_loader (files : list (bytes * string)) : fs_loader tag_parts Z bool :=
  {| l_fsys := z_fs files; l_resolver := z_resolver {| r_search := true; r_category := [] |};
     l_decoders := [(bs ".po", z_dec); (bs ".json", z_dec)] |}.
Definition z_load (files : list (bytes * string)) (dom : bytes) : option (bytes + error tag_parts bool) :=
  match load tag_parts Z bool (fun e => e) (fun _ _ => true) (fun _ e => e) orb (z_loader files) pt_br dom with
  | inl c => match cat_lookup _ _ c [] [] with inl s => Some (inl s) | inr _ => None end
  | inr e => Some (inr e)
  end.

(** The documented order is not kept by a resolver without category, which is
    the default one: locale/domain.po wins over locale/LC_MESSAGES/domain.po. *)
Theorem C41_documented_refuted :
  exists (f : fsys bool) p q,
    let doc := map (path_join (fun s => s))
                 (flat_map (fun loc => documented [] (bs "app") loc (bs ".po")) (expand_language pt_br)) in
    z_resolver {| r_search := true; r_category := [] |} f (bs ".po") pt_br (bs "app") = inl p /\
    first_of (exists_in bool f) doc q /\ p <> q.
Proof.
  exists (z_fs [(bs "pt-BR/app.po", "a"%string); (bs "pt-BR/LC_MESSAGES/app.po", "b"%string)]),
    (bs "pt-BR/app.po"), (bs "pt-BR/LC_MESSAGES/app.po"). cbv zeta. split; [vm_compute; reflexivity|].
  split; [apply first_of_find; vm_compute; reflexivity|]. intros Q. apply (f_equal (@length ascii)) in Q. vm_compute in Q. discriminate.
Qed.

(** Decoders first, then names, then paths; errors end the search. *)
Example C41_example :
  z_load [(bs "pt/app.po", "base"%string); (bs "pt-BR.json", "region"%string)] (bs "app") = Some (inl (bs "base")) /\
  z_load [(bs "pt/app.po", "base"%string); (bs "LC_MESSAGES/pt_BR.po", "region"%string)] (bs "app") = Some (inl (bs "region")) /\
  z_load [(bs "app/pt-BR.po", "a"%string); (bs "pt-BR/app.po", "b"%string)] (bs "app") = Some (inl (bs "b")) /\
  z_load [(bs "pt.po", "bad"%string); (bs "pt.json", "good"%string)] [] = Some (inr (EOther _ _ false)) /\
  z_load [(bs "fr.po", "x"%string)] [] = Some (inr (ENotFound _ _ true)).
Proof. vm_compute. repeat split. Qed.
Example C41_resolver_options_example : forall cat,
  fold_left apply_resolver_opt [RCategory (bs "a"); RNoSearch; RCategory cat] default_config =
  {| r_search := false; r_category := cat |}.
Proof. reflexivity. Qed.
Example C41_hypotheses_met : forall files,
  sound_fs bool (fun e => e) (z_fs files) /\ sound_decoder tag_parts Z bool (fun e => e) z_dec.
Proof.
  intros files. split.
  - intros p X. unfold exists_in in X. cbn [fs_stat z_fs] in X. cbn [fs_open z_fs].
    destruct (find (fun f => beq (fst f) p) files) as [g|] eqn:F.
    + eexists. split; [reflexivity|]. cbn. split; intros e Q; discriminate.
    + exfalso. apply existsb_exists in X. destruct X as (g & I & B). eapply find_none in F; [|exact I]. cbn in F. congruence.
  - intros t dom s e. destruct (beq s (bs "bad")); [|discriminate]. intros Q. injection Q as <-. reflexivity.
Qed.

Print Assumptions C41_resolve.
Print Assumptions C41_documented_partial.
Print Assumptions C41_load.
Print Assumptions C41_contract.
Print Assumptions C41_options.
Print Assumptions C41_resolver_options.
Print Assumptions C41_documented_refuted.
Print Assumptions C42_members.
Print Assumptions C42_no_duplicates.
Print Assumptions C42_order.
Print Assumptions C42_unique.
Print Assumptions C42_spelling_partial.
Print Assumptions C42_spelling_refuted.
Print Assumptions C52_name.
Print Assumptions C52_total.
