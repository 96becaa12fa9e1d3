(** Proofs about the way from a file to the text shown. *)
From Coq Require Import String Ascii List ZArith Bool Lia Permutation.
From Verif Require Import Base BaseProofs Utf8Model LocaleModel BundleModel LocaleSpec LocaleProofs BundleSpec BundleProofs
  BundleRunProofs BundleTopProofs LoaderModel LoaderSpec LoaderProofs
  PoFileModel PoFileSpec PoParseProofs PoOutcomeProofs PoHeaderProofs MoModel MoSpec MoProofs
  PoHeadSpec PoHeadProofs NumModel GettextModel GettextSpec GettextProofs TheoremsMo TheoremsGettext TheoremsLoader AppModel AppSpec.
From Verif Require PoFormProofs.
Import ListNotations.
Open Scope Z_scope.

(** ** Decoding *)
Lemma alike_seen ms : Forall2 alike (map (seen_message true) ms) ms.
Proof.
  induction ms as [|m ms IH]; constructor; [|exact IH].
  split; [reflexivity|]. split; [reflexivity|]. apply fuzzy_seen.
Qed.
Lemma alike_refl ms : Forall2 alike ms ms.
Proof. induction ms as [|m ms IH]; constructor; [|exact IH]. split; [reflexivity|]. split; [reflexivity|tauto]. Qed.

Lemma is_message_fun e m m' : is_message e m -> is_message e m' -> m = m'.
Proof.
  intros (A & B & C & D & F & G) (A' & B' & C' & D' & F' & G').
  assert (S : m_str m = m_str m').
  { assert (X : forall l l' : strmap, map fst l = map fst l' -> map snd l = map snd l' -> l = l').
    { clear. induction l as [|[a b] l IH]; intros [|[a' b'] l'] P Q; try discriminate; [reflexivity|].
      cbn [map fst snd] in P, Q. injection P as -> P. injection Q as -> Q. f_equal. auto. }
    apply X; congruence. }
  destruct m, m'. cbn in *. congruence.
Qed.
Lemma is_message_all l ms ms' : Forall2 is_message l ms -> Forall2 is_message l ms' -> ms = ms'.
Proof.
  intros F. revert ms'. induction F as [|e m l ms H F IH]; intros ms' F'; inversion F'; subst; [reflexivity|].
  f_equal; [eapply is_message_fun; eassumption|auto].
Qed.

Definition read_file (mo : bool) (s : bytes) : res pofile :=
  if mo then parse_mo s else parse_po_fuel (S (length s)) true s.

Lemma last_none k : last_value [] k [].
Proof. apply lv_none. constructor. Qed.
Lemma get_new fold k : header_get fold new_header k = [].
Proof.
  unfold header_get. destruct (field_index header_names k) as [i|] eqn:F; [|reflexivity].
  unfold new_header. cbn [h_known]. apply nth_repeat.
Qed.

(** what the parsers make of the file *)
Lemma holds_read s ms kvs mo fold : holds s ms kvs mo ->
  exists f, read_file mo s = Ok f /\ NoDup (map key (f_messages f)) /\ Forall2 alike (f_messages f) ms /\
    (ascii_fold fold -> regular_fields kvs -> forall k, ascii_text k -> last_value kvs k (header_get fold (f_header f) k)).
Proof.
  intros [bl ls L T M ND NE H|A|A|be l F ND M H]; cbn [read_file].
  - subst ms. rewrite (file_accepted true bl ls s _ L T (Nat.lt_succ_diag_r _) ND); [| |exact NE].
    2:{ destruct H as [[-> _]|(is & ->)]; cbn; lia. }
    eexists. split; [reflexivity|]. cbn [f_messages f_header]. split.
    { rewrite map_map. erewrite map_ext; [exact ND|]. intro. apply key_seen. }
    split; [apply alike_seen|]. intros AF [A O] k K. destruct H as [[-> ->]|(is & ->)].
    + rewrite get_new. apply last_none.
    + destruct (set_all_get fold kvs k AF K A O) as (v & V & Q). rewrite <- Q in V. exact V.
  - destruct (any_po_read s ms kvs A) as (f & P & ND & AL & H). exists f. split; [exact P|]. split; [exact ND|]. split; [exact AL|].
    intros AF [AT O] k K. destruct H as [[-> ->]|H]; [rewrite get_new; apply last_none|]. rewrite H.
    destruct (set_all_get fold kvs k AF K AT O) as (v & V & Q). rewrite <- Q in V. exact V.
  - destruct (PoFormProofs.every_po_read s ms kvs A) as (f & P & ND & AL & H). exists f. split; [exact P|]. split; [exact ND|]. split; [exact AL|].
    intros AF [AT O] k K. destruct H as [[-> ->]|H]; [rewrite get_new; apply last_none|]. rewrite H.
    destruct (set_all_get fold kvs k AF K AT O) as (v & V & Q). rewrite <- Q in V. exact V.
  - destruct (C28_mo_read s be l F ND) as (f & P & FM & H0 & _ & H2). exists f. split; [exact P|].
    split; [eapply parse_mo_nodup; exact P|]. rewrite (is_message_all _ _ _ M FM). split; [apply alike_refl|].
    intros AF [A O] k K. destruct H as [[Q ->]|(hs & Q)].
    + rewrite (H0 Q), get_new. apply last_none.
    + apply (H2 hs); assumption.
Qed.

Lemma last_value_fun kvs k v v' : last_value kvs k v -> last_value kvs k v' -> v = v'.
Proof.
  assert (X : forall kvs kvs' (k : bytes) k1 (v1 : bytes) rest k2 v2 rest',
    kvs ++ (k1, v1) :: rest = kvs' ++ (k2, v2) :: rest' -> ci_eq k1 k -> ci_eq k2 k ->
    Forall (fun e => ~ ci_eq (fst e) k) rest -> Forall (fun e => ~ ci_eq (fst e) k) rest' -> v1 = v2).
  { clear. induction kvs as [|a kvs IH]; intros [|b kvs'] k k1 v1 rest k2 v2 rest' Q C1 C2 F F'; cbn [app] in Q.
    - congruence.
    - injection Q as _ Q. exfalso. rewrite Forall_forall in F. apply (F (k2, v2)); [|exact C2].
      rewrite Q. apply in_or_app. right. now left.
    - injection Q as _ Q. exfalso. rewrite Forall_forall in F'. apply (F' (k1, v1)); [|exact C1].
      rewrite <- Q. apply in_or_app. right. now left.
    - injection Q as _ Q. eapply IH; eassumption. }
  intros A B. inversion A as [? ? F|kv ? k1 ? rest C F]; subst; inversion B as [? ? F' |kv' ? k2 ? rest' C' F' Q]; subst.
  - reflexivity.
  - exfalso. rewrite Forall_forall in F. apply (F (k2, v')); [|exact C']. apply in_or_app. right. now left.
  - exfalso. rewrite Forall_forall in F'. apply (F' (k1, v)); [|exact C]. apply in_or_app. right. now left.
  - symmetry. eapply X; eauto.
Qed.

Section App.
  Variable tag : Type.
  Variable is_root : tag -> bool.
  Variable tag_string : tag -> bytes.
  Variable base : tag -> bytes * bool.
  Variable parent : tag -> tag.
  Variable fold : rune -> rune.
  Variable depth : nat.
  Variable E : Type.
  Variable of_lookup : lookup_error tag -> E.
  Variable decode_failed : E.
  Notation catalog_of := (catalog_of tag E of_lookup decode_failed).
  Notation gdecoder := (gettext_decoder tag is_root tag_string base parent fold depth E of_lookup decode_failed).
  Notation build := (build_catalog tag is_root tag_string base parent fold depth).

  Definition decode (mo u : bool) (t : tag) (dom s : bytes) : res (gcat tag) :=
    do f <- read_file mo s ; build f t dom u.
  Lemma gdecoder_run mo u : exists g, gdecoder mo u = DReader _ _ _ g /\
    forall t dom s, g t dom s None = match decode mo u t dom s with Ok c => inl (catalog_of c) | _ => inr decode_failed end.
  Proof. destruct mo; eexists; (split; [reflexivity|]); reflexivity. Qed.

  (** answers of the catalog as the locale sees them *)
  Lemma singular_answer c ms t ctx id :
    (exists f dom u, build f t dom u = Ok c /\ NoDup (map key (f_messages f)) /\ Forall2 alike (f_messages f) ms) ->
    forall r, answer ms t [] ctx id 0 r -> cat_lookup _ _ (catalog_of c) ctx id =
      match snd r with None => inl (fst r) | Some e => inr (of_lookup e) end.
  Proof.
    intros (f & dom & u & B & NF & AL) r A. cbn [AppModel.catalog_of cat_lookup].
    assert (A' : answer (f_messages f) t [] ctx id 0 r).
    { eapply (answer_alike tag is_root tag_string base parent fold); [|exact A]. clear - AL. induction AL as [|x y l l' H AL IH]; constructor; [|exact IH].
      destruct H as (P & Q & R). split; [congruence|]. split; [intro; symmetry; apply Q|symmetry; exact R]. }
    apply (C30_catalog_of_file tag is_root tag_string base parent fold depth f u t dom c NF B) in A'.
    rewrite A'. destruct r as [x [e|]]; reflexivity.
  Qed.
  Lemma plural_answer c t ctx id n i r f dom u : build f t dom u = Ok c -> NoDup (map key (f_messages f)) ->
    g_plural c n = Ok i -> answer (f_messages f) t [] ctx id i r ->
    cat_lookup_plural _ _ (catalog_of c) ctx id n =
      match snd r with None => inl (fst r) | Some e => inr (of_lookup e) end.
  Proof.
    intros B NF P A. destruct (build_ok _ _ _ _ _ _ _ _ _ _ _ _ B) as (p & ->). cbn [g_plural] in P.
    destruct (lookup_plural_answer tag (f_messages f) t [] p ctx id n i NF P) as (x & X & A').
    cbn [AppModel.catalog_of cat_lookup_plural]. rewrite X.
    rewrite (answer_fun _ _ _ _ _ _ _ _ _ NF A' A). destruct r as [y [e|]]; reflexivity.
  Qed.

  (** ** Loading *)
  Variable parts : tag -> tag_parts.
  Variable clean : bytes -> bytes.
  Variable is_not_exist : E -> bool.
  Variable not_exist : E.
  Variable not_found : tag -> bytes -> E.
  Variable decode_error : bytes -> E -> E.
  Variable join_errors : E -> E -> E.
  Hypothesis not_exist_is : is_not_exist not_exist = true.
  Notation load := (load tag number E is_not_exist not_found decode_error join_errors).
  Notation chosen := (chosen tag E parts clean is_not_exist not_exist).

  Lemma load_chosen l r ds t dom g s : chosen l r ds t dom (DReader _ _ _ g) s ->
    (forall e, g t dom s None = inr e -> is_not_exist e = false) ->
    load l t dom = match g t dom s None with inl c => inl c | inr e => inr (EOther _ _ e) end.
  Proof.
    intros (R & DS & ds1 & ext & ds2 & p & fl & Q & N & F & O & DT & ER & CL) NE.
    unfold LoaderModel.load. rewrite DS, Q. clear DS Q. induction ds1 as [|[e1 d1] ds1 IH].
    - cbn [app load_with]. unfold load_from_file. rewrite R.
      rewrite (proj2 (proj1 (C41_resolve tag E parts clean is_not_exist not_exist not_exist_is r _ _ _ _) p) F).
      rewrite O, DT, ER, CL. destruct (g t dom s None) as [c|e]; [reflexivity|]. rewrite (NE e); reflexivity.
    - cbn [app load_with]. unfold load_from_file at 1. rewrite R.
      destruct (C41_resolve tag E parts clean is_not_exist not_exist not_exist_is r (l_fsys tag number E l) e1 t dom) as (_ & R2 & R3).
      destruct (proj2 R2) as (e & RE). { intros p'. apply (N (e1, d1)). now left. }
      rewrite RE. rewrite (R3 _ RE), not_exist_is. apply IH. intros ed p' I. apply N. now right.
  Qed.
End App.

(** ** Asking *)
Section Ask.
  Variable tag : Type.
  Variable tag_eq_dec : forall a b : tag, {a = b} + {a <> b}.
  Variable any E C : Type.
  Notation localizer := (localizer tag any E C).
  Notation answers := (LocaleSpec.answers tag any E).
  Notation lacks := (lacks tag any E).
  Notation zl z := (z_locale _ _ _ _ z).
  Notation zb z := (z_bundle _ _ _ _ z).
  Notation found_error z := (if z_found tag any E C z then None else Some (ELocale tag E)).

  Lemma run_first (z : localizer) q t : wf tag any E C z -> l_source _ _ _ (zl z) = false ->
    answers (zl z) q t -> run tag tag_eq_dec any E C z q = ([], (t, found_error z)).
  Proof.
    intros (S & _ & N) SF A. destruct (run_asked tag tag_eq_dec any E C z q S) as (es & w & t' & AS & R). rewrite R.
    assert (H : exists ls, really_asked tag tag_eq_dec any E C z q = zl z :: ls).
    { unfold really_asked. destruct q; [|eauto]. destruct (tag_eq_dec _ _); eauto. }
    destruct H as (ls & H). rewrite H in AS. assert (NL : NoDup (map fst (l_cats _ _ _ (zl z)))) by (apply N; now left).
    inversion AS; subst.
    - match goal with X : answers _ q ?x |- _ => rewrite (answers_fun tag any E _ q x t NL X A) end.
      cbn [app reported]. f_equal. destruct q; cbn [bad_number]; [destruct (b_callback _ _ _ _ _); reflexivity|].
      rewrite SF. destruct (b_callback _ _ _ _ _); reflexivity.
    - exfalso. match goal with X : lacks _ q _ |- _ => exact (answers_lacks tag any E _ q t _ NL A X) end.
  Qed.

  (** without a fallback language of its own: the source text *)
  Lemma run_source (z : localizer) q e t : wf tag any E C z ->
    b_fallback _ _ _ _ (zb z) = b_source _ _ _ _ (zb z) ->
    lacks (zl z) q e -> answers (b_source _ _ _ _ (zb z)) q t ->
    run tag tag_eq_dec any E C z q =
      (calls tag E C (b_callback _ _ _ _ (zb z)) (e :: bad_number tag any E q (b_source _ _ _ _ (zb z))), (t, Some e)).
  Proof.
    intros (S & W & N) FB L A. destruct (run_asked tag tag_eq_dec any E C z q S) as (es & w & t' & AS & R). rewrite R.
    assert (H : exists ls, really_asked tag tag_eq_dec any E C z q = zl z :: b_source _ _ _ _ (zb z) :: ls).
    { unfold really_asked. rewrite FB. destruct q; [|eauto]. destruct (tag_eq_dec _ _); eauto. }
    destruct H as (ls & H). rewrite H in AS. assert (NL : NoDup (map fst (l_cats _ _ _ (zl z)))) by (apply N; now left).
    assert (NS : NoDup (map fst (l_cats _ _ _ (b_source _ _ _ _ (zb z))))) by (apply N; right; right; now left).
    inversion AS; subst.
    - exfalso. match goal with X : answers _ q _ |- _ => exact (answers_lacks tag any E _ q _ e NL X L) end.
    - match goal with X : lacks _ q ?x |- _ => pose proof (lacks_fun tag any E _ q x e NL X L) as -> end.
      match goal with X : asked _ _ _ q _ _ _ _ |- _ => inversion X; subst end.
      + match goal with X : answers _ q ?x |- _ => rewrite (answers_fun tag any E _ q x t NS X A) end. reflexivity.
      + exfalso. match goal with X : lacks _ q _ |- _ => exact (answers_lacks tag any E _ q t _ NS A X) end.
  Qed.
End Ask.
