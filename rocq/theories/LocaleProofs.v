(** Proofs about locales and localizers. *)
From Coq Require Import String Ascii List ZArith Bool Lia.
From Verif Require Import Base BaseProofs PoStrModel LocaleModel LocaleSpec.
Import ListNotations.

Section Proofs.
  Variable tag : Type.
  Variable tag_eq_dec : forall a b : tag, {a = b} + {a <> b}.
  Variable any E C : Type.
  Variable of_int : Z -> any.
  Notation error := (error tag E).
  Notation event := (event tag E).
  Notation catalog := (catalog any E).
  Notation locale := (locale tag any E).
  Notation localizer := (localizer tag any E C).
  Notation l_cats := (l_cats tag any E).
  Notation l_source := (l_source tag any E).
  Notation request := (request any).
  Notation answers := (answers tag any E).
  Notation lacks := (lacks tag any E).
  Notation asked := (asked tag any E).
  Notation calls := (calls tag E C).
  Notation bad_number := (bad_number tag any E).

  Lemma cat_get_in (m : list (bytes * catalog)) d c :
    cat_get any E m d = Some c -> In (d, c) m.
  Proof.
    induction m as [|[k v] m IH]; [discriminate|]. cbn [cat_get].
    destruct (beq k d) eqn:B.
    - apply beq_eq in B. subst. injection 1 as <-. left. reflexivity.
    - intros H. right. auto.
  Qed.

  Lemma cat_get_none (m : list (bytes * catalog)) d :
    cat_get any E m d = None -> forall c, ~ In (d, c) m.
  Proof.
    induction m as [|[k v] m IH]; intros H c I; [exact I|]. cbn [cat_get] in H.
    destruct (beq k d) eqn:B; [discriminate|].
    destruct I as [I|I]; [|exact (IH H c I)].
    injection I as -> ->. rewrite beq_refl in B. discriminate.
  Qed.

  Lemma cat_unique (m : list (bytes * catalog)) d c c' :
    NoDup (map fst m) -> In (d, c) m -> In (d, c') m -> c = c'.
  Proof.
    induction m as [|[k v] m IH]; intros N I I'; [destruct I|].
    cbn [map fst] in N. inversion N as [|x y N1 N2]; subst.
    destruct I as [I|I], I' as [I'|I'].
    - congruence.
    - injection I as -> ->. exfalso. apply N1. apply (in_map fst) in I'. exact I'.
    - injection I' as -> ->. exfalso. apply N1. apply (in_map fst) in I. exact I.
    - exact (IH N2 I I').
  Qed.

  (** one language asked *)
  Definition locale_run (cb : option C) (l : locale) (q : request)
      : W tag E (bytes + error) :=
    match q with
    | Sing _ d ctx id vars => locale_singular _ _ _ _ cb l d ctx id vars
    | Plur _ d ctx sg pl n vars => locale_plural _ _ _ _ cb l d ctx sg pl n vars
    end.

  Lemma missing_calls (cb : option C) (e : error) : missing _ _ _ cb e = calls cb [e].
  Proof. destruct cb; reflexivity. Qed.

  Lemma calls_nil (cb : option C) : calls cb [] = [].
  Proof. destruct cb; reflexivity. Qed.

  Lemma calls_app (cb : option C) a b : calls cb (a ++ b) = calls cb a ++ calls cb b.
  Proof. destruct cb; [apply map_app|reflexivity]. Qed.

  Lemma locale_run_cases cb l q :
    (exists t, locale_run cb l q = (calls cb (bad_number q l), inl t) /\ answers l q t) \/
    (exists e, locale_run cb l q = (calls cb [e], inr e) /\ lacks l q e).
  Proof.
    destruct q as [d ctx id vars|d ctx sg pl n vars]; unfold locale_run.
    - unfold locale_singular. destruct (l_source l) eqn:S.
      + left. eexists. split.
        * cbn [LocaleSpec.bad_number]. rewrite calls_nil. reflexivity.
        * apply a_source. exact S.
      + unfold get_catalog. destruct (cat_get _ _ (l_cats l) d) as [c|] eqn:G.
        * destruct (cat_lookup _ _ c ctx id) as [t|e] eqn:L.
          -- left. eexists. split.
             ++ cbn [LocaleSpec.bad_number]. rewrite calls_nil. reflexivity.
             ++ eapply a_catalog; [exact S|apply cat_get_in; exact G|exact L].
          -- right. eexists. split; [rewrite missing_calls; reflexivity|].
             eapply k_message; [exact S|apply cat_get_in; exact G|exact L].
        * right. eexists. split; [rewrite missing_calls; reflexivity|].
          apply (k_domain tag any E l (Sing any d ctx id vars) S). apply cat_get_none. exact G.
    - unfold locale_plural. destruct (l_source l) eqn:S.
      + left. unfold print_source, LocaleSpec.bad_number. rewrite S.
        destruct (LocaleModel.l_plural _ _ _ l n) as [idx oe] eqn:P.
        assert (EV : match oe with Some e' => missing tag E C cb (EOther tag E e') | None => [] end
                     = calls cb (match oe with Some e => [EOther tag E e] | None => [] end)).
        { destruct oe; [apply missing_calls|rewrite calls_nil; reflexivity]. }
        cbn [snd]. rewrite EV.
        destruct ((idx =? 0)%Z || is_nil pl) eqn:Z0; eexists; (split;
          [unfold wbind, wret; rewrite app_nil_r; reflexivity|]).
        * apply a_source_one; [exact S|]. apply orb_true_iff in Z0. destruct Z0 as [Z0|Z0].
          -- left. rewrite P. apply Z.eqb_eq. exact Z0.
          -- right. destruct pl; [reflexivity|discriminate].
        * apply orb_false_iff in Z0. destruct Z0 as [Z0 Z1].
          apply a_source_many; [exact S| |].
          -- rewrite P. apply Z.eqb_neq. exact Z0.
          -- destruct pl; [discriminate|discriminate].
      + unfold get_catalog. destruct (cat_get _ _ (l_cats l) d) as [c|] eqn:G.
        * destruct (cat_lookup_plural _ _ c ctx sg n) as [t|e] eqn:L.
          -- left. eexists. split.
             ++ unfold LocaleSpec.bad_number. rewrite S, calls_nil. reflexivity.
             ++ eapply a_catalog_plural; [exact S|apply cat_get_in; exact G|exact L].
          -- right. eexists. split; [rewrite missing_calls; reflexivity|].
             eapply k_plural; [exact S|apply cat_get_in; exact G|exact L].
        * right. eexists. split; [rewrite missing_calls; reflexivity|].
          apply (k_domain tag any E l (Plur any d ctx sg pl n vars) S). apply cat_get_none. exact G.
  Qed.

  (** a language gives one answer, or one reason, and not both *)
  Lemma answers_fun l q t t' :
    NoDup (map fst (l_cats l)) -> answers l q t -> answers l q t' -> t = t'.
  Proof.
    intros N A B. destruct A; inversion B; subst; try reflexivity; try congruence;
      try (match goal with
           | H : _ \/ _ |- _ => destruct H; congruence
           end);
      match goal with
      | I : In (?d, ?c) ?m, J : In (?d, ?c') ?m |- _ =>
          pose proof (cat_unique m d c c' N I J); subst c'; congruence
      end.
  Qed.

  Lemma lacks_fun l q e e' :
    NoDup (map fst (l_cats l)) -> lacks l q e -> lacks l q e' -> e = e'.
  Proof.
    intros N A B. destruct A; inversion B; subst; try reflexivity;
      try (exfalso; eauto; fail);
      try (match goal with
      | H : forall c, ~ In (_, c) _ |- _ => exfalso; eapply H; cbn [domain]; eassumption
      end);
      match goal with
      | I : In (?d, ?c) ?m, J : In (?d, ?c') ?m |- _ =>
          pose proof (cat_unique m d c c' N I J); subst c'; congruence
      end.
  Qed.

  Lemma answers_lacks l q t e :
    NoDup (map fst (l_cats l)) -> answers l q t -> lacks l q e -> False.
  Proof.
    intros N A B. destruct A; inversion B; subst; try congruence;
      try (match goal with
      | H : forall c, ~ In (_, c) _ |- _ => eapply H; cbn [domain]; eassumption
      end);
      match goal with
      | I : In (?d, ?c) ?m, J : In (?d, ?c') ?m |- _ =>
          pose proof (cat_unique m d c c' N I J); subst c'; congruence
      end.
  Qed.

  Lemma asked_fun q ls es w t es' w' t' :
    (forall l, In l ls -> NoDup (map fst (l_cats l))) ->
    asked q ls es w t -> asked q ls es' w' t' -> es = es' /\ w = w' /\ t = t'.
  Proof.
    intros N A. revert es' w' t'. induction A as [l ls t A|l ls e es w t K A IH]; intros es' w' t' B.
    - inversion B; subst.
      + split; [reflexivity|]. split; [reflexivity|].
        eapply answers_fun; [apply N; left; reflexivity|exact A|assumption].
      + exfalso. eapply answers_lacks; [apply N; left; reflexivity|exact A|eassumption].
    - inversion B; subst.
      + exfalso. eapply answers_lacks; [apply N; left; reflexivity|eassumption|exact K].
      + match goal with H : lacks l q ?e1 |- _ =>
          pose proof (lacks_fun l q e e1 (N l (or_introl eq_refl)) K H) as -> end.
        match goal with H : asked q ls ?e1 ?w1 ?t1 |- _ =>
          destruct (IH (fun l' I => N l' (or_intror I)) e1 w1 t1 H) as (-> & -> & ->) end.
        auto.
  Qed.

  Definition run (z : localizer) (q : request) : W tag E (bytes * option error) :=
    match q with
    | Sing _ d ctx id vars => lookup_singular _ tag_eq_dec _ _ _ z d ctx id vars
    | Plur _ d ctx sg pl n vars => lookup_plural _ _ _ _ z d ctx sg pl n vars
    end.

  Notation cb z := (b_callback _ _ _ _ (z_bundle _ _ _ _ z)).
  Notation fb z := (b_fallback _ _ _ _ (z_bundle _ _ _ _ z)).
  Notation so z := (b_source _ _ _ _ (z_bundle _ _ _ _ z)).
  Notation zl z := (z_locale _ _ _ _ z).
  Notation reported := (reported tag E).

  Lemma source_answers (l : locale) q e : l_source l = true -> lacks l q e -> False.
  Proof. intros S K. destruct K; congruence. Qed.

  (** The general run: which languages are really asked. *)
  Definition really_asked (z : localizer) (q : request) : list locale :=
    match q with
    | Sing _ _ _ _ _ =>
        if tag_eq_dec (l_lang _ _ _ (zl z)) (l_lang _ _ _ (fb z))
        then [zl z; so z] else [zl z; fb z; so z]
    | Plur _ _ _ _ _ _ _ => [zl z; fb z; so z]
    end.

  Lemma run_asked z q :
    l_source (so z) = true ->
    exists es w t, asked q (really_asked z q) es w t /\
      run z q = (calls (cb z) (es ++ bad_number q w),
                 (t, reported (z_found _ _ _ _ z) es)).
  Proof.
    intros S.
    destruct (locale_run_cases (cb z) (zl z) q) as [(t & R & A)|(e & R & K)].
    - exists [], (zl z), t. split.
      + unfold really_asked. destruct q; [destruct (tag_eq_dec _ _)|]; apply hit; exact A.
      + destruct q; cbn [run locale_run] in *; unfold lookup_singular, lookup_plural;
          rewrite R; unfold wbind, wret; rewrite app_nil_r; reflexivity.
    - destruct (locale_run_cases (cb z) (so z) q) as [(t3 & R3 & A3)|(e3 & R3 & K3)];
        [|exfalso; eapply source_answers; [exact S|exact K3]].
      destruct (locale_run_cases (cb z) (fb z) q) as [(t2 & R2 & A2)|(e2 & R2 & K2)].
      + destruct q as [d ctx id vars|d ctx sg pl n vars].
        * cbn [run really_asked locale_run] in *.
          unfold lookup_singular. rewrite R.
          destruct (tag_eq_dec _ _) as [Q|Q].
          -- exists [e], (so z), t3. split; [apply miss; [exact K|]; apply hit; exact A3|].
             rewrite R3. unfold wbind, wret. rewrite app_nil_r, calls_app. reflexivity.
          -- exists [e], (fb z), t2. split; [apply miss; [exact K|]; apply hit; exact A2|].
             rewrite R2. unfold wbind, wret. rewrite app_nil_r, calls_app. reflexivity.
        * cbn [run really_asked locale_run] in *.
          unfold lookup_plural. rewrite R.
          exists [e], (fb z), t2. split; [apply miss; [exact K|]; apply hit; exact A2|].
          rewrite R2. unfold wbind, wret. rewrite app_nil_r, calls_app. reflexivity.
      + destruct q as [d ctx id vars|d ctx sg pl n vars].
        * cbn [run really_asked locale_run] in *.
          unfold lookup_singular. rewrite R.
          destruct (tag_eq_dec _ _) as [Q|Q].
          -- exists [e], (so z), t3. split; [apply miss; [exact K|]; apply hit; exact A3|].
             rewrite R3. unfold wbind, wret. rewrite app_nil_r, calls_app. reflexivity.
          -- exists [e; e2], (so z), t3.
             split; [apply miss; [exact K|]; apply miss; [exact K2|]; apply hit; exact A3|].
             rewrite R2, R3. unfold wbind, wret. rewrite !app_nil_r.
             destruct (cb z); reflexivity.
        * cbn [run really_asked locale_run] in *.
          unfold lookup_plural. rewrite R.
          exists [e; e2], (so z), t3.
          split; [apply miss; [exact K|]; apply miss; [exact K2|]; apply hit; exact A3|].
          rewrite R2, R3. unfold wbind, wret. rewrite !app_nil_r.
          destruct (cb z); reflexivity.
  Qed.

  (** leaving out a repeated language changes neither text nor first reason *)
  Lemma asked_repeat q l l3 es w t :
    asked q [l; l3] es w t ->
    exists es', asked q [l; l; l3] es' w t /\ hd_error es = hd_error es'.
  Proof.
    intros A. inversion A as [x y z H|x y e es0 w0 t0 K B]; subst.
    - exists []. split; [apply hit; assumption|reflexivity].
    - exists (e :: e :: es0). split; [|reflexivity].
      apply miss; [exact K|]. apply miss; [exact K|]. exact B.
  Qed.

  Lemma asked_repeat_inv q l l3 es w t :
    NoDup (map fst (l_cats l)) ->
    asked q [l; l; l3] es w t ->
    exists es', asked q [l; l3] es' w t /\ hd_error es = hd_error es'.
  Proof.
    intros N A. inversion A as [x y z H|x y e es0 w0 t0 K B]; subst.
    - exists []. split; [apply hit; assumption|reflexivity].
    - inversion B as [x y z H|x y e' es1 w1 t1 K1 B1]; subst.
      + exfalso. eapply answers_lacks; [exact N|exact H|exact K].
      + exists (e :: es1). split; [|reflexivity]. apply miss; assumption.
  Qed.

  Lemma reported_hd f es es' : hd_error es = hd_error es' -> reported f es = reported f es'.
  Proof. destruct es, es'; cbn; intros H; try discriminate; [reflexivity|]. injection H as ->. reflexivity. Qed.

  Notation chain := (chain tag any E C).
  Notation wf := (wf tag any E C).

  (** Text and error: always those of the whole chain. *)
  Lemma run_chain z q :
    wf z -> exists es w t, asked q (chain z) es w t /\
      snd (run z q) = (t, reported (z_found _ _ _ _ z) es).
  Proof.
    intros (S & F & N). destruct (run_asked z q S) as (es & w & t & A & R).
    rewrite R. cbn [snd].
    unfold really_asked in A. destruct q as [d ctx id vars|d ctx sg pl n vars].
    - destruct (tag_eq_dec _ _) as [Q|Q] in A.
      + destruct (asked_repeat _ _ _ _ _ _ A) as (es' & A' & H).
        exists es', w, t. split.
        * unfold LocaleSpec.chain. rewrite <- (F Q). exact A'.
        * rewrite (reported_hd _ _ _ H). reflexivity.
      + exists es, w, t. split; [exact A|reflexivity].
    - exists es, w, t. split; [exact A|reflexivity].
  Qed.

  Lemma run_total z q es w t :
    wf z -> asked q (chain z) es w t ->
    snd (run z q) = (t, reported (z_found _ _ _ _ z) es).
  Proof.
    intros W A. destruct (run_chain z q W) as (es' & w' & t' & A' & R).
    destruct W as (S & F & N).
    destruct (asked_fun _ _ _ _ _ _ _ _ N A A') as (-> & -> & ->). exact R.
  Qed.
End Proofs.
