(** Lemmas about JSON catalogs. *)
From Coq Require Import String Ascii List ZArith Bool Lia Permutation.
From Verif Require Import Base BaseProofs TrimProofs StrModel PoStrModel PoFileModel PoSortProofs CldrModel GettextModel GettextProofs JsonModel JsonSpec.
Import ListNotations.
Open Scope Z_scope.

Lemma cat_eqb_eq : forall a b, cat_eqb a b = true <-> a = b.
Proof. intros [] []; cbn; split; congruence. Qed.
Lemma cat_eqb_refl : forall a, cat_eqb a a = true.
Proof. intros []; reflexivity. Qed.
Lemma cat_dec : forall a b : category, {a = b} + {a <> b}.
Proof. decide equality. Qed.
Lemma cat_get_set : forall m c v d, cat_get (cat_set m c v) d = if cat_eqb c d then Some v else cat_get m d.
Proof.
  induction m as [|[a w] m IH]; intros c v d; cbn [cat_set cat_get]; [reflexivity|].
  destruct (cat_eqb a c) eqn:E; cbn [cat_get].
  - apply cat_eqb_eq in E. subst. destruct (cat_eqb c d); reflexivity.
  - rewrite IH. destruct (cat_eqb a d) eqn:F; [|reflexivity]. destruct (cat_eqb c d) eqn:G; [|reflexivity].
    apply cat_eqb_eq in F, G. subst. rewrite cat_eqb_refl in E. discriminate.
Qed.
Lemma cat_get_del : forall m c d, cat_get (cat_del m c) d = if cat_eqb c d then None else cat_get m d.
Proof.
  induction m as [|[a w] m IH]; intros c d; cbn [cat_del cat_get]; [destruct (cat_eqb c d); reflexivity|].
  destruct (cat_eqb a c) eqn:E; cbn [cat_get].
  - apply cat_eqb_eq in E. subst. rewrite IH. destruct (cat_eqb c d); reflexivity.
  - rewrite IH. destruct (cat_eqb a d) eqn:F; [|reflexivity]. destruct (cat_eqb c d) eqn:G; [|reflexivity].
    apply cat_eqb_eq in F, G. subst. rewrite cat_eqb_refl in E. discriminate.
Qed.
Lemma cat_get_in : forall m c v, cat_get m c = Some v -> In (c, v) m.
Proof.
  induction m as [|[a w] m IH]; intros c v H; cbn [cat_get] in H; [discriminate|].
  destruct (cat_eqb a c) eqn:E; [apply cat_eqb_eq in E; injection H as <-; subst; now left|right; auto].
Qed.
Lemma cat_in_get : forall m c, In c (map fst m) -> has_cat m c.
Proof.
  induction m as [|[a w] m IH]; intros c H; [destruct H|]. unfold has_cat. cbn [cat_get map fst] in *.
  destruct (cat_eqb a c) eqn:E; [eauto|]. destruct H as [->|H]; [rewrite cat_eqb_refl in E; discriminate|]. now apply IH.
Qed.
Lemma has_cat_in : forall m c, has_cat m c <-> In c (map fst m).
Proof. intros m c. split; [|apply cat_in_get]. intros (v & H). apply cat_get_in in H. apply in_map_iff. exists (c, v). auto. Qed.
Lemma cat_set_keys : forall m c v, NoDup (map fst m) -> NoDup (map fst (cat_set m c v)).
Proof.
  induction m as [|[a w] m IH]; intros c v ND; cbn [cat_set map fst] in *; [repeat constructor; auto|].
  inversion ND as [|? ? N ND']; subst. destruct (cat_eqb a c) eqn:E; cbn [map fst].
  - apply cat_eqb_eq in E. subst. now constructor.
  - constructor; [|now apply IH]. intro I. apply N. apply has_cat_in. apply has_cat_in in I. destruct I as (x & I).
    rewrite cat_get_set in I. destruct (cat_eqb c a) eqn:F; [apply cat_eqb_eq in F; subst; rewrite cat_eqb_refl in E; discriminate|].
    exists x. exact I.
Qed.

Lemma single_iff : forall m, NoDup (map fst m) ->
  ((length m = 1%nat /\ exists v, cat_get m Other = Some v) <-> singular m).
Proof.
  intros m ND. unfold singular. split.
  - intros [L (v & G)] c. destruct m as [|[a w] [|y m]]; try discriminate L. cbn [cat_get] in G.
    destruct (cat_eqb a Other) eqn:E; [|discriminate]. apply cat_eqb_eq in E. subst a.
    unfold has_cat. cbn [cat_get]. split.
    + intros (x & H). destruct (cat_eqb Other c) eqn:F; [|discriminate]. now apply cat_eqb_eq in F.
    + intros ->. rewrite cat_eqb_refl. eauto.
  - intro H. split; [|now apply H].
    assert (K : forall c, In c (map fst m) -> c = Other) by (intros c I; apply H, has_cat_in, I).
    destruct m as [|[a w] [|[b x] m]].
    + destruct (proj2 (H Other) eq_refl) as (v & G). discriminate.
    + reflexivity.
    + exfalso. cbn [map fst] in *. inversion ND as [|? ? N _]; subst. apply N.
      rewrite (K a), (K b); cbn; auto.
Qed.
Lemma singular_dec : forall m, NoDup (map fst m) -> {singular m} + {~ singular m}.
Proof.
  intros m ND. destruct (Nat.eq_dec (length m) 1) as [L|L].
  - destruct (cat_get m Other) as [v|] eqn:G.
    + left. apply single_iff; eauto.
    + right. intro H. apply single_iff in H; [|exact ND]. destruct H as [_ (v & E)]. congruence.
  - right. intro H. apply single_iff in H; [|exact ND]. now destruct H.
Qed.

Lemma apply_category_get : forall cats m c d, cat_get (apply_category cats m c) d =
  if cat_eqb c d then (if existsb (cat_eqb c) cats then Some (match cat_get m c with Some v => v | None => [] end) else None) else cat_get m d.
Proof.
  intros cats m c d. unfold apply_category. destruct (existsb (cat_eqb c) cats).
  - destruct (cat_get m c) as [v|] eqn:G.
    + destruct (cat_eqb c d) eqn:E; [apply cat_eqb_eq in E; subst; exact G|reflexivity].
    + rewrite cat_get_set. reflexivity.
  - apply cat_get_del.
Qed.
Lemma apply_fold_get : forall cats order m d, cat_get (fold_left (apply_category cats) order m) d =
  if existsb (cat_eqb d) order then (if existsb (cat_eqb d) cats then Some (match cat_get m d with Some v => v | None => [] end) else None) else cat_get m d.
Proof.
  intros cats. induction order as [|c order IH]; intros m d; cbn [fold_left existsb]; [reflexivity|].
  rewrite IH, apply_category_get. destruct (cat_eqb c d) eqn:E.
  - apply cat_eqb_eq in E. subst. rewrite cat_eqb_refl. cbn [orb]. destruct (existsb (cat_eqb d) order); [|reflexivity].
    destruct (existsb (cat_eqb d) cats); reflexivity.
  - assert (F : cat_eqb d c = false).
    { destruct (cat_eqb d c) eqn:F; [|reflexivity]. apply cat_eqb_eq in F. subst. rewrite cat_eqb_refl in E. discriminate. }
    rewrite F. reflexivity.
Qed.
Lemma exists_cat : forall d l, existsb (cat_eqb d) l = true <-> In d l.
Proof.
  intros d l. rewrite existsb_exists. split.
  - intros (x & I & E). apply cat_eqb_eq in E. now subst.
  - intro I. exists d. split; [exact I|apply cat_eqb_refl].
Qed.
Lemma apply_keys : forall cats order m, NoDup (map fst m) -> NoDup (map fst (fold_left (apply_category cats) order m)).
Proof.
  intros cats. induction order as [|c order IH]; intros m ND; [exact ND|]. cbn [fold_left]. apply IH.
  unfold apply_category. destruct (existsb _ _).
  - destruct (cat_get m c); [exact ND|now apply cat_set_keys].
  - clear - ND. induction m as [|[a w] m IH]; [exact ND|]. cbn [cat_del map fst] in *. inversion ND as [|? ? N ND']; subst.
    destruct (cat_eqb a c); [now apply IH|]. cbn [map fst]. constructor; [|now apply IH].
    intro I. apply N. apply has_cat_in. apply has_cat_in in I. destruct I as (x & I). rewrite cat_get_del in I.
    destruct (cat_eqb c a); [discriminate|]. exists x. exact I.
Qed.
Theorem apply_fitted : forall order cats m, NoDup (map fst m) -> every_category order ->
  fitted cats m (apply_categories order cats m) /\ NoDup (map fst (apply_categories order cats m)).
Proof.
  intros order cats m ND EO. pose proof (single_iff m ND) as SI. unfold apply_categories.
  assert (F : ~ singular m -> fitted cats m (fold_left (apply_category cats) order m) /\ NoDup (map fst (fold_left (apply_category cats) order m))).
  { intro N. split; [|now apply apply_keys]. split; [contradiction|]. intros _ c. rewrite apply_fold_get.
    rewrite (proj2 (exists_cat c order) (EO c)). split; intro I.
    - now rewrite (proj2 (exists_cat c cats) I).
    - destruct (existsb (cat_eqb c) cats) eqn:E; [|reflexivity]. apply exists_cat in E. contradiction. }
  destruct (length m) as [|[|n]] eqn:L.
  - apply F. intro S. apply SI in S. destruct S; discriminate.
  - destruct (cat_get m Other) as [v|] eqn:G.
    + split; [|exact ND]. split; [reflexivity|]. intro N. exfalso. apply N, SI. eauto.
    + apply F. intro S. apply SI in S. destruct S as [_ (v & E)]. discriminate.
  - apply F. intro S. apply SI in S. destruct S; discriminate.
Qed.

(** what is shown of a fitted map *)
Lemma fitted_text : forall cats m t' c, NoDup (map fst (tr_of m)) -> fitted cats (tr_of m) t' ->
  forall v, v <> [] -> (cat_get t' c = Some v <-> text_for cats m c v).
Proof.
  intros cats m t' c ND [F1 F2] v NE. unfold text_for. destruct (singular_dec (tr_of m) ND) as [S|S].
  - rewrite (F1 S). tauto.
  - destruct (F2 S c) as [G1 G2]. destruct (in_dec cat_dec c cats) as [I|I].
    + rewrite (G1 I). split.
      * intro E. injection E as E. destruct (cat_get (tr_of m) c); [subst; tauto|congruence].
      * intros (_ & E & _). now rewrite E.
    + rewrite (G2 I). split; [discriminate|tauto].
Qed.

(** ** Filling the catalog *)
Section J.
  Variable tag : Type.
  Definition get2 (m : jlookup) (ctx key : bytes) : option jmsg :=
    match map_get m ctx with Some l => map_get l key | None => None end.
  Definition stored (order cats : list category) (m : jmsg) : jmsg :=
    JMsg (j_comment m) (j_context m) (Some (apply_categories order cats (tr_of m))).
  Notation set_message := (set_message tag).
  Notation set_messages := (set_messages tag).

  Definition validb (e : bytes * option jmsg) : bool :=
    negb (is_nil (fst e)) && match snd e with
    | None => false
    | Some m => (is_nil (j_context m) || has_suffix (fst e) (bs "_" ++ j_context m)) &&
                match cat_get (tr_of m) Other with Some _ => true | None => false end
    end.
  Lemma has_suffix_iff : forall s p, has_suffix s p = true <-> exists q, s = q ++ p.
  Proof.
    intros s p. unfold has_suffix. rewrite has_prefix_iff. split.
    - intros (q & E). exists (rev q). rewrite <- (rev_involutive s), E, rev_app_distr, rev_involutive. reflexivity.
    - intros (q & ->). exists (rev q). now rewrite rev_app_distr.
  Qed.
  Lemma valid_iff : forall e, validb e = true <-> valid e.
  Proof.
    intros [k [m|]]; unfold validb, valid; cbn [fst snd]; rewrite andb_true_iff, negb_true_iff.
    - rewrite andb_true_iff, orb_true_iff, has_suffix_iff. split.
      + intros [A [B C]]. split; [intros ->; discriminate|]. exists m. split; [reflexivity|]. split.
        * unfold has_cat. destruct (cat_get (tr_of m) Other); [eauto|discriminate].
        * destruct B as [B|B]; [left; destruct (j_context m); [reflexivity|discriminate]|right; exact B].
      + intros [A (m' & E & (v & G) & C)]. injection E as <-. split; [destruct k; [congruence|reflexivity]|]. split.
        * destruct C as [C|C]; [left; now rewrite C|right; exact C].
        * now rewrite G.
    - split; [intros [_ H]; discriminate|intros [_ (m & E & _)]; discriminate].
  Qed.
  Lemma set_message_cases : forall order c k m, set_message order c k m =
    if validb (k, m) then
      match m with
      | Some m => Ok (JCat (jc_lang c) (jc_domain c) (jc_rules c)
          (map_set (jc_map c) (j_context m) (map_set (match map_get (jc_map c) (j_context m) with Some l => l | None => [] end) k
             (stored order (rs_categories (jc_rules c)) m))))
      | None => Err
      end
    else Err.
  Proof.
    intros order c k m. unfold JsonModel.set_message, validb. cbn [fst snd]. destruct (is_nil k); [reflexivity|]. cbn [negb andb].
    destruct m as [m|]; [|reflexivity]. fold (tr_of m).
    rewrite <- (negb_involutive (is_nil (j_context m) || _)), negb_orb.
    destruct (negb (is_nil (j_context m)) && negb (has_suffix k (bs "_" ++ j_context m))); [reflexivity|]. cbn [negb andb].
    destruct (cat_get (tr_of m) Other); reflexivity.
  Qed.
  Lemma set_messages_app : forall order l l' c, set_messages order c (l ++ l') = (do c' <- set_messages order c l ; set_messages order c' l').
  Proof.
    intros order. induction l as [|[k m] l IH]; intros l' c; [reflexivity|]. cbn [app JsonModel.set_messages].
    destruct (JsonModel.set_message tag order c k m); cbn [rbind]; [apply IH|reflexivity|reflexivity|reflexivity].
  Qed.
  Lemma set_messages_valid : forall order l c,
    (exists c', set_messages order c l = Ok c' /\ forallb validb l = true) \/ (set_messages order c l = Err /\ forallb validb l = false).
  Proof.
    intros order. induction l as [|[k m] l IH]; intro c; [left; exists c; split; reflexivity|]. cbn [JsonModel.set_messages forallb].
    rewrite set_message_cases. destruct (validb (k, m)) eqn:V; cbn [andb]; [|right; auto].
    destruct m as [m|]; [|unfold validb in V; cbn in V; rewrite andb_false_r in V; discriminate]. cbn [rbind]. apply IH.
  Qed.
  (** the last entry of a key and context *)
  Definition jpick (l : list (bytes * option jmsg)) (ctx key : bytes) : option jmsg :=
    match find (fun e => beq (fst e) key && match snd e with Some m => beq (j_context m) ctx | None => false end) (rev l) with
    | Some (_, o) => o
    | None => None
    end.
  Lemma set_messages_get : forall order l c c', set_messages order c l = Ok c' ->
    jc_lang c' = jc_lang c /\ jc_domain c' = jc_domain c /\ jc_rules c' = jc_rules c /\
    (forall ctx, map_get (jc_map c') ctx = None <-> map_get (jc_map c) ctx = None /\ ~ j_has_context l ctx) /\
    (forall ctx k, get2 (jc_map c') ctx k =
       match jpick l ctx k with Some m => Some (stored order (rs_categories (jc_rules c)) m) | None => get2 (jc_map c) ctx k end).
  Proof.
    intros order l. induction l as [|[k m] l IH] using rev_ind; intros c c' H.
    - injection H as <-. repeat (split; [reflexivity|]). split; [|reflexivity].
      intro ctx. split; [|tauto]. intro E. split; [exact E|]. intros (k & m & [] & _).
    - rewrite set_messages_app in H. destruct (JsonModel.set_messages tag order c l) as [c1| | |] eqn:E1; cbn [rbind] in H; try discriminate.
      destruct (IH c c1 E1) as (L & D & R & N & G). cbn [JsonModel.set_messages] in H. rewrite set_message_cases in H.
      destruct (validb (k, m)); [|discriminate]. destruct m as [m|]; [|discriminate]. cbn [rbind] in H. injection H as <-.
      cbn [jc_lang jc_domain jc_rules jc_map]. repeat (split; [assumption|]). split.
      + intro ctx. rewrite map_get_set. destruct (beq (j_context m) ctx) eqn:B.
        * apply beq_eq in B. split; [discriminate|]. intros [_ X]. exfalso. apply X. exists k, m. split; [apply in_app_iff; cbn; auto|exact B].
        * rewrite N. assert (Q : j_has_context (l ++ [(k, Some m)]) ctx <-> j_has_context l ctx); [|rewrite Q; reflexivity].
          split; intros (k' & m' & I & X); exists k', m'; (split; [|exact X]).
          { apply in_app_iff in I as [I|[I|[]]]; [exact I|]. injection I as <- <-. rewrite X, beq_refl in B. discriminate. }
          { apply in_app_iff. now left. }
      + intros ctx k0. unfold jpick. rewrite rev_unit. cbn [find fst snd]. fold (jpick l ctx k0).
        unfold get2 at 1. rewrite map_get_set. destruct (beq (j_context m) ctx) eqn:B.
        * rewrite map_get_set. destruct (beq k k0); cbn [andb]; [now rewrite R|].
          apply beq_eq in B. rewrite B. specialize (G ctx k0). unfold get2 in G at 1.
          destruct (map_get (jc_map c1) ctx); [exact G|]. exact G.
        * rewrite andb_false_r. specialize (G ctx k0). unfold get2 in G at 1. exact G.
  Qed.
  Lemma jpick_iff : forall l ctx key m, NoDup (map fst l) ->
    (jpick l ctx key = Some m <-> In (key, Some m) l /\ j_context m = ctx).
  Proof.
    intros l ctx key m ND. unfold jpick. split.
    - destruct (find _ (rev l)) as [[k [m'|]]|] eqn:F; try discriminate. intro E. injection E as ->.
      apply find_some in F as [I B]. apply in_rev in I. cbn [fst snd] in B. apply andb_prop in B as [B C]. apply beq_eq in B, C. subst. auto.
    - intros [I C]. destruct (find _ (rev l)) as [[k o]|] eqn:F.
      + apply find_some in F as [J B]. apply in_rev in J. cbn [fst snd] in B. apply andb_prop in B as [B D]. apply beq_eq in B. subst k.
        clear - ND I J. induction l as [|[k v] l IH]; [destruct I|]. cbn [map fst] in ND. inversion ND as [|? ? N ND']; subst.
        destruct I as [I|I], J as [J|J].
        * congruence.
        * exfalso. apply N. injection I as -> _. apply in_map_iff. exists (key, o). auto.
        * exfalso. apply N. injection J as -> _. apply in_map_iff. exists (key, Some m). auto.
        * now apply IH.
      + exfalso. apply in_rev in I. apply find_none with (x := (key, Some m)) in F; [|exact I]. cbn [fst snd] in F.
        rewrite beq_refl, C, beq_refl in F. discriminate.
  Qed.

  (** ** Lookups *)
  Definition j_result (c : jcat tag) (ctx id : bytes) (cat : category) : bytes * option (lookup_error tag) :=
    match j_translation tag c ctx id cat with
    | inr e => (id, Some e)
    | inl t => (t, None)
    end.
  Lemma full_key_eq : forall ctx id, (if is_nil ctx then id else id ++ bs "_" ++ ctx) = full_key ctx id.
  Proof. intros [|x ctx] id; reflexivity. Qed.
  Lemma j_result_answer : forall order lang dom rs l c, wf_messages l -> every_category order ->
    new_json_with tag order lang dom rs l = Ok c ->
    forall ctx id cat, j_answer l (rs_categories rs) lang dom ctx id cat (j_result c ctx id cat).
  Proof.
    intros order lang dom rs l c [ND WF] EO H ctx id cat. unfold new_json_with in H.
    destruct (set_messages_get order l _ c H) as (L & D & R & N & G). cbn [jc_lang jc_domain jc_rules jc_map new_json] in *.
    unfold j_result, j_translation. cbv zeta. rewrite full_key_eq, L, D.
    destruct (map_get (jc_map c) ctx) as [ms|] eqn:E.
    - assert (HC : ~ ~ j_has_context l ctx).
      { intro X. assert (map_get (jc_map c) ctx = None) by (apply N; split; [reflexivity|exact X]). congruence. }
      assert (HC' : j_has_context l ctx).
      { assert (DC : {j_has_context l ctx} + {~ j_has_context l ctx}); [|tauto]. clear. unfold j_has_context.
        induction l as [|[k [m|]] l IH].
        - right. intros (k & m & [] & _).
        - destruct (beq (j_context m) ctx) eqn:B.
          + left. exists k, m. apply beq_eq in B. split; [now left|exact B].
          + destruct IH as [IH|IH]; [left; destruct IH as (k' & m' & I & X); exists k', m'; split; [now right|exact X]|right].
            intros (k' & m' & [I|I] & X); [injection I as <- <-; rewrite X, beq_refl in B; discriminate|apply IH; eauto].
        - destruct IH as [IH|IH]; [left; destruct IH as (k' & m' & I & X); exists k', m'; split; [now right|exact X]|right].
          intros (k' & m' & [I|I] & X); [discriminate|apply IH; eauto]. }
      clear HC. specialize (G ctx (full_key ctx id)). unfold get2 in G at 1. rewrite E in G. rewrite G.
      destruct (jpick l ctx (full_key ctx id)) as [m|] eqn:P.
      + apply (jpick_iff l ctx _ m ND) in P.
        assert (WM : NoDup (map fst (tr_of m))).
        { rewrite Forall_forall in WF. apply (WF _ (proj1 P)). reflexivity. }
        destruct (apply_fitted order (rs_categories rs) (tr_of m) WM EO) as [F _].
        cbn [stored j_tr].
        pose proof (fitted_text (rs_categories rs) m _ cat WM F) as T.
        destruct (cat_get (apply_categories order (rs_categories rs) (tr_of m)) cat) as [[|x t]|] eqn:GT.
        * eapply ja_translation; [exact P|]. intros t X. pose proof (proj1 X) as NE. apply (T t NE) in X. congruence.
        * eapply ja_found; [exact P|]. apply T; [discriminate|reflexivity].
        * eapply ja_translation; [exact P|]. intros t X. pose proof (proj1 X) as NE. apply (T t NE) in X. congruence.
      + apply ja_message; [exact HC'|]. intros m X. apply (jpick_iff l ctx _ m ND) in X. congruence.
    - apply ja_context. apply N in E. tauto.
  Qed.
  Lemma text_for_fun : forall cats m c t t', text_for cats m c t -> text_for cats m c t' -> t = t'.
  Proof. intros cats m c t t' (_ & A & _) (_ & B & _). congruence. Qed.
  Lemma entry_fun : forall l ctx id m m', NoDup (map fst l) -> j_entry l ctx id m -> j_entry l ctx id m' -> m = m'.
  Proof.
    intros l ctx id m m' ND A B. apply (jpick_iff l ctx _ m ND) in A. apply (jpick_iff l ctx _ m' ND) in B. congruence.
  Qed.
  Lemma j_answer_fun : forall l cats (lang : tag) dom ctx id c r r', NoDup (map fst l) ->
    j_answer l cats lang dom ctx id c r -> j_answer l cats lang dom ctx id c r' -> r = r'.
  Proof.
    intros l cats lang dom ctx id c r r' ND H H'.
    assert (EC : forall m, j_entry l ctx id m -> j_has_context l ctx) by (intros m [I X]; exists (full_key ctx id), m; auto).
    destruct H as [m t E T|N|X N|m E N], H' as [m' t' E' T'|N'|X' N'|m' E' N']; try reflexivity.
    - rewrite (entry_fun l ctx id m m' ND E E') in T. f_equal. eapply text_for_fun; eassumption.
    - destruct (N' (EC m E)).
    - destruct (N' m E).
    - rewrite (entry_fun l ctx id m m' ND E E') in T. destruct (N' t T).
    - destruct (N (EC m' E')).
    - contradiction.
    - destruct (N (EC m' E')).
    - destruct (N m' E').
    - contradiction.
    - destruct (N m' E').
    - rewrite (entry_fun l ctx id m' m ND E' E) in T'. destruct (N t' T').
    - destruct (N' (EC m E)).
    - destruct (N' m E).
  Qed.
  Lemma j_answer_perm : forall l l' cats (lang : tag) dom ctx id c r, Permutation l l' ->
    j_answer l cats lang dom ctx id c r -> j_answer l' cats lang dom ctx id c r.
  Proof.
    intros l l' cats lang dom ctx id c r P H. pose proof (Permutation_sym P) as P'.
    destruct H as [m t [I X] T|N|(k & m & I & X) N|m [I X] N].
    - eapply ja_found; [split; [eapply Permutation_in; eassumption|exact X]|exact T].
    - apply ja_context. intros (k & m & I & X). apply N. exists k, m. split; [eapply Permutation_in; eassumption|exact X].
    - apply ja_message; [exists k, m; split; [eapply Permutation_in; eassumption|exact X]|].
      intros m' [I' X']. apply (N m'). split; [eapply Permutation_in; eassumption|exact X'].
    - eapply ja_translation; [split; [eapply Permutation_in; eassumption|exact X]|exact N].
  Qed.
End J.
