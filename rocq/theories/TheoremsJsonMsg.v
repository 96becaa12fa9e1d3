(** C78, C79, C80: single JSON messages. *)
From Coq Require Import String Ascii List ZArith Bool Lia Permutation.
From Verif Require Import Base BaseProofs StrModel PoStrModel CldrModel CldrBuiltin LangModel LangSpec LangProofs GettextModel GettextProofs JsonModel JsonSpec JsonProofs JsonRoundProofs
  JsonHeapModel JsonHeapSpec JsonHeapProofs JsonMsgModel JsonMsgSpec JsonMsgProofs TheoremsJson.
Import ListNotations.

(** ** C78 *)
Section Language.
  Variable tag : Type.
  Variable is_root : tag -> bool.
  Variable tag_string : tag -> bytes.
  Variable base : tag -> bytes * bool.
  Variable parent : tag -> tag.
  Variable fuel : nat.
  Notation apply_language := (h_apply_language tag is_root tag_string base parent fuel).
  (** the rules of a language: its own, those of its nearest relative, English *)
  Definition language_rules (lang : tag) (rs : rule_set) : Prop :=
    exists dp, LangSpec.depth tag is_root parent lang dp /\
      (nearest tag tag_string base parent rule_set cldr_built_in lang dp rs \/
       cldr_built_in (bs "en") = Some rs /\ nothing tag tag_string base parent rule_set cldr_built_in lang dp).

  (** The translations of the message fit the language afterwards, comment and
      context stay; messages that share its translations show the same ones,
      all others are as before. *)
  Theorem C78_fitted : forall order h lang dp a m, LangSpec.depth tag is_root parent lang dp -> (dp <= fuel)%nat -> every_category order ->
    view h a = Some m -> exists rs h', language_rules lang rs /\ apply_language order h lang (Some a) = Ok h' /\
    (j_tr m = None -> h' = h) /\
    (forall t, j_tr m = Some t -> NoDup (map fst t) ->
       exists t', view h' a = Some (JMsg (j_comment m) (j_context m) (Some t')) /\ fitted (rs_categories rs) t t' /\ NoDup (map fst t')) /\
    (forall b mb m', view h b = Some mb -> map_of h b = map_of h a -> view h' a = Some m' -> view h' b = Some (JMsg (j_comment mb) (j_context mb) (j_tr m'))) /\
    (forall b, apart h a b -> view h' b = view h b).
  Proof.
    intros order h lang dp a m D L EO V. destruct (view_inv _ _ _ V) as (c & E & C & X & T). unfold h_apply_language, h_apply. rewrite E.
    assert (R : exists rs b, for_language tag is_root tag_string base parent rule_set cldr_built_in fuel lang = Ok (Some rs, b) /\ language_rules lang rs).
    { destruct (for_language_spec tag is_root tag_string base parent rule_set cldr_built_in dp lang D fuel L) as [(r & G & N)|[G N]].
      - exists r. eexists. split; [exact G|]. exists dp. auto.
      - destruct (cldr_built_in (bs "en")) as [rs|] eqn:Y; [|vm_compute in Y; discriminate]. exists rs. eexists. split; [exact G|]. exists dp. auto. }
    destruct R as (rs & fl & R & LR). exists rs. destruct (mc_tr c) as [p|] eqn:P.
    - rewrite R. cbn [rbind fst]. destruct T as (t & T & J). eexists. split; [exact LR|]. split; [reflexivity|].
      assert (MA : map_of h a = Some p) by (unfold map_of; now rewrite E).
      split; [congruence|]. split; [|split].
      + intros t0 J0 ND. assert (t0 = t) by congruence. subst t0. destruct (apply_fitted order (rs_categories rs) t ND EO) as [F N].
        exists (apply_categories order (rs_categories rs) t). split; [|auto]. now apply set_view.
      + intros b mb m' Vb MB Va. rewrite (set_view _ _ _ _ _ _ V MA T) in Va. injection Va as <-. cbn [j_tr]. apply set_view; [exact Vb|congruence|exact T].
      + intros b (_ & A). apply set_view_other. destruct A as [A|A]; congruence.
    - exists h. split; [exact LR|]. split; [reflexivity|]. split; [auto|]. split; [congruence|]. split; [|auto].
      intros b mb m' Vb MB Va. assert (m' = m) by congruence. subst m'. rewrite T, Vb. f_equal.
      destruct (view_inv _ _ _ Vb) as (cb & Eb & _ & _ & Tb). unfold map_of in MB. rewrite E, Eb, P in MB. rewrite MB in Tb. destruct mb; cbn in *; congruence.
  Qed.
  Theorem C78_nothing : forall order h lang, apply_language order h lang None = Ok h.
  Proof. reflexivity. Qed.
End Language.
(** Fitting a second time changes nothing more, whatever the order of the
    categories. *)
Theorem C78_twice : forall order order' cats h a m t h' h'', every_category order -> every_category order' ->
  view h a = Some m -> j_tr m = Some t -> NoDup (map fst t) -> h_apply order cats h (Some a) = Ok h' -> h_apply order' cats h' (Some a) = Ok h'' ->
  exists m' m'', view h' a = Some m' /\ view h'' a = Some m'' /\ j_comment m'' = j_comment m /\ j_context m'' = j_context m /\
    forall c, cat_get (tr_of m'') c = cat_get (tr_of m') c.
Proof.
  intros order order' cats h a m t h' h'' EO EO' V J ND H1 H2. destruct (view_inv _ _ _ V) as (c & E & C & X & T). unfold h_apply in H1. rewrite E in H1.
  destruct (mc_tr c) as [p|] eqn:P; [|congruence]. injection H1 as <-. destruct T as (t0 & T & J0). assert (t0 = t) by congruence. subst t0.
  assert (MA : map_of h a = Some p) by (unfold map_of; now rewrite E). pose proof (set_view _ _ _ _ _ (apply_categories order cats) V MA T) as V1.
  unfold h_apply in H2. cbn [h_msgs] in H2. rewrite E, P in H2. injection H2 as <-.
  assert (T1 : nth_error (update (h_maps h) p (apply_categories order cats)) p = Some (apply_categories order cats t)) by (apply (update_same _ _ _ _ _ T)).
  pose proof (set_view _ _ _ _ _ (apply_categories order' cats) V1 MA T1) as V2. cbn [h_msgs h_maps j_comment j_context] in V2.
  eexists _, _. split; [exact V1|]. split; [exact V2|]. split; [reflexivity|]. split; [reflexivity|]. cbn [tr_of j_tr].
  destruct (apply_fitted order cats t ND EO) as [F N]. destruct (apply_fitted order' cats _ N EO') as [F' _]. now apply (fitted_twice cats t).
Qed.
(** A catalog made from fitted messages answers as one made from the messages
    before fitting. *)
Definition fitted_message (cats : list category) (m m' : jmsg) : Prop :=
  j_context m' = j_context m /\ (j_tr m = None -> j_tr m' = None) /\ fitted cats (tr_of m) (tr_of m').
Theorem C78_catalog : forall tag order lang dom rs l l' c, wf_messages l -> wf_messages l' -> every_category order -> In Other (rs_categories rs) ->
  Forall2 (fun e e' => fst e = fst e' /\ match snd e, snd e' with
                                         | Some m, Some m' => m = m' \/ fitted_message (rs_categories rs) m m'
                                         | None, None => True
                                         | _, _ => False
                                         end) l l' ->
  new_json_with tag order lang dom rs l = Ok c ->
  exists c', new_json_with tag order lang dom rs l' = Ok c' /\
    forall ctx id, j_lookup tag c' ctx id = j_lookup tag c ctx id /\ forall n, j_lookup_plural tag c' ctx id n = j_lookup_plural tag c ctx id n.
Proof.
  intros tag order lang dom rs l l' c WF WF' EO OC F H.
  destruct (C33_accepted tag order lang dom rs l) as [A _]. destruct (C33_accepted tag order lang dom rs l') as [A' _].
  pose proof (proj1 A (ex_intro _ c H)) as VA.
  assert (AL : forall m m', NoDup (map fst (tr_of m)) -> has_cat (tr_of m) Other -> fitted_message (rs_categories rs) m m' -> j_alike (rs_categories rs) m m' /\ has_cat (tr_of m') Other).
  { intros m m' ND HO (CX & _ & [F1 F2]). destruct (singular_dec (tr_of m) ND) as [S|S].
    - assert (S' : singular (tr_of m')) by (intro d; unfold has_cat; rewrite (F1 S); apply S).
      split; [|now apply S']. split; [congruence|]. intros d t. unfold text_for. rewrite (F1 S). tauto.
    - split; [|exists (match cat_get (tr_of m) Other with Some v => v | None => [] end); now apply F2]. split; [congruence|]. intros d t. unfold text_for.
      destruct (in_dec cat_dec d (rs_categories rs)) as [I|I].
      + rewrite (proj1 (F2 S d) I). split.
        * intros (NE & E & _). rewrite E. auto.
        * intros (NE & E & _). split; [exact NE|]. injection E as E. destruct (cat_get (tr_of m) d); [subst; auto|congruence].
      + rewrite (proj2 (F2 S d) I). split; [|intros (_ & E & _); discriminate]. intros (_ & _ & [Z|Z]); contradiction. }
  assert (VW : Forall (fun e => valid e /\ wf_entry e) l).
  { apply Forall_forall. intros e I. rewrite Forall_forall in VA. split; [now apply VA|]. destruct WF as [_ W]. rewrite Forall_forall in W. now apply W. }
  assert (VA' : Forall valid l' /\ (forall k m, In (k, Some m) l -> exists m', In (k, Some m') l' /\ j_alike (rs_categories rs) m m') /\
                (forall k m', In (k, Some m') l' -> exists m, In (k, Some m) l /\ j_alike (rs_categories rs) m m')).
  { clear - F VW AL. induction F as [|[k o] [k' o'] x y [E R] F IH]; [split; [constructor|split; intros ? ? []]|]. cbn [fst snd] in E, R. subst k'.
    inversion VW as [|? ? [V W] VW']; subst. destruct (IH VW') as (I1 & I2 & I3). destruct V as (K & m & Eo & HO & CX). cbn [fst snd] in Eo, K, CX. subst o. destruct o' as [m'|]; [|contradiction].
    assert (X : j_alike (rs_categories rs) m m' /\ has_cat (tr_of m') Other /\ j_context m' = j_context m).
    { destruct R as [<-|R]; [split; [split; [reflexivity|tauto]|auto]|]. destruct (AL m m' (W m eq_refl) HO R) as [P Q]. split; [exact P|]. split; [exact Q|]. apply R. }
    destruct X as (X1 & X2 & X3). split; [|split].
    - constructor; [|exact I1]. split; [exact K|]. exists m'. split; [reflexivity|]. split; [exact X2|]. cbn [fst]. rewrite X3. exact CX.
    - intros q z [I|I]; [injection I as <- <-; exists m'; split; [now left|exact X1]|]. destruct (I2 q z I) as (z' & P & Q). exists z'. split; [now right|exact Q].
    - intros q z [I|I]; [injection I as <- <-; exists m; split; [now left|exact X1]|]. destruct (I3 q z I) as (z' & P & Q). exists z'. split; [now right|exact Q]. }
  destruct VA' as (VA' & FW & BW). destruct (proj2 A' VA') as (c' & H'). exists c'. split; [exact H'|]. intros ctx id.
  destruct (C33_lookup tag order lang dom rs l c WF EO H ctx id) as (L1 & L2 & L3). destruct (C33_lookup tag order lang dom rs l' c' WF' EO H' ctx id) as (M1 & M2 & M3).
  split.
  - apply M1. eapply j_answer_alike; [exact FW|exact BW|]. now apply L1.
  - intro n. pose proof (rs_evaluate_fin rs (to_carg n)) as [E1 E2]. destruct (rs_evaluate rs (to_carg n)) as [cat| | |] eqn:E; try congruence; [|rewrite (L3 n E); exact (M3 n E)].
    destruct (L2 n cat E) as (r & -> & R). destruct (M2 n cat E) as (r' & -> & R'). f_equal.
    eapply j_answer_fun; [apply WF'|exact R'|]. eapply j_answer_alike; [exact FW|exact BW|exact R].
Qed.
(** Polish: the form for "two" goes, "few" and "many" come; the comment of the
    message that shares the translations stays. *)
Example C78_example : exists h', h_apply all_categories (rs_categories pl_rules) (Heap
    [MCell [] [] (Some 0%nat); MCell (bs "c") (bs "x") (Some 0%nat); MCell [] [] (Some 1%nat)] [[(Other, bs "a"); (Two, bs "b")]; [(Other, bs "s")]]) (Some 0%nat) = Ok h' /\
  view h' 0 = Some (JMsg [] [] (Some [(Other, bs "a"); (One, []); (Few, []); (Many, [])])) /\
  view h' 1 = Some (JMsg (bs "c") (bs "x") (Some [(Other, bs "a"); (One, []); (Few, []); (Many, [])])) /\
  view h' 2 = Some (JMsg [] [] (Some [(Other, bs "s")])).
Proof. eexists. split; [reflexivity|]. split; [vm_compute; reflexivity|]. split; vm_compute; reflexivity. Qed.
(** Translations without any entry count as plural: they get every category. *)
Example C78_empty : exists h', h_apply all_categories [One; Other] (Heap [MCell [] [] (Some 0%nat)] [[]]) (Some 0%nat) = Ok h' /\
  view h' 0 = Some (JMsg [] [] (Some [(One, []); (Other, [])])).
Proof. eexists. split; [reflexivity|]. vm_compute. reflexivity. Qed.

(** ** C79 *)
(** A text becomes the translation for Other; everything else stays. *)
Theorem C79_text : forall perm h a m v s, view h a = Some m -> text_value v s ->
  exists h' t', h_unmarshal perm h a v = Ok (h', true) /\ view h' a = Some (JMsg (j_comment m) (j_context m) (Some t')) /\
    cat_get t' Other = Some s /\ forall c, c <> Other -> cat_get t' c = cat_get (tr_of m) c.
Proof.
  intros perm h a m v s V T. rewrite (unmarshal_eq perm h a v m V). pose proof (ensured_spec h a m V) as S. destruct (ensured h a) as [h1 p].
  destruct S as (N & M & W & _). exists (set_map h1 p (cat_set (tr_of m) Other s)), (cat_set (tr_of m) Other s).
  split; [destruct T as [->|[-> ->]]; reflexivity|]. split; [exact (set_view _ _ _ _ _ _ W M N)|]. split; [rewrite cat_get_set; reflexivity|].
  intros c NC. rewrite cat_get_set. destruct (cat_eqb Other c) eqn:E; [|reflexivity]. apply cat_eqb_eq in E. congruence.
Qed.
(** An object replaces what its members name, whatever their letter case and
    the order in which they are visited; everything else stays. *)
Theorem C79_object : forall perm h a m l, view h a = Some m -> (forall x, Permutation x (perm x)) -> distinct_names l -> texts l ->
  exists h' com ctx t', h_unmarshal perm h a (JObj l) = Ok (h', true) /\ view h' a = Some (JMsg com ctx (Some t')) /\
    said l (bs "comment") (j_comment m) (fun s => s) com /\ said l (bs "context") (j_context m) (fun s => s) ctx /\
    forall c, said l (cat_name c) (cat_get (tr_of m) c) Some (cat_get t' c).
Proof.
  intros perm h a m l V P D T. rewrite (unmarshal_eq perm h a _ m V). pose proof (ensured_spec h a m V) as S. destruct (ensured h a) as [h1 p].
  destruct S as (N & M & W & _). destruct (str_members_texts l T) as (mm & E & F). rewrite E. cbv zeta.
  set (m0 := JMsg (j_comment m) (j_context m) (Some (tr_of m))). pose proof (members_said perm l mm m0 P D E F) as SA. cbv zeta in SA.
  pose proof (members_spec (perm (to_map mm)) m0) as SP. cbv zeta in SP. set (r := fold_left set_member (perm (to_map mm)) m0) in *. destruct SP as (S1 & S2 & S3 & S4 & _).
  assert (J : j_tr r <> None) by (apply S3; discriminate). destruct (j_tr r) as [t'|] eqn:TR; [|congruence].
  eexists _, (j_comment r), (j_context r), t'. split; [reflexivity|]. split.
  { rewrite (set_cell h1 a p (tr_of m) r N M) by congruence. destruct r; cbn in *; congruence. }
  assert (TO : tr_of r = t') by (unfold tr_of; now rewrite TR). rewrite TO in S4.
  split; [|split].
  - rewrite S1. destruct (SA (bs "comment")) as [X Y]. split; [intros s Q; now rewrite (X s Q)|intro Q; now rewrite (Y Q)].
  - rewrite S2. destruct (SA (bs "context")) as [X Y]. split; [intros s Q; now rewrite (X s Q)|intro Q; now rewrite (Y Q)].
  - intro c. rewrite S4. destruct (SA (cat_name c)) as [X Y]. split; [intros s Q; now rewrite (X s Q)|intro Q; now rewrite (Y Q)].
Qed.
(** Every other value is an error, and the message shows what it showed. *)
Theorem C79_error : forall perm h a m v, view h a = Some m -> (forall s, ~ text_value v s) -> (forall l, v = JObj l -> ~ texts l) ->
  exists h' m', h_unmarshal perm h a v = Ok (h', false) /\ view h' a = Some m' /\ j_comment m' = j_comment m /\ j_context m' = j_context m /\ tr_of m' = tr_of m.
Proof.
  intros perm h a m v V NT NO. rewrite (unmarshal_eq perm h a v m V). pose proof (ensured_spec h a m V) as S. destruct (ensured h a) as [h1 p].
  destruct S as (N & M & W & _). exists h1. eexists. split; [|split; [exact W|auto]].
  destruct v as [| | |s| |l]; try reflexivity; [elim (NT []); right; auto|elim (NT s); now left|]. now rewrite (str_members_other l (NO l eq_refl)).
Qed.
(** In all cases: messages with translations of their own are as before. *)
Theorem C79_others : forall perm h a m v h' ok b mb, view h a = Some m -> h_unmarshal perm h a v = Ok (h', ok) ->
  apart h a b -> view h b = Some mb -> view h' b = Some mb.
Proof.
  intros perm h a m v h' ok b mb V H A Vb. rewrite (unmarshal_eq perm h a v m V) in H. pose proof (ensured_spec h a m V) as S. destruct (ensured h a) as [h1 p].
  destruct S as (_ & _ & _ & O). destruct (O b mb A Vb) as [O1 O2]. destruct v as [| | |s| |l].
  - injection H as <- _. unfold set_map. rewrite set_view_other; [exact O1|exact O2].
  - injection H as <- _. exact O1.
  - injection H as <- _. exact O1.
  - injection H as <- _. unfold set_map. rewrite set_view_other; [exact O1|exact O2].
  - injection H as <- _. exact O1.
  - destruct (str_members l); cbv zeta in H; injection H as <- _; [|exact O1..]. rewrite set_cell_other; [exact O1|apply A|exact O2].
Qed.
(** Reading into a message does not clear it. *)
Theorem C79_leftover_refuted : exists h a m v h' c t, view h a = Some m /\ h_unmarshal (fun x => x) h a v = Ok (h', true) /\
  unmarshal_message (fun x => x) v = Ok (JMsg [] [] (Some t)) /\ exists m', view h' a = Some m' /\ cat_get (tr_of m') c <> cat_get t c.
Proof.
  exists (Heap [MCell (bs "old") [] (Some 0%nat)] [[(Few, bs "x"); (Other, bs "y")]]), 0%nat. eexists. exists (JObj [(bs "OTHER", JStr (bs "z"))]). eexists. exists Few. eexists.
  split; [reflexivity|]. split; [vm_compute; reflexivity|]. split; [vm_compute; reflexivity|]. eexists. split; [vm_compute; reflexivity|]. vm_compute. discriminate.
Qed.
Example C79_example : exists h', h_unmarshal (@rev _) (Heap [MCell (bs "old") (bs "menu") None] []) 0 (JObj [(bs "One", JStr (bs "a")); (bs "other", JNull); (bs "COMMENT", JStr (bs "new"))]) = Ok (h', true) /\
  view h' 0 = Some (JMsg (bs "new") (bs "menu") (Some [(Other, []); (One, bs "a")])) /\
  distinct_names [(bs "One", JStr (bs "a")); (bs "other", JNull); (bs "COMMENT", JStr (bs "new"))].
Proof.
  eexists. split; [vm_compute; reflexivity|]. split; [vm_compute; reflexivity|]. unfold distinct_names. cbn [map fst].
  repeat constructor; cbn; intuition discriminate.
Qed.

(** ** C80 *)
(** A message with a translation, or without the map, is written as its
    contents say and is not changed. *)
Theorem C80_written_partial : forall h a m, view h a = Some m -> j_tr m <> Some [] -> h_marshal h a = Ok (h, marshal_message m).
Proof.
  intros h a m V N. destruct (view_inv _ _ _ V) as (c & E & C & X & T). unfold h_marshal. rewrite E, C, X. destruct (mc_tr c) as [p|].
  - destruct T as (t & T & J). rewrite T. destruct t as [|x t]; [exfalso; apply N; exact J|]. cbn [length Nat.eqb]. destruct m as [u v w]; cbn [j_comment j_context j_tr] in *; subst w; reflexivity.
  - destruct m as [u v w]; cbn [j_comment j_context j_tr] in *; subst w; reflexivity.
Qed.
(** An empty map becomes the one with the empty text for Other; writing again
    gives the same JSON, and no other message is touched. *)
Theorem C80_empty : forall h a m, view h a = Some m -> j_tr m = Some [] ->
  exists h', h_marshal h a = Ok (h', marshal_message m) /\ view h' a = Some (JMsg (j_comment m) (j_context m) (Some [(Other, [])])) /\
    h_marshal h' a = Ok (h', marshal_message m) /\ forall b, apart h a b -> view h' b = view h b.
Proof.
  intros h a m V J. destruct (view_inv _ _ _ V) as (c & E & C & X & T). unfold h_marshal at 1. rewrite E, C, X. destruct (mc_tr c) as [p|] eqn:P; [|congruence].
  destruct T as (t & T & J'). assert (Some t = Some []) as Et by (rewrite <- J'; exact J). injection Et as ->. rewrite T. cbn [length Nat.eqb]. cbv zeta.
  assert (MA : map_of h a = Some p) by (unfold map_of; now rewrite E).
  assert (W : view (set_map h p (cat_set [] Other [])) a = Some (JMsg (j_comment m) (j_context m) (Some [(Other, [])]))) by exact (set_view _ _ _ _ _ _ V MA T).
  eexists. split; [f_equal; f_equal; f_equal; destruct m as [u v w]; cbn [j_comment j_context j_tr] in *; subst w; reflexivity|]. split; [exact W|]. split.
  - rewrite (C80_written_partial _ _ _ W) by discriminate. f_equal. f_equal. destruct m as [u v w]. cbn in *. subst w. reflexivity.
  - intros b (_ & A). apply set_view_other. destruct A; congruence.
Qed.
Theorem C80_written_refuted : exists h a m h' j, view h a = Some m /\ h_marshal h a = Ok (h', j) /\ view h' a <> Some m.
Proof.
  exists (Heap [MCell [] [] (Some 0%nat)] [[]]), 0%nat. eexists _, _, _. split; [reflexivity|]. split; [vm_compute; reflexivity|]. vm_compute. discriminate.
Qed.
(** The messages of a catalog always have a translation: writing one of them
    changes nothing. *)
Theorem C80_catalog : forall tag order lang dom rs l c k m h a, wf_messages l -> every_category order -> In Other (rs_categories rs) ->
  new_json_with tag order lang dom rs l = Ok c -> In (k, m) (j_messages tag c) -> view h a = Some m -> h_marshal h a = Ok (h, marshal_message m).
Proof.
  intros tag order lang dom rs l c k m h a WF EO OC H I V. apply C80_written_partial; [exact V|]. intro J.
  destruct (C33_categories tag order lang dom rs l c WF EO H) as (_ & Q & _). destruct (Q k m I) as (m0 & I0 & _ & _ & F1 & F2).
  destruct (C33_accepted tag order lang dom rs l) as [A _]. pose proof (proj1 A (ex_intro _ c H)) as VA. rewrite Forall_forall in VA.
  destruct (VA _ I0) as (_ & m1 & E & HO & _). cbn [snd] in E. injection E as <-.
  destruct WF as [_ W]. rewrite Forall_forall in W. pose proof (W _ I0 m0 eq_refl) as ND.
  assert (T : tr_of m = []) by (unfold tr_of; now rewrite J). rewrite T in *.
  destruct (singular_dec (tr_of m0) ND) as [S|S].
  - specialize (F1 S Other). destruct HO as (v & HO). rewrite HO in F1. discriminate.
  - destruct (F2 S Other) as [G _]. specialize (G OC). discriminate.
Qed.

Print Assumptions C78_fitted.
Print Assumptions C78_nothing.
Print Assumptions C78_twice.
Print Assumptions C78_catalog.
Print Assumptions C79_text.
Print Assumptions C79_object.
Print Assumptions C79_error.
Print Assumptions C79_others.
Print Assumptions C79_leftover_refuted.
Print Assumptions C80_written_partial.
Print Assumptions C80_empty.
Print Assumptions C80_written_refuted.
Print Assumptions C80_catalog.
