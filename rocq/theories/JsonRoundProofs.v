(** Writing and reading JSON messages and catalogs. *)
From Coq Require Import String Ascii List ZArith Bool Lia Permutation.
From Verif Require Import Base BaseProofs StrModel PoStrModel PoFileModel PoFileSpec PoSortProofs CldrModel GettextModel GettextProofs JsonModel JsonSpec JsonProofs.
Import ListNotations.
Open Scope Z_scope.

(** ** Maps from lists *)
Lemma map_set_fresh : forall V (m : list (bytes * V)) k v, ~ In k (map fst m) -> map_set m k v = m ++ [(k, v)].
Proof.
  intros V. induction m as [|[j w] m IH]; intros k v N; [reflexivity|]. cbn [map_set map fst app In] in *.
  destruct (beq j k) eqn:E; [apply beq_eq in E; subst; tauto|]. rewrite IH by tauto. reflexivity.
Qed.
Lemma map_set_keys_in : forall V (m : list (bytes * V)) k v x, In x (map fst (map_set m k v)) <-> x = k \/ In x (map fst m).
Proof.
  intros V. induction m as [|[j w] m IH]; intros k v x; cbn [map_set map fst In]; [intuition|].
  destruct (beq j k) eqn:E; cbn [map fst In].
  - apply beq_eq in E. subst. intuition.
  - rewrite IH. intuition.
Qed.
Lemma map_set_nodup : forall V (m : list (bytes * V)) k v, NoDup (map fst m) -> NoDup (map fst (map_set m k v)).
Proof.
  intros V. induction m as [|[j w] m IH]; intros k v ND; cbn [map_set map fst] in *; [repeat constructor; auto|].
  inversion ND as [|? ? N ND']; subst. destruct (beq j k) eqn:E; cbn [map fst].
  - apply beq_eq in E. subst. now constructor.
  - constructor; [|now apply IH]. rewrite map_set_keys_in. intros [->|I]; [rewrite beq_refl in E; discriminate|contradiction].
Qed.
Lemma map_set_in : forall V (m : list (bytes * V)) k v x w, In (x, w) (map_set m k v) -> (x, w) = (k, v) \/ In (x, w) m.
Proof.
  intros V. induction m as [|[j u] m IH]; intros k v x w I; cbn [map_set] in I.
  - destruct I as [I|[]]; auto.
  - destruct (beq j k); destruct I as [I|I]; [left; congruence|right; now right|right; now left|].
    apply IH in I as [I|I]; [now left|right; now right].
Qed.
Lemma to_map_snoc : forall V (l : list (bytes * V)) x, to_map (l ++ [x]) = map_set (to_map l) (fst x) (snd x).
Proof. intros. unfold to_map. rewrite fold_left_app. reflexivity. Qed.
Lemma to_map_nodup : forall V (l : list (bytes * V)), NoDup (map fst (to_map l)).
Proof. intros V l. induction l as [|x l IH] using rev_ind; [constructor|]. rewrite to_map_snoc. now apply map_set_nodup. Qed.
Lemma to_map_keys : forall V (l : list (bytes * V)) k, In k (map fst (to_map l)) <-> In k (map fst l).
Proof.
  intros V l k. induction l as [|x l IH] using rev_ind; [reflexivity|].
  rewrite to_map_snoc, map_set_keys_in, IH, map_app, in_app_iff. cbn. intuition.
Qed.
Lemma to_map_in : forall V (l : list (bytes * V)) k v, In (k, v) (to_map l) -> In (k, v) l.
Proof.
  intros V l k v. induction l as [|[j w] l IH] using rev_ind; [trivial|]. rewrite to_map_snoc. cbn [fst snd]. intro I.
  apply in_app_iff. apply map_set_in in I as [I|I]; [right; left; congruence|left; auto].
Qed.
Lemma to_map_id : forall V (l : list (bytes * V)), NoDup (map fst l) -> to_map l = l.
Proof.
  intros V l. induction l as [|[k v] l IH] using rev_ind; intro ND; [reflexivity|]. rewrite map_app in ND. cbn [map fst] in ND.
  apply NoDup_remove in ND as [ND N]. rewrite app_nil_r in ND, N. rewrite to_map_snoc, IH by exact ND.
  apply map_set_fresh. exact N.
Qed.

(** ** Members of an object *)
(** last value of a member name, letter case ignored *)
Definition lastk (l : list (bytes * bytes)) (k : bytes) : option bytes :=
  match find (fun e => beq (to_lower (fst e)) k) (rev l) with Some e => Some (snd e) | None => None end.
Lemma lastk_iff : forall l k v, NoDup (map (fun e => to_lower (fst e)) l) ->
  (lastk l k = Some v <-> exists k', In (k', v) l /\ to_lower k' = k).
Proof.
  intros l k v ND. unfold lastk. split.
  - destruct (find _ (rev l)) as [[a b]|] eqn:F; [|discriminate]. intro E. injection E as <-.
    apply find_some in F as [I B]. apply in_rev in I. apply beq_eq in B. exists a. auto.
  - intros (a & I & E). destruct (find _ (rev l)) as [[a' b']|] eqn:F.
    + apply find_some in F as [J B]. apply in_rev in J. apply beq_eq in B. cbn [fst snd] in *. f_equal.
      clear - ND I J E B. revert ND I J. induction l as [|[x y] l IH]; intros ND I J; [destruct I|]. cbn [map fst] in ND.
      inversion ND as [|? ? N ND']; subst. destruct I as [I|I], J as [J|J].
      * congruence.
      * exfalso. apply N. injection I as -> ->. apply in_map_iff. exists (a', b'). auto.
      * exfalso. apply N. injection J as -> ->. apply in_map_iff. exists (a, v). cbn. auto.
      * now apply IH.
    + exfalso. apply in_rev in I. apply find_none with (x := (a, v)) in F; [|exact I]. cbn [fst] in F. rewrite E, beq_refl in F. discriminate.
Qed.
Lemma lastk_perm : forall l l' k, NoDup (map (fun e => to_lower (fst e)) l) -> Permutation l l' -> lastk l k = lastk l' k.
Proof.
  intros l l' k ND P. assert (ND' : NoDup (map (fun e => to_lower (fst e)) l')) by (eapply Permutation_NoDup; [apply Permutation_map; exact P|exact ND]).
  destruct (lastk l k) as [v|] eqn:E.
  - apply (lastk_iff l k v ND) in E as (a & I & E). symmetry. apply (lastk_iff l' k v ND'). exists a. split; [eapply Permutation_in; eauto|exact E].
  - destruct (lastk l' k) as [v|] eqn:F; [|reflexivity]. apply (lastk_iff l' k v ND') in F as (a & I & F).
    assert (X : lastk l k = Some v) by (apply (lastk_iff l k v ND); exists a; split; [eapply Permutation_in; [symmetry|]; eauto|exact F]).
    congruence.
Qed.
Lemma cat_name_inj : forall a b, cat_name a = cat_name b -> a = b.
Proof. intros [] []; cbn; intro E; try reflexivity; discriminate. Qed.
Lemma cat_name_plain : forall c, cat_name c <> bs "comment" /\ cat_name c <> bs "context" /\ to_lower (cat_name c) = cat_name c.
Proof. intros []; repeat split; try discriminate; reflexivity. Qed.
Lemma find_cat : forall k, match find (fun c => beq k (cat_name c)) all_categories with
  | Some c => k = cat_name c
  | None => forall c, k <> cat_name c
  end.
Proof.
  intro k. destruct (find _ all_categories) as [c|] eqn:F.
  - apply find_some in F as [_ B]. now apply beq_eq in B.
  - intros c E. apply find_none with (x := c) in F; [|destruct c; cbn; tauto]. rewrite E, beq_refl in F. discriminate.
Qed.
Lemma members_spec : forall l m, let r := fold_left set_member l m in
  j_comment r = match lastk l (bs "comment") with Some v => v | None => j_comment m end /\
  j_context r = match lastk l (bs "context") with Some v => v | None => j_context m end /\
  (j_tr m <> None -> j_tr r <> None) /\
  (forall c, cat_get (tr_of r) c = match lastk l (cat_name c) with Some v => Some v | None => cat_get (tr_of m) c end) /\
  (NoDup (map fst (tr_of m)) -> NoDup (map fst (tr_of r))).
Proof.
  intros l. induction l as [|[k v] l IH] using rev_ind; intro m; [cbn; auto|]. cbv zeta. rewrite fold_left_app. cbn [fold_left].
  destruct (IH m) as (A & B & N & C & D). set (r := fold_left set_member l m) in *.
  assert (L : forall n, lastk (l ++ [(k, v)]) n = if beq (to_lower k) n then Some v else lastk l n).
  { intro n. unfold lastk. rewrite rev_unit. cbn [find fst snd]. destruct (beq (to_lower k) n); reflexivity. }
  unfold set_member. cbv zeta. cbn [fst snd]. fold (tr_of r). set (kl := to_lower k) in *.
  destruct (beq kl (bs "comment")) eqn:E1; [|destruct (beq kl (bs "context")) eqn:E2].
  - apply beq_eq in E1. rewrite E1 in L. cbn [j_comment j_context j_tr]. rewrite !L, beq_refl. split; [reflexivity|].
    change (beq (bs "comment") (bs "context")) with false. cbv iota. split; [exact B|]. split; [exact N|].
    split; [|exact D]. intro c. rewrite L. destruct (beq (bs "comment") (cat_name c)) eqn:F; [|apply C].
    apply beq_eq in F. destruct (cat_name_plain c) as (X & _). congruence.
  - apply beq_eq in E2. rewrite E2 in L. cbn [j_comment j_context j_tr]. rewrite !L, beq_refl.
    change (beq (bs "context") (bs "comment")) with false. cbv iota. split; [exact A|]. split; [reflexivity|]. split; [exact N|].
    split; [|exact D]. intro c. rewrite L. destruct (beq (bs "context") (cat_name c)) eqn:F; [|apply C].
    apply beq_eq in F. destruct (cat_name_plain c) as (_ & X & _). congruence.
  - pose proof (find_cat kl) as F. destruct (find _ all_categories) as [d|].
    + cbn [j_comment j_context j_tr]. rewrite !L, E1, E2. split; [exact A|]. split; [exact B|]. split; [discriminate|].
      split; [|cbn [tr_of j_tr]; intro ND; apply cat_set_keys; auto].
      intro c. cbn [tr_of j_tr]. rewrite cat_get_set, L. destruct (cat_eqb d c) eqn:G.
      * apply cat_eqb_eq in G. subst d. rewrite F, beq_refl. reflexivity.
      * destruct (beq kl (cat_name c)) eqn:H; [|apply C]. apply beq_eq in H. rewrite F in H. apply cat_name_inj in H. subst.
        rewrite cat_eqb_refl in G. discriminate.
    + rewrite !L, E1, E2. split; [exact A|]. split; [exact B|]. split; [exact N|]. split; [|exact D].
      intro c. rewrite L. destruct (beq kl (cat_name c)) eqn:H; [|apply C]. apply beq_eq in H. destruct (F c H).
Qed.

(** ** One message *)
Definition writ_tr (m : jmsg) : catmap := if Nat.eqb (length (tr_of m)) 0 then cat_set (tr_of m) Other [] else tr_of m.
Definition writ_members (m : jmsg) : list (bytes * bytes) :=
  (if is_nil (j_comment m) then [] else [(bs "comment", j_comment m)]) ++
  (if is_nil (j_context m) then [] else [(bs "context", j_context m)]) ++
  flat_map (fun c => match cat_get (writ_tr m) c with Some s => [(cat_name c, s)] | None => [] end) all_categories.
Lemma marshal_cases : forall m, marshal_message m =
  if is_nil (j_comment m) && is_nil (j_context m) && Nat.eqb (length (writ_tr m)) 1 then
    JStr (match cat_get (writ_tr m) Other with Some s => s | None => [] end)
  else JObj (map (fun e => (fst e, JStr (snd e))) (writ_members m)).
Proof.
  intro m. unfold marshal_message. cbv zeta. fold (tr_of m). fold (writ_tr m). destruct (_ && _ && _); [reflexivity|].
  f_equal. unfold writ_members. rewrite !map_app. f_equal; [destruct (is_nil _); reflexivity|].
  f_equal; [destruct (is_nil _); reflexivity|].
  induction all_categories as [|c l IH]; [reflexivity|]. cbn [flat_map]. rewrite map_app, <- IH. f_equal.
  destruct (cat_get _ c); reflexivity.
Qed.
Lemma str_members_strings : forall l, str_members (map (fun e => (fst e, JStr (snd e))) l) = Ok l.
Proof. induction l as [|[k v] l IH]; [reflexivity|]. cbn [map str_members fst snd]. rewrite IH. reflexivity. Qed.
Lemma writ_cats_in : forall t cs k v,
  In (k, v) (flat_map (fun c => match cat_get t c with Some s => [(cat_name c, s)] | None => [] end) cs) <->
  exists c, In c cs /\ k = cat_name c /\ cat_get t c = Some v.
Proof.
  intros t cs k v. rewrite in_flat_map. split.
  - intros (c & I & J). exists c. destruct (cat_get t c) as [s|]; [|destruct J]. destruct J as [J|[]]. injection J as <- <-. auto.
  - intros (c & I & -> & E). exists c. rewrite E. cbn. auto.
Qed.
Lemma writ_in : forall m k v, In (k, v) (writ_members m) <->
  (j_comment m <> [] /\ k = bs "comment" /\ v = j_comment m) \/ (j_context m <> [] /\ k = bs "context" /\ v = j_context m) \/
  exists c, k = cat_name c /\ cat_get (writ_tr m) c = Some v.
Proof.
  intros m k v. unfold writ_members. rewrite !in_app_iff, writ_cats_in.
  assert (C : forall n s, In (k, v) (if is_nil s then [] else [(n, s)]) <-> s <> [] /\ k = n /\ v = s).
  { intros n s. destruct s as [|x s]; cbn [is_nil]; cbn [In].
    - split; [intros []|intros [H _]; congruence].
    - split; [intros [E|[]]; injection E as <- <-; split; [discriminate|auto]|intros (_ & -> & ->); now left]. }
  rewrite !C. split.
  - intros [H|[H|(c & _ & H)]]; eauto.
  - intros [H|[H|(c & H)]]; [auto|auto|]. right. right. exists c. split; [destruct c; cbn; tauto|exact H].
Qed.
Lemma writ_low : forall m, map (fun e => to_lower (fst e)) (writ_members m) = map fst (writ_members m).
Proof.
  intro m. apply map_ext_in. intros [k v] I. apply writ_in in I. cbn [fst].
  destruct I as [(_ & -> & _)|[(_ & -> & _)|(c & -> & _)]]; [reflexivity|reflexivity|]. apply cat_name_plain.
Qed.
Lemma writ_nodup : forall m, NoDup (map fst (writ_members m)).
Proof.
  intro m. unfold writ_members. rewrite !map_app. set (t := writ_tr m). clearbody t.
  assert (CN : forall cs, NoDup cs -> NoDup (map fst (flat_map (fun c => match cat_get t c with Some s => [(cat_name c, s)] | None => [] end) cs))).
  { induction cs as [|c cs IH]; intro ND; [constructor|]. inversion ND as [|? ? N ND']; subst. cbn [flat_map]. rewrite map_app.
    destruct (cat_get t c) as [s|]; cbn [map fst app]; [|auto]. constructor; [|auto]. intro I. apply in_map_iff in I as ([k v] & E & I).
    cbn [fst] in E. subst k. apply writ_cats_in in I as (d & J & X & _). apply cat_name_inj in X. congruence. }
  assert (NA : NoDup all_categories) by (unfold all_categories; repeat constructor; cbn; intuition discriminate).
  assert (NI : forall n, (forall c, cat_name c <> n) -> ~ In n (map fst (flat_map (fun c => match cat_get t c with Some s => [(cat_name c, s)] | None => [] end) all_categories))).
  { intros n H I. apply in_map_iff in I as ([k v] & E & I). cbn [fst] in E. subst k. apply writ_cats_in in I as (d & _ & X & _).
    symmetry in X. destruct (H d X). }
  specialize (CN all_categories NA).
  assert (N1 := NI (bs "comment") (fun c => proj1 (cat_name_plain c))).
  assert (N2 := NI (bs "context") (fun c => proj1 (proj2 (cat_name_plain c)))).
  destruct (is_nil (j_comment m)), (is_nil (j_context m)); cbn [map fst app].
  - exact CN.
  - now constructor.
  - now constructor.
  - constructor; [intros [E|I]; [discriminate|contradiction]|now constructor].
Qed.

Definition same_jmsg (m m' : jmsg) : Prop :=
  j_comment m = j_comment m' /\ j_context m = j_context m' /\ forall c, cat_get (tr_of m) c = cat_get (tr_of m') c.
(** the message as it is written: no translation stands for an empty Other *)
Definition writ (m : jmsg) : jmsg := JMsg (j_comment m) (j_context m) (Some (writ_tr m)).
Definition lossless (m : jmsg) : Prop :=
  has_cat (tr_of m) Other \/ tr_of m = [] \/ j_comment m <> [] \/ j_context m <> [] \/ length (tr_of m) <> 1%nat.
Theorem message_round : forall perm m, (forall l, Permutation l (perm l)) -> NoDup (map fst (tr_of m)) -> lossless m ->
  exists m', unmarshal_message perm (marshal_message m) = Ok m' /\ same_jmsg (writ m) m' /\ NoDup (map fst (tr_of m')).
Proof.
  intros perm m P ND LS. rewrite marshal_cases. destruct (is_nil (j_comment m) && is_nil (j_context m) && Nat.eqb (length (writ_tr m)) 1) eqn:E.
  - cbn [unmarshal_message]. eexists. split; [reflexivity|]. split; [|repeat constructor; auto].
    apply andb_prop in E as [E L]. apply andb_prop in E as [E1 E2]. apply Nat.eqb_eq in L.
    split; [destruct (j_comment m) eqn:Q; [exact Q|discriminate]|]. split; [destruct (j_context m) eqn:Q; [exact Q|discriminate]|].
    assert (O : has_cat (writ_tr m) Other).
    { unfold writ_tr in *. unfold lossless in LS. destruct (tr_of m) as [|x [|y t]]; cbn [length Nat.eqb] in *; try discriminate.
      - exists []. reflexivity.
      - destruct LS as [H|[H|[H|[H|H]]]]; [exact H|discriminate|destruct (j_comment m); [congruence|discriminate]|
          destruct (j_context m); [congruence|discriminate]|congruence]. }
    assert (NW : NoDup (map fst (writ_tr m))) by (unfold writ_tr; destruct (Nat.eqb _ _); [now apply cat_set_keys|exact ND]).
    assert (S : singular (writ_tr m)) by (apply single_iff; [exact NW|split; [exact L|exact O]]).
    intro c. cbn [writ tr_of j_tr]. destruct (cat_dec c Other) as [->|N].
    + destruct O as (v & V). rewrite V. reflexivity.
    + cbn [cat_get]. destruct (cat_eqb Other c) eqn:F; [apply cat_eqb_eq in F; congruence|].
      destruct (cat_get (writ_tr m) c) as [v|] eqn:G; [|reflexivity]. exfalso. apply N. apply S. exists v. exact G.
  - cbn [unmarshal_message]. rewrite str_members_strings. cbn [rbind]. rewrite to_map_id by apply writ_nodup.
    eexists. split; [reflexivity|].
    pose proof (members_spec (perm (writ_members m)) (JMsg [] [] (Some []))) as M. cbv zeta in M.
    destruct M as (A & B & _ & C & D). cbn [j_comment j_context tr_of j_tr cat_get] in *. split; [|apply D; constructor].
    assert (NL : NoDup (map (fun e => to_lower (fst e)) (writ_members m))) by (rewrite writ_low; apply writ_nodup).
    assert (LK : forall k, lastk (perm (writ_members m)) k = lastk (writ_members m) k).
    { intro k. symmetry. apply lastk_perm; [exact NL|apply P]. }
    rewrite LK in A, B.
    assert (IFF : forall k v, lastk (writ_members m) k = Some v <-> exists k', In (k', v) (writ_members m) /\ to_lower k' = k)
      by (intros k v; now apply lastk_iff).
    split; [|split]; cbn [writ j_comment j_context tr_of j_tr].
    + rewrite A. destruct (lastk (writ_members m) (bs "comment")) as [v|] eqn:X.
      * apply IFF in X as (k' & I & E'). apply writ_in in I as [(_ & -> & ->)|[(_ & -> & ->)|(c & -> & _)]]; [reflexivity|discriminate|].
        destruct (cat_name_plain c) as (Y & _ & Z). congruence.
      * destruct (j_comment m) as [|x s] eqn:Y; [reflexivity|]. exfalso.
        assert (Q : lastk (writ_members m) (bs "comment") = Some (x :: s)); [|congruence].
        apply IFF. exists (bs "comment"). split; [|reflexivity]. apply writ_in. left. rewrite Y. repeat split. discriminate.
    + rewrite B. destruct (lastk (writ_members m) (bs "context")) as [v|] eqn:X.
      * apply IFF in X as (k' & I & E'). apply writ_in in I as [(_ & -> & ->)|[(_ & -> & ->)|(c & -> & _)]]; [discriminate|reflexivity|].
        destruct (cat_name_plain c) as (_ & Y & Z). congruence.
      * destruct (j_context m) as [|x s] eqn:Y; [reflexivity|]. exfalso.
        assert (Q : lastk (writ_members m) (bs "context") = Some (x :: s)); [|congruence].
        apply IFF. exists (bs "context"). split; [|reflexivity]. apply writ_in. right. left. rewrite Y. repeat split. discriminate.
    + intro c. cbn [writ tr_of j_tr]. rewrite C, LK. destruct (lastk (writ_members m) (cat_name c)) as [v|] eqn:X.
      * apply IFF in X as (k' & I & E'). apply writ_in in I as [(_ & -> & ->)|[(_ & -> & ->)|(d & -> & G)]].
        { destruct (cat_name_plain c) as (Y & _). change (to_lower (bs "comment")) with (bs "comment") in E'. congruence. }
        { destruct (cat_name_plain c) as (_ & Y & _). change (to_lower (bs "context")) with (bs "context") in E'. congruence. }
        { destruct (cat_name_plain d) as (_ & _ & Z). rewrite Z in E'. apply cat_name_inj in E'. now subst. }
      * destruct (cat_get (writ_tr m) c) as [v|] eqn:G; [|reflexivity]. exfalso.
        assert (Q : lastk (writ_members m) (cat_name c) = Some v); [|congruence].
        apply IFF. exists (cat_name c). split; [|apply cat_name_plain]. apply writ_in. right. right. eauto.
Qed.

(** ** A catalog *)
Section C.
  Variable tag : Type.
  Lemma fold_concat : forall A B (f : A -> B -> A) (ls : list (list B)) a, fold_left f (concat ls) a = fold_left (fun x l => fold_left f l x) ls a.
  Proof. intros A B f. induction ls as [|l ls IH]; intro a; [reflexivity|]. cbn [concat fold_left]. rewrite fold_left_app. apply IH. Qed.
  Lemma j_messages_flat : forall c : jcat tag, j_messages tag c = to_map (concat (map snd (jc_map c))).
  Proof.
    intro c. unfold j_messages, to_map. rewrite fold_concat. generalize (@nil (bytes * jmsg)).
    induction (jc_map c) as [|[x y] l IH]; intro a; [reflexivity|]. cbn [fold_left map snd]. apply IH.
  Qed.
  Lemma set_messages_from : forall order l c0 c, set_messages tag order c0 l = Ok c ->
    (forall ctx inner k m, In (ctx, inner) (jc_map c) -> In (k, m) inner ->
      (exists m0, In (k, Some m0) l /\ m = stored order (rs_categories (jc_rules c0)) m0) \/
      exists inner0, In (ctx, inner0) (jc_map c0) /\ In (k, m) inner0).
  Proof.
    intros order l. induction l as [|[k0 m0] l IH] using rev_ind; intros c0 c H ctx inner k m I J.
    - injection H as <-. eauto.
    - rewrite set_messages_app in H. destruct (set_messages tag order c0 l) as [c1| | |] eqn:E1; cbn [rbind] in H; try discriminate.
      destruct (set_messages_get tag order l c0 c1 E1) as (_ & _ & R & _).
      cbn [set_messages] in H. rewrite set_message_cases in H. destruct (validb (k0, m0)); [|discriminate].
      destruct m0 as [m0|]; [|discriminate]. cbn [rbind] in H. injection H as <-. cbn [jc_map] in I.
      assert (OLD : forall inn, In (ctx, inn) (jc_map c1) -> In (k, m) inn ->
        (exists m1, In (k, Some m1) (l ++ [(k0, Some m0)]) /\ m = stored order (rs_categories (jc_rules c0)) m1) \/
        (exists inner0, In (ctx, inner0) (jc_map c0) /\ In (k, m) inner0)).
      { intros inn A B. destruct (IH c0 c1 E1 ctx inn k m A B) as [(m1 & X & Y)|X]; [left|right; exact X].
        exists m1. split; [apply in_app_iff; now left|exact Y]. }
      apply map_set_in in I as [I|I]; [|now apply (OLD inner)]. injection I as -> ->.
      apply map_set_in in J as [J|J].
      + injection J as -> ->. left. exists m0. split; [apply in_app_iff; cbn; auto|]. now rewrite R.
      + destruct (map_get (jc_map c1) (j_context m0)) as [inn|] eqn:G; [|destruct J]. apply map_get_in in G. eapply OLD; eauto.
  Qed.
  Lemma j_messages_in : forall order lang dom rs l c, wf_messages l -> new_json_with tag order lang dom rs l = Ok c ->
    (forall k m, In (k, m) (j_messages tag c) <-> exists m0, In (k, Some m0) l /\ m = stored order (rs_categories rs) m0) /\
    NoDup (map fst (j_messages tag c)).
  Proof.
    intros order lang dom rs l c [ND WF] H. rewrite j_messages_flat. split; [|apply to_map_nodup].
    unfold new_json_with in H. destruct (set_messages_get tag order l _ c H) as (_ & _ & _ & _ & G). cbn [jc_map jc_rules new_json] in G.
    assert (FLAT : forall k m, In (k, m) (concat (map snd (jc_map c))) -> exists m0, In (k, Some m0) l /\ m = stored order (rs_categories rs) m0).
    { intros k m I. apply in_concat in I as (inner & I & J). apply in_map_iff in I as ([ctx inn] & E & I). cbn [snd] in E. subst inn.
      destruct (set_messages_from order l _ c H ctx inner k m I J) as [X|(i & [] & _)]. exact X. }
    intros k m. split.
    - intro I. apply to_map_in in I. now apply FLAT.
    - intros (m0 & I & ->). assert (P : jpick l (j_context m0) k = Some m0) by (apply jpick_iff; auto).
      specialize (G (j_context m0) k). rewrite P in G. unfold get2 in G. destruct (map_get (jc_map c) (j_context m0)) as [inner|] eqn:E; [|discriminate].
      apply map_get_in in E, G.
      assert (J : In (k, stored order (rs_categories rs) m0) (concat (map snd (jc_map c)))).
      { apply in_concat. exists inner. split; [apply in_map_iff; exists (j_context m0, inner); auto|exact G]. }
      assert (K : In k (map fst (to_map (concat (map snd (jc_map c)))))).
      { apply to_map_keys. apply in_map_iff. exists (k, stored order (rs_categories rs) m0). auto. }
      apply in_map_iff in K as ([k' m'] & E' & K). cbn [fst] in E'. subst k'.
      pose proof (to_map_in _ _ _ _ K) as K'. apply FLAT in K' as (m1 & I1 & ->).
      assert (m1 = m0); [|now subst]. clear - ND I I1. induction l as [|[a b] l IH]; [destruct I|]. cbn [map fst] in ND.
      inversion ND as [|? ? N ND']; subst. destruct I as [I|I], I1 as [J|J].
      + congruence.
      + exfalso. apply N. injection I as -> _. apply in_map_iff. exists (k, Some m1). auto.
      + exfalso. apply N. injection J as -> _. apply in_map_iff. exists (k, Some m0). auto.
      + now apply IH.
  Qed.

  Lemma unmarshal_all : forall perm l,
    (forall k m, In (k, m) l -> exists m', unmarshal_message perm (marshal_message m) = Ok m') ->
    exists l2, unmarshal_members perm (map (fun km => (fst km, marshal_message (snd km))) l) = Ok l2 /\
      Forall2 (fun a b => fst a = fst b /\ exists m', snd b = Some m' /\ unmarshal_message perm (marshal_message (snd a)) = Ok m') l l2.
  Proof.
    intros perm. induction l as [|[k m] l IH]; intro H; [exists []; split; [reflexivity|constructor]|].
    destruct IH as (l2 & E & F); [intros k' m' I; eapply H; right; exact I|]. destruct (H k m (or_introl eq_refl)) as (m' & M).
    exists ((k, Some m') :: l2). split.
    - cbn [map unmarshal_members fst snd]. rewrite M. cbn [rbind].
      assert (X : forall v, marshal_message m = v -> v <> JNull).
      { intros v <-. rewrite marshal_cases. destruct (_ && _ && _); discriminate. }
      destruct (marshal_message m) eqn:Q; try (rewrite E; reflexivity). exfalso. now apply (X _ eq_refl).
    - constructor; [cbn [fst snd]; eauto|exact F].
  Qed.

  (** entries that answer alike *)
  Definition j_alike (cats : list category) (m m' : jmsg) : Prop :=
    j_context m = j_context m' /\ forall c t, text_for cats m c t <-> text_for cats m' c t.
  Lemma j_answer_alike : forall cats l l' (lang : tag) dom ctx id c r,
    (forall k m, In (k, Some m) l -> exists m', In (k, Some m') l' /\ j_alike cats m m') ->
    (forall k m', In (k, Some m') l' -> exists m, In (k, Some m) l /\ j_alike cats m m') ->
    j_answer l cats lang dom ctx id c r -> j_answer l' cats lang dom ctx id c r.
  Proof.
    intros cats l l' lang dom ctx id c r F B H. destruct H as [m t [I X] T|N|(k & m & I & X) N|m [I X] N].
    - destruct (F _ _ I) as (m' & I' & E & A). eapply ja_found; [split; [exact I'|congruence]|now apply A].
    - apply ja_context. intros (k & m' & I & X). destruct (B _ _ I) as (m & I' & E & _). apply N. exists k, m. split; [exact I'|congruence].
    - apply ja_message.
      + destruct (F _ _ I) as (m' & I' & E & _). exists k, m'. split; [exact I'|congruence].
      + intros m' [I' X']. destruct (B _ _ I') as (m1 & I1 & E & _). apply (N m1). split; [exact I1|congruence].
    - destruct (F _ _ I) as (m' & I' & E & A). eapply ja_translation; [split; [exact I'|congruence]|]. intros t T. apply (N t). now apply A.
  Qed.
  (** fitting twice shows the same texts as fitting once *)
  Lemma fitted_alike : forall order cats m m', NoDup (map fst (tr_of m)) -> every_category order -> In Other cats -> has_cat (tr_of m) Other ->
    same_jmsg (stored order cats m) m' -> j_alike cats m m'.
  Proof.
    intros order cats m m' ND EO OC HO (_ & C & T). split; [exact C|]. intros c t.
    destruct (apply_fitted order cats (tr_of m) ND EO) as [[F1 F2] _]. cbn [stored tr_of j_tr] in T.
    set (t' := apply_categories order cats (tr_of m)) in *. clearbody t'. unfold text_for.
    destruct (singular_dec (tr_of m) ND) as [S|S].
    - assert (Q : forall c, cat_get (tr_of m') c = cat_get (tr_of m) c) by (intro d; now rewrite <- T, F1).
      assert (S' : singular (tr_of m')).
      { intro d. specialize (S d). unfold has_cat in *. rewrite Q. exact S. }
      rewrite Q. tauto.
    - assert (Q : forall c, In c cats -> cat_get (tr_of m') c = Some (match cat_get (tr_of m) c with Some v => v | None => [] end))
        by (intros d D; rewrite <- T; now apply F2).
      assert (Q' : forall c, ~ In c cats -> cat_get (tr_of m') c = None) by (intros d D; rewrite <- T; now apply F2).
      destruct (in_dec cat_dec c cats) as [I|I].
      + rewrite (Q c I). split.
        * intros (NE & E & _). rewrite E. auto.
        * intros (NE & E & _). split; [exact NE|]. injection E as E. destruct (cat_get (tr_of m) c); [subst; auto|congruence].
      + rewrite (Q' c I). split; [|intros (_ & E & _); discriminate]. intros (_ & _ & [X|X]); contradiction.
  Qed.

  Theorem catalog_round : forall order order' perm fperm lang dom rs l c, wf_messages l -> l <> [] -> In Other (rs_categories rs) ->
    every_category order -> every_category order' -> (forall x, Permutation x (perm x)) -> (forall x, Permutation x (fperm x)) ->
    new_json_with tag order lang dom rs l = Ok c ->
    exists c', decode_json tag order' perm fperm lang dom rs (marshal_catalog tag c) = Ok (Some c') /\
      (forall ctx id cat, j_result tag c' ctx id cat = j_result tag c ctx id cat) /\ jc_rules c' = rs /\ jc_rules c = rs.
  Proof.
    intros order order' perm fperm lang dom rs l c WF NE OC EO EO' P FP H. pose proof WF as [ND WE].
    destruct (j_messages_in order lang dom rs l c WF H) as [JM JN].
    assert (VA : Forall valid l).
    { unfold new_json_with in H. destruct (set_messages_valid tag order l (new_json tag lang dom rs)) as [(x & _ & V)|[E _]]; [|congruence].
      apply Forall_forall. intros e I. rewrite forallb_forall in V. apply valid_iff. now apply V. }
    set (sl := sorted_keys (j_messages tag c)).
    assert (SP : Permutation sl (j_messages tag c)) by (unfold sl, sorted_keys; symmetry; apply sort_perm).
    assert (WM : forall k m0, In (k, Some m0) l -> NoDup (map fst (tr_of m0)) /\ has_cat (tr_of m0) Other /\ k <> [] /\
               (j_context m0 = [] \/ exists p, k = p ++ bs "_" ++ j_context m0)).
    { intros k m0 I. rewrite Forall_forall in WE, VA. split; [apply (WE _ I); reflexivity|].
      destruct (VA _ I) as (K & m1 & E & O & X). cbn [fst snd] in *. injection E as <-. auto. }
    assert (SO : forall k m0, In (k, Some m0) l -> NoDup (map fst (tr_of (stored order (rs_categories rs) m0))) /\
               has_cat (tr_of (stored order (rs_categories rs) m0)) Other).
    { intros k m0 I. destruct (WM k m0 I) as (A & B & _). destruct (apply_fitted order (rs_categories rs) (tr_of m0) A EO) as [[F1 F2] F3].
      cbn [stored tr_of j_tr]. split; [exact F3|]. unfold has_cat. destruct (singular_dec (tr_of m0) A) as [S|S].
      - rewrite (F1 S). exact B.
      - destruct (F2 S Other) as [G _]. rewrite (G OC). eauto. }
    assert (RT : forall k m, In (k, m) sl -> exists m', unmarshal_message perm (marshal_message m) = Ok m' /\ same_jmsg m m' /\ NoDup (map fst (tr_of m'))).
    { intros k m I. apply (Permutation_in _ SP) in I. apply JM in I as (m0 & I & ->). destruct (SO k m0 I) as [A B].
      destruct (message_round perm (stored order (rs_categories rs) m0) P A (or_introl B)) as (m' & U & (S1 & S2 & S3) & N).
      exists m'. split; [exact U|]. split; [|exact N]. split; [exact S1|]. split; [exact S2|]. intro d. rewrite <- S3.
      cbn [writ tr_of j_tr]. unfold writ_tr. destruct (Nat.eqb_spec (length (tr_of (stored order (rs_categories rs) m0))) 0) as [Z|Z]; [|reflexivity].
      apply length_zero_iff_nil in Z. rewrite Z in B. destruct B as (v & B). discriminate. }
    destruct (unmarshal_all perm sl) as (l2 & U & F2); [intros k m I; destruct (RT k m I) as (m' & X & _); eauto|].
    assert (K2 : map fst l2 = map fst sl) by (clear - F2; induction F2 as [|a b x y [E _] F IH]; [reflexivity|]; cbn [map]; now rewrite E, IH).
    assert (N2 : NoDup (map fst l2)).
    { rewrite K2. eapply Permutation_NoDup; [apply Permutation_map; symmetry; exact SP|exact JN]. }
    assert (IN2 : forall k o, In (k, o) l2 -> exists m m0 m', In (k, m) sl /\ In (k, Some m0) l /\ m = stored order (rs_categories rs) m0 /\
              o = Some m' /\ same_jmsg m m' /\ NoDup (map fst (tr_of m'))).
    { intros k o I. assert (X : exists a, In a sl /\ fst a = k /\ exists m', o = Some m' /\ unmarshal_message perm (marshal_message (snd a)) = Ok m').
      { clear - F2 I. induction F2 as [|a b x y [E (m' & E1 & E2)] F IH]; [destruct I|]. destruct I as [->|I].
        - exists a. split; [now left|]. cbn [fst snd] in *. eauto.
        - destruct (IH I) as (a' & A & B). exists a'. split; [now right|exact B]. }
      destruct X as ([k' m] & A & E & m' & -> & Um). cbn [fst snd] in *. subst k'.
      destruct (RT k m A) as (m'' & Um' & SM & NM). rewrite Um in Um'. injection Um' as <-.
      pose proof (Permutation_in _ SP A) as A'. apply JM in A' as (m0 & I0 & ->). exists (stored order (rs_categories rs) m0), m0, m'. auto 8. }
    assert (IN1 : forall k m0, In (k, Some m0) l -> exists m', In (k, Some m') l2 /\ same_jmsg (stored order (rs_categories rs) m0) m').
    { intros k m0 I. assert (A : In (k, stored order (rs_categories rs) m0) sl).
      { eapply Permutation_in; [symmetry; exact SP|]. apply JM. eauto. }
      assert (X : In k (map fst l2)) by (rewrite K2; apply in_map_iff; exists (k, stored order (rs_categories rs) m0); auto).
      apply in_map_iff in X as ([k' o] & E & X). cbn [fst] in E. subst k'. destruct (IN2 k o X) as (m & m1 & m' & B & I1 & -> & -> & SM & _).
      exists m'. split; [exact X|]. assert (m1 = m0); [|now subst]. clear - ND I I1. induction l as [|[a b] l IH]; [destruct I|]. cbn [map fst] in ND.
      inversion ND as [|? ? N ND']; subst. destruct I as [I|I], I1 as [J|J].
      - congruence.
      - exfalso. apply N. injection I as -> _. apply in_map_iff. exists (k, Some m1). auto.
      - exfalso. apply N. injection J as -> _. apply in_map_iff. exists (k, Some m0). auto.
      - now apply IH. }
    assert (WF2 : wf_messages (fperm l2)).
    { split; [eapply Permutation_NoDup; [apply Permutation_map; apply FP|exact N2]|]. apply Forall_forall. intros [k o] I m' E. cbn [snd] in E. subst o.
      apply (Permutation_in _ (Permutation_sym (FP l2))) in I. destruct (IN2 _ _ I) as (_ & _ & m'' & _ & _ & _ & E & _ & N).
      injection E as ->. exact N. }
    assert (V2 : forallb validb (fperm l2) = true).
    { apply forallb_forall. intros [k o] I. apply valid_iff. apply (Permutation_in _ (Permutation_sym (FP l2))) in I.
      destruct (IN2 _ _ I) as (m & m0 & m' & _ & I0 & -> & -> & (S1 & S2 & S3) & _). destruct (WM k m0 I0) as (_ & _ & A & B). destruct (SO k m0 I0) as [_ (v & O)].
      split; [exact A|]. exists m'. split; [reflexivity|]. split; [exists v; now rewrite <- S3|]. cbn [stored j_context] in S2. rewrite <- S2. exact B. }
    assert (NE2 : l2 <> []).
    { destruct l as [|[k o] l']; [congruence|]. rewrite Forall_forall in VA. destruct (VA (k, o) (or_introl eq_refl)) as (_ & m0 & E & _).
      cbn [snd] in E. subst o. destruct (IN1 k m0 (or_introl eq_refl)) as (m' & X & _). intros ->. destruct X. }
    destruct (set_messages_valid tag order' (fperm l2) (new_json tag lang dom rs)) as [(c' & E & _)|[_ E]]; [|congruence].
    exists c'. split.
    - unfold marshal_catalog. fold sl. cbn [decode_json]. unfold unmarshal_catalog. rewrite U. cbn [rbind].
      rewrite to_map_id by exact N2. destruct l2 as [|x l2]; [congruence|]. rewrite E. reflexivity.
    - assert (RU : jc_rules c' = rs /\ jc_rules c = rs).
      { destruct (set_messages_get tag _ _ _ _ E) as (_ & _ & R & _). destruct (set_messages_get tag _ _ _ _ H) as (_ & _ & R' & _). auto. }
      split; [|exact RU]. intros ctx id cat.
      apply (j_answer_fun tag (fperm l2) (rs_categories rs) lang dom ctx id cat); [apply WF2| |].
      + apply (j_result_answer tag order' lang dom rs (fperm l2) c' WF2 EO' E).
      + eapply j_answer_perm; [apply FP|]. eapply j_answer_alike; [| |apply (j_result_answer tag order lang dom rs l c WF EO H)].
        * intros k m0 I. destruct (IN1 k m0 I) as (m' & X & SM). exists m'. split; [exact X|]. destruct (WM k m0 I) as (A & B & _).
          eapply fitted_alike; [exact A|exact EO|exact OC|exact B|exact SM].
        * intros k m' I. destruct (IN2 k _ I) as (m & m0 & m'' & _ & I0 & -> & E2 & SM & _). injection E2 as <-.
          exists m0. split; [exact I0|]. destruct (WM k m0 I0) as (A & B & _). eapply fitted_alike; [exact A|exact EO|exact OC|exact B|exact SM].
  Qed.
End C.

(** ** The written text is sorted and does not depend on the iteration orders *)
Lemma key_unique : forall V (l : list (bytes * V)) k v w, NoDup (map fst l) -> In (k, v) l -> In (k, w) l -> v = w.
Proof.
  intros V. induction l as [|[a b] l IH]; intros k v w ND I J; [destruct I|]. cbn [map fst] in ND. inversion ND as [|? ? N ND']; subst.
  destruct I as [I|I], J as [J|J].
  - congruence.
  - exfalso. apply N. injection I as -> _. apply in_map_iff. exists (k, w). auto.
  - exfalso. apply N. injection J as -> _. apply in_map_iff. exists (k, v). auto.
  - eapply IH; eauto.
Qed.
Definition key_cmp {V} (a b : bytes * V) : Z := bcmp (fst a) (fst b).
Definition key_less {V} (a b : bytes * V) : Prop := bytes_lt (fst a) (fst b).
Lemma key_cmp_ok : forall V (l : list (bytes * V)), NoDup (map fst l) -> cmp_ok (fun x => In x l) key_less key_cmp.
Proof.
  intros V l ND. unfold key_less, key_cmp. constructor.
  - intros x y _ _. apply bcmp_lt.
  - intros x y _ _. apply bcmp_gt.
  - intros x y z _ _ _. apply bytes_lt_trans.
  - intros [a v] [b w] I J E. apply bcmp_eq in E. cbn [fst] in E. subst b. f_equal. eapply key_unique; eauto.
Qed.
Lemma ordered_map : forall A B (f : A -> B) (le : B -> B -> Prop) l, ordered (fun x y => le (f x) (f y)) l -> ordered le (map f l).
Proof.
  intros A B f le l H a x b y c E.
  apply map_eq_app in E as (l1 & l2 & -> & <- & E). destruct l2 as [|x' l2]; [discriminate|]. injection E as <- E.
  apply map_eq_app in E as (l3 & l4 & -> & <- & E). destruct l4 as [|y' l4]; [discriminate|]. injection E as <- E.
  now apply (H l1 x' l3 y' l4).
Qed.
Lemma sort_keys_ordered : forall V (l : list (bytes * V)), NoDup (map fst l) -> ordered key_less (PoFileModel.sort key_cmp l).
Proof.
  intros V l ND a x b y c E.
  destruct (sort_ordered _ _ _ key_cmp l (key_cmp_ok V l ND)) with (a := a) (x := x) (b := b) (y := y) (c := c) as [H|H]; auto.
  - apply Forall_forall. auto.
  - exfalso. subst y. assert (N : NoDup (map fst (PoFileModel.sort key_cmp l))).
    { eapply Permutation_NoDup; [apply Permutation_map; apply sort_perm|exact ND]. }
    rewrite E, map_app in N. cbn [map] in N. apply NoDup_remove_2 in N. apply N. apply in_app_iff. right.
    rewrite map_app. apply in_app_iff. right. now left.
Qed.
Lemma cats_len : forall t t' : catmap, NoDup (map fst t) -> NoDup (map fst t') -> (forall c, cat_get t c = cat_get t' c) -> length t = length t'.
Proof.
  intros t t' N N' E. rewrite <- (map_length fst t), <- (map_length fst t'). apply Permutation_length. apply NoDup_Permutation; auto.
  intro c. rewrite <- !has_cat_in. unfold has_cat. now rewrite E.
Qed.
Lemma marshal_same : forall m m', same_jmsg m m' -> NoDup (map fst (tr_of m)) -> NoDup (map fst (tr_of m')) -> marshal_message m = marshal_message m'.
Proof.
  intros m m' (A & B & C) N N'. pose proof (cats_len _ _ N N' C) as L. rewrite !marshal_cases.
  assert (W : forall c, cat_get (writ_tr m) c = cat_get (writ_tr m') c).
  { intro c. unfold writ_tr. rewrite <- L. destruct (Nat.eqb _ 0); [rewrite !cat_get_set|]; now rewrite C. }
  assert (LW : length (writ_tr m) = length (writ_tr m')).
  { unfold writ_tr. rewrite <- L. destruct (Nat.eqb_spec (length (tr_of m)) 0) as [Z|Z]; [|exact L].
    rewrite Z in L. apply length_zero_iff_nil in Z. symmetry in L. apply length_zero_iff_nil in L. rewrite Z, L. reflexivity. }
  unfold writ_members. rewrite A, B, LW, W. destruct (_ && _ && _); [reflexivity|]. do 4 f_equal. now rewrite !flat_map_concat_map, (map_ext _ _ (fun c => f_equal (fun o => match o with Some s => [(cat_name c, s)] | None => [] end) (W c))).
Qed.
Lemma fitted_fun : forall cats t a b, NoDup (map fst t) -> fitted cats t a -> fitted cats t b -> forall c, cat_get a c = cat_get b c.
Proof.
  intros cats t a b ND [A1 A2] [B1 B2] c. destruct (singular_dec t ND) as [S|S].
  - now rewrite A1, B1.
  - destruct (A2 S c) as [X Y], (B2 S c) as [X' Y']. destruct (in_dec cat_dec c cats) as [I|I].
    + now rewrite X, X'.
    + now rewrite Y, Y'.
Qed.
Section D.
  Variable tag : Type.
  Theorem marshal_deterministic : forall order order' (lang lang' : tag) dom dom' rs l l' c c', wf_messages l -> every_category order -> every_category order' ->
    Permutation l l' -> new_json_with tag order lang dom rs l = Ok c -> new_json_with tag order' lang' dom' rs l' = Ok c' ->
    marshal_catalog tag c = marshal_catalog tag c'.
  Proof.
    intros order order' lang lang' dom dom' rs l l' c c' WF EO EO' P H H'. pose proof WF as [ND WE].
    assert (WF' : wf_messages l').
    { split; [eapply Permutation_NoDup; [apply Permutation_map; exact P|exact ND]|eapply Permutation_Forall; eauto]. }
    destruct (j_messages_in tag order lang dom rs l c WF H) as [JM JN], (j_messages_in tag order' lang' dom' rs l' c' WF' H') as [JM' JN'].
    unfold marshal_catalog. f_equal. unfold sorted_keys. fold (@key_cmp jmsg).
    set (f := fun km : bytes * jmsg => (fst km, marshal_message (snd km))).
    set (L := map f (PoFileModel.sort key_cmp (j_messages tag c))). set (L' := map f (PoFileModel.sort key_cmp (j_messages tag c'))).
    assert (KEYS : forall x, map fst (map f x) = map fst x) by (intro x; rewrite map_map; reflexivity).
    assert (NL : NoDup (map fst L)).
    { unfold L. rewrite KEYS. eapply Permutation_NoDup; [apply Permutation_map; apply sort_perm|exact JN]. }
    assert (NL' : NoDup (map fst L')).
    { unfold L'. rewrite KEYS. eapply Permutation_NoDup; [apply Permutation_map; apply sort_perm|exact JN']. }
    assert (IL : forall k j, In (k, j) L <-> exists m0, In (k, Some m0) l /\ j = marshal_message (stored order (rs_categories rs) m0)).
    { intros k j. unfold L. rewrite in_map_iff. split.
      - intros ([k' m] & E & I). injection E as -> <-. apply (Permutation_in _ (Permutation_sym (sort_perm _ _ _))) in I.
        apply JM in I as (m0 & I & ->). eauto.
      - intros (m0 & I & ->). exists (k, stored order (rs_categories rs) m0). split; [reflexivity|]. apply (Permutation_in _ (sort_perm _ _ _)). apply JM. eauto. }
    assert (IL' : forall k j, In (k, j) L' <-> exists m0, In (k, Some m0) l' /\ j = marshal_message (stored order' (rs_categories rs) m0)).
    { intros k j. unfold L'. rewrite in_map_iff. split.
      - intros ([k' m] & E & I). injection E as -> <-. apply (Permutation_in _ (Permutation_sym (sort_perm _ _ _))) in I.
        apply JM' in I as (m0 & I & ->). eauto.
      - intros (m0 & I & ->). exists (k, stored order' (rs_categories rs) m0). split; [reflexivity|]. apply (Permutation_in _ (sort_perm _ _ _)). apply JM'. eauto. }
    assert (SAME : forall k m0, In (k, Some m0) l -> marshal_message (stored order (rs_categories rs) m0) = marshal_message (stored order' (rs_categories rs) m0)).
    { intros k m0 I. rewrite Forall_forall in WE. pose proof (WE _ I m0 eq_refl) as N.
      destruct (apply_fitted order (rs_categories rs) (tr_of m0) N EO) as [A B], (apply_fitted order' (rs_categories rs) (tr_of m0) N EO') as [A' B'].
      apply marshal_same; [|exact B|exact B']. split; [reflexivity|]. split; [reflexivity|]. exact (fitted_fun _ _ _ _ N A A'). }
    apply (ordered_unique _ (fun x => In x L) key_less key_cmp).
    - now apply key_cmp_ok.
    - apply Forall_forall. auto.
    - apply NoDup_Permutation; [eapply NoDup_map_inv; exact NL|eapply NoDup_map_inv; exact NL'|]. intros [k j]. rewrite IL, IL'. split.
      + intros (m0 & I & ->). exists m0. split; [eapply Permutation_in; eauto|]. eapply SAME; eauto.
      + intros (m0 & I & ->). apply (Permutation_in _ (Permutation_sym P)) in I. exists m0. split; [exact I|]. symmetry. eapply SAME; eauto.
    - intros a x b y d E. left. eapply (ordered_map _ _ f key_less); [|exact E]. apply (sort_keys_ordered _ _ JN).
    - intros a x b y d E. left. eapply (ordered_map _ _ f key_less); [|exact E]. apply (sort_keys_ordered _ _ JN').
  Qed.
End D.
