(** Checking the shipped translations and formats, and what the checks mean. *)
From Coq Require Import String Ascii List ZArith Bool Lia ZifyBool Permutation.
From Verif Require Import Base BaseProofs Utf8Model NumModel PopModel PopBuiltin PopBuiltinProofs TheoremsPop
  PoStrModel PoFileModel PoFileSpec PoParseProofs GettextModel GettextSpec GettextProofs TheoremsGettext
  DfmtSpec DfmtModel HumModel IwModel HumLocModel HumLocSpec.
Import ListNotations.
Open Scope Z_scope.

(** ** Values of plural rules *)

(** every value lies between 0 and the bound *)
Fixpoint leaf_bound (a : node) : option Z :=
  match a with
  | NVal v => if 0 <=? v then Some (v + 1) else None
  | NOp => None
  | NBin BRem _ (NVal v) => None
  | NBin BRem _ _ => None
  | NBin _ _ _ => Some 2
  | NCond _ t f =>
      match leaf_bound t, leaf_bound f with
      | Some x, Some y => Some (Z.max x y)
      | _, _ => None
      end
  end.
Lemma leaf_bound_ok : forall a k, leaf_bound a = Some k -> forall n, 0 <= eval_node a n < k.
Proof.
  induction a as [v| |o x IX y IY|c IC t IT f IF]; cbn [leaf_bound]; intros k H n.
  - destruct (Z.leb_spec 0 v); [|discriminate]. injection H as <-. cbn [eval_node]. lia.
  - discriminate.
  - assert (B : forall b, 0 <= b2z b < 2) by (intros []; cbn; lia).
    destruct o; try (injection H as <-; cbn [eval_node]; apply B). destruct y; discriminate.
  - destruct (leaf_bound t) as [x|]; [|discriminate]. destruct (leaf_bound f) as [y|]; [|discriminate].
    injection H as <-. specialize (IT _ eq_refl n). specialize (IF _ eq_refl n). cbn [eval_node].
    destruct (eval_node c n =? 1); lia.
Qed.

(** the number of forms that a Plural-Forms header can select *)
Definition header_bound (forms : bytes) : option Z :=
  match parse_forms forms with
  | Ok f => match built_in_raw (compile_forms f) with
            | Some r => Some (r_nplurals r)
            | None => leaf_bound (f_root f)
            end
  | _ => None
  end.
Lemma header_bound_ok forms k : header_bound forms = Some k ->
  exists r, parse_rule forms = Ok r /\ forall n, 0 <= r_form r n < k.
Proof.
  unfold header_bound, parse_rule. destruct (parse_forms forms) as [f| | |]; try discriminate. cbn [rbind].
  destruct (built_in_raw (compile_forms f)) as [r|] eqn:B.
  - intro H. injection H as <-. exists r. split; [reflexivity|].
    apply C02_builtin_index_in_range. left. eauto.
  - intro H. eexists. split; [reflexivity|]. cbn [r_form]. apply leaf_bound_ok. exact H.
Qed.

(** ** Messages *)

Definition form (m : message) (i : Z) : bytes := match str_get (m_str m) i with Some t => t | None => [] end.
(** the forms 0 .. k-1 are there *)
Fixpoint forms_below (m : message) (k : nat) : bool :=
  match k with
  | O => true
  | S k' => negb (is_nil (form m (Z.of_nat k'))) && forms_below m k'
  end.
Definition is_plural (m : message) : bool :=
  negb (is_nil (m_pl m)) || existsb (fun r => beq (m_ctx m) (fst (fst r)) && beq (m_id m) (snd (fst r))) plural_requests.
Definition gap (k : Z) (m : message) : bool :=
  liveb m && is_plural m && negb (is_nil (form m 0)) && negb (forms_below m (Z.to_nat k)).

Lemma forms_below_ok m k i : forms_below m k = true -> 0 <= i < Z.of_nat k -> form m i <> [].
Proof.
  induction k as [|k IH]; [lia|]. cbn [forms_below]. rewrite andb_true_iff. intros [F R] B.
  destruct (Z.eq_dec i (Z.of_nat k)) as [->|N]; [|apply IH; [exact R|lia]].
  destruct (form m (Z.of_nat k)); [discriminate|discriminate].
Qed.
Lemma form_str m i : form m i <> [] -> str_get (m_str m) i = Some (form m i).
Proof. unfold form. destruct (str_get (m_str m) i); [reflexivity|congruence]. Qed.
Lemma str_get_in (s : strmap) i t : str_get s i = Some t -> In (i, t) s.
Proof.
  induction s as [|[j v] s IH]; [discriminate|]. cbn [str_get]. destruct (j =? i) eqn:B.
  - intro H. injection H as ->. apply Z.eqb_eq in B. subst j. now left.
  - intro H. right. exact (IH H).
Qed.

(** ** Directives *)

Fixpoint dirs (cur : option bytes) (s : bytes) : list bytes :=
  match s, cur with
  | [], None => []
  | [], Some d => ["%"%char :: d]
  | a :: s', None => if Ascii.eqb a "%" then dirs (Some []) s' else dirs None s'
  | a :: s', Some d => if verb_end a then ("%"%char :: d ++ [a]) :: dirs None s' else dirs (Some (d ++ [a])) s'
  end.
Lemma dirs_ok s : directives s (dirs None s) /\
  forall d, forallb (fun a => negb (verb_end a)) d = true -> directives ("%"%char :: d ++ s) (dirs (Some d) s).
Proof.
  induction s as [|a s [I1 I2]]; cbn [dirs].
  - split; [constructor|]. intros d D. rewrite app_nil_r. apply dv_open. exact D.
  - split.
    + destruct (Ascii.eqb_spec a "%") as [->|N]; [exact (I2 [] eq_refl)|]. constructor; assumption.
    + intros d D. destruct (verb_end a) eqn:V.
      * apply dv_one; assumption.
      * replace (d ++ a :: s) with ((d ++ [a]) ++ s) by (rewrite <- app_assoc; reflexivity).
        apply I2. rewrite forallb_app, D. cbn [forallb]. rewrite V. reflexivity.
Qed.
Lemma dirs_open d s : forallb (fun a => negb (verb_end a)) d = true -> forall e, dirs (Some e) (d ++ s) = dirs (Some (e ++ d)) s.
Proof.
  induction d as [|a d IH]; intros D e; [rewrite app_nil_r; reflexivity|]. cbn [forallb] in D. apply andb_true_iff in D as [V D].
  cbn [app dirs]. apply negb_true_iff in V. rewrite V, (IH D). rewrite <- app_assoc. reflexivity.
Qed.
Lemma dirs_only s ds : directives s ds -> ds = dirs None s.
Proof.
  induction 1 as [|a s ds N H IH|d v s ds D V H IH|d D]; cbn [dirs].
  - reflexivity.
  - destruct (Ascii.eqb_spec a "%"); [contradiction|exact IH].
  - rewrite Ascii.eqb_refl, (dirs_open d _ D). cbn [app dirs]. rewrite V, IH. reflexivity.
  - rewrite Ascii.eqb_refl. rewrite <- (app_nil_r d) at 2. rewrite (dirs_open d _ D). reflexivity.
Qed.
Fixpoint take_out (x : bytes) (l : list bytes) : option (list bytes) :=
  match l with
  | [] => None
  | y :: l' => if beq x y then Some l' else match take_out x l' with Some r => Some (y :: r) | None => None end
  end.
Fixpoint subb (a b : list bytes) : bool :=
  match a with
  | [] => true
  | x :: a' => match take_out x b with Some b' => subb a' b' | None => false end
  end.
Lemma take_out_ok x l r : take_out x l = Some r -> Permutation (x :: r) l.
Proof.
  revert r. induction l as [|y l IH]; [discriminate|]. cbn [take_out]. intros r H.
  destruct (beq x y) eqn:B.
  - apply beq_eq in B. subst y. injection H as <-. apply Permutation_refl.
  - destruct (take_out x l) as [r'|]; [|discriminate]. injection H as <-.
    rewrite perm_swap. apply perm_skip. apply IH. reflexivity.
Qed.
Lemma subb_ok a b : subb a b = true -> exists rest, Permutation b (a ++ rest).
Proof.
  revert b. induction a as [|x a IH]; cbn [subb]; intros b H.
  - exists b. apply Permutation_refl.
  - destruct (take_out x b) as [b'|] eqn:T; [|discriminate]. apply take_out_ok in T.
    destruct (IH b' H) as (rest & R). exists rest. rewrite <- T. apply perm_skip. exact R.
Qed.
Definition usesd (s t : bytes) : bool := subb (dirs None t) (dirs None s).
Lemma usesd_ok s t : usesd s t = true -> uses_directives s t.
Proof.
  intro H. apply subb_ok in H as (rest & R). exists (dirs None s), (dirs None t), rest.
  split; [apply dirs_ok|]. split; [apply dirs_ok|]. exact R.
Qed.
Definition bad_form (m : message) (t : bytes) : bool :=
  negb (is_nil t) && negb (usesd (m_id m) t) && negb (negb (is_nil (m_pl m)) && usesd (m_pl m) t).
Definition bad (m : message) : bool := liveb m && existsb (fun e => bad_form m (snd e)) (m_str m).

(** texts for large numbers that do not show the number *)
Definition is_large (m : message) : bool :=
  is_nil (m_ctx m) && existsb (fun w => beq (m_id m) (bs "%[1]s " ++ bs w)) large_numbers.
Definition numberless (m : message) : bool :=
  is_large m && existsb (fun e => negb (is_nil (snd e)) && negb (existsb (beq (bs "%[1]s")) (dirs None (snd e)))) (m_str m).

(** ** A whole file *)

(** keys of the messages with gaps, with wrong directives, without the number *)
Definition examine (po : bytes) : option (list (bytes * bytes) * list (bytes * bytes) * list (bytes * bytes)) :=
  match parse_po_fuel (S (length po)) true po with
  | Ok f =>
      match h_unknown (f_header f), header_bound (header_get (fun r => r) (f_header f) (bs "Plural-Forms")) with
      | [], Some k => Some (map key (filter (gap k) (f_messages f)), map key (filter bad (f_messages f)), map key (filter numberless (f_messages f)))
      | _, _ => None
      end
  | _ => None
  end.

Lemma counted_plural ms ctx id m : NoDup (map key ms) -> counted ms ctx id -> In m ms -> key m = (ctx, id) -> is_plural m = true.
Proof.
  intros ND H I K. unfold is_plural. destruct H as [(pl & R)|(m' & I' & K' & P)].
  - apply orb_true_iff. right. apply existsb_exists. exists (ctx, id, pl). split; [exact R|].
    unfold key in K. injection K as -> ->. cbn [fst snd]. rewrite !beq_refl. reflexivity.
  - assert (m' = m) as ->.
    { clear - ND I I' K K'. induction ms as [|x ms IH]; [destruct I|]. cbn [map] in ND. inversion ND as [|y l N1 N2]; subst.
      destruct I as [->|I], I' as [->|I']; auto.
      - exfalso. apply N1. rewrite K, <- K'. apply in_map. exact I'.
      - exfalso. apply N1. rewrite K', <- K. apply in_map. exact I. }
    destruct (m_pl m); [congruence|reflexivity].
Qed.

Section Sound.
  Variable tag : Type.
  Variable is_root : tag -> bool.
  Variable tag_string : tag -> bytes.
  Variable base : tag -> bytes * bool.
  Variable parent : tag -> tag.
  Variable fold : rune -> rune.
  Variable fuel : nat.
  Notation decode_po := (decode_po tag is_root tag_string base parent fold fuel).

  Lemma examine_ok po gs bds nls : examine po = Some (gs, bds, nls) ->
    exists f, parse_po_fuel (S (length po)) true po = Ok f /\ NoDup (map key (f_messages f)) /\
      (forall m i t, In m (f_messages f) -> live m -> ~ In (key m) bds -> In (i, t) (m_str m) -> t <> [] ->
         uses_directives (m_id m) t \/ m_pl m <> [] /\ uses_directives (m_pl m) t) /\
      (forall m w i t, In m (f_messages f) -> In w large_numbers -> key m = ([], bs "%[1]s " ++ bs w) -> ~ In (key m) nls ->
         In (i, t) (m_str m) -> t <> [] -> exists ds, directives t ds /\ In (bs "%[1]s") ds) /\
      forall lang dom, exists c, decode_po false lang dom po = Ok c /\
        (forall ctx id r, lookup tag c ctx id = r <-> answer (f_messages f) lang [] ctx id 0 r) /\
        forall ctx id n t, n <> NNil -> counted (f_messages f) ctx id -> ~ In (ctx, id) gs ->
          translation (f_messages f) ctx id 0 t ->
          exists i txt, translation (f_messages f) ctx id i txt /\
            lookup_plural tag c ctx id n = Ok (txt, None).
  Proof.
    unfold examine. destruct (parse_po_fuel (S (length po)) true po) as [f| | |] eqn:P; try discriminate.
    destruct (h_unknown (f_header f)) eqn:U; [|discriminate].
    destruct (header_bound _) as [k|] eqn:HB; [|discriminate]. intro H. injection H as H1 H2 H3.
    exists f. split; [reflexivity|]. pose proof (parse_po_nodup _ _ _ _ P) as ND. split; [exact ND|]. split; [|split].
    - intros m i t I L NB S NE. apply live_iff in L.
      assert (B : bad m = false).
      { destruct (bad m) eqn:B; [|reflexivity]. exfalso. apply NB. subst bds. apply in_map. apply filter_In. auto. }
      unfold bad in B. rewrite L in B. cbn [andb] in B.
      assert (F : bad_form m t = false).
      { destruct (bad_form m t) eqn:F; [|reflexivity]. exfalso. rewrite (proj2 (existsb_exists _ _)) in B; [discriminate|].
        exists (i, t). split; assumption. }
      unfold bad_form in F. destruct t as [|a t]; [congruence|]. cbn [is_nil negb andb] in F.
      destruct (usesd (m_id m) (a :: t)) eqn:S1; [left; apply usesd_ok; exact S1|]. cbn [negb andb] in F.
      destruct (m_pl m) as [|b p] eqn:Q; [discriminate|]. cbn [is_nil negb andb] in F. right.
      split; [discriminate|]. apply usesd_ok. apply negb_false_iff in F. exact F.
    - intros m w i t I W K NN S NE. exists (dirs None t). split; [apply dirs_ok|].
      assert (B : numberless m = false).
      { destruct (numberless m) eqn:B; [|reflexivity]. exfalso. apply NN. subst nls. apply in_map. apply filter_In. auto. }
      unfold numberless in B. assert (LG : is_large m = true).
      { unfold is_large. unfold key in K. injection K as KC KI. rewrite KC. cbn [is_nil andb]. apply existsb_exists. exists w.
        split; [exact W|]. apply beq_eq. exact KI. }
      rewrite LG in B. cbn [andb] in B.
      destruct (existsb (beq (bs "%[1]s")) (dirs None t)) eqn:F.
      + apply existsb_exists in F as (x & I' & E). apply beq_eq in E. subst x. exact I'.
      + exfalso. rewrite (proj2 (existsb_exists _ _)) in B; [discriminate|]. exists (i, t). split; [exact S|].
        cbn [snd]. rewrite F. destruct t; [congruence|reflexivity].
    - intros lang dom. destruct (header_bound_ok _ _ HB) as (r & R & BD).
      assert (FG : header_get fold (f_header f) (bs "Plural-Forms") = header_get (fun r => r) (f_header f) (bs "Plural-Forms"))
        by reflexivity.
      assert (XG : header_get fold (f_header f) (bs "X-spreak-use-CLDR") = []).
      { unfold header_get. change (field_index header_names (bs "X-spreak-use-CLDR")) with (@None nat). rewrite U. reflexivity. }
      assert (NE : is_nil (header_get (fun r => r) (f_header f) (bs "Plural-Forms")) = false).
      { destruct (header_get _ _ _) eqn:E; [|reflexivity]. exfalso. revert R. vm_compute. discriminate. }
      assert (BC : build_catalog tag is_root tag_string base parent fold fuel f lang dom false =
                   Ok (GCat lang [] (rule_function r) (build_map (f_messages f)))).
      { rewrite build_cases. rewrite FG, XG, NE, R. reflexivity. }
      assert (D : decode_po false lang dom po = Ok (GCat lang [] (rule_function r) (build_map (f_messages f)))).
      { unfold GettextModel.decode_po. rewrite P. exact BC. }
      eexists. split; [exact D|]. split.
      + eapply C30_catalog_of_file; [exact ND|exact BC].
      + intros ctx id n t NN CT NG TR.
        assert (A : exists a, to_arg n = Some a) by (destruct n; [eexists; reflexivity|eexists; reflexivity|congruence]).
        destruct A as (a & A). destruct TR as (m & I & L & K & G0 & TN).
        set (i := evaluate r a).
        assert (BI : 0 <= i < k) by (subst i; unfold evaluate; apply BD).
        assert (FI : form m i <> []).
        { assert (GP : gap k m = false).
          { destruct (gap k m) eqn:GP; [|reflexivity]. exfalso. apply NG. rewrite <- H1, <- K. apply in_map. apply filter_In. auto. }
          unfold gap in GP. rewrite (proj2 (live_iff m) L), (counted_plural _ _ _ _ ND CT I K) in GP. cbn [andb] in GP.
          assert (F0 : is_nil (form m 0) = false).
          { unfold form. rewrite G0. destruct t; [congruence|reflexivity]. }
          rewrite F0 in GP. cbn [negb andb] in GP. apply negb_false_iff in GP.
          apply (forms_below_ok m _ i GP). lia. }
        exists i, (form m i). split.
        * exists m. split; [exact I|]. split; [exact L|]. split; [exact K|]. split; [apply form_str; exact FI|exact FI].
        * destruct (lookup_plural_answer tag (f_messages f) lang [] (rule_function r) ctx id n i ND) as (x & X & AN).
          { unfold rule_function. rewrite A. reflexivity. }
          rewrite X. f_equal. eapply (answer_fun tag); [exact ND|exact AN|]. apply an_found.
          exists m. split; [exact I|]. split; [exact L|]. split; [exact K|]. split; [apply form_str; exact FI|exact FI].
  Qed.
End Sound.

(** ** Single messages *)

Definition look {X} (po ctx id : bytes) (g : message -> X) : option X :=
  match parse_po_fuel (S (length po)) true po with
  | Ok f => option_map g (pick (f_messages f) ctx id)
  | _ => None
  end.
Lemma look_ok {X} po ctx id (g : message -> X) v : look po ctx id g = Some v ->
  exists f m, parse_po_fuel (S (length po)) true po = Ok f /\ In m (f_messages f) /\ live m /\ key m = (ctx, id) /\ g m = v.
Proof.
  unfold look. destruct (parse_po_fuel (S (length po)) true po) as [f| | |] eqn:P; try discriminate.
  destruct (pick (f_messages f) ctx id) as [m|] eqn:K; [|discriminate]. intro H. injection H as H.
  apply (pick_iff _ _ _ _ (parse_po_nodup _ _ _ _ P)) in K as (I & L & K). exists f, m. auto.
Qed.

(** ** The Hebrew file *)

Lemma map_eq_in {A B} (f g : A -> B) l x : map f l = map g l -> In x l -> f x = g x.
Proof.
  induction l as [|y l IH]; [intros _ []|]. cbn [map]. intros H [->|I]; injection H as H1 H2; [exact H1|exact (IH H2 I)].
Qed.
(** the rule in its header; the forms of some messages *)
Definition hebrew_rule : node :=
  NCond (NBin BAnd (NBin BEq NOp (NVal 1)) (NBin BEq (NBin BRem NOp (NVal 1)) (NVal 0))) (NVal 0)
    (NCond (NBin BAnd (NBin BEq NOp (NVal 2)) (NBin BEq (NBin BRem NOp (NVal 1)) (NVal 0))) (NVal 1)
      (NCond (NBin BAnd (NBin BAnd (NBin BEq (NBin BRem NOp (NVal 10)) (NVal 0)) (NBin BEq (NBin BRem NOp (NVal 1)) (NVal 0)))
                (NBin BGt NOp (NVal 10))) (NVal 2) (NVal 3))).
Definition probe (po : bytes) (keys : list (bytes * bytes)) :=
  match parse_po_fuel (S (length po)) true po with
  | Ok f =>
      match parse_forms (header_get (fun r => r) (f_header f) (bs "Plural-Forms")) with
      | Ok g => Some (h_unknown (f_header f), f_root g, match built_in_raw (compile_forms g) with Some _ => false | None => true end,
                      map (fun k => match pick (f_messages f) (fst k) (snd k) with
                                    | Some m => (map fst (m_str m), is_nil (form m 0), is_nil (m_pl m))
                                    | None => ([], true, true) end) keys)
      | _ => None
      end
  | _ => None
  end.

Lemma hebrew_three n : 0 <= n -> n <> 1 -> n <> 2 -> n mod 10 <> 0 \/ n <= 10 -> eval_node hebrew_rule n = 3.
Proof.
  intros N0 N1 N2 N3. unfold hebrew_rule. cbn [eval_node]. rewrite (Z.rem_mod_nonneg n 10) by lia.
  assert (B : forall b, (b2z b =? 1) = b) by (intros []; reflexivity). rewrite !B.
  replace (n =? 1) with false by lia. replace (n =? 2) with false by lia. cbn [andb].
  replace (10 =? 0) with false by lia. destruct N3 as [N3|N3].
  - replace (n mod 10 =? 0) with false by lia. reflexivity.
  - replace (n >? 10) with false by lia. rewrite andb_false_r. reflexivity.
Qed.

Section Hebrew.
  Variable tag : Type.
  Variable is_root : tag -> bool.
  Variable tag_string : tag -> bytes.
  Variable base : tag -> bytes * bool.
  Variable parent : tag -> tag.
  Variable fold : rune -> rune.
  Variable fuel : nat.
  Notation decode_po := (decode_po tag is_root tag_string base parent fold fuel).

  Lemma hebrew_ok po keys : probe po keys = Some ([], hebrew_rule, true, map (fun _ => ([0; 1; 2], false, false)) keys) ->
    exists f, parse_po_fuel (S (length po)) true po = Ok f /\
    forall ctx id, In (ctx, id) keys ->
      counted (f_messages f) ctx id /\ (exists t, translation (f_messages f) ctx id 0 t) /\
      forall lang dom, exists c, decode_po false lang dom po = Ok c /\
        forall k n, Z.abs n <= 2 ^ 53 -> Z.abs n <> 1 -> Z.abs n <> 2 -> (n mod 10 <> 0 \/ Z.abs n <= 10) ->
          lookup_plural tag c ctx id (NInt k n) = Ok (id, Some (MissingTranslation lang [] ctx id 3)).
  Proof.
    intro H. unfold probe in H.
    destruct (parse_po_fuel (S (length po)) true po) as [f| | |] eqn:P; try discriminate.
    destruct (parse_forms _) as [g| | |] eqn:G; try discriminate.
    injection H as HU HR HB HM. exists f. split; [reflexivity|].
    pose proof (parse_po_nodup _ _ _ _ P) as ND. intros ctx id I.
    assert (M : match pick (f_messages f) ctx id with
                | Some m => (map fst (m_str m), is_nil (form m 0), is_nil (m_pl m))
                | None => ([], true, true) end = ([0; 1; 2], false, false)).
    { exact (map_eq_in (fun k => match pick (f_messages f) (fst k) (snd k) with
                | Some m => (map fst (m_str m), is_nil (form m 0), is_nil (m_pl m))
                | None => ([], true, true) end) (fun _ => ([0; 1; 2], false, false)) keys (ctx, id) HM I). }
    destruct (pick (f_messages f) ctx id) as [m|] eqn:PK; [|discriminate]. injection M as M1 M2 M3.
    apply (pick_iff _ _ _ _ ND) in PK as (IM & LM & KM).
    assert (HMS : has_message (f_messages f) ctx id) by (exists m; auto).
    split; [right; exists m; split; [exact IM|]; split; [exact KM|destruct (m_pl m); discriminate]|]. split.
    { exists (form m 0). assert (N : form m 0 <> []) by (destruct (form m 0); discriminate).
      exists m. repeat (split; [assumption|]). split; [apply form_str; exact N|exact N]. }
    assert (NT : forall t, ~ translation (f_messages f) ctx id 3 t).
    { intros t (m' & I' & L' & K' & S' & _). assert (m' = m) as ->.
      { assert (X : Some m' = Some m) by (transitivity (pick (f_messages f) ctx id); [symmetry|]; apply (pick_iff _ _ _ _ ND); auto).
        injection X as X. exact X. }
      clear - M1 S'. destruct (m_str m) as [|[a x] [|[b y] [|[c z] [|e l]]]]; try discriminate. injection M1 as -> -> ->. discriminate. }
    intros lang dom.
    assert (B : built_in_raw (compile_forms g) = None) by (destruct (built_in_raw _); [discriminate|reflexivity]).
    assert (R : parse_rule (header_get (fun r => r) (f_header f) (bs "Plural-Forms")) =
                Ok (Rule (f_nplurals g) (eval_node hebrew_rule))).
    { unfold parse_rule. rewrite G. cbn [rbind]. rewrite B, HR. reflexivity. }
    assert (NE : is_nil (header_get (fun r => r) (f_header f) (bs "Plural-Forms")) = false).
    { destruct (header_get _ _ _) eqn:Q; [|reflexivity]. exfalso. revert G. vm_compute. discriminate. }
    assert (XG : header_get fold (f_header f) (bs "X-spreak-use-CLDR") = []).
    { unfold header_get. change (field_index header_names (bs "X-spreak-use-CLDR")) with (@None nat). rewrite HU. reflexivity. }
    exists (GCat lang [] (rule_function (Rule (f_nplurals g) (eval_node hebrew_rule))) (build_map (f_messages f))). split.
    { unfold GettextModel.decode_po. rewrite P. cbn [rbind]. rewrite build_cases.
      change (header_get fold (f_header f) (bs "Plural-Forms")) with (header_get (fun r => r) (f_header f) (bs "Plural-Forms")).
      rewrite XG, NE, R. reflexivity. }
    intros k n B1 N1 N2 N3.
    assert (EV : evaluate (Rule (f_nplurals g) (eval_node hebrew_rule)) (AInt k n) = 3).
    { rewrite C07_integer_argument_partial by exact B1. cbn [r_form]. apply hebrew_three; [lia|assumption|assumption|].
      destruct N3 as [N3|N3]; [left|right; exact N3]. intro X. apply N3. apply Z.mod_divide; [lia|].
      apply Z.mod_divide in X; [|lia]. apply Z.divide_abs_r. exact X. }
    match goal with |- GettextModel.lookup_plural _ (GCat _ _ ?p _) _ _ _ = _ =>
      destruct (lookup_plural_answer tag (f_messages f) lang [] p ctx id (NInt k n) 3 ND) as (x & X & A) end.
    { unfold rule_function. cbn [to_arg]. rewrite EV. reflexivity. }
    rewrite X. f_equal. eapply (answer_fun tag); [exact ND|exact A|]. apply an_translation; assumption.
  Qed.
End Hebrew.

(** ** Formats *)

Definition letterb (r : Z) : bool := existsb (fun c => r =? Z.of_N (N_of_ascii c)) letters.
Fixpoint tokenize (esc : bool) (rs : list Z) : list token :=
  match rs with
  | [] => if esc then [Literal 92] else []
  | r :: rs' =>
      if esc then Literal r :: tokenize false rs'
      else if r =? 92 then tokenize true rs'
      else if letterb r then Field r :: tokenize false rs'
      else Literal r :: tokenize false rs'
  end.
Lemma letterb_ok r : letterb r = true <-> is_letter r.
Proof.
  unfold letterb, is_letter. rewrite existsb_exists. split.
  - intros (c & I & E). exists c. split; [exact I|lia].
  - intros (c & I & E). exists c. split; [exact I|lia].
Qed.
Lemma tokenize_ok rs : tokens rs (tokenize false rs) /\ tokens (92 :: rs) (tokenize true rs).
Proof.
  induction rs as [|r rs [I1 I2]]; cbn [tokenize].
  - split; constructor.
  - split; [|constructor; exact I1].
    destruct (Z.eqb_spec r 92) as [->|N]; [exact I2|]. destruct (letterb r) eqn:L.
    + apply tk_letter; [apply letterb_ok; exact L|exact I1].
    + apply tk_other; [exact N| |exact I1]. rewrite <- letterb_ok, L. discriminate.
Qed.
Definition fieldb (ts : list token) (l : bytes) : bool :=
  existsb (fun c => existsb (fun k => match k with Field r => r =? Z.of_N (N_of_ascii c) | Literal _ => false end) ts) l.
Lemma fieldb_ok ts l : fieldb ts l = true <-> has_field ts l.
Proof.
  unfold fieldb, has_field. rewrite existsb_exists. split; intros (c & I & H); exists c; (split; [exact I|]).
  - apply existsb_exists in H as ([r|r] & J & E); [|discriminate]. apply Z.eqb_eq in E. subst r. exact J.
  - apply existsb_exists. exists (Field (Z.of_N (N_of_ascii c))). split; [exact H|]. apply Z.eqb_refl.
Qed.
Definition shownb (s : bytes) (p : part) : bool :=
  let ts := tokenize false (runes s) in
  fieldb ts (shows p) || match p with Hour => fieldb ts (bs "ghf") && fieldb ts (bs "aA") | _ => false end.
Lemma shownb_ok s p : shownb s p = true -> exists ts, tokens (runes s) ts /\ shown ts p.
Proof.
  intro H. exists (tokenize false (runes s)). split; [apply tokenize_ok|]. unfold shownb in H. unfold shown.
  apply orb_true_iff in H as [H|H]; [left; apply fieldb_ok; exact H|right]. destruct p; try discriminate.
  apply andb_true_iff in H as [H1 H2]. split; [reflexivity|]. split; apply fieldb_ok; assumption.
Qed.
