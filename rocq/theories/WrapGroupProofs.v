(** wrapString on words separated by single blanks or line feeds: the lines
    are groups of consecutive words. *)
From Coq Require Import String Ascii List ZArith Bool Lia ZifyBool.
From Verif Require Import Base BaseProofs Utf8Model Utf8Proofs StrModel PoStrModel PoStrSpec PoStrProofs
  WrapProofs PoFileModel PoFileSpec TrimProofs.
Import ListNotations.
Open Scope Z_scope.

Fixpoint jr (l : list (list rune)) : list rune :=
  match l with
  | [] => []
  | [x] => x
  | x :: l' => x ++ 32 :: jr l'
  end.
Lemma jr_snoc : forall l x, l <> [] -> jr (l ++ [x]) = jr l ++ 32 :: x.
Proof.
  induction l as [|y l IH]; intros x N; [congruence|]. destruct l as [|z l]; [reflexivity|].
  change (jr ((y :: z :: l) ++ [x])) with (y ++ 32 :: jr ((z :: l) ++ [x])).
  change (jr (y :: z :: l)) with (y ++ 32 :: jr (z :: l)). rewrite IH by discriminate. now rewrite <- app_assoc.
Qed.

Inductive twr : list (list rune) -> list rune -> Prop :=
| tr_one : forall u, nobr u -> u <> [] -> twr [u] u
| tr_cons : forall u c us t, nobr u -> u <> [] -> c = 32 \/ c = NL -> twr us t -> twr (u :: us) (u ++ c :: t).

Definition sp_of (cur : list (list rune)) : list rune := match cur with [] => [] | _ => [32] end.
Definition at_word (gs : list (list (list rune))) (cur : list (list rune)) (p : list rune) (s : cst) : Prop :=
  s = CSt (map jr gs) (jr cur) p (sp_of cur) \/
  (cur <> [] /\ s = CSt (map jr (gs ++ [cur])) [] p []).

Lemma nobr_nl : forall r, breakable r = false -> r =? NL = false.
Proof. intros r H. destruct (Z.eqb_spec r NL) as [->|]; [discriminate|reflexivity]. Qed.

Lemma word_rune : forall w gs cur p s r, Forall (fun l => l <> []) cur -> breakable r = false -> at_word gs cur p s ->
  at_word gs cur (p ++ [r]) (cstep w s r).
Proof.
  intros w gs cur p s r NE B A. unfold cstep. rewrite (nobr_nl r B), breaking_breakable, B. cbv zeta.
  destruct A as [->|[N ->]]; cbn [c_lines c_line c_word c_space].
  - destruct (w <=? _); [|left; reflexivity]. destruct cur as [|x cur].
    + cbn [jr sp_of is_nil c_space]. left. reflexivity.
    + destruct (is_nil (jr (x :: cur))) eqn:E.
      * exfalso. pose proof (Forall_inv NE) as NX. cbn beta in NX. destruct cur as [|y cur].
        -- cbn [jr] in E. destruct x; [congruence|discriminate].
        -- change (jr (x :: y :: cur)) with (x ++ 32 :: jr (y :: cur)) in E. destruct x; discriminate.
      * cbn [is_nil c_space c_lines c_line c_word]. right. split; [discriminate|]. rewrite map_app. reflexivity.
  - right. split; [exact N|]. cbn [is_nil c_space c_lines c_line c_word]. destruct (w <=? _); reflexivity.
Qed.
Lemma word_runes : forall w gs cur u p s, Forall (fun l => l <> []) cur -> nobr u -> at_word gs cur p s ->
  at_word gs cur (p ++ u) (fold_left (cstep w) u s).
Proof.
  intros w gs cur u. induction u as [|r u IH]; intros p s NE B A; cbn [fold_left]; [now rewrite app_nil_r|].
  replace (p ++ r :: u) with ((p ++ [r]) ++ u) by (now rewrite <- app_assoc). inversion B; subst.
  apply IH; [assumption|assumption|]. now apply word_rune.
Qed.
Lemma flushed : forall gs cur p s, p <> [] -> at_word gs cur p s ->
  exists gs' cur', cflush s = CSt (map jr gs') (jr (cur' ++ [p])) [] [] /\ concat gs' ++ cur' = concat gs ++ cur /\
    (Forall (fun g => g <> []) gs -> Forall (fun g => g <> []) gs') /\
    (Forall (fun l => l <> []) cur -> Forall (fun l => l <> []) cur').
Proof.
  intros gs cur p s N [->|[NC ->]].
  - exists gs, cur. split; [|split; [reflexivity|split; auto]]. unfold cflush. cbn [c_lines c_line c_word c_space]. f_equal.
    destruct cur as [|x cur]; [reflexivity|]. now rewrite jr_snoc by discriminate.
  - exists (gs ++ [cur]), []. split; [reflexivity|]. split; [rewrite concat_app; cbn [concat]; now rewrite !app_nil_r|].
    split; [|intros _; constructor]. intro F. apply Forall_app. split; [exact F|]. constructor; [exact NC|constructor].
Qed.

Lemma wrap_groups_from : forall w us t, twr us t -> forall gs cur,
  Forall (fun g => g <> []) gs -> Forall (fun l => l <> []) cur ->
  exists gs', (let s := fold_left (cstep w) t (CSt (map jr gs) (jr cur) [] (sp_of cur)) in
               let s' := if is_nil (c_word s) then s else cflush s in
               c_lines s' ++ [c_line s']) = map jr gs' /\ concat gs' = concat gs ++ cur ++ us /\
    Forall (fun g => g <> []) gs'.
Proof.
  induction 1 as [u B N|u c us t B N C T IH]; intros gs cur FG FC; cbv zeta.
  - pose proof (word_runes w gs cur u [] _ FC B (or_introl eq_refl)) as A. cbn [app] in A.
    set (s := fold_left (cstep w) u _) in *.
    assert (CW : c_word s = u) by (destruct A as [->|[_ ->]]; reflexivity).
    destruct (flushed gs cur u s N A) as (gs' & cur' & E & CC & F1 & F2).
    rewrite CW. destruct (is_nil u) eqn:EU; [destruct u; [congruence|discriminate]|]. rewrite E. cbn [c_lines c_line].
    exists (gs' ++ [cur' ++ [u]]). split; [now rewrite map_app|]. split.
    + rewrite concat_app. cbn [concat]. rewrite app_nil_r, app_assoc, CC. now rewrite <- app_assoc.
    + apply Forall_app. split; [auto|]. constructor; [|constructor]. intro X. now apply app_eq_nil in X as [_ X].
  - rewrite fold_left_app. cbn [fold_left].
    pose proof (word_runes w gs cur u [] _ FC B (or_introl eq_refl)) as A. cbn [app] in A.
    set (s := fold_left (cstep w) u _) in *.
    assert (CW : c_word s = u) by (destruct A as [->|[_ ->]]; reflexivity).
    destruct (flushed gs cur u s N A) as (gs' & cur' & E & CC & F1 & F2).
    assert (EU : is_nil u = false) by (destruct u; [congruence|reflexivity]).
    assert (FC' : Forall (fun l => l <> []) (cur' ++ [u])).
    { apply Forall_app. split; [auto|]. constructor; [exact N|constructor]. }
    destruct C as [->| ->].
    + assert (ES : cstep w s 32 = CSt (map jr gs') (jr (cur' ++ [u])) [] (sp_of (cur' ++ [u]))).
      { unfold cstep. change (32 =? NL) with false. change (breaking 32) with true. cbn [negb]. cbv zeta iota.
        rewrite CW, EU, E. cbn [c_lines c_line c_word c_space app]. f_equal. destruct cur'; reflexivity. }
      rewrite ES. destruct (IH gs' (cur' ++ [u]) (F1 FG) FC') as (gs2 & EQ & CC2 & F3).
      exists gs2. split; [exact EQ|]. split; [|exact F3]. rewrite CC2. rewrite <- (app_assoc cur'), (app_assoc (concat gs')), CC.
      rewrite <- app_assoc. reflexivity.
    + assert (ES : cstep w s NL = CSt (map jr (gs' ++ [cur' ++ [u]])) (jr []) [] (sp_of [])).
      { unfold cstep. change (NL =? NL) with true. cbv zeta iota. rewrite CW, EU, E. cbn [c_lines c_line c_word c_space].
        now rewrite map_app. }
      rewrite ES. destruct (IH (gs' ++ [cur' ++ [u]]) []) as (gs2 & EQ & CC2 & F3).
      { apply Forall_app. split; [auto|]. constructor; [|constructor]. intro X. now apply app_eq_nil in X as [_ X]. }
      { constructor. }
      exists gs2. split; [exact EQ|]. split; [|exact F3]. rewrite CC2, concat_app. cbn [concat app]. rewrite app_nil_r.
      rewrite (app_assoc (concat gs')), CC. rewrite <- !app_assoc. reflexivity.
Qed.
Lemma wrap_groups : forall w us t, twr us t ->
  exists gs, wrap_words w t = map jr gs /\ concat gs = us /\ Forall (fun g => g <> []) gs.
Proof.
  intros w us t T. destruct (wrap_groups_from w us t T [] [] (Forall_nil _) (Forall_nil _)) as (gs & E & C & F).
  exists gs. split; [exact E|]. split; [exact C|exact F].
Qed.

Lemma word_runes_of : forall w, word w -> exists u, w = encode_all u /\ nobr u /\ u <> [] /\ Forall (fun r => scalar r = true) u.
Proof.
  intros w [N (u & -> & F)]. exists u. split; [reflexivity|]. split; [|split].
  - eapply Forall_impl; [|exact F]. intros r [_ H]. unfold breakable. now rewrite H.
  - intros ->. now apply N.
  - eapply Forall_impl; [|exact F]. now intros r [H _].
Qed.
Lemma text_runes : forall ws t, text_words ws t -> exists us rt, ws = map encode_all us /\ t = encode_all rt /\
  twr us rt /\ Forall (fun r => scalar r = true) rt.
Proof.
  induction 1 as [w W|w c ws t W C T (us & rt & -> & -> & TR & SC)];
    destruct (word_runes_of w W) as (u & -> & NB & NE & SU).
  - exists [u], u. repeat split; [now constructor|exact SU].
  - assert (X : exists z, (z = 32 \/ z = NL) /\ c = byte_of z /\ encode_rune z = [byte_of z] /\ scalar z = true).
    { destruct C as [->| ->]; [exists 32|exists NL]; repeat split; auto. }
    destruct X as (z & Z1 & -> & Z2 & Z3). exists (u :: us), (u ++ z :: rt). split; [reflexivity|]. split; [|split].
    + rewrite encode_all_app. f_equal. unfold encode_all. cbn [map concat]. now rewrite Z2.
    + now constructor.
    + apply Forall_app. split; [exact SU|]. now constructor.
Qed.
Lemma encode_jr : forall g, encode_all (jr g) = join [SP] (map encode_all g).
Proof.
  induction g as [|x g IH]; [reflexivity|]. destruct g as [|y g]; [reflexivity|].
  change (jr (x :: y :: g)) with (x ++ 32 :: jr (y :: g)). rewrite encode_all_app.
  change (map encode_all (x :: y :: g)) with (encode_all x :: map encode_all (y :: g)).
  change (join [SP] (encode_all x :: map encode_all (y :: g))) with (encode_all x ++ [SP] ++ join [SP] (map encode_all (y :: g))).
  rewrite <- IH. reflexivity.
Qed.
Theorem wrap_string_groups : forall w ws t, 0 < w -> text_words ws t ->
  exists gs, wrap_string t w = map (join [SP]) gs /\ concat gs = ws /\ Forall (fun g => g <> []) gs.
Proof.
  intros w ws t W T. destruct (text_runes ws t T) as (us & rt & -> & -> & TR & SC).
  destruct (wrap_groups w us rt TR) as (gs & E & C & F). exists (map (map encode_all) gs). split; [|split].
  - unfold wrap_string. destruct (w <=? 0) eqn:L; [lia|].
    rewrite <- (app_nil_r (encode_all rt)), runes_encode by exact SC. change (runes []) with (@nil rune). rewrite app_nil_r, E.
    rewrite !map_map. apply map_ext. apply encode_jr.
  - now rewrite <- concat_map, C.
  - apply Forall_map. eapply Forall_impl; [|exact F]. intros [|] N; [congruence|discriminate].
Qed.
