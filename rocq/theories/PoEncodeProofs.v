(** What the encoder writes is a layout of its messages. *)
From Coq Require Import String Ascii List ZArith Bool Lia ZifyBool Permutation.
From Verif Require Import Base BaseProofs Utf8Model Utf8Proofs StrModel PoStrModel PoStrSpec PoStrProofs
  WrapProofs PoFileModel PoFileSpec TrimProofs PoItemProofs PoSortProofs PoMergeProofs PoHeaderProofs WrapGroupProofs.
Import ListNotations.
Open Scope Z_scope.

(** ** Bytes as lines *)
Definition eol (l : bytes) : bytes := l ++ [LF].
Definition wl (b : bytes) (ls : list bytes) : Prop := b = concat (map eol ls) /\ Forall (fun l => ~ In LF l) ls.
Lemma wl_nil : wl [] [].
Proof. split; [reflexivity|constructor]. Qed.
Lemma wl_app : forall a la b lb, wl a la -> wl b lb -> wl (a ++ b) (la ++ lb).
Proof.
  intros a la b lb [-> A] [-> B]. split; [now rewrite map_app, concat_app|]. apply Forall_app. auto.
Qed.
Lemma wl_one : forall l, ~ In LF l -> wl (l ++ [LF]) [l].
Proof. intros l N. split; [cbn; now rewrite app_nil_r|]. constructor; [exact N|constructor]. Qed.

Lemma wl_cons : forall l b ls, ~ In LF l -> wl b ls -> wl (l ++ LF :: b) (l :: ls).
Proof.
  intros l b ls N W. pose proof (wl_app _ _ _ _ (wl_one l N) W) as X. rewrite <- app_assoc in X. exact X.
Qed.

(** ** Strings *)
Lemma quoted_lf : forall q v, quoted_text q v -> ~ In LF q.
Proof. intros q v (b & -> & B). apply quoted_no_lf. eapply po_body_no_lf; eauto. Qed.
Lemma source_split : forall t v, po_source t v -> exists q qs v0 vs,
  t ++ [LF] = q ++ LF :: concat (map eol qs) /\ quoted_text q v0 /\ Forall2 quoted_text qs vs /\ v = v0 ++ concat vs.
Proof.
  induction 1 as [b v B|b v t w B S (q & qs & v0 & vs & E & Q & QS & ->)].
  - exists (QUOTE :: b ++ [QUOTE]), [], v, []. split; [reflexivity|]. split; [now exists b|]. split; [constructor|].
    cbn. now rewrite app_nil_r.
  - exists (QUOTE :: b ++ [QUOTE]), (q :: qs), v, (v0 :: vs). split; [|split; [now exists b|split; [now constructor|reflexivity]]].
    cbn [map concat eol app]. unfold eol at 1. rewrite <- !app_assoc. cbn [app]. rewrite E. reflexivity.
Qed.
Lemma padded_self : forall t, padded t t.
Proof. intro t. exists [], []. split; [constructor|]. split; [constructor|]. now rewrite app_nil_r. Qed.
Lemma field_source : forall kw t v, ~ In LF kw -> po_source t v ->
  exists ls, wl (kw ++ SP :: t ++ [LF]) ls /\ field kw [] ls v.
Proof.
  intros kw t v K S. destruct (source_split t v S) as (q & qs & v0 & vs & E & Q & QS & ->).
  exists ((kw ++ SP :: q) :: qs). split.
  - rewrite E. replace (kw ++ SP :: q ++ LF :: concat (map eol qs)) with ((kw ++ SP :: q) ++ LF :: concat (map eol qs))
      by (rewrite <- app_assoc; reflexivity).
    apply wl_cons.
    + intro I. apply in_app_or in I as [I|[I|I]]; [now apply K|discriminate|]. now apply (quoted_lf q v0 Q).
    + split; [reflexivity|]. clear - QS. induction QS as [|x y qs vs H F IH]; constructor; auto. eapply quoted_lf; eauto.
  - apply (field_intro kw [] (kw ++ SP :: q) [] q v0 qs vs); [apply padded_self|constructor|exact Q|].
    clear - QS. induction QS as [|x y qs vs H F IH]; constructor; auto.
    exists x. split; [exact H|]. exists []. split; [constructor|]. split; [auto|]. apply padded_self.
Qed.
Lemma encode_field : forall kw v w, ~ In LF kw -> writable_text v ->
  exists t ls, encode_po v w = Ok t /\ wl (kw ++ SP :: t ++ [LF]) ls /\ field kw [] ls v.
Proof.
  intros kw v w K [V U]. destruct (encode_spec v w) as [[B E]|[B [t [E P]]]].
  - exfalso. apply U. now apply (encode_total_iff v w).
  - rewrite (sanitized_valid v V) in P. destruct (field_source kw t v K P) as (ls & W & F). exists t, ls. auto.
Qed.

(** ** Comments *)
Lemma word_lf : forall w, word w -> ~ In LF w.
Proof. intros w W. apply word_no_space; [exact W|reflexivity..]. Qed.
Lemma join_words : forall g, Forall word g -> g <> [] ->
  (exists a u, word a /\ join [SP] g = a ++ u) /\ (exists b v, word b /\ join [SP] g = v ++ b).
Proof.
  induction g as [|x g IH]; intros F N; [congruence|]. pose proof (Forall_inv F) as X. apply Forall_inv_tail in F.
  destruct g as [|y g]; [split; [exists x, []|exists x, []]; cbn [join]; (split; [exact X|]); [now rewrite app_nil_r|reflexivity]|].
  destruct (IH F) as [_ (b & v & B & E)]; [discriminate|].
  change (join [SP] (x :: y :: g)) with (x ++ [SP] ++ join [SP] (y :: g)). split.
  - exists x, ([SP] ++ join [SP] (y :: g)). auto.
  - exists b, (x ++ [SP] ++ v). split; [exact B|]. rewrite E, !app_assoc. reflexivity.
Qed.
Lemma join_clean : forall g, Forall word g -> g <> [] -> clean (join [SP] g) /\ join [SP] g <> [] /\ ~ In LF (join [SP] g).
Proof.
  intros g F N. destruct (join_words g F N) as [A B]. split; [now apply clean_ends|]. split; [now apply clean_ends_ne|].
  clear - F. induction g as [|x g IH]; [intros []|]. pose proof (Forall_inv F) as X. apply Forall_inv_tail in F.
  destruct g as [|y g]; [now apply word_lf|].
  change (join [SP] (x :: y :: g)) with (x ++ [SP] ++ join [SP] (y :: g)). intro I.
  apply in_app_or in I as [I|I]; [now apply (word_lf x X)|]. destruct I as [I|I]; [discriminate|]. now apply IH.
Qed.
Lemma text_words_word : forall ws t, text_words ws t -> Forall word ws.
Proof. induction 1; constructor; auto. Qed.
Lemma text_words_app : forall ws t ws' t' c, text_words ws t -> c = SP \/ c = LF -> text_words ws' t' ->
  text_words (ws ++ ws') (t ++ c :: t').
Proof.
  induction 1 as [w W|w d ws t W D T IH]; intros C T'.
  - now constructor.
  - rewrite <- app_assoc. cbn [app]. constructor; auto.
Qed.
Lemma join_text_words : forall g, Forall word g -> g <> [] -> text_words g (join [SP] g).
Proof.
  induction g as [|x g IH]; intros F N; [congruence|]. pose proof (Forall_inv F) as X. apply Forall_inv_tail in F.
  destruct g as [|y g]; [now constructor|]. change (join [SP] (x :: y :: g)) with (x ++ SP :: join [SP] (y :: g)).
  constructor; [exact X|now left|]. apply IH; [exact F|discriminate].
Qed.
Lemma groups_words : forall gs, Forall (fun g => g <> []) gs -> Forall word (concat gs) -> gs <> [] ->
  text_words (concat gs) (lines_text (map (join [SP]) gs)).
Proof.
  induction gs as [|g gs IH]; intros F W N; [congruence|]. cbn [concat] in W. apply Forall_app in W as [W1 W2].
  pose proof (Forall_inv F) as G. apply Forall_inv_tail in F. cbn [concat map lines_text].
  destruct gs as [|h gs]; [cbn [map concat]; rewrite app_nil_r; now apply join_text_words|].
  change (map (join [SP]) (h :: gs)) with (join [SP] h :: map (join [SP]) gs) at 1.
  apply text_words_app; [now apply join_text_words|now right|]. apply IH; [exact F|exact W2|discriminate].
Qed.
Lemma text_words_lines : forall ws t, text_words ws t -> exists gs, t = lines_text (map (join [SP]) gs) /\
  concat gs = ws /\ Forall (fun g => g <> []) gs /\ gs <> [].
Proof.
  induction 1 as [w W|w c ws t W C T (gs & -> & CC & F & N)].
  - exists [[w]]. split; [reflexivity|]. split; [reflexivity|]. split; [|discriminate]. constructor; [discriminate|constructor].
  - destruct gs as [|g gs]; [congruence|]. pose proof (Forall_inv F) as NG. cbn beta in NG. destruct C as [->| ->].
    + exists ((w :: g) :: gs). split; [|split; [|split; [|discriminate]]].
      * destruct g as [|x g]; [congruence|]. cbn [map].
        change (join [SP] (w :: x :: g)) with (w ++ SP :: join [SP] (x :: g)). cbn [lines_text].
        destruct (map (join [SP]) gs); [reflexivity|]. rewrite <- app_assoc. reflexivity.
      * cbn [concat app] in *. now rewrite CC.
      * constructor; [discriminate|]. now apply Forall_inv_tail in F.
    + exists ([w] :: g :: gs). split; [reflexivity|]. split; [cbn [concat app] in *; now rewrite CC|].
      split; [|discriminate]. constructor; [discriminate|exact F].
Qed.

(** translator and extracted comments *)
Lemma wrapped_lines : forall e w t, comment_text e w t -> t <> [] -> exists ls, wrap_string t w = ls /\
  Forall (fun x => clean x /\ ~ In LF x /\ (e = false -> x <> [])) ls /\ ls <> [] /\ hd [] ls <> [] /\
  same_text w t (lines_text ls).
Proof.
  intros e w t C N. destruct C as [|[(ws & T)|(W & l & ls & E & NL & F)]]; [congruence| |].
  - destruct (Z.leb_spec w 0) as [L|L].
    + destruct (text_words_lines ws t T) as (gs & E & CC & F & NG).
      assert (FL : Forall (fun x => clean x /\ x <> [] /\ ~ In LF x) (map (join [SP]) gs)).
      { apply Forall_map, Forall_forall. intros g I. apply join_clean.
        - apply text_words_word in T. rewrite <- CC in T. rewrite Forall_forall in *. intros x X. apply T.
          apply in_concat. eauto.
        - rewrite Forall_forall in F. now apply F. }
      exists (map (join [SP]) gs). split; [|split; [|split; [|split]]].
      * unfold wrap_string. destruct (w <=? 0) eqn:LE; [|lia]. rewrite E. apply split_lines_text.
        -- destruct gs; [congruence|discriminate].
        -- eapply Forall_impl; [|exact FL]. cbn. tauto.
      * eapply Forall_impl; [|exact FL]. cbn. tauto.
      * destruct gs; [congruence|discriminate].
      * destruct gs; [congruence|]. now apply Forall_inv in FL.
      * left. congruence.
    + destruct (wrap_string_groups w ws t L T) as (gs & E & CC & F).
      assert (FW : Forall word (concat gs)) by (rewrite CC; now apply text_words_word in T).
      assert (FL : Forall (fun x => clean x /\ x <> [] /\ ~ In LF x) (map (join [SP]) gs)).
      { apply Forall_map, Forall_forall. intros g I. apply join_clean.
        - rewrite Forall_forall in *. intros x X. apply FW. apply in_concat. eauto.
        - rewrite Forall_forall in F. now apply F. }
      assert (NG : gs <> []) by (intros ->; cbn in CC; subst ws; inversion T).
      exists (map (join [SP]) gs). split; [exact E|]. split; [eapply Forall_impl; [|exact FL]; cbn; tauto|].
      split; [destruct gs; [congruence|discriminate]|]. split; [destruct gs; [congruence|]; now apply Forall_inv in FL|].
      right. split; [exact L|]. exists ws. split; [exact T|]. rewrite <- CC. now apply groups_words.
  - exists (l :: ls). split; [|split; [exact F|split; [discriminate|split; [exact NL|left; congruence]]]].
    unfold wrap_string. destruct (w <=? 0) eqn:LE; [|lia]. rewrite E. apply split_lines_text; [discriminate|].
    eapply Forall_impl; [|exact F]. cbn. tauto.
Qed.

Lemma items_app : forall a la b lb, items_lines a la -> items_lines b lb -> items_lines (a ++ b) (la ++ lb).
Proof.
  intros a la b lb A B. induction A as [|i is l ls I A IH]; [exact B|]. cbn [app]. rewrite <- app_assoc. now constructor.
Qed.
Lemma comment_lines_wl : forall p w t ls, wrap_string t w = ls -> ~ In LF p -> Forall (fun x => ~ In LF x) ls ->
  wl (comment_lines p w t) (map (app p) ls).
Proof.
  intros p w t ls E P F. unfold comment_lines. rewrite E. clear E t. split.
  - f_equal. rewrite map_map. apply map_ext. intro l. unfold eol. now rewrite <- app_assoc.
  - apply Forall_map. eapply Forall_impl; [|exact F]. cbn. intros l N I. apply in_app_or in I as [I|I]; auto.
Qed.
Lemma trans_items : forall ls, Forall (fun x => clean x /\ ~ In LF x /\ (true = false -> x <> [])) ls ->
  items_lines (map ITrans ls) (map (app (bs "# ")) ls).
Proof.
  induction 1 as [|x ls (C & N & _) F IH]; [constructor|]. cbn [map].
  change ((bs "# " ++ x) :: map (app (bs "# ")) ls) with ([bs "# " ++ x] ++ map (app (bs "# ")) ls). constructor; [|exact IH].
  destruct x as [|a x].
  - apply il_empty. exists [], [SP]. split; [constructor|]. split; [|reflexivity]. constructor; [now left|constructor].
  - apply (il_trans _ []); [discriminate|exact C|constructor|apply padded_self].
Qed.
Lemma extr_items : forall ls, Forall (fun x => clean x /\ ~ In LF x /\ (false = false -> x <> [])) ls ->
  items_lines (map IExtr ls) (map (app (bs "#. ")) ls).
Proof.
  induction 1 as [|x ls (C & N & NE) F IH]; [constructor|]. cbn [map].
  change ((bs "#. " ++ x) :: map (app (bs "#. ")) ls) with ([bs "#. " ++ x] ++ map (app (bs "#. ")) ls). constructor; [|exact IH].
  apply (il_extr _ []); [now apply NE|exact C|constructor|apply padded_self].
Qed.
Lemma drop_empty_hd : forall ls, ls <> [] -> hd [] ls <> [] -> drop_empty ls = ls.
Proof. intros [|[|a x] ls] N H; cbn in *; congruence. Qed.

(** references *)
Lemma ref_text_ok : forall r, writable_ref r -> ref_text_of r (ref_text r).
Proof.
  intros r (W & N & C & L). unfold ref_text_of, ref_text. split; [exact W|]. split; [exact N|]. split; [exact C|]. destruct L as [L|L].
  - left. split; [exact L|]. rewrite L. cbn [Z.ltb Z.compare]. apply app_nil_r.
  - right. exists (utoa (r_line r)). destruct (utoa_spec (r_line r)) as (U1 & U2 & U3); [lia|].
    split; [exact U1|]. split; [apply Forall_forall; now rewrite forallb_forall in U2|]. split; [exact U3|]. split; [lia|].
    destruct (0 <? r_line r) eqn:E; [|lia]. unfold itoa. destruct (r_line r <? 0) eqn:F; [lia|reflexivity].
Qed.
Lemma refs_text_ok : forall rs, Forall writable_ref rs -> rs <> [] -> refs_text rs (join [SP] (map ref_text rs)).
Proof.
  induction rs as [|r rs IH]; intros F N; [congruence|]. pose proof (Forall_inv F) as R. apply Forall_inv_tail in F.
  destruct rs as [|q rs]; [constructor; now apply ref_text_ok|].
  change (join [SP] (map ref_text (r :: q :: rs))) with (ref_text r ++ SP :: join [SP] (map ref_text (q :: rs))).
  constructor; [now apply ref_text_ok|]. apply IH; [exact F|discriminate].
Qed.
Lemma map_concat_inv : forall A B (f : A -> B) gs l, concat gs = map f l ->
  exists hs, gs = map (map f) hs /\ concat hs = l.
Proof.
  intros A B f. induction gs as [|g gs IH]; intros l E.
  - exists []. split; [reflexivity|]. destruct l; [reflexivity|discriminate].
  - cbn [concat] in E. symmetry in E. apply map_eq_app in E as (l1 & l2 & -> & <- & E).
    symmetry in E. destruct (IH l2 E) as (hs & -> & <-). exists (l1 :: hs). auto.
Qed.
Lemma wrap_words_any : forall w ws, Forall word ws -> ws <> [] ->
  exists gs, wrap_string (join [SP] ws) w = map (join [SP]) gs /\ concat gs = ws /\ Forall (fun g => g <> []) gs.
Proof.
  intros w ws F N. destruct (Z.leb_spec w 0) as [L|L].
  - exists [ws]. split; [|split; [apply app_nil_r|constructor; [exact N|constructor]]].
    unfold wrap_string. destruct (w <=? 0) eqn:E; [|lia]. apply split_no_lf_end. now apply join_clean.
  - apply wrap_string_groups; [exact L|]. now apply join_text_words.
Qed.
Lemma ref_items : forall hs, Forall (fun g => g <> [] /\ Forall writable_ref g) hs ->
  items_lines (map IRefs hs) (map (app (bs "#: ")) (map (join [SP]) (map (map ref_text) hs))).
Proof.
  induction 1 as [|g hs (N & W) F IH]; [constructor|]. cbn [map].
  change (items_lines (IRefs g :: map IRefs hs) ([bs "#: " ++ join [SP] (map ref_text g)] ++ map (app (bs "#: ")) (map (join [SP]) (map (map ref_text) hs)))).
  constructor; [|exact IH]. apply (il_refs g (join [SP] (map ref_text g)) []); [now apply refs_text_ok|constructor|apply padded_self].
Qed.
Lemma refs_written : forall w rs, Forall writable_ref rs -> rs <> [] -> exists hs ls,
  wl (comment_lines (bs "#: ") w (join (bs " ") (map ref_text rs))) ls /\ items_lines (map IRefs hs) ls /\ concat hs = rs.
Proof.
  intros w rs F N. assert (FW : Forall word (map ref_text rs)).
  { apply Forall_map. eapply Forall_impl; [|exact F]. intros r R. eapply ref_word. now apply ref_text_ok. }
  destruct (wrap_words_any w (map ref_text rs) FW) as (gs & E & C & NE); [destruct rs; [congruence|discriminate]|].
  destruct (map_concat_inv _ _ _ _ _ C) as (hs & -> & CH).
  exists hs, (map (app (bs "#: ")) (map (join [SP]) (map (map ref_text) hs))).
  split; [|split; [|exact CH]].
  - apply comment_lines_wl; [exact E| |].
    + intro I. cbn in I. intuition discriminate.
    + apply Forall_map, Forall_forall. intros g I. apply join_clean.
      * rewrite Forall_forall in *. intros x X. apply FW. rewrite <- C. apply in_concat. eauto.
      * rewrite Forall_forall in NE. now apply NE.
  - apply ref_items. apply Forall_forall. intros g I. split.
    + rewrite Forall_forall in NE. intros ->. apply (NE (map ref_text [])); [now apply in_map|reflexivity].
    + rewrite <- CH in F. rewrite Forall_forall in *. intros r R. apply F. apply in_concat. eauto.
Qed.

(** flags *)
Lemma flags_text_ok : forall fs, Forall flag fs -> fs <> [] -> flags_text fs (join (bs ", ") fs).
Proof.
  induction fs as [|f fs IH]; intros F N; [congruence|]. pose proof (Forall_inv F) as R. apply Forall_inv_tail in F.
  destruct fs as [|g fs]; [now constructor|].
  change (join (bs ", ") (f :: g :: fs)) with (f ++ bs ", " ++ join (bs ", ") (g :: fs)).
  constructor; [exact R| |apply IH; [exact F|discriminate]]. split; [discriminate|].
  constructor; [right; now right|]. constructor; [now left|constructor].
Qed.
Lemma flags_lf : forall fs, Forall flag fs -> ~ In LF (join (bs ", ") fs).
Proof.
  induction fs as [|f fs IH]; intros F I; [destruct I|]. pose proof (Forall_inv F) as R. apply Forall_inv_tail in F.
  destruct fs as [|g fs]; [now apply (word_lf f (proj1 R))|].
  change (join (bs ", ") (f :: g :: fs)) with (f ++ bs ", " ++ join (bs ", ") (g :: fs)) in I.
  apply in_app_or in I as [I|I]; [now apply (word_lf f (proj1 R))|].
  apply in_app_or in I as [I|I]; [cbn in I; intuition discriminate|now apply IH].
Qed.

(** the comment read back *)
Definition exact_comment (w : Z) (c c' : comment) : Prop :=
  same_text w (cm_tr c) (cm_tr c') /\ same_text w (cm_ex c) (cm_ex c') /\
  cm_refs c = cm_refs c' /\ cm_flags c = cm_flags c' /\ cm_pctx c = cm_pctx c' /\ cm_pid c = cm_pid c'.

Lemma flat_const : forall A B (f : A -> list B) l, (forall x, f x = []) -> flat_map f l = [].
Proof. intros A B f l H. induction l as [|x l IH]; [reflexivity|]. cbn. now rewrite H. Qed.
Lemma flat_map_map : forall A B C (f : B -> list C) (g : A -> B) l, flat_map f (map g l) = flat_map (fun x => f (g x)) l.
Proof. intros A B C f g l. induction l as [|x l IH]; [reflexivity|]. cbn. now rewrite IH. Qed.
Lemma flat_single : forall A (l : list A), flat_map (fun x => [x]) l = l.
Proof. induction l as [|x l IH]; [reflexivity|]. cbn. now rewrite IH. Qed.
Lemma flat_id : forall A (l : list (list A)), flat_map (fun x => x) l = concat l.
Proof. induction l as [|x l IH]; [reflexivity|]. cbn. now rewrite IH. Qed.
Lemma com_of_parts : forall tr ex hs fl,
  com_of (map ITrans tr ++ map IExtr ex ++ map IRefs hs ++ map IFlags fl) =
  Com (lines_text (drop_empty tr)) (lines_text (drop_empty ex)) (concat hs) (concat fl) [] [].
Proof.
  intros tr ex hs fl. unfold com_of. rewrite !flat_map_app, !flat_map_map.
  rewrite ?flat_single, ?flat_id, ?(flat_const _ _ (fun _ => [])) by reflexivity. cbn [app]. now rewrite ?app_nil_r.
Qed.
Lemma text_part : forall e w t p, comment_text e w t -> ~ In LF p -> exists tls,
  Forall (fun x => clean x /\ ~ In LF x /\ (e = false -> x <> [])) tls /\
  wl (if is_nil t then [] else comment_lines p w t) (map (app p) tls) /\ same_text w t (lines_text (drop_empty tls)).
Proof.
  intros e w t p C P. destruct (is_nil t) eqn:EN.
  - destruct t; [|discriminate]. exists []. split; [constructor|]. split; [apply wl_nil|now left].
  - assert (N : t <> []) by (intros ->; discriminate).
    destruct (wrapped_lines e w t C N) as (ls & E & F & NE & NH & ST). exists ls. split; [exact F|]. split.
    + apply comment_lines_wl; [exact E|exact P|]. eapply Forall_impl; [|exact F]. cbn. tauto.
    + now rewrite drop_empty_hd.
Qed.
Lemma comment_written : forall o c, e_refs o = true -> writable_comment (e_width o) (the_comment c) ->
  exists is ls, wl (encode_comment o c) ls /\ items_lines is ls /\ exact_comment (e_width o) (the_comment c) (com_of is).
Proof.
  intros o c RO (T & X & R & F & P1 & P2). destruct c as [c|].
  2:{ exists [], []. split; [apply wl_nil|]. split; [constructor|]. repeat split; now left. }
  cbn [the_comment] in *. unfold encode_comment. rewrite RO, andb_true_r.
  destruct (text_part true _ _ (bs "# ") T) as (tl & FT & WT & ST); [cbn; intuition discriminate|].
  destruct (text_part false _ _ (bs "#. ") X) as (xl & FX & WX & SX); [cbn; intuition discriminate|].
  assert (RW : exists hs ls, wl (if negb (is_nil (cm_refs c)) then comment_lines (bs "#: ") (e_width o) (join (bs " ") (map ref_text (cm_refs c))) else []) ls /\
    items_lines (map IRefs hs) ls /\ concat hs = cm_refs c).
  { destruct (is_nil (cm_refs c)) eqn:E; cbn [negb].
    - exists [], []. split; [apply wl_nil|]. split; [constructor|]. destruct (cm_refs c); [reflexivity|discriminate].
    - apply refs_written; [exact R|]. intro Z. rewrite Z in E. discriminate. }
  destruct RW as (hs & rl & WR & IR & CR).
  assert (FW : exists fl ls, wl (if is_nil (cm_flags c) then [] else bs "#, " ++ join (bs ", ") (cm_flags c) ++ [LF]) ls /\
    items_lines (map IFlags fl) ls /\ concat fl = cm_flags c).
  { destruct (is_nil (cm_flags c)) eqn:E.
    - exists [], []. split; [apply wl_nil|]. split; [constructor|]. destruct (cm_flags c); [reflexivity|discriminate].
    - exists [cm_flags c], [bs "#, " ++ join (bs ", ") (cm_flags c)]. split; [|split].
      + rewrite app_assoc. apply wl_one. intro I. apply in_app_or in I as [I|I]; [cbn in I; intuition discriminate|].
        now apply flags_lf in I.
      + change (items_lines [IFlags (cm_flags c)] ([bs "#, " ++ join (bs ", ") (cm_flags c)] ++ [])). constructor; [|constructor].
        apply (il_flags (cm_flags c) (join (bs ", ") (cm_flags c)) []); [|constructor|apply padded_self].
        apply flags_text_ok; [exact F|]. intro Z. rewrite Z in E. discriminate.
      + apply app_nil_r. }
  destruct FW as (fl & fll & WF & IF & CF).
  exists (map ITrans tl ++ map IExtr xl ++ map IRefs hs ++ map IFlags fl),
    (map (app (bs "# ")) tl ++ map (app (bs "#. ")) xl ++ rl ++ fll).
  split; [|split].
  - apply wl_app; [exact WT|]. apply wl_app; [exact WX|]. now apply wl_app.
  - apply items_app; [now apply trans_items|]. apply items_app; [now apply extr_items|]. now apply items_app.
  - rewrite com_of_parts. unfold exact_comment. cbn [cm_tr cm_ex cm_refs cm_flags cm_pctx cm_pid]. repeat split; auto.
Qed.

(** ** Translations *)
Lemma encode_strs_ok : forall w m, Forall (fun e => writable_text (snd e)) m -> exists x, encode_strs w m = Ok x /\
  Forall2 (fun e e' => fst e = fst e' /\ encode_po (snd e) w = Ok (snd e') /\ po_source (snd e') (snd e)) m x.
Proof.
  intros w. induction m as [|[k v] m IH]; intro F; [exists []; split; [reflexivity|constructor]|].
  destruct (Forall_inv F) as [V U]. cbn [snd] in V, U. destruct (IH (Forall_inv_tail F)) as (x & E & G).
  destruct (encode_spec v w) as [[B E2]|[B [t [E2 P]]]].
  - exfalso. apply U. now apply (encode_total_iff v w).
  - rewrite (sanitized_valid v V) in P. exists ((k, t) :: x). cbn [encode_strs]. rewrite E2, E. cbn [rbind].
    split; [reflexivity|]. constructor; [auto|exact G].
Qed.
Lemma ins_map : forall A B (c : A -> A -> Z) (d : B -> B -> Z) (R : A -> B -> Prop) x y l m,
  (forall a b a' b', R a b -> R a' b' -> c a a' = d b b') -> R x y -> Forall2 R l m ->
  Forall2 R (ins_rev c x l) (ins_rev d y m).
Proof.
  intros A B c d R x y l m H XY F. induction F as [|a b l m AB F IH]; cbn [ins_rev]; [repeat constructor; auto|].
  rewrite (H x y a b XY AB). destruct (d y b <? 0); constructor; auto.
Qed.
Lemma sort_map : forall A B (c : A -> A -> Z) (d : B -> B -> Z) (R : A -> B -> Prop) l m,
  (forall a b a' b', R a b -> R a' b' -> c a a' = d b b') -> Forall2 R l m -> Forall2 R (sort c l) (sort d m).
Proof.
  intros A B c d R l m H F. unfold sort.
  assert (G : forall acc acc', Forall2 R acc acc' ->
    Forall2 R (fold_left (fun acc x => ins_rev c x acc) l acc) (fold_left (fun acc x => ins_rev d x acc) m acc')).
  { induction F as [|a b l m AB F IH]; intros acc acc' FA; [exact FA|]. cbn [fold_left]. apply IH. now apply ins_map. }
  specialize (G [] [] (Forall2_nil _)). revert G. generalize (fold_left (fun acc x => ins_rev c x acc) l []) as u.
  generalize (fold_left (fun acc x => ins_rev d x acc) m []) as v. intros v u G.
  induction G as [|a b u v AB G IH]; [constructor|]. cbn [rev]. apply Forall2_app; [exact IH|]. constructor; [exact AB|constructor].
Qed.
Definition klt (a b : Z * bytes) : Prop := fst a < fst b.
Lemma key_cmp_ok : forall m : strmap, NoDup (map fst m) -> cmp_ok (fun e => In e m) klt key_cmp.
Proof.
  intros m N. apply cmp_ok_of_cases.
  - unfold klt. intros x y z _ _ _. lia.
  - unfold klt. intros x _. lia.
  - intros x y IX IY. unfold klt, key_cmp. destruct (zcmp_spec (fst x) (fst y)) as [[L Z]|[[L Z]|[L Z]]]; rewrite Z.
    + left. lia.
    + right. left. split; [|reflexivity]. clear Z. induction m as [|e m IH]; [destruct IX|]. cbn [map] in N.
      apply NoDup_cons_iff in N as [NI N]. destruct IX as [->|IX], IY as [->|IY]; auto; exfalso; apply NI.
      * rewrite L. now apply in_map.
      * rewrite <- L. now apply in_map.
    + right. right. lia.
Qed.
Lemma seq_ordered : forall n i, ordered (fun a b => a < b) (map Z.of_nat (seq i n)).
Proof.
  intros n i. apply sorted_iff. revert i. induction n as [|n IH]; intro i; cbn [seq map]; constructor; [apply IH|].
  apply Forall_map, Forall_forall. intros x X. apply in_seq in X. lia.
Qed.
Lemma ordered_map : forall A B (f : A -> B) (r : B -> B -> Prop) l, ordered r (map f l) <-> ordered (fun a b => r (f a) (f b)) l.
Proof.
  intros A B f r l. rewrite <- !sorted_iff. split.
  - induction l as [|x l IH]; intro H; [constructor|]. cbn [map] in H. inversion H; subst. constructor; [auto|]. now apply Forall_map.
  - induction 1 as [|x l H IH F]; cbn [map]; constructor; [auto|]. now apply Forall_map.
Qed.
Lemma ordered_impl : forall A (r q : A -> A -> Prop) l, (forall a b, r a b -> q a b) -> ordered r l -> ordered q l.
Proof. intros A r q l H O a x b y c E. apply H. eapply O; eauto. Qed.
Lemma sort_keys : forall (m : strmap) n, Permutation (map fst m) (map Z.of_nat (seq 0 n)) ->
  map fst (sort key_cmp m) = map Z.of_nat (seq 0 n).
Proof.
  intros m n P. assert (ND : NoDup (map fst m)).
  { eapply Permutation_NoDup; [symmetry; exact P|]. apply FinFun.Injective_map_NoDup; [intros a b; lia|apply seq_NoDup]. }
  assert (OK : cmp_ok (fun _ : Z => True) Z.lt zcmp).
  { apply cmp_ok_of_cases; [intros; lia|intros; lia|]. intros x y _ _. destruct (zcmp_spec x y) as [[L Z]|[[L Z]|[L Z]]]; rewrite Z; lia. }
  apply (ordered_unique _ (fun _ => True) Z.lt zcmp); [exact OK|now apply Forall_forall| | |].
  - rewrite <- P. apply Permutation_map. symmetry. apply sort_perm.
  - apply ordered_map. eapply ordered_impl; [|apply (sort_ordered _ _ klt key_cmp m (key_cmp_ok m ND))].
    + unfold klt. cbn. intros a b [H| ->]; auto.
    + now apply Forall_forall.
  - eapply ordered_impl; [|apply seq_ordered]. cbn. intros a b H. now left.
Qed.

Lemma digits_lf : forall i, 0 <= i -> ~ In LF (utoa i).
Proof.
  intros i H I. destruct (utoa_spec i H) as (_ & D & _). rewrite forallb_forall in D. apply D in I. discriminate.
Qed.
Definition written (w : Z) (e e' : Z * bytes) : Prop :=
  fst e = fst e' /\ encode_po (snd e) w = Ok (snd e') /\ po_source (snd e') (snd e).
Lemma forms_written : forall w m x, Forall2 (written w) m x -> forall i n, map fst m = map Z.of_nat (seq i n) ->
  Z.of_nat (i + n) <= maxInt64 + 1 ->
  exists ls, wl (concat (map (fun e => bs "msgstr[" ++ itoa (fst e) ++ bs "] " ++ snd e ++ [LF]) x)) ls /\
    forms_lines (Z.of_nat i) ls m.
Proof.
  intros w. induction 1 as [|[k v] [k' t] m x (E & EN & PS) F IH]; intros i n M B.
  - exists []. split; [apply wl_nil|constructor].
  - cbn [fst snd] in *. subst k'. destruct n as [|n]; [discriminate|]. cbn [seq map fst] in M. injection M as -> M.
    destruct (IH (S i) n M) as (ls & W & FL); [rewrite <- B; apply inj_le; lia|].
    assert (B' : Z.of_nat i <= maxInt64) by (rewrite Nat2Z.inj_add, Nat2Z.inj_succ in B; lia).
    assert (KL : ~ In LF (bs "msgstr[" ++ utoa (Z.of_nat i) ++ bs "]")).
    { intro I. apply in_app_or in I as [I|I]; [cbn in I; intuition discriminate|].
      apply in_app_or in I as [I|I]; [now apply digits_lf in I; [|lia]|cbn in I; intuition discriminate]. }
    destruct (field_source _ t v KL PS) as (l1 & W1 & F1).
    exists (l1 ++ ls). split.
    + cbn [map concat fst snd]. apply wl_app; [|exact W].
      replace (bs "msgstr[" ++ itoa (Z.of_nat i) ++ bs "] " ++ t ++ [LF]) with
        ((bs "msgstr[" ++ utoa (Z.of_nat i) ++ bs "]") ++ SP :: t ++ [LF]); [exact W1|].
      unfold itoa. destruct (Z.of_nat i <? 0) eqn:Z; [lia|]. rewrite <- !app_assoc. reflexivity.
    + constructor; [exact B'|exact F1|]. replace (Z.of_nat i + 1) with (Z.of_nat (S i)) by lia. exact FL.
Qed.

Lemma Forall2_len : forall A B (R : A -> B -> Prop) l m, Forall2 R l m -> length l = length m.
Proof. induction 1; cbn; auto. Qed.
Definition stored (m : strmap) : strmap := match m with [_] => m | _ => sort key_cmp m end.
Lemma stored_perm : forall m, Permutation m (stored m).
Proof. intros [|a [|b m]]; [reflexivity|reflexivity|apply sort_perm]. Qed.

(** plural line and translations together *)
Lemma translations_written : forall w pl m, writable_text pl -> Forall (fun e => writable_text (snd e)) m ->
  writable_forms pl m ->
  let hp := negb (is_nil pl) || Nat.ltb 1 (length m) in
  exists p t ls, (if hp then do x <- encode_po pl w ; Ok (bs "msgid_plural " ++ x ++ [LF]) else Ok []) = Ok p /\
    encode_translations w hp m = Ok t /\ wl (p ++ t) ls /\ trans_lines ls pl (stored m).
Proof.
  intros w pl m PW MW (n & P & B & C). cbv zeta.
  assert (LEN : length m = n).
  { apply Permutation_length in P. rewrite !map_length, seq_length in P. exact P. }
  destruct (encode_strs_ok w m MW) as (x & EX & FX). unfold encode_translations. rewrite EX. cbn [rbind].
  assert (LX : length x = n) by (apply Forall2_len in FX; congruence).
  destruct C as [[-> ->]|N].
  - destruct m as [|[k v] [|? ?]]; try discriminate. cbn [is_nil negb length Nat.ltb Nat.leb orb].
    destruct x as [|[k' t] [|? ?]]; try discriminate. inversion FX as [|? ? ? ? (E & EN & PS) _]; subst. cbn [fst snd] in *. subst k'.
    cbn in P. apply Permutation_length_1 in P. subst k.
    destruct (field_source (bs "msgstr") t v) as (ls & W & F); [cbn; intuition discriminate|exact PS|].
    exists [], (bs "msgstr " ++ t ++ [LF]), ls. split; [reflexivity|]. split; [reflexivity|]. split; [exact W|]. now constructor.
  - assert (HP : negb (is_nil pl) || Nat.ltb 1 (length m) = true).
    { rewrite LEN. destruct (Nat.ltb_spec 1 n); [apply orb_true_r|lia]. }
    rewrite HP. destruct (encode_field (bs "msgid_plural") pl w) as (t & lp & ET & WP & FP); [cbn; intuition discriminate|exact PW|].
    rewrite ET. cbn [rbind]. eexists _, _.
    assert (FS : Forall2 (written w) (sort key_cmp m) (sort key_cmp x)).
    { apply sort_map; [|exact FX]. intros a b a' b' (E1 & _) (E2 & _). unfold key_cmp. congruence. }
    destruct (forms_written w _ _ FS 0%nat n (sort_keys m n P)) as (ls & W & FL); [cbn [Nat.add]; lia|].
    exists (lp ++ ls). split; [reflexivity|]. split; [|split].
    + destruct x as [|a [|b x]]; cbn [length] in LX; try lia. reflexivity.
    + apply wl_app; [exact WP|exact W].
    + assert (SM : stored m = sort key_cmp m) by (destruct m as [|a [|b m]]; cbn [length] in LEN; try lia; reflexivity).
      rewrite SM. constructor; [exact FP| |exact FL]. intro Z.
      assert (X : length (sort key_cmp m) = length m) by (apply Permutation_length; symmetry; apply sort_perm).
      rewrite Z in X. cbn in X. lia.
Qed.

(** ** Messages *)
Definition exact_message (w : Z) (m m' : message) : Prop :=
  exact_comment w (the_comment (m_com m)) (the_comment (m_com m')) /\ m_ctx m = m_ctx m' /\ m_id m = m_id m' /\
  m_pl m = m_pl m' /\ m_str m' = stored (m_str m).

Lemma message_written : forall o m, e_refs o = true -> writable_message (e_width o) m ->
  exists b ls m', encode_message o m = Ok b /\ wl b ls /\ entry_lines m' ls /\ exact_message (e_width o) m m'.
Proof.
  intros o m RO (C & NI & WC & WI & WP & WS & FO).
  destruct (comment_written o (m_com m) RO C) as (is & cl & CW & CI & CE).
  assert (X : exists x xl, (if is_nil (m_ctx m) then Ok [] else do x <- encode_po (m_ctx m) (e_width o) ; Ok (bs "msgctxt " ++ x ++ [LF])) = Ok x /\
    wl x xl /\ ctx_lines xl (m_ctx m)).
  { destruct (is_nil (m_ctx m)) eqn:E.
    - destruct (m_ctx m); [|discriminate]. exists [], []. split; [reflexivity|]. split; [apply wl_nil|constructor].
    - destruct (encode_field (bs "msgctxt") (m_ctx m) (e_width o)) as (t & ls & ET & W & F); [cbn; intuition discriminate|exact WC|].
      rewrite ET. cbn [rbind]. eexists _, ls. split; [reflexivity|]. split; [exact W|]. now constructor. }
  destruct X as (x & xl & EX & WX & FX).
  destruct (encode_field (bs "msgid") (m_id m) (e_width o)) as (i & il & EI & WI' & FI); [cbn; intuition discriminate|exact WI|].
  destruct (translations_written (e_width o) (m_pl m) (m_str m) WP WS FO) as (p & t & tl & EP & ET & WT & FT).
  exists (encode_comment o (m_com m) ++ x ++ bs "msgid " ++ i ++ [LF] ++ p ++ t), (cl ++ xl ++ il ++ tl),
    (Msg (Some (com_of is)) (m_ctx m) (m_id m) (m_pl m) (stored (m_str m))).
  split; [|split; [|split]].
  - unfold encode_message. rewrite EX, EI. cbn [rbind]. cbv zeta. rewrite EP. cbn [rbind]. rewrite ET. reflexivity.
  - apply wl_app; [exact CW|]. apply wl_app; [exact WX|].
    replace (bs "msgid " ++ i ++ [LF] ++ p ++ t) with ((bs "msgid" ++ SP :: i ++ [LF]) ++ p ++ t) by (rewrite <- app_assoc; cbn [app]; rewrite <- app_assoc; reflexivity).
    now apply wl_app.
  - now constructor.
  - split; [exact CE|]. repeat split.
Qed.

(** ** Header *)
Lemma plain_body : forall rs s v, Forall (fun r => scalar r = true /\ r <> 10 /\ r <> 34 /\ r <> 92) rs -> po_body s v ->
  po_body (encode_all rs ++ s) (encode_all rs ++ v).
Proof.
  induction 1 as [|r rs (S1 & N1 & N2 & N3) F IH]; intro B; [exact B|].
  unfold encode_all in *. cbn [map concat]. rewrite <- !app_assoc. constructor; auto.
Qed.
Lemma plain_lf : forall s, plain_text s -> ~ In LF s.
Proof.
  intros s (_ & rs & -> & F) I. assert (X : forall v, po_body [] v -> True) by auto. clear X.
  pose proof (plain_body rs [] [] F pb_nil) as B. rewrite app_nil_r in B. apply po_body_no_lf in B. now apply B.
Qed.
Lemma plain_names : Forall (fun n => plain_text n /\ ~ In ":"%char n) header_names.
Proof.
  apply Forall_forall. intros n N.
  assert (X : forallb (fun n => negb (is_nil n) && forallb (fun c => solid c && negb (Ascii.eqb c QUOTE) && negb (Ascii.eqb c BSLASH) && negb (Ascii.eqb c ":")) n) header_names = true)
    by (vm_compute; reflexivity).
  rewrite forallb_forall in X. specialize (X n N). apply andb_true_iff in X as [X1 X]. rewrite forallb_forall in X.
  assert (NN : n <> []) by (intros ->; discriminate).
  assert (Y : forall c, In c n -> solid c = true /\ c <> QUOTE /\ c <> BSLASH /\ c <> ":"%char).
  { intros c I. apply X in I. rewrite !andb_true_iff, !negb_true_iff in I. destruct I as [[[I1 I2] I3] I4].
    apply Ascii.eqb_neq in I2, I3, I4. auto. }
  split; [|intro I; now apply Y in I].
  assert (W : word n).
  { split; [exact NN|]. exists (map bval n). split.
    - clear - Y. induction n as [|c n IH]; [reflexivity|]. unfold encode_all in *. cbn [map concat].
      rewrite encode_byte; [|specialize (Y c (or_introl eq_refl)); unfold solid in Y; lia]. cbn [app]. rewrite <- IH; [reflexivity|].
      intros d D. apply Y. now right.
    - apply Forall_map, Forall_forall. intros c I. apply Y in I as (S1 & _). unfold solid in S1.
      apply andb_true_iff in S1 as [S1 S2]. apply negb_true_iff in S2. split; [apply solid_scalar; lia|exact S2]. }
  split; [now apply word_clean|]. destruct W as [_ (rs & E & F)]. exists (map bval n). split.
  - clear - Y. induction n as [|c n IH]; [reflexivity|]. unfold encode_all in *. cbn [map concat].
    rewrite encode_byte; [|specialize (Y c (or_introl eq_refl)); unfold solid in Y; lia]. cbn [app]. rewrite <- IH; [reflexivity|].
    intros d D. apply Y. now right.
  - apply Forall_map, Forall_forall. intros c I. destruct (Y c I) as (S1 & N1 & N2 & _). unfold solid in S1.
    split; [apply solid_scalar; lia|]. split; [intro Z; rewrite Z in S1; discriminate|]. split; intro Z.
    + apply N1. apply bval_inj. rewrite Z. reflexivity.
    + apply N2. apply bval_inj. rewrite Z. reflexivity.
Qed.

(** known fields *)
Definition keep (e : bytes * bytes) : bool := negb (optional_name (fst e) && is_nil (snd e)).
Lemma index_names : forall i, (i < length header_names)%nat -> field_index header_names (nth i header_names []) = Some i.
Proof.
  intros i L. assert (X : forallb (fun i => match field_index header_names (nth i header_names []) with Some j => Nat.eqb i j | None => false end)
    (seq 0 (length header_names)) = true) by (vm_compute; reflexivity).
  rewrite forallb_forall in X. specialize (X i). rewrite in_seq in X. specialize (X ltac:(lia)).
  destruct (field_index header_names (nth i header_names [])) as [j|]; [|discriminate].
  apply Nat.eqb_eq in X. now subst.
Qed.
Lemma set_nth_app : forall A (a : list A) x y b, set_nth (length a) y (a ++ x :: b) = a ++ y :: b.
Proof. intros A a x y b. induction a as [|z a IH]; [reflexivity|]. cbn. now rewrite IH. Qed.
Lemma known_set : forall suf vs pre done u com, header_names = pre ++ suf -> length done = length pre -> length vs = length suf ->
  set_all (filter keep (combine suf vs)) (Hdr com (done ++ repeat [] (length suf)) u) = Hdr com (done ++ vs) u.
Proof.
  induction suf as [|n suf IH]; intros vs pre done u com E LD LV.
  - destruct vs; [|discriminate]. reflexivity.
  - destruct vs as [|v vs]; [discriminate|]. cbn [combine filter length repeat].
    assert (IX : field_index header_names n = Some (length pre)).
    { pose proof (index_names (length pre)) as X. rewrite E in X at 3. rewrite app_nth2, Nat.sub_diag in X by lia. cbn [nth] in X.
      apply X. rewrite E, app_length. cbn. lia. }
    assert (G : forall v, set_all (filter keep (combine suf vs)) (Hdr com (done ++ v :: repeat [] (length suf)) u) = Hdr com (done ++ v :: vs) u).
    { intro v'. replace (done ++ v' :: repeat [] (length suf)) with ((done ++ [v']) ++ repeat [] (length suf)) by (now rewrite <- app_assoc).
      rewrite (IH vs (pre ++ [n]) (done ++ [v'])).
      - now rewrite <- app_assoc.
      - now rewrite <- app_assoc.
      - rewrite !app_length. cbn. lia.
      - cbn in LV. lia. }
    destruct (keep (n, v)) eqn:K.
    + unfold set_all. cbn [fold_left fst snd]. unfold header_set at 2. rewrite IX. cbn [h_com h_known h_unknown].
      rewrite <- LD, set_nth_app. apply G.
    + unfold keep in K. cbn [fst snd] in K. destruct v; [apply G|]. rewrite andb_false_r in K. discriminate.
Qed.
Lemma known_index : forall k, ascii_text k -> ~ known_name k -> field_index header_names k = None.
Proof.
  intros k A. unfold known_name. pose proof names_ascii as NA. revert NA. generalize header_names.
  induction l as [|n l IH]; intros NA N; [reflexivity|]. cbn [field_index].
  destruct (beq (kw_upper k) (kw_upper n)) eqn:E.
  - exfalso. apply N. exists n. split; [now left|]. apply beq_eq in E. apply kw_ci in E; [exact E|exact A|now apply Forall_inv in NA].
  - rewrite (IH (Forall_inv_tail NA)); [reflexivity|]. intros (m & I & C). apply N. exists m. split; [now right|exact C].
Qed.
Lemma smap_new : forall m k v, ~ In k (map fst m) -> smap_set m k v = m ++ [(k, v)].
Proof.
  induction m as [|[j w] m IH]; intros k v N; [reflexivity|]. cbn [smap_set map fst In] in *.
  destruct (beq j k) eqn:E; [apply beq_eq in E; tauto|]. rewrite IH by tauto. reflexivity.
Qed.
Lemma unknown_set : forall kvs h, Forall (fun e => ascii_text (fst e) /\ ~ known_name (fst e)) kvs ->
  NoDup (map fst (h_unknown h) ++ map fst kvs) ->
  set_all (filter keep kvs) h = Hdr (h_com h) (h_known h) (h_unknown h ++ kvs).
Proof.
  induction kvs as [|[k v] kvs IH]; intros h F N.
  - cbn. rewrite app_nil_r. now destruct h.
  - destruct (Forall_inv F) as [A U]. cbn [fst] in A, U. cbn [filter].
    assert (K : keep (k, v) = true).
    { unfold keep. cbn [fst snd]. destruct (optional_name k) eqn:O; [|reflexivity]. exfalso. apply U.
      unfold optional_name in O. rewrite !orb_true_iff in O. unfold known_name.
      destruct O as [[O|O]|O]; apply beq_eq in O; subst k; eexists; (split; [|reflexivity]); cbn [header_names In]; tauto. }
    rewrite K. unfold set_all. cbn [fold_left fst snd]. unfold header_set at 2. rewrite (known_index k A U).
    cbn [map fst] in N. pose proof (NoDup_remove_2 _ _ _ N) as NI. rewrite in_app_iff in NI.
    rewrite smap_new by tauto. change (set_all (filter keep kvs) (Hdr (h_com h) (h_known h) (h_unknown h ++ [(k, v)])) = Hdr (h_com h) (h_known h) (h_unknown h ++ (k, v) :: kvs)).
    rewrite (IH (Hdr (h_com h) (h_known h) (h_unknown h ++ [(k, v)]))).
    + cbn [h_com h_known h_unknown]. now rewrite <- app_assoc.
    + now apply Forall_inv_tail in F.
    + cbn [h_unknown]. rewrite map_app, <- app_assoc. exact N.
Qed.

(** the fields written *)
Definition fields_of (h : header) : list (bytes * bytes) := combine header_names (h_known h) ++ h_unknown h.
Lemma fields_set : forall w h, writable_header w h ->
  set_all (filter keep (fields_of h)) new_header = Hdr None (h_known h) (h_unknown h).
Proof.
  intros w h (_ & L & _ & U & N). unfold fields_of. rewrite filter_app. unfold set_all. rewrite fold_left_app.
  fold (set_all (filter keep (combine header_names (h_known h))) new_header).
  unfold new_header. change (repeat [] (length header_names)) with ([] ++ repeat (@nil ascii) (length header_names)).
  rewrite (known_set header_names (h_known h) []); [|reflexivity|reflexivity|exact L].
  fold (set_all (filter keep (h_unknown h)) (Hdr None ([] ++ h_known h) [])).
  rewrite unknown_set; [reflexivity| |exact N]. eapply Forall_impl; [|exact U]. cbn. tauto.
Qed.

Definition field_ok (e : bytes * bytes) : Prop := plain_text (fst e) /\ ~ In ":"%char (fst e) /\ plain_text (snd e).
Lemma fields_ok : forall w h, writable_header w h -> Forall field_ok (fields_of h).
Proof.
  intros w h (_ & L & K & U & _). unfold fields_of. apply Forall_app. split.
  - apply Forall_forall. intros [n v] I. pose proof (in_combine_l _ _ _ _ I) as IL. pose proof (in_combine_r _ _ _ _ I) as IR.
    pose proof plain_names as PN. rewrite Forall_forall in PN, K. destruct (PN n IL). split; [assumption|]. split; [assumption|]. now apply K.
  - eapply Forall_impl; [|exact U]. unfold field_ok. cbn. tauto.
Qed.
Definition hline (e : bytes * bytes) : bytes := QUOTE :: (fst e ++ bs ": " ++ snd e ++ [BSLASH; "n"%char]) ++ [QUOTE].
Lemma hline_quoted : forall e, field_ok e -> quoted_text (hline e) (fst e ++ bs ": " ++ snd e ++ [LF]).
Proof.
  intros [k v] ((_ & rs & E1 & F1) & _ & (_ & qs & E2 & F2)). cbn [fst snd] in *. unfold hline. cbn [fst snd].
  eexists. split; [reflexivity|]. rewrite E1, E2. apply plain_body; [exact F1|].
  change (bs ": ") with (encode_all [58; 32]). apply plain_body.
  - repeat constructor; discriminate.
  - apply plain_body; [exact F2|]. change [LF] with (byte_of 10 :: []). constructor; [|constructor].
    cbn [po_escapes In]. tauto.
Qed.
Lemma header_lines_wl : forall fs, Forall field_ok fs ->
  wl (concat (map header_line fs)) (map hline (filter keep fs)).
Proof.
  induction 1 as [|e fs O F IH]; [apply wl_nil|]. cbn [map concat filter]. unfold header_line at 1, keep at 1.
  destruct (optional_name (fst e) && is_nil (snd e)); cbn [negb]; [exact IH|].
  cbn [map]. replace (QUOTE :: fst e ++ bs ": " ++ snd e ++ [BSLASH; "n"%char; QUOTE; LF]) with (hline e ++ [LF]).
  - rewrite <- app_assoc. apply wl_cons; [|exact IH]. eapply quoted_lf, hline_quoted, O.
  - unfold hline. cbn [app]. rewrite <- !app_assoc. reflexivity.
Qed.
Lemma header_written : forall o h, e_refs o = true -> e_empty_header o = true -> writable_header (e_width o) h ->
  exists ls is kvs, wl (encode_header o h) ls /\ header_lines_of is kvs ls /\
    exact_comment (e_width o) (the_comment (h_com h)) (com_of is) /\
    set_all kvs new_header = Hdr None (h_known h) (h_unknown h).
Proof.
  intros o h RO EO W. pose proof W as (C & _).
  destruct (comment_written o (h_com h) RO C) as (is & cl & CW & CI & CE).
  pose proof (fields_ok _ _ W) as FO. set (kvs := filter keep (fields_of h)).
  assert (FK : Forall field_ok kvs) by (apply Forall_forall; intros e I; apply filter_In in I as [I _]; rewrite Forall_forall in FO; now apply FO).
  exists (cl ++ [bs "msgid """""] ++ (bs "msgstr """"" :: map hline kvs)), is, kvs.
  split; [|split; [|split; [exact CE|now apply (fields_set (e_width o))]]].
  - unfold encode_header. cbv zeta. rewrite EO. cbn [negb andb]. fold (fields_of h).
    apply wl_app; [exact CW|]. rewrite app_assoc. apply wl_app; [apply wl_one; vm_compute; intuition discriminate|].
    change ([LF] ++ concat (map header_line (fields_of h))) with (LF :: concat (map header_line (fields_of h))).
    apply wl_cons; [vm_compute; intuition discriminate|]. now apply header_lines_wl.
  - assert (Q : quoted_text (bs """""") []) by (exists []; split; [reflexivity|constructor]).
    apply (hl_intro is cl [bs "msgid """""] (bs "msgstr """"" :: map hline kvs) kvs ([] ++ concat (map (fun e => fst e ++ bs ": " ++ snd e ++ [LF]) kvs))).
    + exact CI.
    + change (@nil ascii) with ([] ++ concat (@nil bytes)) at 2.
      apply (field_intro (bs "msgid") [] (bs "msgid """"") [] (bs """""") [] [] []); [apply padded_self|constructor|exact Q|constructor].
    + apply (field_intro (bs "msgstr") [] (bs "msgstr """"") [] (bs """""") []); [apply padded_self|constructor|exact Q|].
      clear - FK. induction FK as [|e kvs O F IH]; [constructor|]. cbn [map]. constructor; [|exact IH].
      exists (hline e). split; [now apply hline_quoted|]. exists []. split; [constructor|]. split; [auto|]. apply padded_self.
    + split; [|reflexivity]. eapply Forall_impl; [|exact FK]. intros e (P1 & N1 & P2).
      split; [apply P1|]. split; [exact N1|]. split; [now apply plain_lf|]. split; [apply P2|now apply plain_lf].
Qed.
