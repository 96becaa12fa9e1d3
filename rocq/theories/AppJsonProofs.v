(** Lemmas for JSON files from the file to the text shown. *)
From Coq Require Import String Ascii List ZArith Bool Lia Permutation.
From Verif Require Import Base LocaleModel LoaderModel LoaderSpec TheoremsLoader LangModel LangSpec LangProofs CldrModel CldrBuiltin GettextModel GettextProofs
  TheoremsCldr JsonModel JsonSpec JsonProofs JTextModel JTextSpec JTextProofs JFileSpec JFileProofs TheoremsJText AppSpec AppJsonModel AppJsonSpec.
Import ListNotations.

(** one file, two message maps *)
Lemma file_entry l ms ms' k m : Forall (fun kv => plain_names (snd kv)) l -> file_messages l ms -> file_messages l ms' ->
  In (k, Some m) ms -> exists m', In (k, Some m') ms' /\ j_context m' = j_context m /\ forall c, cat_get (tr_of m') c = cat_get (tr_of m) c.
Proof.
  intros PN (_ & _ & _ & A2) (_ & _ & B1 & _) I. destruct (A2 _ _ I) as (v & L & EV). destruct (B1 _ _ L) as (o & I' & EV').
  cbn [entry_of] in EV. destruct o as [m'|]; cbn [entry_of] in EV'; [|subst v; inversion EV].
  assert (PV : plain_names v) by (rewrite Forall_forall in PN; apply (PN (k, v)); now apply last_member_in).
  destruct (same_texts v m m' PV EV EV') as (_ & X & Y). exists m'. split; [exact I'|]. split; [congruence|]. intro c. symmetry. apply Y.
Qed.
Lemma says_file l ms ms' ctx id c txt : Forall (fun kv => plain_names (snd kv)) l -> file_messages l ms -> file_messages l ms' ->
  says ms ctx id c txt -> says ms' ctx id c txt.
Proof.
  intros PN F F' (N & m & (I & X) & G). destruct (file_entry _ _ _ _ _ PN F F' I) as (m' & I' & X' & G').
  split; [exact N|]. exists m'. split; [split; [exact I'|congruence]|]. now rewrite G'.
Qed.
Lemma silent_file (tag : Type) l ms ms' (t : tag) d ctx id c e : Forall (fun kv => plain_names (snd kv)) l -> file_messages l ms -> file_messages l ms' ->
  silent ms t d ctx id c e -> silent ms' t d ctx id c e.
Proof.
  intros PN F F' H. pose proof (fun k m => file_entry l ms' ms k m PN F' F) as B. destruct H as [H|k m I X H|m (I & X) H].
  - apply si_context. intros k m I. destruct (B _ _ I) as (m' & I' & X & _). rewrite <- X. exact (H k m' I').
  - destruct (file_entry _ _ _ _ _ PN F F' I) as (m' & I' & X' & _). eapply si_message; [exact I'|congruence|].
    intros m2 (I2 & X2). destruct (B _ _ I2) as (m3 & I3 & X3 & _). apply (H m3). split; [exact I3|congruence].
  - destruct (file_entry _ _ _ _ _ PN F F' I) as (m' & I' & X' & G'). apply (si_text _ _ _ _ _ _ m'); [split; [exact I'|congruence]|].
    intros txt. rewrite G'. apply H.
Qed.
Lemma says_answer (tag : Type) ms cats (t : tag) d ctx id c txt : In c cats -> says ms ctx id c txt ->
  j_answer ms cats t d ctx id c (txt, None).
Proof. intros I (N & m & J & G). apply (ja_found _ _ _ _ _ _ _ m); [exact J|]. split; [exact N|]. split; [exact G|now right]. Qed.
Lemma silent_answer (tag : Type) ms cats (t : tag) d ctx id c e : silent ms t d ctx id c e ->
  j_answer ms cats t d ctx id c (id, Some e).
Proof.
  intros H. destruct H as [H|k m I X H|m J H].
  - apply ja_context. intros (k & m & I & X). exact (H k m I X).
  - apply ja_message; [exists k, m; auto|exact H].
  - apply (ja_translation _ _ _ _ _ _ _ m); [exact J|]. intros x (N & G & _). exact (N (H _ G)).
Qed.

Section App.
  Variable tag : Type.
  Variable is_root : tag -> bool.
  Variable tag_string : tag -> bytes.
  Variable base : tag -> bytes * bool.
  Variable parent : tag -> tag.
  Variable fuel : nat.
  Variable order : tag -> bytes -> bytes -> list category.
  Variable perm : tag -> bytes -> bytes -> list (bytes * bytes) -> list (bytes * bytes).
  Variable fperm : tag -> bytes -> bytes -> list (bytes * option jmsg) -> list (bytes * option jmsg).
  Hypothesis order_ok : forall t d s, every_category (order t d s).
  Hypothesis perm_ok : forall t d s x, Permutation x (perm t d s x).
  Hypothesis fperm_ok : forall t d s x, Permutation x (fperm t d s x).
  Notation json_decode := (json_decode tag is_root tag_string base parent fuel order perm fperm).
  Notation for_language := (for_language tag is_root tag_string base parent rule_set cldr_built_in).
  Notation decode := (fun t d s rs => decode_json_text tag (order t d s) (perm t d s) (fperm t d s) t d rs s).

  Lemma language_built_in f t r b : for_language f t = Ok (Some r, b) -> exists l, cldr_built_in l = Some r.
  Proof.
    assert (P : forall (o : option rule_set) x, Ok (o, x) = Ok (Some r, b) -> o = Some r) by (intros o x H; congruence).
    revert t. induction f as [|f IH]; intros t; cbn [LangModel.for_language].
    - destruct (is_root t); [|discriminate]. intro H. exists (bs "en"). exact (P _ _ H).
    - destruct (is_root t); [intro H; exists (bs "en"); exact (P _ _ H)|].
      destruct (cldr_built_in (tag_string t)) as [r'|] eqn:Q; [intro H; exists (tag_string t); rewrite Q; exact (P _ _ H)|].
      destruct (base t) as [bb [|]]; [|apply IH]. destruct (cldr_built_in bb) as [r'|] eqn:Q'; [|apply IH].
      intro H. exists bb. rewrite Q'. exact (P _ _ H).
  Qed.
  Lemma json_decode_rules t d s c : json_decode t d s = Ok c ->
    exists rs lg b, for_language fuel t = Ok (Some rs, b) /\ cldr_built_in lg = Some rs /\ decode t d s rs = Ok c.
  Proof.
    unfold AppJsonModel.json_decode. destruct (for_language fuel t) as [[[rs|] b]| | |] eqn:F; cbn [rbind fst]; try discriminate.
    intro H. destruct (language_built_in _ _ _ _ F) as (lg & B). exists rs, lg, b. auto.
  Qed.
  Lemma json_decode_deep t d s dp : depth tag is_root parent t dp -> (dp <= fuel)%nat ->
    exists rs, json_decode t d s = decode t d s rs /\
      (nearest tag tag_string base parent rule_set cldr_built_in t dp rs \/
       cldr_built_in (bs "en") = Some rs /\ nothing tag tag_string base parent rule_set cldr_built_in t dp).
  Proof.
    intros D L. unfold AppJsonModel.json_decode.
    destruct (for_language_spec tag is_root tag_string base parent rule_set cldr_built_in dp t D fuel L) as [(r & Q & N)|[Q N]];
      rewrite Q; cbn [rbind fst]; [eauto|].
    destruct (cldr_built_in (bs "en")) as [rs|] eqn:X; [eauto|]. rewrite en_rule in X. discriminate.
  Qed.
  Lemma json_read t d s l rs lg c : cldr_built_in lg = Some rs -> json_file s l -> decode t d s rs = Ok c ->
    exists c0, c = Some c0 /\ forall ms, file_messages l ms ->
      (forall ctx id txt, says ms ctx id Other txt -> j_lookup tag c0 ctx id = (txt, None)) /\
      (forall ctx id e, silent ms t d ctx id Other e -> j_lookup tag c0 ctx id = (id, Some e)) /\
      (forall ctx id n cat txt, rs_evaluate rs (to_carg n) = Ok cat -> says ms ctx id cat txt ->
         j_lookup_plural tag c0 ctx id n = Ok (txt, None)) /\
      (forall ctx id n cat e, rs_evaluate rs (to_carg n) = Ok cat -> silent ms t d ctx id cat e ->
         j_lookup_plural tag c0 ctx id n = Ok (id, Some e)) /\
      (forall ctx id n, rs_evaluate rs (to_carg n) = Err -> j_lookup_plural tag c0 ctx id n = Ok (id, Some PluralError)).
  Proof.
    intros B (DOC & PN) H. destruct c as [c0|].
    2:{ exfalso. apply (C66_outcomes tag (order t d s) (perm t d s) (fperm t d s) t d rs s) in H.
        pose proof (document_unique _ _ _ DOC H). discriminate. }
    exists c0. split; [reflexivity|]. intros ms F.
    destruct (C66_file tag (order t d s) (perm t d s) (fperm t d s) t d rs (perm_ok t d s) (fperm_ok t d s) (order_ok t d s) s l DOC PN) as (_ & A).
    destruct (A c0 H) as (ms0 & F0 & X). destruct (C10_category_of_language _ _ B) as (OT & _ & _ & _ & CI).
    assert (IC : forall n cat, rs_evaluate rs (to_carg n) = Ok cat -> In cat (rs_categories rs)).
    { intros n cat EV. destruct (CI _ _ EV) as (i & _ & _ & N). eapply nth_error_In. exact N. }
    assert (FUN : forall ctx id cat r r', j_answer ms0 (rs_categories rs) t d ctx id cat r -> j_answer ms0 (rs_categories rs) t d ctx id cat r' -> r = r').
    { intros ctx id cat r r'. apply (j_answer_fun tag). apply F0. }
    split; [|split; [|split; [|split]]].
    - intros ctx id txt S. apply (proj1 (X ctx id)). apply says_answer; [exact OT|]. exact (says_file _ _ _ _ _ _ _ PN F F0 S).
    - intros ctx id e S. apply (proj1 (X ctx id)). apply silent_answer. exact (silent_file _ _ _ _ _ _ _ _ _ _ PN F F0 S).
    - intros ctx id n cat txt EV S. destruct (proj1 (proj2 (X ctx id)) n cat EV) as (r & R1 & R2). rewrite R1. f_equal.
      eapply FUN; [exact R2|]. apply says_answer; [exact (IC _ _ EV)|]. exact (says_file _ _ _ _ _ _ _ PN F F0 S).
    - intros ctx id n cat e EV S. destruct (proj1 (proj2 (X ctx id)) n cat EV) as (r & R1 & R2). rewrite R1. f_equal.
      eapply FUN; [exact R2|]. apply silent_answer. exact (silent_file _ _ _ _ _ _ _ _ _ _ PN F F0 S).
    - intros ctx id n EV. exact (proj2 (proj2 (X ctx id)) n EV).
  Qed.

  (** ** Loading *)
  Variable E : Type.
  Variable parts : tag -> tag_parts.
  Variable clean : bytes -> bytes.
  Variable is_not_exist : E -> bool.
  Variable not_exist : E.
  Variable not_found : tag -> bytes -> E.
  Variable decode_error : bytes -> E -> E.
  Variable join_errors : E -> E -> E.
  Hypothesis not_exist_is : is_not_exist not_exist = true.
  Hypothesis decode_error_is : forall p e, is_not_exist (decode_error p e) = is_not_exist e.
  Notation load := (load tag number E is_not_exist not_found decode_error join_errors).
  Notation chosen := (chosen tag E parts clean is_not_exist not_exist).

  Lemma load_data l r ds t dom g s : chosen l r ds t dom (DData _ _ _ g) s ->
    (forall e, g t dom s = inr e -> is_not_exist e = false) ->
    exists p, load l t dom = match g t dom s with inl c => inl c | inr e => inr (EOther _ _ (decode_error p e)) end.
  Proof.
    intros (R & DS & ds1 & ext & ds2 & p & fl & Q & N & F & O & DT & ER & CL) NE. exists p.
    unfold LoaderModel.load. rewrite DS, Q. clear DS Q. induction ds1 as [|[e1 d1] ds1 IH].
    - cbn [app load_with]. unfold load_from_file. rewrite R.
      rewrite (proj2 (proj1 (C41_resolve tag E parts clean is_not_exist not_exist not_exist_is r _ _ _ _) p) F).
      rewrite O, DT, ER, CL. destruct (g t dom s) as [c|e]; [reflexivity|]. rewrite decode_error_is, (NE e); reflexivity.
    - cbn [app load_with]. unfold load_from_file at 1. rewrite R.
      destruct (C41_resolve tag E parts clean is_not_exist not_exist not_exist_is r (l_fsys tag number E l) e1 t dom) as (_ & R2 & R3).
      destruct (proj2 R2) as (e & RE). { intros p'. apply (N (e1, d1)). now left. }
      rewrite RE. rewrite (R3 _ RE), not_exist_is. apply IH. intros ed p' I. apply N. now right.
  Qed.
End App.
