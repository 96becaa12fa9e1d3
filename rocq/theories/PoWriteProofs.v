(** Proofs for writing with all options: writing is writing what is kept. *)
From Coq Require Import String Ascii List ZArith Bool Lia ZifyBool Permutation.
From Verif Require Import Base BaseProofs Utf8Model StrModel PoStrModel PoStrSpec PoStrProofs PoDecodeProofs
  PoFileModel PoFileSpec PoSortProofs PoMergeProofs PoHeaderProofs PoParseProofs PoOutcomeProofs PoEncodeProofs
  PoRoundProofs PoWriteSpec.
Import ListNotations.
Open Scope Z_scope.

Definition full (o : enc_opts) : enc_opts := EncOpts (e_width o) (e_header o) true true.
Definition keep_refs (o : enc_opts) (c : comment) : list reference :=
  if e_refs o then map kept_ref (cm_refs c) else [].
Definition keep_com (o : enc_opts) (c : option comment) : comment :=
  let c := the_comment c in Com (cm_tr c) (cm_ex c) (keep_refs o c) (cm_flags c) [] [].
Definition keep_forms (p : bytes) (m : strmap) : strmap :=
  match m with
  | [] => if is_nil p then [(0, [])] else [(0, []); (1, [])]
  | [(k, v)] => if is_nil p then m else [(k, v); (1, [])]
  | _ => m
  end.
Definition keep_msg (o : enc_opts) (m : message) : message :=
  Msg (Some (keep_com o (m_com m))) (m_ctx m) (m_id m) (m_pl m) (keep_forms (m_pl m) (m_str m)).
Definition keep_hdr (o : enc_opts) (h : header) : header :=
  Hdr (Some (keep_com o (h_com h))) (h_known h) (h_unknown h).

Lemma kept_text : forall r, ref_text (kept_ref r) = ref_text r.
Proof. intros [p l c]. unfold ref_text, kept_ref. cbn [r_path r_line r_col]. destruct (0 <? l) eqn:E; [now rewrite E|reflexivity]. Qed.
Lemma keep_comment_text : forall o c, encode_comment (full o) (Some (keep_com o c)) = encode_comment o c.
Proof.
  intros o [c|]; unfold encode_comment, keep_com, keep_refs; cbn [the_comment cm_tr cm_ex cm_refs cm_flags e_refs e_width full].
  - rewrite andb_true_r. destruct (e_refs o).
    + rewrite andb_true_r, map_map, (map_ext _ _ kept_text). destruct (cm_refs c); reflexivity.
    + rewrite andb_false_r. reflexivity.
  - destruct (e_refs o); reflexivity.
Qed.
Lemma encode_empty : forall w, encode_po [] w = Ok (bs """""").
Proof. intro w. unfold encode_po. destruct (w <=? 0); reflexivity. Qed.
Lemma can_write_zero : forall k v, can_write_forms [(k, v)] -> k = 0.
Proof.
  intros k v (n & P & _). cbn [map fst] in P. pose proof (Permutation_length P) as L. rewrite map_length, seq_length in L.
  cbn in L. subst n. cbn in P. apply Permutation_length_1 in P. exact P.
Qed.
Lemma keep_translations : forall w p m, can_write_forms m ->
  let has m := negb (is_nil p) || Nat.ltb 1 (length m) in
  has (keep_forms p m) = has m /\
  encode_translations w (has m) (keep_forms p m) = encode_translations w (has m) m.
Proof.
  intros w p m C. cbv zeta. destruct m as [|[k v] [|e m]].
  - cbn [keep_forms length Nat.ltb Nat.leb]. destruct p as [|a p]; cbn [is_nil negb orb length Nat.ltb Nat.leb].
    + split; [reflexivity|]. unfold encode_translations. cbn [encode_strs rbind]. now rewrite encode_empty.
    + split; [reflexivity|]. unfold encode_translations. cbn [encode_strs rbind]. rewrite encode_empty. reflexivity.
  - apply can_write_zero in C as ->. cbn [keep_forms]. destruct p as [|a p]; cbn [is_nil negb orb length Nat.ltb Nat.leb]; [auto|].
    split; [reflexivity|]. unfold encode_translations. cbn [encode_strs rbind]. destruct (encode_po v w); [|reflexivity..].
    cbn [rbind]. rewrite encode_empty. reflexivity.
  - cbn [keep_forms]. auto.
Qed.
Lemma keep_message_text : forall o m, can_write_forms (m_str m) -> encode_message (full o) (keep_msg o m) = encode_message o m.
Proof.
  intros o m C. unfold encode_message. cbn [keep_msg m_ctx m_id m_pl m_str m_com]. cbv zeta.
  destruct (keep_translations (e_width o) (m_pl m) (m_str m) C) as [H1 H2]. cbv zeta in H1, H2.
  rewrite H1. rewrite keep_comment_text. change (e_width (full o)) with (e_width o). rewrite H2. reflexivity.
Qed.
Lemma keep_messages_text : forall o ms, Forall (fun m => can_write_forms (m_str m)) ms ->
  encode_messages (full o) (map (keep_msg o) ms) = encode_messages o ms.
Proof.
  intros o. induction ms as [|m ms IH]; intro F; [reflexivity|]. destruct ms as [|n ms].
  - apply keep_message_text. exact (Forall_inv F).
  - specialize (IH (Forall_inv_tail F)). cbn [map] in *.
    change (encode_messages (full o) (keep_msg o m :: keep_msg o n :: map (keep_msg o) ms)) with
      (do x <- encode_message (full o) (keep_msg o m) ; do y <- encode_messages (full o) (keep_msg o n :: map (keep_msg o) ms) ; Ok (x ++ LF :: y)).
    rewrite IH, keep_message_text by exact (Forall_inv F). reflexivity.
Qed.

(** ** What is kept can be written *)
Lemma keep_com_ok : forall o c, can_write_comment (e_width o) (the_comment c) -> writable_comment (e_width o) (keep_com o c).
Proof.
  intros o c (T & X & R & F). unfold keep_com. cbv zeta. unfold writable_comment. cbn [cm_tr cm_ex cm_refs cm_flags cm_pctx cm_pid].
  split; [exact T|]. split; [exact X|]. split; [|auto]. unfold keep_refs. destruct (e_refs o); [|constructor].
  apply Forall_map. eapply Forall_impl; [|exact R]. intros [p l k] (W & N & M). unfold writable_ref, kept_ref. cbn [r_path r_line r_col] in *.
  split; [exact W|]. split; [exact N|]. split; [reflexivity|]. destruct (0 <? l) eqn:E; [right; lia|now left].
Qed.
Lemma keep_forms_ok : forall p m, can_write_forms m -> writable_forms p (keep_forms p m).
Proof.
  intros p m C. destruct m as [|[k v] [|e m]].
  - cbn [keep_forms]. destruct p as [|a p]; cbn [is_nil].
    + exists 1%nat. split; [reflexivity|]. split; [unfold maxInt64; lia|now left].
    + exists 2%nat. split; [reflexivity|]. split; [unfold maxInt64; lia|right; lia].
  - apply can_write_zero in C as ->. cbn [keep_forms]. destruct p as [|a p]; cbn [is_nil].
    + exists 1%nat. split; [reflexivity|]. split; [unfold maxInt64; lia|now left].
    + exists 2%nat. split; [reflexivity|]. split; [unfold maxInt64; lia|right; lia].
  - destruct C as (n & P & M). exists n. cbn [keep_forms]. split; [exact P|]. split; [exact M|]. right.
    apply Permutation_length in P. cbn [map length] in P. rewrite !map_length, seq_length in P. lia.
Qed.
Lemma empty_ok : writable_text [].
Proof. split; [exists []; split; [constructor|reflexivity]|]. intro X. inversion X. Qed.
Lemma keep_forms_texts : forall p m, Forall (fun e => writable_text (snd e)) m -> Forall (fun e => writable_text (snd e)) (keep_forms p m).
Proof.
  intros p m F. destruct m as [|[k v] [|e m]]; cbn [keep_forms]; [| |exact F].
  - destruct (is_nil p); repeat (constructor; [exact empty_ok|]); constructor.
  - destruct (is_nil p); [exact F|]. constructor; [exact (Forall_inv F)|]. constructor; [exact empty_ok|constructor].
Qed.
Lemma keep_msg_ok : forall o m, can_write_message (e_width o) m -> writable_message (e_width o) (keep_msg o m).
Proof.
  intros o m (C & N & W1 & W2 & W3 & W4 & F). unfold writable_message. cbn [keep_msg m_com m_ctx m_id m_pl m_str the_comment].
  split; [now apply keep_com_ok|]. repeat split; auto; try (apply W1); try (apply W2); try (apply W3).
  - now apply keep_forms_texts.
  - now apply keep_forms_ok.
Qed.
Lemma keep_hdr_ok : forall o h, can_write_header (e_width o) h -> writable_header (e_width o) (keep_hdr o h).
Proof.
  intros o h (C & L & K & U & N). unfold writable_header. cbn [keep_hdr h_com h_known h_unknown the_comment].
  split; [now apply keep_com_ok|auto].
Qed.
Lemma keep_com_kept : forall o c c', exact_comment (e_width o) (keep_com o c) c' -> kept_comment (e_width o) (e_refs o) (the_comment c) c'.
Proof.
  intros o c c' (T & X & R & F & P1 & P2). unfold keep_com in *. cbv zeta in *. cbn [cm_tr cm_ex cm_refs cm_flags cm_pctx cm_pid] in *.
  unfold kept_comment. split; [exact T|]. split; [exact X|]. rewrite <- R, <- F, <- P1, <- P2. unfold keep_refs. auto.
Qed.
Lemma stored_kept : forall p m, can_write_forms m -> kept_forms p m (stored (keep_forms p m)).
Proof.
  intros p m C. destruct m as [|[k v] [|e m]].
  - cbn [keep_forms]. destruct p as [|a p]; cbn [is_nil stored]; [constructor|]. apply kf_plural_none. discriminate.
  - apply can_write_zero in C as ->. cbn [keep_forms]. destruct p as [|a p]; cbn [is_nil stored]; [constructor|]. apply kf_plural_one. discriminate.
  - apply kf_more; [cbn; lia|]. cbn [keep_forms]. apply stored_perm.
Qed.
Lemma keep_msg_kept : forall o m m', can_write_forms (m_str m) -> exact_message (e_width o) (keep_msg o m) m' ->
  kept_message (e_width o) (e_refs o) m m'.
Proof.
  intros o m m' W (C & X & I & P & S). cbn [keep_msg m_com m_ctx m_id m_pl m_str the_comment] in *.
  split; [now apply keep_com_kept|]. repeat split; auto. rewrite S. now apply stored_kept.
Qed.
Lemma keep_keys : forall o ms, map key (map (keep_msg o) ms) = map key ms.
Proof. intros. rewrite map_map. now apply map_ext. Qed.

(** ** Headers that are not written *)
Lemma values_iff : forall h, length (h_known h) = length header_names ->
  (forallb (fun e : bytes * bytes => is_nil (snd e)) (combine header_names (h_known h) ++ h_unknown h) = true <-> ~ has_value h).
Proof.
  intros h L. rewrite forallb_app, andb_true_iff.
  assert (A : forallb (fun e : bytes * bytes => is_nil (snd e)) (combine header_names (h_known h)) = true <-> ~ Exists (fun v => v <> []) (h_known h)).
  { revert L. generalize header_names. generalize (h_known h). induction l as [|v l IH]; intros [|n ns] L; try discriminate L.
    - split; [intros _ X; inversion X|reflexivity].
    - cbn [combine forallb snd]. injection L as L. rewrite andb_true_iff, (IH ns L). rewrite Exists_cons. destruct v; cbn [is_nil].
      + split; [intros [_ H] [X|X]; [congruence|tauto]|]. intro H. split; [reflexivity|tauto].
      + split; [intros [X _]; discriminate|]. intro H. elim H. left. discriminate. }
  assert (B : forallb (fun e : bytes * bytes => is_nil (snd e)) (h_unknown h) = true <-> ~ Exists (fun e => snd e <> []) (h_unknown h)).
  { generalize (h_unknown h). induction l as [|[k v] l IH].
    - split; [intros _ X; inversion X|reflexivity].
    - cbn [forallb snd]. rewrite andb_true_iff, IH, Exists_cons. cbn [snd]. destruct v; cbn [is_nil].
      + split; [intros [_ H] [X|X]; [congruence|tauto]|]. intro H. split; [reflexivity|tauto].
      + split; [intros [X _]; discriminate|]. intro H. elim H. left. discriminate. }
  rewrite A, B. unfold has_value. tauto.
Qed.
Definition shown (o : enc_opts) (h : header) : bool :=
  e_empty_header o || negb (forallb (fun e : bytes * bytes => is_nil (snd e)) (combine header_names (h_known h) ++ h_unknown h)).
Lemma shown_iff : forall o h, length (h_known h) = length header_names ->
  (shown o h = true <-> e_empty_header o = true \/ has_value h).
Proof.
  intros o h L. unfold shown. rewrite orb_true_iff, negb_true_iff. pose proof (values_iff h L) as V.
  destruct (forallb _ _); [|split; [intros [H|_]; [auto|]|tauto]].
  - destruct V as [V _]. specialize (V eq_refl). split; [intros [H|H]; [auto|discriminate]|tauto].
  - right. destruct V as [_ V].
    assert (D : has_value h \/ ~ has_value h).
    { unfold has_value. 
      destruct (Exists_dec (fun v : bytes => v <> []) (h_known h)) as [D|D]; [intros [|a x]; [right; congruence|left; discriminate]|tauto|].
      destruct (Exists_dec (fun e : bytes * bytes => snd e <> []) (h_unknown h)) as [D'|D']; [intros [a [|b x]]; [right; cbn; congruence|left; discriminate]|tauto|tauto]. }
    destruct D as [D|D]; [exact D|]. discriminate (V D).
Qed.
Lemma shown_text : forall o h, shown o h = true -> encode_header o h = encode_header (full o) (keep_hdr o h).
Proof.
  intros o h S. unfold encode_header. cbv zeta. cbn [keep_hdr h_com h_known h_unknown]. rewrite keep_comment_text. f_equal.
  cbn [e_empty_header full negb andb]. unfold shown in S.
  destruct (e_empty_header o); cbn [negb andb orb] in *; [reflexivity|]. apply negb_true_iff in S. rewrite S. reflexivity.
Qed.
Lemma hidden_text : forall o h, shown o h = false -> encode_header o h = encode_comment o (h_com h).
Proof.
  intros o h S. unfold encode_header. cbv zeta. unfold shown in S. apply orb_false_iff in S as [S1 S2]. rewrite S1.
  apply negb_false_iff in S2. rewrite S2. cbn [negb andb]. apply app_nil_r.
Qed.

(** ** Files *)
Theorem write_round : forall o h ms,
  (forall h', h = Some h' -> can_write_header (e_width o) h') -> Forall (can_write_message (e_width o)) ms ->
  NoDup (map key ms) -> (ms <> [] \/ header_written o h) ->
  exists s, encode_ordered o h ms = Ok s /\
    ((forall l, is_line s l -> Z.of_nat (length l) < 65536) ->
     exists f, parse_po s = Ok f /\ Forall2 (kept_message (e_width o) (e_refs o)) ms (f_messages f) /\
       kept_header o h (f_header f)).
Proof.
  intros o h ms WH WM ND NE.
  assert (FM : Forall (fun m => can_write_forms (m_str m)) ms) by (eapply Forall_impl; [|exact WM]; unfold can_write_message; tauto).
  assert (WM' : Forall (writable_message (e_width (full o))) (map (keep_msg o) ms)).
  { apply Forall_map. eapply Forall_impl; [|exact WM]. intro m. apply keep_msg_ok. }
  assert (K2 : forall l, Forall2 (exact_message (e_width (full o))) (map (keep_msg o) ms) l -> Forall2 (kept_message (e_width o) (e_refs o)) ms l).
  { clear - FM. induction FM as [|m ms C F IH]; intros l X; inversion X; subst; constructor; [|now apply IH]. now apply keep_msg_kept. }
  assert (CASES : (exists h', h = Some h' /\ e_header o = true /\ shown o h' = true) \/
    (exists h', h = Some h' /\ e_header o = true /\ shown o h' = false) \/ h = None \/ e_header o = false).
  { destruct h as [h'|]; [|auto]. destruct (e_header o); [|auto]. destruct (shown o h') eqn:S; [left|right; left]; eauto. }
  destruct CASES as [(h' & -> & EH & S)|[(h' & -> & EH & S)|HN]].
  - destruct (ordered_round (full o) (Some (keep_hdr o h')) (map (keep_msg o) ms) eq_refl eq_refl) as (s & ES & R).
    + intros h0 E. injection E as <-. exact (keep_hdr_ok o h' (WH h' eq_refl)).
    + exact WM'.
    + now rewrite keep_keys.
    + right. unfold written_header. cbn [full e_header]. rewrite EH. discriminate.
    + exists s. split.
      * rewrite <- ES. unfold encode_ordered. rewrite keep_messages_text by exact FM.
        change (e_header (full o)) with (e_header o). rewrite EH, shown_text by exact S. reflexivity.
      * intro SH. destruct (R SH) as (f & P & X & HX). exists f. split; [exact P|]. split; [now apply K2|].
        unfold written_header in HX. cbn [full e_header] in HX. rewrite EH in HX. destruct HX as (HC & HK & HU).
        split.
        -- intros _. exists h'. split; [reflexivity|]. split; [now apply keep_com_kept|auto].
        -- intro N. elim N. split; [exact EH|]. exists h'. split; [reflexivity|]. apply shown_iff; [|exact S]. now apply WH.
  - (* only the comment of the header is written *)
    assert (NW : ~ header_written o (Some h')).
    { intros (_ & h0 & E & D). injection E as <-. apply shown_iff in D; [congruence|]. now apply WH. }
    destruct NE as [NE|NE]; [|contradiction].
    destruct (messages_written (full o) (map (keep_msg o) ms) eq_refl WM') as (b & ls & ms' & E & W & L & X).
    rewrite keep_messages_text in E by exact FM. unfold encode_ordered. rewrite E, EH, hidden_text by exact S. cbn [rbind].
    destruct (comment_written (full o) (Some (keep_com o (h_com h'))) eq_refl) as (is & cl & CW & CI & CE).
    { exact (keep_com_ok o (h_com h') (proj1 (WH h' eq_refl))). }
    rewrite keep_comment_text in CW. eexists. split; [reflexivity|]. intro SH.
    assert (W2 : wl ((encode_comment o (h_com h') ++ [LF]) ++ b) (cl ++ [] :: ls)).
    { rewrite <- app_assoc. apply wl_app; [exact CW|]. apply (wl_cons [] b ls); [intros []|exact W]. }
    pose proof (written_text _ _ W2 SH) as T.
    assert (KK : NoDup (map key ms')) by (rewrite (exact_keys _ _ _ X); now rewrite keep_keys).
    assert (N2 : ms' <> []) by (destruct ms; [congruence|]; inversion X; discriminate).
    assert (L2 : exists bl, layout bl (cl ++ [] :: ls) /\ messages_of bl = ms' /\ headers_of bl = []).
    { destruct is as [|i is].
      - inversion CI; subst. exists (map BMsg ms'). rewrite messages_of_msgs, headers_of_msgs. split; [|auto].
        clear - L. cbn [app]. remember (map BMsg ms') as bl eqn:EB. clear EB.
        destruct L as [pre F|b pre ls F B|b bl pre ls w rest F B P L].
        + apply (lay_nil ([] :: pre)). constructor; [constructor|exact F].
        + apply (lay_last b ([] :: pre)); [constructor; [constructor|exact F]|exact B].
        + apply (lay_cons b bl ([] :: pre)); [constructor; [constructor|exact F]|exact B|exact P|exact L].
      - exists (BComment (i :: is) :: map BMsg ms'). split; [|split].
        + apply (lay_cons (BComment (i :: is)) (map BMsg ms') [] cl [] ls); [constructor| |constructor|exact L].
          constructor; [discriminate|exact CI].
        + change (messages_of (map BMsg ms') = ms'). apply messages_of_msgs.
        + change (headers_of (map BMsg ms') = []). apply headers_of_msgs. }
    destruct L2 as (bl & LB & MB & HB).
    eexists. split; [unfold parse_po; apply (file_accepted false bl _ _ _ LB T)|].
    + lia.
    + now rewrite MB.
    + rewrite HB. cbn. lia.
    + left. now rewrite MB.
    + cbn [f_messages f_header]. rewrite MB, HB, seen_false. split; [now apply K2|]. split; [intro; contradiction|reflexivity].
  - assert (NW : ~ header_written o h) by (intros (A & h0 & B & _); destruct HN; congruence).
    destruct NE as [NE|NE]; [|contradiction].
    destruct (ordered_round (full o) None (map (keep_msg o) ms) eq_refl eq_refl) as (s & ES & R).
    + discriminate.
    + exact WM'.
    + now rewrite keep_keys.
    + left. destruct ms; [congruence|discriminate].
    + exists s. split.
      * rewrite <- ES. unfold encode_ordered. rewrite keep_messages_text by exact FM.
        destruct HN as [->|HN]; [reflexivity|]. rewrite HN. destruct h; reflexivity.
      * intro SH. destruct (R SH) as (f & P & X & HX). exists f. split; [exact P|]. split; [now apply K2|].
        split; [intro; contradiction|]. intros _. unfold written_header in HX. destruct (e_header (full o)); exact HX.
Qed.
