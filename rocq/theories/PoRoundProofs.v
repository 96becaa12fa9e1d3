(** Writing a file and reading it back. *)
From Coq Require Import String Ascii List ZArith Bool Lia ZifyBool Permutation.
From Verif Require Import Base BaseProofs Utf8Model StrModel PoStrModel PoStrSpec PoStrProofs PoDecodeProofs
  PoFileModel PoFileSpec PoSortProofs PoMergeProofs PoHeaderProofs PoParseProofs PoOutcomeProofs PoEncodeProofs.
Import ListNotations.
Open Scope Z_scope.

Lemma messages_written : forall o ms, e_refs o = true -> Forall (writable_message (e_width o)) ms ->
  exists b ls ms', encode_messages o ms = Ok b /\ wl b ls /\ layout (map BMsg ms') ls /\
    Forall2 (exact_message (e_width o)) ms ms'.
Proof.
  intros o ms RO F. induction ms as [|m ms IH].
  - exists [], [], []. split; [reflexivity|]. split; [apply wl_nil|]. split; [apply (lay_nil []); constructor|constructor].
  - destruct (message_written o m RO (Forall_inv F)) as (b & ls & m' & E & W & EL & X).
    destruct (IH (Forall_inv_tail F)) as (b2 & ls2 & ms' & E2 & W2 & L2 & X2). destruct ms as [|n ms].
    + inversion X2; subst. exists b, ls, [m']. split; [exact E|]. split; [exact W|]. split.
      * apply (lay_last (BMsg m') []); [constructor|now constructor].
      * constructor; [exact X|constructor].
    + exists (b ++ LF :: b2), (ls ++ [] :: ls2), (m' :: ms').
      change (encode_messages o (m :: n :: ms)) with (do x <- encode_message o m ; do y <- encode_messages o (n :: ms) ; Ok (x ++ LF :: y)).
      rewrite E. cbn [rbind]. rewrite E2. cbn [rbind]. split; [reflexivity|]. split; [|split].
      * apply wl_app; [exact W|]. apply (wl_cons [] b2 ls2); [intros []|exact W2].
      * apply (lay_cons (BMsg m') (map BMsg ms') [] ls [] ls2); [constructor|now constructor|constructor|exact L2].
      * now constructor.
Qed.

Lemma messages_of_msgs : forall ms, messages_of (map BMsg ms) = ms.
Proof. induction ms as [|m ms IH]; [reflexivity|]. cbn. now rewrite <- IH at 2. Qed.
Lemma headers_of_msgs : forall ms, headers_of (map BMsg ms) = [].
Proof. induction ms as [|m ms IH]; [reflexivity|]. cbn. exact IH. Qed.
Lemma seen_false : forall ms, map (seen_message false) ms = ms.
Proof.
  induction ms as [|[c x i p s] ms IH]; [reflexivity|]. cbn [map]. rewrite IH. unfold seen_message. cbn. now destruct c.
Qed.
Lemma exact_keys : forall w ms ms', Forall2 (exact_message w) ms ms' -> map key ms' = map key ms.
Proof.
  induction 1 as [|m m' ms ms' (_ & C & I & _) F IH]; [reflexivity|]. cbn [map]. unfold key at 1 3. now rewrite IH, C, I.
Qed.
Lemma written_text : forall b ls, wl b ls -> (forall l, is_line b l -> Z.of_nat (length l) < 65536) -> text_of ls b.
Proof.
  intros b ls [-> F] H. split; [|now left]. rewrite Forall_forall in *. intros l I. split; [now apply F|]. apply H.
  apply split_is_line. clear H. induction ls as [|x ls IH]; [destruct I|]. cbn [map concat]. unfold eol at 1.
  rewrite <- app_assoc. cbn [app]. rewrite split_no_lf by (apply F; now left). destruct I as [->|I]; [now left|].
  right. apply IH; [|exact I]. intros y Y. apply F. now right.
Qed.

Definition exact_header (w : Z) (h : option header) (h' : header) : Prop :=
  match h with
  | None => h' = new_header
  | Some h => exact_comment w (the_comment (h_com h)) (the_comment (h_com h')) /\
              h_known h' = h_known h /\ h_unknown h' = h_unknown h
  end.

Theorem ordered_round : forall o h ms, e_refs o = true -> e_empty_header o = true ->
  (forall h', h = Some h' -> writable_header (e_width o) h') -> Forall (writable_message (e_width o)) ms ->
  NoDup (map key ms) -> (ms <> [] \/ written_header o h <> None) ->
  exists s, encode_ordered o h ms = Ok s /\
    ((forall l, is_line s l -> Z.of_nat (length l) < 65536) ->
     exists f, parse_po s = Ok f /\ Forall2 (exact_message (e_width o)) ms (f_messages f) /\
       exact_header (e_width o) (written_header o h) (f_header f)).
Proof.
  intros o h ms RO EO WH WM ND NE. destruct (messages_written o ms RO WM) as (b & ls & ms' & E & W & L & X).
  unfold encode_ordered. rewrite E. cbn [rbind]. eexists. split; [reflexivity|]. intro SH.
  assert (HH : written_header o h = None \/ exists h', h = Some h' /\ e_header o = true).
  { unfold written_header. destruct h as [h|]; destruct (e_header o); [right; eauto|now left|now left|now left]. }
  assert (KK : NoDup (map key ms')) by (now rewrite (exact_keys _ _ _ X)).
  destruct HH as [N|(h' & -> & EH)].
  - assert (Z : match h with Some h0 => if e_header o then encode_header o h0 ++ [LF] else [] | None => [] end = []).
    { unfold written_header in N. destruct h; [|reflexivity]. destruct (e_header o); [discriminate|reflexivity]. }
    rewrite Z in *. cbn [app] in *. pose proof (written_text b ls W SH) as T.
    eexists. split; [|split; [|]].
    + unfold parse_po. apply (file_accepted false (map BMsg ms') ls b); [exact L|exact T|lia| | |].
      * now rewrite messages_of_msgs.
      * rewrite headers_of_msgs. cbn. lia.
      * left. rewrite messages_of_msgs. destruct NE as [NE|NE]; [|congruence]. destruct ms; [congruence|]. inversion X. discriminate.
    + cbn [f_messages]. now rewrite messages_of_msgs, seen_false.
    + rewrite N. cbn [f_header exact_header]. now rewrite headers_of_msgs.
  - rewrite EH in *. destruct (header_written o h' RO EO (WH h' eq_refl)) as (hl & is & kvs & HW & HL & HC & HS).
    assert (W2 : wl ((encode_header o h' ++ [LF]) ++ b) (hl ++ [] :: ls)).
    { rewrite <- app_assoc. apply wl_app; [exact HW|]. apply (wl_cons [] b ls); [intros []|exact W]. }
    pose proof (written_text _ _ W2 SH) as T.
    assert (L2 : layout (BHeader is kvs :: map BMsg ms') (hl ++ [] :: ls)).
    { apply (lay_cons (BHeader is kvs) (map BMsg ms') [] hl [] ls); [constructor|now constructor|constructor|exact L]. }
    eexists. split; [|split; [|]].
    + unfold parse_po. apply (file_accepted false (BHeader is kvs :: map BMsg ms') (hl ++ [] :: ls)); [exact L2|exact T|lia| | |].
      * change (messages_of (BHeader is kvs :: map BMsg ms')) with (messages_of (map BMsg ms')). now rewrite messages_of_msgs.
      * change (headers_of (BHeader is kvs :: map BMsg ms')) with ((is, kvs) :: headers_of (map BMsg ms')). rewrite headers_of_msgs. cbn. lia.
      * right. discriminate.
    + cbn [f_messages]. change (messages_of (BHeader is kvs :: map BMsg ms')) with (messages_of (map BMsg ms')).
      now rewrite messages_of_msgs, seen_false.
    + unfold written_header. rewrite EH. cbn [f_header exact_header]. change (headers_of (BHeader is kvs :: map BMsg ms')) with ((is, kvs) :: headers_of (map BMsg ms')).
      cbn iota. unfold header_of. cbv zeta. fold (set_all kvs new_header). rewrite HS. cbn [h_com h_known h_unknown the_comment seen_comment].
      auto.
Qed.

(** ** With the default sort function *)
Lemma sorted_writable : forall w m, writable_message w m -> writable_message w (sort_msg_comment m).
Proof.
  intros w [[c|] x i p s]; [|auto]. intros ((T & X & R & F & P1 & P2) & H). split; [|exact H].
  unfold sort_msg_comment, sort_comment. cbn [m_com option_map the_comment]. repeat split; cbn [cm_tr cm_ex cm_refs cm_flags cm_pctx cm_pid]; auto.
  - apply (Permutation_Forall (sort_perm _ ref_cmp (cm_refs c)) R).
  - apply (Permutation_Forall (sort_perm _ bcmp (cm_flags c)) F).
Qed.
Lemma sorted_same : forall w m m', exact_message w (sort_msg_comment m) m' -> same_message w m m'.
Proof.
  intros w m m' ((T & X & R & F & P1 & P2) & C & I & P & S').
  assert (PM : Permutation (m_str m) (m_str m')).
  { rewrite S'. destruct m as [c x i p s]. apply stored_perm. }
  destruct m as [[c|] x i p s]; cbn in *; (split; [|auto]); unfold same_comment; cbn [m_com the_comment].
  - repeat split; auto.
    + rewrite <- R. apply sort_perm.
    + rewrite <- F. apply sort_perm.
  - repeat split; auto; rewrite <- ?R, <- ?F; reflexivity.
Qed.
Lemma exact_same : forall w m m', exact_message w m m' -> same_message w m m'.
Proof.
  intros w m m' ((T & X & R & F & P1 & P2) & C & I & P & S'). split; [|repeat split; auto].
  - repeat split; auto; [rewrite R|rewrite F]; reflexivity.
  - rewrite S'. apply stored_perm.
Qed.
Theorem file_round : forall o h ms, e_refs o = true -> e_empty_header o = true ->
  (forall h', h = Some h' -> writable_header (e_width o) h') -> Forall (writable_message (e_width o)) ms ->
  NoDup (map key ms) -> (ms <> [] \/ written_header o h <> None) ->
  exists s, encode_file o h ms = Ok s /\
    ((forall l, is_line s l -> Z.of_nat (length l) < 65536) ->
     exists f ms', parse_po s = Ok f /\ Permutation ms ms' /\
       Forall2 (same_message (e_width o)) ms' (f_messages f) /\
       match written_header o h with
       | None => f_header f = new_header
       | Some h => same_header (e_width o) h (f_header f)
       end).
Proof.
  intros o h ms RO EO WH WM ND NE. unfold encode_file.
  assert (G : exists l, sort_messages ms = l /\ Forall (writable_message (e_width o)) l /\ NoDup (map key l) /\
    (l = [] -> ms = []) /\
    forall l', Forall2 (exact_message (e_width o)) l l' -> exists ms', Permutation ms ms' /\ Forall2 (same_message (e_width o)) ms' l').
  { assert (BIG : forall l, Permutation (map sort_msg_comment ms) l -> Forall (writable_message (e_width o)) l /\ NoDup (map key l) /\
      (l = [] -> ms = []) /\
      forall l', Forall2 (exact_message (e_width o)) l l' -> exists ms', Permutation ms ms' /\ Forall2 (same_message (e_width o)) ms' l').
    { intros l P. split; [|split; [|split]].
      - apply (Permutation_Forall P). apply Forall_map. eapply Forall_impl; [|exact WM]. intros m. apply sorted_writable.
      - eapply Permutation_NoDup; [apply Permutation_map, P|]. now rewrite keys_sorted.
      - intros ->. apply Permutation_sym, Permutation_nil in P. now apply map_eq_nil in P.
      - intros l' F. apply Permutation_sym, Permutation_map_inv in P as (ms' & E & P). exists ms'. split; [exact P|].
        rewrite E in F. clear - F. remember (map sort_msg_comment ms') as l eqn:EL. revert ms' EL.
        induction F as [|x y l l' XY F IH]; intros [|m ms'] EL; try discriminate; [constructor|].
        injection EL as -> ->. constructor; [now apply sorted_same|]. now apply IH. }
    destruct ms as [|m [|n ms]].
    - exists []. split; [reflexivity|]. apply (BIG []). reflexivity.
    - exists [m]. split; [reflexivity|]. split; [exact WM|]. split; [exact ND|]. split; [auto|].
      intros l' F. exists [m]. split; [reflexivity|]. inversion F as [|? y ? l2 XY F2]; subst. inversion F2; subst.
      constructor; [now apply exact_same|constructor].
    - eexists. split; [reflexivity|]. apply BIG. apply sort_perm. }
  destruct G as (l & EL & WL & NL & ZL & GL). rewrite EL.
  destruct (ordered_round o h l RO EO WH WL NL) as (s & ES & R).
  { destruct NE as [NE|NE]; [left; auto|now right]. }
  exists s. split; [exact ES|]. intro SH. destruct (R SH) as (f & PF & FM & FH).
  destruct (GL _ FM) as (ms' & PM & SM). exists f, ms'. split; [exact PF|]. split; [exact PM|]. split; [exact SM|].
  unfold exact_header in FH. destruct (written_header o h) as [h0|]; [|exact FH].
  destruct FH as ((T & X & R1 & F1 & P1 & P2) & K & U). split; [|split; congruence].
  repeat split; auto; [rewrite R1|rewrite F1]; reflexivity.
Qed.
