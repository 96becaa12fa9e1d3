(** What a file of the line grammar is read as: all messages in order, the
    header, or an error for duplicates. *)
From Coq Require Import String Ascii List ZArith Bool Lia Permutation.
From Verif Require Import Base BaseProofs Utf8Model StrModel PoFileModel PoFileSpec PoParseProofs.
Import ListNotations.
Open Scope Z_scope.

Lemma same_key_iff : forall a b, same_key a b = true <-> key a = key b.
Proof.
  intros a b. unfold same_key, key. rewrite andb_true_iff, !beq_eq. split.
  - intros [-> ->]. reflexivity.
  - intro E. injection E as -> ->. auto.
Qed.
Lemma exists_key : forall m ms, existsb (same_key m) ms = true <-> In (key m) (map key ms).
Proof.
  intros m ms. rewrite existsb_exists, in_map_iff. split.
  - intros (x & I & S). apply same_key_iff in S. exists x. auto.
  - intros (x & E & I). exists x. split; [exact I|]. now apply same_key_iff.
Qed.
Lemma key_seen : forall ign m, key (seen_message ign m) = key m.
Proof. reflexivity. Qed.
Lemma keys_seen : forall ign ms, map key (map (seen_message ign) ms) = map key ms.
Proof. intros. rewrite map_map. apply map_ext. apply key_seen. Qed.

Definition first_header (ign : bool) (h : option header) (bl : list block) : option header :=
  match headers_of bl with
  | [] => h
  | (is, kvs) :: _ => Some (header_of ign is kvs)
  end.
Definition given (h : option header) : nat := match h with Some _ => 1 | None => 0 end.

Lemma outcome_ok : forall ign bl h ms,
  NoDup (map key ms ++ map key (messages_of bl)) -> (length (headers_of bl) + given h <= 1)%nat ->
  outcome ign h ms bl = finish (first_header ign h bl) (ms ++ map (seen_message ign) (messages_of bl)).
Proof.
  intros ign. induction bl as [|b bl IH]; intros h ms ND H.
  - cbn. now rewrite app_nil_r.
  - destruct b as [m|is kvs|is]; cbn [outcome messages_of headers_of flat_map app] in *.
    + fold (messages_of bl) in *. fold (headers_of bl) in *. cbn [map] in ND.
      destruct (existsb (same_key m) ms) eqn:E.
      { exfalso. apply exists_key in E. apply NoDup_remove_2 in ND. apply ND. apply in_or_app. now left. }
      rewrite IH; [| |exact H].
      * unfold first_header. cbn [headers_of flat_map app]. cbn [map]. now rewrite <- app_assoc.
      * rewrite map_app. cbn [map]. rewrite key_seen, <- app_assoc. exact ND.
    + fold (messages_of bl) in *. fold (headers_of bl) in *. cbn [length] in H.
      destruct h as [h|]; [cbn [given] in H; lia|].
      rewrite IH; [|exact ND|cbn [given] in *; lia]. unfold first_header. cbn [headers_of flat_map app].
      fold (headers_of bl). destruct (headers_of bl); [reflexivity|cbn [length given] in H; lia].
    + now apply IH.
Qed.

Lemma outcome_dup : forall ign bl h ms, NoDup (map key ms) -> ~ NoDup (map key ms ++ map key (messages_of bl)) ->
  outcome ign h ms bl = Err.
Proof.
  intros ign. induction bl as [|b bl IH]; intros h ms ND N.
  - exfalso. apply N. cbn. now rewrite app_nil_r.
  - destruct b as [m|is kvs|is]; cbn [outcome messages_of flat_map app] in *; fold (messages_of bl) in *.
    + destruct (existsb (same_key m) ms) eqn:E; [reflexivity|]. apply IH.
      * rewrite map_app. cbn [map]. rewrite key_seen. apply NoDup_rev in ND.
        rewrite <- rev_involutive, rev_app_distr. apply NoDup_rev. cbn [rev app]. constructor; [|exact ND].
        intro I. apply in_rev in I. apply exists_key in I. congruence.
      * rewrite map_app. cbn [map]. rewrite key_seen, <- app_assoc. exact N.
    + destruct h; [reflexivity|]. now apply IH.
    + now apply IH.
Qed.
Lemma outcome_headers : forall ign bl h ms, (1 < length (headers_of bl) + given h)%nat -> outcome ign h ms bl = Err.
Proof.
  intros ign. induction bl as [|b bl IH]; intros h ms H.
  - exfalso. destruct h; cbn in H; lia.
  - destruct b as [m|is kvs|is]; cbn [outcome headers_of flat_map app length] in *; fold (headers_of bl) in *.
    + destruct (existsb (same_key m) ms); [reflexivity|]. now apply IH.
    + destruct h as [h|]; [reflexivity|]. apply IH. cbn [given] in *. lia.
    + now apply IH.
Qed.

(** Acceptance and result. *)
Theorem file_accepted : forall ign bl ls s fuel, layout bl ls -> text_of ls s -> (length s < fuel)%nat ->
  NoDup (map key (messages_of bl)) -> (length (headers_of bl) <= 1)%nat ->
  (messages_of bl <> [] \/ headers_of bl <> []) ->
  parse_po_fuel fuel ign s = Ok (PoFile (match headers_of bl with
                                         | [] => new_header
                                         | (is, kvs) :: _ => header_of ign is kvs
                                         end) (map (seen_message ign) (messages_of bl))).
Proof.
  intros ign bl ls s fuel L T F ND H NE. rewrite (layout_file ign bl ls s fuel L T F).
  rewrite outcome_ok; [|exact ND|cbn [given]; lia]. cbn [app]. unfold first_header.
  destruct (headers_of bl) as [|[is kvs] hs]; [|reflexivity]. destruct NE as [NE|NE]; [|congruence].
  destruct (messages_of bl); [congruence|reflexivity].
Qed.
Theorem file_rejected : forall ign bl ls s fuel, layout bl ls -> text_of ls s -> (length s < fuel)%nat ->
  (~ NoDup (map key (messages_of bl)) \/ (1 < length (headers_of bl))%nat \/
   (messages_of bl = [] /\ headers_of bl = [])) -> parse_po_fuel fuel ign s = Err.
Proof.
  intros ign bl ls s fuel L T F H. rewrite (layout_file ign bl ls s fuel L T F). destruct H as [H|[H|[M H]]].
  - apply outcome_dup; [constructor|exact H].
  - apply outcome_headers. cbn [given]. lia.
  - rewrite outcome_ok; [|rewrite M; constructor|rewrite H; cbn; lia]. unfold first_header. now rewrite M, H.
Qed.

(** Success means that every message is there. *)
Lemma outcome_messages : forall ign bl h ms f, outcome ign h ms bl = Ok f ->
  f_messages f = ms ++ map (seen_message ign) (messages_of bl).
Proof.
  intros ign. induction bl as [|b bl IH]; intros h ms f H.
  - cbn [outcome messages_of flat_map map] in *. rewrite app_nil_r. unfold finish in H.
    destruct h; [|destruct ms]; try discriminate; injection H as <-; reflexivity.
  - destruct b as [m|is kvs|is]; cbn [outcome messages_of flat_map app map] in *; fold (messages_of bl).
    + destruct (existsb (same_key m) ms); [discriminate|]. apply IH in H. rewrite H, <- app_assoc. reflexivity.
    + destruct h; [discriminate|]. now apply IH in H.
    + now apply IH in H.
Qed.

(** ** Comments ignored *)
Definition seen_header (h : header) : header :=
  Hdr (option_map (seen_comment true) (h_com h)) (h_known h) (h_unknown h).
Lemma seen_false1 : forall m, seen_message false m = m.
Proof. intros [c x i p s]. unfold seen_message. cbn. now destruct c. Qed.
Lemma outcome_seen : forall bl h ms,
  outcome true (option_map seen_header h) (map (seen_message true) ms) bl =
  match outcome false h ms bl with
  | Ok f => Ok (PoFile (seen_header (f_header f)) (map (seen_message true) (f_messages f)))
  | x => x
  end.
Proof.
  induction bl as [|b bl IH]; intros h ms; cbn [outcome].
  - unfold finish. destruct h as [h|]; [reflexivity|]. destruct ms; reflexivity.
  - destruct b as [m|is kvs|is].
    + assert (E : forall l, existsb (same_key m) (map (seen_message true) l) = existsb (same_key m) l).
      { induction l as [|x l IHl]; [reflexivity|]. cbn [map existsb]. now rewrite IHl. }
      rewrite E. destruct (existsb (same_key m) ms); [reflexivity|]. rewrite <- IH, map_app. cbn [map].
      now rewrite seen_false1.
    + destruct h as [h|]; [reflexivity|]. cbn [option_map]. rewrite <- IH. reflexivity.
    + apply IH.
Qed.

(** ** The mapping of the messages *)
Lemma get_message_iff : forall ms ctx id m, NoDup (map key ms) ->
  (get_message ms ctx id = Some m <-> In m ms /\ key m = (ctx, id)).
Proof.
  intros ms ctx id m ND. unfold get_message. split.
  - intro H. apply find_some in H as [I B]. apply andb_prop in B as [B C]. apply beq_eq in B, C. split; [exact I|].
    unfold key. now rewrite B, C.
  - intros [I K]. unfold key in K. injection K as <- <-. induction ms as [|x ms IH]; [destruct I|]. cbn [find].
    cbn [map] in ND. inversion ND as [|? ? N ND']; subst. destruct (beq (m_ctx x) (m_ctx m) && beq (m_id x) (m_id m)) eqn:B.
    + destruct I as [->|I]; [reflexivity|]. exfalso. apply andb_prop in B as [B C]. apply beq_eq in B, C.
      apply N. apply in_map_iff. exists m. unfold key. now rewrite B, C.
    + destruct I as [->|I]; [|now apply IH]. rewrite !(proj2 (beq_eq _ _) eq_refl) in B. discriminate.
Qed.
