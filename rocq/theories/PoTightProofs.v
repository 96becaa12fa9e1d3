(** Proofs for PO files whose entries are set apart by comment lines. *)
From Coq Require Import String Ascii List ZArith Bool Lia.
From Verif Require Import Base BaseProofs Utf8Model StrModel PoStrModel PoFileModel PoFileSpec TrimProofs PoScanProofs
  PoItemProofs PoParseProofs PoOutcomeProofs PoTightSpec.
Import ListNotations.
Open Scope Z_scope.

Lemma layout_tight : forall ign bl ls, layout bl ls -> tight ign bl ls.
Proof.
  intros ign. induction 1 as [pre F|b pre ls F B|b bl pre ls w rest F B P L IH]; [now apply ti_nil|now apply ti_last|now apply ti_blank].
Qed.

(** One line gives at most one token. *)
Lemma scan_one : forall ign last blank l, (length (scan_all ign last blank [l]) <= 1)%nat.
Proof.
  intros. cbn [scan_all]. cbv zeta. destruct (is_nil (trim_space l)); [destruct blank; cbn; lia|].
  destruct (scan_line ign last (trim_space l)); cbn; lia.
Qed.
Lemma fold_none : forall ign i, ends_entry ign i -> (exists l, item_lines i [l]) ->
  exists c, fold_left add_item (kept ign [i]) c <> c.
Proof.
  intros ign i E [l L]. destruct i as [t|t|rs|fs|v|v]; cbn [ends_entry] in E; try (destruct E; fail).
  - subst ign. exists (Com [SP] [] [] [] [] []). cbn. discriminate.
  - subst ign. exists (Com [] [SP] [] [] [] []). cbn. discriminate.
  - subst ign. exists new_comment. inversion L as [| | |? ? ? ? R| | |]; subst. destruct R; cbn; discriminate.
  - exists new_comment. inversion L as [| | | |? ? ? ? R| |]; subst. destruct R; destruct ign; cbn; discriminate.
Qed.
Lemma sep_token : forall ign fuel last i l, ends_entry ign i -> item_lines i [l] -> (length l < fuel)%nat ->
  exists k t k', is_comment k = true /\ forall blank rest, scan_all ign last blank (l :: rest) = (k, t) :: scan_all ign k' false rest.
Proof.
  intros ign fuel last i l E L SH.
  destruct (item_reads ign fuel last i [l] L ltac:(constructor; [exact SH|constructor])) as (ts & k' & S & C & R).
  assert (N : (length ts <= 1)%nat).
  { pose proof (S false []) as X. cbn [app scan_all] in X. rewrite app_nil_r in X.
    pose proof (scan_one ign last false l) as Y. cbn [scan_all] in Y. rewrite X in Y. exact Y. }
  destruct ts as [|[k t] ts].
  - exfalso. destruct (fold_none ign i E (ex_intro _ l L)) as [c NE]. specialize (R c). cbn [crun] in R. injection R as R. congruence.
  - destruct ts as [|x ts]; [|cbn [length] in N; lia]. exists k, t, k'. split; [exact (Forall_inv C)|].
    intros blank rest. exact (S blank rest).
Qed.

(** parseMessage on an entry that a comment line ends. *)
Lemma parse_block_comment : forall ign fuel ls c m last, breads ign fuel last ls c m -> ls <> [] -> m_str m <> [] ->
  forall i l, ends_entry ign i -> item_lines i [l] -> (length l < fuel)%nat ->
  forall blank rest, exists toks t k,
    scan_all ign last blank (ls ++ l :: rest) = toks ++ t :: scan_all ign k false rest /\
    parse_message fuel (toks ++ t :: scan_all ign k false rest) = Ok (Some (m, scan_all ign k false rest, false)).
Proof.
  intros ign fuel ls c m last (ct & bt & k0 & S & C & B & EM & R1 & R2) N NS i l E L SH blank rest.
  destruct (sep_token ign fuel k0 i l E L SH) as (k & t & k' & K & SC).
  exists (ct ++ bt), (k, t), k'. rewrite S, SC. split; [reflexivity|].
  rewrite <- app_assoc. destruct bt as [|[k1 l1] bt]; [now elim NS; apply EM|].
  pose proof (Forall_inv B) as K1. cbn [fst] in K1.
  change (((k1, l1) :: bt) ++ (k, t) :: scan_all ign k' false rest)
    with ((k1, l1) :: bt ++ (k, t) :: scan_all ign k' false rest).
  rewrite parse_message_app; [|exact C|destruct k1; try discriminate K1; reflexivity|destruct k1; discriminate].
  rewrite R1. cbn [rbind].
  change ((k1, l1) :: bt ++ (k, t) :: scan_all ign k' false rest)
    with (((k1, l1) :: bt) ++ (k, t) :: scan_all ign k' false rest).
  rewrite parse_body_app by exact B. rewrite R2. cbn [rbind parse_body]. rewrite K. destruct k; try discriminate K; reflexivity.
Qed.
Lemma has_text_str : forall ign b ls, has_text b -> block_lines b ls -> m_str (block_message ign b) <> [].
Proof.
  intros ign b ls H B. destruct B as [m ls E|is kvs ls E|is ls N E]; [| |destruct H].
  - destruct E as [is il ctx cl id idl pl tl sm I C Fd T NE]. cbn [block_message seen_message m_str].
    destruct T as [|? ? ? ? ? NM ?]; [discriminate|exact NM].
  - discriminate.
Qed.

(** The rest of the file after one entry. *)
Lemma round_block : forall ign fuel b ls n h ms rest bl, block_lines b ls ->
  (forall h ms, parse_file fuel n h ms rest = outcome ign h ms bl) ->
  round fuel n h ms (Some (block_message ign b, rest, false)) = outcome ign h ms (b :: bl).
Proof.
  intros ign fuel b ls n h ms rest bl B IH. destruct B as [m ls E|is kvs ls E|is ls N E]; cbn [outcome].
  - destruct E as [is il ctx cl id idl pl tl sm I C Fd T NE].
    unfold round. cbn [block_message seen_message m_id]. destruct id as [|x id]; [congruence|]. cbn [is_nil].
    match goal with |- context [existsb ?f ms] => change f with (same_key (Msg (Some (com_of is)) ctx (x :: id) pl sm)) end.
    destruct (existsb _ ms); [reflexivity|]. apply IH.
  - unfold round. cbn [block_message m_id m_str is_nil]. destruct h as [h|]; [reflexivity|].
    pose proof (parse_header_block ign is kvs ls E) as X. cbn [block_message] in X. rewrite X. apply IH.
  - unfold round. cbn [block_message m_id m_str is_nil]. apply IH.
Qed.

Theorem tight_parse : forall ign fuel bl ls, tight ign bl ls -> short fuel ls ->
  forall last blank h ms n, (length (scan_all ign last blank ls) < n)%nat ->
  parse_file fuel n h ms (scan_all ign last blank ls) = outcome ign h ms bl.
Proof.
  intros ign fuel.
  induction 1 as [pre F|b pre ls F B|b bl pre ls w rest F B P L IH|b bl pre ls i l rest F HT B E IL L IH]; intros SH last blank h ms.
  - apply layout_parse; [now apply lay_nil|exact SH].
  - apply layout_parse; [now apply lay_last|exact SH].
  - apply Forall_app in SH as [_ SH]. apply Forall_app in SH as [SH1 SH2]. apply Forall_inv_tail in SH2.
    destruct (scan_pre ign last blank pre (ls ++ w :: rest) F) as (last' & blank' & ws & -> & W).
    apply parse_pre; [exact W|]. intros n Hn.
    destruct (block_reads ign fuel b ls B SH1 last') as [c BR].
    destruct (parse_block_ws ign fuel ls c _ last' BR (block_ne b ls B) blank' w rest P) as (toks & k & ES & EP).
    rewrite ES in *. destruct n as [|n]; [lia|].
    rewrite parse_file_step, EP. cbn [rbind]. rewrite app_length in Hn. cbn [length] in Hn.
    eapply round_block; [exact B|]. intros h' ms'. apply IH; [exact SH2|lia].
  - apply Forall_app in SH as [_ SH]. apply Forall_app in SH as [SH1 SH2].
    pose proof (Forall_inv SH2) as SHl. apply Forall_inv_tail in SH2. cbv beta in SHl.
    destruct (scan_pre ign last blank pre (ls ++ l :: rest) F) as (last' & blank' & ws & -> & W).
    apply parse_pre; [exact W|]. intros n Hn.
    destruct (block_reads ign fuel b ls B SH1 last') as [c BR].
    destruct (parse_block_comment ign fuel ls c _ last' BR (block_ne b ls B) (has_text_str ign b ls HT B) i l E IL SHl blank' rest)
      as (toks & t & k & ES & EP).
    rewrite ES in *. destruct n as [|n]; [lia|].
    rewrite parse_file_step, EP. cbn [rbind]. rewrite app_length in Hn. cbn [length] in Hn.
    eapply round_block; [exact B|]. intros h' ms'. apply IH; [exact SH2|lia].
Qed.
Lemma tight_ok : forall ign bl ls, tight ign bl ls -> Forall ok_line ls.
Proof.
  intros ign. induction 1 as [pre F|b pre ls F B|b bl pre ls w rest F B P L IH|b bl pre ls i l rest F HT B E IL L IH].
  - apply (layout_ok []). now apply lay_nil.
  - apply (layout_ok [b]). now apply lay_last.
  - apply Forall_app. split; [eapply Forall_impl; [|exact F]; exact ok_blank|]. apply Forall_app.
    split; [exact (block_ok b ls B)|]. constructor; [now apply ok_blank|exact IH].
  - apply Forall_app. split; [eapply Forall_impl; [|exact F]; exact ok_blank|]. apply Forall_app.
    split; [exact (block_ok b ls B)|]. constructor; [|exact IH]. exact (Forall_inv (item_ok i [l] IL)).
Qed.
Theorem tight_file : forall ign bl ls s fuel, tight ign bl ls -> text_of ls s -> (length s < fuel)%nat ->
  parse_po_fuel fuel ign s = outcome ign None [] bl.
Proof.
  intros ign bl ls s fuel L T F. unfold parse_po_fuel. cbv zeta. rewrite (file_lines_ok ls s T).
  rewrite (scan_trim ign (map drop_cr ls) ls).
  2: { rewrite map_map. apply map_ext_in. intros l I. apply trim_drop_cr.
       pose proof (tight_ok ign bl ls L) as O. rewrite Forall_forall in O. now apply O. }
  pose proof (tight_parse ign fuel bl ls L (text_short ls s fuel T F) TEof false None []) as P.
  destruct (scan_all ign TEof false ls) as [|t ts] eqn:E.
  - rewrite <- (P 1%nat) by (cbn; lia). reflexivity.
  - apply P. lia.
Qed.
Theorem tight_accepted : forall ign bl ls s fuel, tight ign bl ls -> text_of ls s -> (length s < fuel)%nat ->
  NoDup (map key (messages_of bl)) -> (length (headers_of bl) <= 1)%nat ->
  (messages_of bl <> [] \/ headers_of bl <> []) ->
  parse_po_fuel fuel ign s = Ok (PoFile (match headers_of bl with
                                         | [] => new_header
                                         | (is, kvs) :: _ => header_of ign is kvs
                                         end) (map (seen_message ign) (messages_of bl))).
Proof.
  intros ign bl ls s fuel L T F ND H NE. rewrite (tight_file ign bl ls s fuel L T F).
  rewrite outcome_ok; [|exact ND|cbn [given]; lia]. cbn [app]. unfold first_header.
  destruct (headers_of bl) as [|[is kvs] hs]; [|reflexivity]. destruct NE as [NE|NE]; [|congruence].
  destruct (messages_of bl); [congruence|reflexivity].
Qed.
Theorem tight_rejected : forall ign bl ls s fuel, tight ign bl ls -> text_of ls s -> (length s < fuel)%nat ->
  (~ NoDup (map key (messages_of bl)) \/ (1 < length (headers_of bl))%nat \/
   (messages_of bl = [] /\ headers_of bl = [])) -> parse_po_fuel fuel ign s = Err.
Proof.
  intros ign bl ls s fuel L T F H. rewrite (tight_file ign bl ls s fuel L T F). destruct H as [H|[H|[M H]]].
  - apply outcome_dup; [constructor|exact H].
  - apply outcome_headers. cbn [given]. lia.
  - rewrite outcome_ok; [|rewrite M; constructor|rewrite H; cbn; lia]. unfold first_header. now rewrite M, H.
Qed.
