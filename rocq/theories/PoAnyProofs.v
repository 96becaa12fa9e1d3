(** What the parser makes of PO files of any layout. *)
From Coq Require Import String Ascii List ZArith Bool Lia ListDec.
From Verif Require Import Base BaseProofs StrModel TrimProofs PoStrModel PoStrSpec PoFileModel PoFileSpec ReModel PoDecodeProofs PoTotalProofs PoFieldSpec.
From Verif Require PoFieldProofs PoScanProofs.
From Verif Require Import PoLineSpec PoLineProofs PoHangSpec PoHangProofs PoAnySpec.
Import ListNotations.
Open Scope Z_scope.
Notation put := PoFieldProofs.put.
Notation result := PoFieldProofs.result.
Notation with_id := PoFieldProofs.with_id.

(** ** The messages of the tokens *)
Fixpoint collect (fuel : nat) (o : mode) (ts : list (ptok * bytes)) : res (list message) :=
  match ts with
  | [] => Ok (match o with MBody m => [m] | _ => [] end)
  | (k, l) :: ts' =>
      if ends k then
        match o with
        | MBody m => do r <- collect fuel MStart ts'; Ok (m :: r)
        | MCom c => if is_comment k then do c' <- comment_step fuel c k l; collect fuel (MCom c') ts' else collect fuel MStart ts'
        | MStart => if is_comment k then do c' <- comment_step fuel new_comment k l; collect fuel (MCom c') ts' else collect fuel MStart ts'
        end
      else do m' <- message_step fuel (body_msg o) k l; collect fuel (MBody m') ts'
  end.
Lemma result_close : forall h ms m l, result h ms (m :: l) = do x <- close h ms m; result (fst x) (snd x) l.
Proof.
  intros h ms m l. cbn [PoFieldProofs.result]. unfold close. destruct (is_nil (m_id m)).
  - destruct (is_nil (m_str m)); [reflexivity|]. destruct h; reflexivity.
  - destruct (existsb (same_key m) ms); reflexivity.
Qed.
Lemma close_empty : forall h ms m, m_id m = [] -> m_str m = [] -> close h ms m = Ok (h, ms).
Proof. intros h ms m I S. unfold close. now rewrite I, S. Qed.
Lemma drive_collect : forall fuel f ts h ms o, drive fuel (h, ms, o) ts = Ok f <-> exists l, collect fuel o ts = Ok l /\ result h ms l = Ok f.
Proof.
  intros fuel f. induction ts as [|[k l] ts IH]; intros h ms o.
  - unfold drive. cbn [run rbind fin collect]. destruct o as [|c|m].
    + split; [intro E; exists []; auto|intros (x & E & R); injection E as <-; exact R].
    + split; [intro E; exists []; auto|intros (x & E & R); injection E as <-; exact R].
    + assert (Q : result h ms [m] = do x <- close h ms m; finish (fst x) (snd x)) by apply result_close. rewrite <- Q.
      split; [intro E; exists [m]; auto|intros (x & E & R); injection E as <-; exact R].
  - rewrite drive_cons. cbn [step collect]. unfold body.
    assert (EMP : forall m, m_id m = [] -> m_str m = [] -> (do s' <- (do x <- close h ms m; Ok (fst x, snd x, MStart)); drive fuel s' ts) = drive fuel (h, ms, MStart) ts).
    { intros m I S. now rewrite close_empty by assumption. }
    assert (FLD : forall m, (do s' <- (do m' <- message_step fuel m k l; Ok (h, ms, MBody m')); drive fuel s' ts) = Ok f <->
      exists r, (do m' <- message_step fuel m k l; collect fuel (MBody m') ts) = Ok r /\ result h ms r = Ok f).
    { intros m. destruct (message_step fuel m k l) as [m'| | |]; cbn [rbind]; [apply IH|split; [discriminate|intros (? & X & _); discriminate X]..]. }
    assert (COM : forall c, (do s' <- (do c' <- comment_step fuel c k l; Ok (h, ms, MCom c')); drive fuel s' ts) = Ok f <->
      exists r, (do c' <- comment_step fuel c k l; collect fuel (MCom c') ts) = Ok r /\ result h ms r = Ok f).
    { intros c. destruct (comment_step fuel c k l) as [c'| | |]; cbn [rbind]; [apply IH|split; [discriminate|intros (? & X & _); discriminate X]..]. }
    destruct o as [|c|m]; cbn [body_msg].
    + destruct (is_comment k) eqn:K; [replace (ends k) with true by (destruct k; auto); apply COM|].
      destruct (ends k); [rewrite EMP by reflexivity; apply IH|apply FLD].
    + destruct (is_comment k) eqn:K; [replace (ends k) with true by (destruct k; auto); apply COM|].
      destruct (ends k); [rewrite EMP by reflexivity; apply IH|apply FLD].
    + destruct (ends k); [|apply FLD]. split.
      * intro E. destruct (close h ms m) as [[h' ms']| | |] eqn:C; try discriminate E. cbn [rbind fst snd] in E. apply IH in E as (r & E & R).
        exists (m :: r). rewrite E. split; [reflexivity|]. rewrite result_close, C. exact R.
      * intros (r0 & E & R). destruct (collect fuel MStart ts) as [r| | |] eqn:C0; try discriminate E. injection E as <-. rewrite result_close in R.
        destruct (close h ms m) as [[h' ms']| | |]; try discriminate R. cbn [rbind fst snd] in *. apply IH. eauto.
Qed.

(** ** The lines of a message *)
Fixpoint ftoks (last : ptok) (fl : list bytes) : list (ptok * bytes) :=
  match fl with [] => [] | l :: r => (scan_message last (trim_space l), trim_space l) :: ftoks (scan_message last (trim_space l)) r end.
Fixpoint flast (last : ptok) (fl : list bytes) : ptok :=
  match fl with [] => last | l :: r => flast (scan_message last (trim_space l)) r end.
Fixpoint fields_run (fuel : nat) (m : message) (last : ptok) (fl : list bytes) : res message :=
  match fl with
  | [] => Ok m
  | l :: r => do m' <- message_step fuel m (scan_message last (trim_space l)) (trim_space l); fields_run fuel m' (scan_message last (trim_space l)) r
  end.
Lemma field_scan : forall ign last l, field_start l -> is_nil (trim_space l) = false /\ scan_line ign last (trim_space l) = Some (scan_message last (trim_space l)).
Proof.
  intros ign last l [N C]. destruct (trim_space l) as [|c t] eqn:T; [congruence|]. split; [reflexivity|]. apply scan_string.
  intros ->. apply C. exists t. exact T.
Qed.
Lemma lines_on_scan : forall ign rest ls fl, lines_on ign ls fl -> forall last,
  scan_all ign last false (ls ++ rest) = ftoks last fl ++ scan_all ign (flast last fl) false rest.
Proof.
  intros ign rest ls fl. induction 1 as [|l ls fl F _ IH|l ls fl P _ IH]; intros last; [reflexivity| |]; cbn [app scan_all ftoks flast]; cbv zeta.
  - destruct (field_scan ign last l F) as [-> ->]. now rewrite IH.
  - destruct (passed_scans ign last _ P) as [-> N]. destruct (trim_space l); [congruence|]. apply IH.
Qed.
Lemma scan_message_ends : forall last t, ends (scan_message last t) = false.
Proof.
  intros last t. destruct (scan_message_kind last t) as [->|(A & B & _)]; [reflexivity|]. unfold ends. destruct (scan_message last t); try reflexivity; try discriminate A; congruence.
Qed.
Lemma collect_fields : forall fuel X fl l last o, collect fuel o (ftoks last (l :: fl) ++ X) =
  do m <- fields_run fuel (body_msg o) last (l :: fl); collect fuel (MBody m) X.
Proof.
  intros fuel X. induction fl as [|l2 fl IH]; intros l last o.
  - cbn [ftoks app collect fields_run]. rewrite scan_message_ends. destruct (message_step fuel (body_msg o) _ _); reflexivity.
  - assert (E : collect fuel o (ftoks last (l :: l2 :: fl) ++ X) = do m' <- message_step fuel (body_msg o) (scan_message last (trim_space l)) (trim_space l);
      collect fuel (MBody m') (ftoks (scan_message last (trim_space l)) (l2 :: fl) ++ X)).
    { cbn [ftoks app collect]. rewrite scan_message_ends. reflexivity. }
    rewrite E. change (fields_run fuel (body_msg o) last (l :: l2 :: fl)) with
      (do m' <- message_step fuel (body_msg o) (scan_message last (trim_space l)) (trim_space l); fields_run fuel m' (scan_message last (trim_space l)) (l2 :: fl)).
    destruct (message_step fuel (body_msg o) _ _) as [m'| | |]; cbn [rbind]; try reflexivity. apply IH.
Qed.

(** ** Fields *)
Definition ftok (f : pfield) : ptok :=
  match f with FCtx _ => TCtx | FId _ => TId | FPlural _ => TPl | FText _ => TStr | FForm _ _ => TStrP end.
Definition ltok (f : pfield) : ptok :=
  match f with FCtx _ => TCtxL | FId _ => TIdL | FPlural _ => TPlL | FText _ => TStrL | FForm _ _ => TStrPL end.
Lemma form_value : forall l w d x, form_line l w d x -> dec_val d <= 9223372036854775807 -> plural_index l = Ok (dec_val d).
Proof.
  intros l w d x (-> & W & (N & D) & X) L. unfold plural_index.
  assert (NA : forall c, re_space c = false -> ~ In c (bs "msgstr") -> ~ In c (bs "msgstr" ++ w)).
  { intros c C M I. apply in_app_or in I as [I|I]; [auto|]. unfold whites in W. rewrite Forall_forall in W. apply W, white_iff in I. congruence. }
  assert (NM : ~ In "["%char (bs "msgstr") /\ ~ In "]"%char (bs "msgstr")).
  { split; intro I; cbn in I; repeat (destruct I as [I|I]; [discriminate|]); exact I. }
  rewrite app_assoc. rewrite PoScanProofs.index_app by (apply NA; [reflexivity|apply NM]).
  replace ((bs "msgstr" ++ w) ++ "["%char :: d ++ "]"%char :: x) with (((bs "msgstr" ++ w) ++ "["%char :: d) ++ "]"%char :: x) by (rewrite <- app_assoc; reflexivity).
  rewrite PoScanProofs.index_app.
  2: { intro I. apply in_app_or in I as [I|[I|I]]; [revert I; apply NA; [reflexivity|apply NM]|discriminate|].
       rewrite Forall_forall in D. apply D in I. discriminate. }
  set (a := bs "msgstr" ++ w) in *. rewrite app_length. cbn [length].
  destruct (Nat.ltb_spec (length a + S (length d)) (S (length a))) as [H|_]; [lia|].
  assert (SL : slice (S (length a)) (length a + S (length d)) ((a ++ "["%char :: d) ++ "]"%char :: x) = d).
  { unfold slice. rewrite <- app_assoc. cbn [app]. replace (a ++ "["%char :: d ++ "]"%char :: x) with ((a ++ ["["%char]) ++ d ++ "]"%char :: x) by (rewrite <- app_assoc; reflexivity).
    replace (S (length a)) with (length (a ++ ["["%char])) by (rewrite app_length; cbn; lia).
    rewrite skipn_app, skipn_all, Nat.sub_diag. cbn [app skipn].
    replace (length a + S (length d) - length (a ++ ["["%char]))%nat with (length d) by (rewrite app_length; cbn; lia).
    rewrite firstn_app, Nat.sub_diag, firstn_all. cbn [firstn]. apply app_nil_r. }
  rewrite SL. assert (FD : forallb is_digit d = true) by (apply forallb_forall; now rewrite Forall_forall in D).
  rewrite parse_int_digits by assumption. reflexivity.
Qed.
Lemma keyed_step : forall t mk x, keyed t mk x ->
  (mk = FCtx \/ mk = FId \/ mk = FPlural \/ mk = FText \/ exists i, mk = FForm i) /\ within x t /\
  forall last, scan_message last t = ftok (mk []) /\
    forall fuel m, message_step fuel m (ftok (mk [])) t = do v <- dec fuel x; Ok (put m (mk v)).
Proof.
  assert (WS : forall p x : bytes, within x (p ++ x)) by (intros p x; exists p, []; split; [now rewrite app_nil_r|intros []]).
  intros t mk x K. unfold scan_message. change re_id with (rseq [rlit (bs "msgid"); rplus rspace; rquoted]) in *.
  change re_pl with (rseq [rlit (bs "msgid_plural"); rplus rspace; rquoted]) in *.
  change re_ctx with (rseq [rlit (bs "msgctxt"); rplus rspace; rquoted]) in *.
  change (bs "msgid ") with (bs "msgid" ++ bs " ") in *. change (bs "msgid_plural ") with (bs "msgid_plural" ++ bs " ") in *.
  change (bs "msgctxt ") with (bs "msgctxt" ++ bs " ") in *.
  destruct K as [x X|x X|x X|c x X|w d y p x W D L Y LP EQ].
  - rewrite (proj2 (kw_match (bs "msgid") _)) by (exists x; auto). split; [auto|]. split; [apply WS|]. intros last. split; [reflexivity|]. intros fuel m.
    cbn [ftok message_step]. rewrite (from_pre (bs "msgid ") x 6) by reflexivity. reflexivity.
  - replace (has_prefix _ (bs "msgid" ++ bs " ")) with false by reflexivity. cbn [andb].
    replace (has_prefix _ (bs "msgstr")) with false by reflexivity.
    rewrite (proj2 (kw_match (bs "msgid_plural") _)) by (exists x; auto). split; [auto|]. split; [apply WS|]. intros last. split; [reflexivity|]. intros fuel m.
    cbn [ftok message_step]. rewrite (from_pre (bs "msgid_plural ") x 13) by reflexivity. reflexivity.
  - replace (has_prefix _ (bs "msgid" ++ bs " ")) with false by reflexivity. cbn [andb].
    replace (has_prefix _ (bs "msgstr")) with false by reflexivity.
    replace (has_prefix _ (bs "msgid_plural" ++ bs " ")) with false by reflexivity. cbn [andb].
    rewrite (proj2 (kw_match (bs "msgctxt") _)) by (exists x; auto). split; [auto|]. split; [apply WS|]. intros last. split; [reflexivity|]. intros fuel m.
    cbn [ftok message_step]. rewrite (from_pre (bs "msgctxt ") x 8) by reflexivity. reflexivity.
  - replace (has_prefix _ (bs "msgid" ++ bs " ")) with false by reflexivity. cbn [andb].
    replace (has_prefix _ (bs "msgstr")) with true by reflexivity.
    rewrite (proj2 (str_match _)) by (exists (c :: x); auto). rewrite orb_true_r. split; [auto 10|].
    change (bs "msgstr" ++ c :: x) with ((bs "msgstr" ++ [c]) ++ x). split; [apply WS|]. intros last. split; [reflexivity|]. intros fuel m.
    cbn [ftok message_step]. rewrite (from_pre (bs "msgstr" ++ [c]) x 7) by reflexivity. reflexivity.
  - assert (F : form_line (p ++ x) w d y) by (repeat split; try apply D; assumption).
    replace (has_prefix (p ++ x) (bs "msgid" ++ bs " ")) with false by (rewrite EQ; reflexivity). cbn [andb].
    replace (has_prefix (p ++ x) (bs "msgstr")) with true by (rewrite EQ; reflexivity).
    rewrite (form_no_text _ _ _ _ F). rewrite (proj2 (strp_match _)) by eauto. split; [eauto 10|]. split; [apply WS|]. intros last. split; [reflexivity|].
    intros fuel m. cbn [ftok message_step].
    rewrite (form_value _ w d y F L). cbn [rbind]. rewrite (from_pre p x 10) by exact LP. reflexivity.
Qed.
Lemma more_scan : forall f k t, k = ftok f \/ k = ltok f -> string_line t -> scan_message k t = ltok f.
Proof.
  intros f k t K S. pose proof (proj2 (line_match t) S) as M. destruct S as (b & -> & B). unfold scan_message.
  replace (has_prefix _ (bs "msgid ")) with false by reflexivity. replace (has_prefix _ (bs "msgstr")) with false by reflexivity.
  replace (has_prefix _ (bs "msgid_plural ")) with false by reflexivity. replace (has_prefix _ (bs "msgctxt ")) with false by reflexivity.
  cbn [andb] in *. rewrite M. destruct f, K as [-> | ->]; reflexivity.
Qed.
Lemma text_same : forall fuel x u v, text_is x v -> dec fuel x = Ok u -> u = v.
Proof.
  intros fuel x u v T D. unfold text_is, decode_po in T. destruct (dec_same _ fuel x v T) as [E|E]; rewrite D in E; [now injection E|discriminate].
Qed.
Lemma text_dec : forall fuel x v, ~ In LF x -> dec fuel x = Ok v -> text_is x v.
Proof.
  intros fuel x v N D. unfold text_is, decode_po. destruct (dec_same _ (S (length x)) x v D) as [E|E]; [exact E|].
  apply dec_hang in E; [|exact N|lia]. rewrite (unclosed_hang fuel x E N) in D. discriminate.
Qed.

(** what a field of so many further lines does *)
Definition put_any (m : message) (f : pfield) (n : nat) (m1 : message) : Prop :=
  m1 = put m f \/
  exists i v st, f = FForm i v /\ n <> 0%nat /\ Z.of_nat (length (str_set (m_str m) i v)) <> i + 1 /\ st <> [] /\ m1 = set_str m st.
Lemma str_set_length : forall m i u v, length (str_set m i u) = length (str_set m i v).
Proof. induction m as [|[j w] m IH]; intros i u v; cbn [str_set]; [reflexivity|]. destruct (Z.eqb j i); cbn [length]; [reflexivity|]. now rewrite (IH i u v). Qed.
Lemma set_str_twice : forall m a b, set_str (set_str m a) b = set_str m b.
Proof. intros. reflexivity. Qed.
Definition simple (mk : bytes -> pfield) : Prop := mk = FCtx \/ mk = FId \/ mk = FPlural \/ mk = FText \/ exists i, mk = FForm i.
(** further lines of a field in turn *)
Lemma more_run : forall fuel m rest m' mk more vs, simple mk ->
  Forall2 (fun t u => string_line (trim_space t) /\ text_is (trim_space t) u) more vs ->
  (forall i, mk = FForm i -> Z.of_nat (length (str_set (m_str m) i [])) = i + 1) ->
  forall u k, k = ftok (mk u) \/ k = ltok (mk u) ->
  fields_run fuel (put m (mk u)) k (more ++ rest) = Ok m' ->
  exists k1, fields_run fuel (put m (mk (u ++ concat vs))) k1 rest = Ok m'.
Proof.
  intros fuel m rest m' mk more vs SI F TU. induction F as [|t w more vs [SL TX] _ IH]; intros u k K R.
  - cbn [concat app] in *. rewrite app_nil_r. eauto.
  - cbn [app fields_run] in R. rewrite (more_scan (mk u) k _ K SL) in R.
    assert (ST : message_step fuel (put m (mk u)) (ltok (mk u)) (trim_space t) = do v <- dec fuel (trim_space t); Ok (put m (mk (u ++ v)))).
    { destruct SI as [->|[->|[->|[->|[i ->]]]]]; cbn [ltok put message_step]; try reflexivity.
      - cbn [set_str m_str]. rewrite PoFieldProofs.str_at_set. destruct (dec fuel (trim_space t)); cbn [rbind]; try reflexivity.
        now rewrite PoFieldProofs.str_set_set.
      - cbv zeta. cbn [set_str m_str]. specialize (TU i eq_refl). rewrite (str_set_length _ i u []).
        replace (Z.of_nat (length (str_set (m_str m) i [])) - 1) with i by lia.
        replace (i <? 0) with false.
        + rewrite PoFieldProofs.str_at_set. destruct (dec fuel (trim_space t)); cbn [rbind]; try reflexivity. now rewrite PoFieldProofs.str_set_set.
        + symmetry. apply Z.ltb_ge. destruct (length (str_set (m_str m) i [])) eqn:E; [|lia].
          exfalso. clear - E. destruct (m_str m) as [|[j w] r]; cbn [str_set] in E; [discriminate|]. destruct (Z.eqb j i); discriminate. }
    rewrite ST in R. destruct (dec fuel (trim_space t)) as [v| | |] eqn:D; try discriminate R. cbn [rbind] in R.
    rewrite (text_same _ _ _ _ TX D) in *.
    destruct (IH (u ++ w) (ltok (mk u))) with (2 := R) as [k1 X].
    { right. destruct SI as [->|[->|[->|[->|[i ->]]]]]; reflexivity. }
    exists k1. cbn [concat]. now rewrite app_assoc.
Qed.
(** ... of a form out of turn *)
Lemma more_any : forall fuel m rest m' (i : Z) more, Forall (fun t => string_line (trim_space t)) more ->
  forall st k, k = TStrP \/ k = TStrPL -> st <> [] ->
  fields_run fuel (set_str m st) k (more ++ rest) = Ok m' ->
  exists st1 k1, st1 <> [] /\ fields_run fuel (set_str m st1) k1 rest = Ok m'.
Proof.
  intros fuel m rest m' i more F. induction F as [|t more SL _ IH]; intros st k K NE R.
  - cbn [app] in R. eauto.
  - cbn [app fields_run] in R. rewrite (more_scan (FForm i []) k _ K SL) in R. cbn [ltok message_step] in R. cbv zeta in R. cbn [set_str m_str] in R.
    destruct (_ <? 0); [discriminate R|]. destruct (dec fuel (trim_space t)) as [v| | |]; try discriminate R. cbn [rbind] in R. rewrite set_str_twice in R.
    eapply IH with (3 := R); [now right|]. apply str_set_ne.
Qed.
Lemma chunk : forall fuel m last l mk x v more vs rest m', keyed (trim_space l) mk x -> text_is x v ->
  Forall2 (fun t u => string_line (trim_space t) /\ text_is (trim_space t) u) more vs ->
  fields_run fuel m last (l :: more ++ rest) = Ok m' ->
  exists m1 k1, put_any m (mk (v ++ concat vs)) (length more) m1 /\ fields_run fuel m1 k1 rest = Ok m'.
Proof.
  intros fuel m last l mk x v more vs rest m' K TX F R. destruct (keyed_step _ _ _ K) as (SI & _ & ST). destruct (ST last) as [SC MS].
  cbn [fields_run] in R. rewrite SC, MS in R. destruct (dec fuel x) as [w| | |] eqn:D; try discriminate R. cbn [rbind] in R.
  rewrite (text_same _ _ _ _ TX D) in *. clear D.
  assert (KK : ftok (mk []) = ftok (mk v)) by (destruct SI as [->|[->|[->|[->|[i ->]]]]]; reflexivity).
  destruct more as [|t more].
  - inversion F; subst. cbn [concat app length] in *. rewrite app_nil_r. exists (put m (mk v)), (ftok (mk [])). split; [now left|exact R].
  - assert (DE : (forall i, mk = FForm i -> Z.of_nat (length (str_set (m_str m) i [])) = i + 1) \/
      exists i, mk = FForm i /\ Z.of_nat (length (str_set (m_str m) i [])) <> i + 1).
    { destruct SI as [->|[->|[->|[->|[i ->]]]]]; try (left; intros j E; apply (f_equal (fun g => g [])) in E; discriminate E).
      destruct (Z.eq_dec (Z.of_nat (length (str_set (m_str m) i []))) (i + 1)) as [E|E]; [left|right; eauto].
      intros j E'. apply (f_equal (fun g => g [])) in E'. injection E' as <-. exact E. }
    destruct DE as [TU|(i & -> & OUT)].
    + destruct (more_run fuel m rest m' mk (t :: more) vs SI F TU v (ftok (mk []))) as [k1 X]; [now left|exact R|].
      exists (put m (mk (v ++ concat vs))), k1. split; [now left|exact X].
    + cbn [put] in R. destruct (more_any fuel m rest m' i (t :: more)) with (4 := R) as (st1 & k1 & NE & X).
      * clear - F. induction F as [|a b p q [H _] _ IH]; constructor; assumption.
      * now left.
      * apply str_set_ne.
      * exists (set_str m st1), k1. split; [|exact X]. right. exists i, (v ++ concat vs), st1. split; [reflexivity|]. split; [discriminate|].
        split; [|auto]. now rewrite (str_set_length _ i _ []).
Qed.
Inductive puts_any : message -> list pfield -> list nat -> message -> Prop :=
| pa_nil : forall m, puts_any m [] [] m
| pa_cons : forall m f n m1 fs ks m', put_any m f n m1 -> puts_any m1 fs ks m' -> puts_any m (f :: fs) (n :: ks) m'.
Lemma fields_any : forall fuel fl fs ks, any_fields fl fs ks -> forall m last m', fields_run fuel m last fl = Ok m' -> puts_any m fs ks m'.
Proof.
  intros fuel fl fs ks. induction 1 as [|l mk x v more vs rest fs ks K TX F _ IH]; intros m last m' R.
  - injection R as <-. constructor.
  - destruct (chunk fuel m last l mk x v more vs rest m' K TX F R) as (m1 & k1 & P & R1). econstructor; eauto.
Qed.

(** ** What a message says *)
Definition saying (P : Prop) (before : list pfield) (m : message) : Prop :=
  last_or_none ctx_of before (m_ctx m) /\ last_or_none id_of before (m_id m) /\ last_or_none plural_of before (m_pl m) /\
  (m_str m = [] <-> indices before = []) /\
  (P -> NoDup (map fst (m_str m)) /\ forall i v, In (i, v) (m_str m) <-> last_value_of (form_of i) before v) /\
  (P -> PoFieldProofs.tracks before m).
Lemma str_set_not_nil : forall m i v, str_set m i v = [] <-> False.
Proof. intros m i v. split; [apply str_set_ne|intros []]. Qed.
Lemma says_put : forall (P : Prop) before m f, saying P before m -> saying P (before ++ [f]) (put m f).
Proof.
  intros P before m f (CT & ID & PL & SN & EX & TR).
  split; [pose proof (PoFieldProofs.last_or_none_snoc ctx_of before f _ CT) as X; destruct f; exact X|].
  split; [pose proof (PoFieldProofs.last_or_none_snoc id_of before f _ ID) as X; destruct f; exact X|].
  split; [pose proof (PoFieldProofs.last_or_none_snoc plural_of before f _ PL) as X; destruct f; exact X|].
  split; [|split].
  - rewrite PoFieldProofs.indices_app. destruct f; cbn [put set_ctx set_id set_pl set_str m_str indices flat_map app]; rewrite ?app_nil_r; try exact SN;
      rewrite str_set_not_nil; (split; [intros []|intro H; apply app_eq_nil in H as [_ H]; discriminate]).
  - intro p. destruct (EX p) as [ND ST].
    split; [destruct f; cbn [put set_ctx set_id set_pl set_str m_str]; try exact ND; now apply PoFieldProofs.str_set_nodup|].
    intros i v. rewrite PoFieldProofs.last_snoc, <- ST.
    destruct f as [u|u|u|u|j u]; cbn [put set_ctx set_id set_pl set_str m_str form_of];
      try (split; [now right|intros [X|[_ X]]; [discriminate|exact X]]).
    + rewrite PoFieldProofs.str_set_in by exact ND. destruct (Z.eq_dec i 0) as [->|D].
      * split; [intros [[_ ->]|[X _]]; [now left|congruence]|intros [X|[X _]]; [injection X as ->; now left|discriminate]].
      * split; [intros [[X _]|[_ X]]; [contradiction|now right]|intros [X|[_ X]]; [discriminate|now right]].
    + rewrite PoFieldProofs.str_set_in by exact ND. destruct (Z.eq_dec i j) as [->|D].
      * split; [intros [[_ ->]|[X _]]; [now left|congruence]|intros [X|[X _]]; [injection X as ->; now left|discriminate]].
      * split; [intros [[X _]|[_ X]]; [contradiction|now right]|intros [X|[_ X]]; [discriminate|now right]].
  - intro p. now apply PoFieldProofs.tracks_put, TR.
Qed.
Lemma saying_weak : forall (P Q : Prop) before m, (Q -> P) -> saying P before m -> saying Q before m.
Proof. intros P Q before m H (A & B & C & D & E & F). repeat split; try assumption; try (apply D); try (apply E; auto); try (apply F; auto). Qed.
Lemma says_any : forall m fs ks m', puts_any m fs ks m' -> forall P before, saying P before m ->
  saying (P /\ in_turn before fs ks) (before ++ fs) m'.
Proof.
  intros m fs ks m'. induction 1 as [m|m f n m1 fs ks m' A _ IH]; intros P before S.
  - rewrite app_nil_r. eapply saying_weak; [|exact S]. tauto.
  - replace (before ++ f :: fs) with ((before ++ [f]) ++ fs) by now rewrite <- app_assoc. destruct A as [->|(i & v & st & -> & N & OUT & NE & ->)].
    + eapply saying_weak; [|apply IH; apply (says_put P before m f S)]. cbn [in_turn]. tauto.
    + assert (FA : saying False (before ++ [FForm i v]) (set_str m st)).
      { pose proof (saying_weak P False before m (False_ind P) S) as S0. pose proof (says_put False before m (FForm i v) S0) as (CT & ID & PL & SN & _).
        split; [exact CT|]. split; [exact ID|]. split; [exact PL|]. split; [|split; intros []].
        rewrite <- SN. cbn [put set_str m_str]. rewrite str_set_not_nil. split; [exact NE|intros []]. }
      eapply saying_weak; [|exact (IH False _ FA)]. cbn [in_turn]. intros (p & [TU|TU] & IT); [contradiction|]. exfalso. apply OUT.
      destruct S as (_ & _ & _ & _ & _ & TR). destruct (TR p) as [ND KE]. rewrite <- TU. f_equal. rewrite <- (map_length fst). apply PoFieldProofs.same_elements.
      * now apply PoFieldProofs.str_set_nodup.
      * apply NoDup_nodup.
      * intro j. rewrite PoFieldProofs.str_set_keys, nodup_In, in_app_iff, KE. cbn [In]. intuition congruence.
Qed.
Lemma entry_any : forall fuel fl fs ks m last m', any_fields fl fs ks -> fields_run fuel m last fl = Ok m' ->
  m_ctx m = [] -> m_id m = [] -> m_pl m = [] -> m_str m = [] -> entry_says (fs, ks) m'.
Proof.
  intros fuel fl fs ks m last m' A R C I P S. pose proof (fields_any _ _ _ _ A _ _ _ R) as PA.
  assert (S0 : saying True [] m).
  { split; [right; split; [exact C|constructor]|]. split; [right; split; [exact I|constructor]|]. split; [right; split; [exact P|constructor]|].
    split; [now rewrite S|]. unfold PoFieldProofs.tracks. rewrite S. split; intros _.
    - split; [constructor|]. intros i v. split; [intros []|]. intros (a & g & b & E & _). destruct a; discriminate.
    - split; [constructor|]. intro j. reflexivity. }
  destruct (says_any _ _ _ _ PA True [] S0) as (CT & ID & PL & SN & EX & _). cbn [app] in *.
  split; [exact CT|]. split; [exact ID|]. split; [exact PL|]. split; [exact SN|]. intro IT. apply EX. now split.
Qed.

(** ** The messages of a file *)
Definition outside (o : mode) : Prop := match o with MBody _ => False | _ => True end.
Lemma outside_new : forall o, outside o -> m_ctx (body_msg o) = [] /\ m_id (body_msg o) = [] /\ m_pl (body_msg o) = [] /\ m_str (body_msg o) = [].
Proof. intros [|c|m] H; [repeat split|repeat split|destruct H]. Qed.
Lemma comment_kind : forall ign last t k, scan_comment ign last t = Some k -> is_comment k = true \/ k = TFail \/ k = TPrevUnknown.
Proof.
  intros ign last t k S. unfold scan_comment in S. destruct t as [|c [|d y]]; [injection S as <-; auto|destruct ign; [discriminate|injection S as <-; now left]|].
  repeat match type of S with (if ?b then _ else _) = _ => destruct b | match last with _ => _ end = _ => destruct last end; try discriminate S;
    injection S as <-; auto.
Qed.
Lemma comment_place : forall k, is_comment k = true -> place_of k <> InString /\ ends k = true.
Proof. intros k H. destruct k; try discriminate H; split; (reflexivity || discriminate). Qed.
Lemma quiet_collect : forall fuel ign l ls last blank o ms, quiet l -> outside o -> collect fuel o (scan_all ign last blank (l :: ls)) = Ok ms ->
  exists last' blank' o', outside o' /\ collect fuel o' (scan_all ign last' blank' ls) = Ok ms /\ (place_of last <> InString -> place_of last' <> InString).
Proof.
  intros fuel ign l ls last blank o ms Q O C. cbn [scan_all] in C. cbv zeta in C. destruct Q as [T|[y T]]; rewrite T in C.
  - cbn [is_nil] in C. destruct blank; [exists last, true, o; auto|]. cbn [collect ends is_comment] in C. exists TWs, true, MStart. split; [exact I|].
    split; [destruct o; [exact C|exact C|destruct O]|discriminate].
  - cbn [is_nil] in C. assert (SL : scan_line ign last ("#"%char :: y) = scan_comment ign last ("#"%char :: y)) by reflexivity. rewrite SL in C.
    destruct (scan_comment ign last ("#"%char :: y)) as [k|] eqn:S; [|exists last, false, o; auto].
    cbn [collect] in C. destruct (comment_kind _ _ _ _ S) as [K|[-> | ->]]; [|discriminate C..]. destruct (comment_place k K) as [PL E]. rewrite E, K in C.
    destruct o as [|c|m]; [| |destruct O].
    + destruct (comment_step fuel new_comment k _) as [c'| | |]; try discriminate C. exists k, false, (MCom c'). split; [exact I|auto].
    + destruct (comment_step fuel c k _) as [c'| | |]; try discriminate C. exists k, false, (MCom c'). split; [exact I|auto].
Qed.
Lemma quiet_body : forall fuel ign l ls last m ms, ended ign (l :: ls) -> collect fuel (MBody m) (scan_all ign last false (l :: ls)) = Ok ms ->
  exists last' blank' ms', ms = m :: ms' /\ place_of last' <> InString /\ collect fuel MStart (scan_all ign last' blank' ls) = Ok ms'.
Proof.
  intros fuel ign l ls last m ms [Q NP] C. cbn [scan_all] in C. cbv zeta in C. destruct Q as [T|[y T]]; rewrite T in C.
  - cbn [is_nil collect ends] in C. destruct (collect fuel MStart (scan_all ign TWs true ls)) as [r| | |] eqn:R; try discriminate C. injection C as <-.
    exists TWs, true, r. repeat split; [discriminate|exact R].
  - cbn [is_nil] in C. assert (SL : scan_line ign last ("#"%char :: y) = scan_comment ign last ("#"%char :: y)) by reflexivity. rewrite SL in C.
    pose proof (comment_scan ign last y) as CS. cbv zeta in CS.
    destruct (scan_comment ign last ("#"%char :: y)) as [k|] eqn:S; [|rewrite T in NP; contradiction].
    cbn [collect] in C. destruct (comment_kind _ _ _ _ S) as [K|[-> | ->]]; [|discriminate C..]. destruct (comment_place k K) as [PL E]. rewrite E in C.
    destruct (collect fuel MStart (scan_all ign k false ls)) as [r| | |] eqn:R; try discriminate C. injection C as <-.
    exists k, false, r. auto.
Qed.
Lemma field_not_quiet : forall l, field_start l -> ~ quiet l.
Proof. intros l [N C] [T|T]; [contradiction|exact (C T)]. Qed.
Lemma field_blank : forall ign last blank l ls, field_start l -> scan_all ign last blank (l :: ls) = scan_all ign last false (l :: ls).
Proof. intros ign last blank l ls [N _]. cbn [scan_all]. cbv zeta. destruct (trim_space l); [congruence|reflexivity]. Qed.
Lemma entry_collect : forall fuel ign l ls fl rest last blank o ms, field_start l -> lines_on ign ls fl -> outside o ->
  collect fuel o (scan_all ign last blank (l :: ls ++ rest)) = Ok ms ->
  exists m k, fields_run fuel (body_msg o) last (l :: fl) = Ok m /\ collect fuel (MBody m) (scan_all ign k false rest) = Ok ms.
Proof.
  intros fuel ign l ls fl rest last blank o ms F L O C. rewrite field_blank in C by exact F.
  change (l :: ls ++ rest) with ((l :: ls) ++ rest) in C. rewrite (lines_on_scan ign rest _ (l :: fl)) in C by now constructor.
  rewrite collect_fields in C. destruct (fields_run fuel (body_msg o) last (l :: fl)) as [m| | |]; try discriminate C. eauto.
Qed.
Lemma any_collect : forall fuel ign rs es, any_file ign rs es ->
  (forall last blank o ms, outside o -> collect fuel o (scan_all ign last blank rs) = Ok ms -> Forall2 entry_says es ms) /\
  (forall last m ms, ended ign rs -> collect fuel (MBody m) (scan_all ign last false rs) = Ok ms -> exists ms', ms = m :: ms' /\ Forall2 entry_says es ms').
Proof.
  intros fuel ign rs es. induction 1 as [|l ls es Q _ [IHA _]|l ls fl rest fs ks es F L E A _ [_ IHB]].
  - split.
    + intros last blank o ms O C. cbn [scan_all collect] in C. injection C as <-. destruct o; [constructor|constructor|destruct O].
    + intros last m ms _ C. injection C as <-. exists []. split; [reflexivity|constructor].
  - split.
    + intros last blank o ms O C. destruct (quiet_collect _ _ _ _ _ _ _ _ Q O C) as (la & b & o' & O' & C' & _). eapply IHA; eassumption.
    + intros last m ms E C. destruct (quiet_body _ _ _ _ _ _ _ E C) as (la & b & ms' & -> & _ & C'). exists ms'. split; [reflexivity|].
      eapply IHA; [|exact C']. exact I.
  - split.
    + intros last blank o ms O C. destruct (entry_collect _ _ _ _ _ _ _ _ _ _ F L O C) as (m & k & R & C').
      destruct (IHB _ _ _ E C') as (ms' & -> & S). constructor; [|exact S]. destruct (outside_new o O) as (X1 & X2 & X3 & X4).
      eapply entry_any; eassumption.
    + intros last m ms [Q _] _. exfalso. exact (field_not_quiet l F Q).
Qed.

(** ** Every file is of this form *)
Lemma keyword_keyed : forall t, keyword_line t -> exists mk x, keyed t mk x.
Proof.
  intros t [x X|x X|x X|x X|w d x W D L X]; [exists FId, x|exists FPlural, x|exists FCtx, x| |]; try (now constructor).
  - destruct x as [|c x]; [destruct X as (w & b & w' & E & _); destruct w; discriminate E|]. exists FText, x. now constructor.
  - set (q := bs "msgstr" ++ w ++ "["%char :: d ++ "]"%char :: x).
    assert (LE : (10 <= length q)%nat).
    { unfold q. destruct D as [D _]. destruct X as (u & b & u' & -> & _). destruct d as [|d0 d]; [congruence|].
      rewrite app_length, app_length. cbn [length]. rewrite app_length. cbn [length]. rewrite app_length. cbn [length]. rewrite app_length. cbn [length].
      pose proof (eq_refl : length (bs "msgstr") = 6%nat) as X6. lia. }
    exists (FForm (dec_val d)), (skipn 10 q). rewrite <- (firstn_skipn 10 q) at 1. apply (ky_form w d x); try assumption.
    + rewrite firstn_length. lia.
    + apply firstn_skipn.
Qed.
Definition no_string (fl : list bytes) : Prop := match fl with [] => True | l :: _ => ~ string_line (trim_space l) end.
Lemma within_no_lf : forall q l, within q l -> ~ In LF l -> ~ In LF q.
Proof. intros q l (u & w & -> & _) N I. apply N. apply in_or_app. right. apply in_or_app. now left. Qed.
Lemma strings_span : forall fuel m' r m k f, Forall (fun l => ~ In LF l) r -> k = ftok f \/ k = ltok f -> fields_run fuel m k r = Ok m' ->
  exists more vs rest m2 k2, r = more ++ rest /\ Forall2 (fun t u => string_line (trim_space t) /\ text_is (trim_space t) u) more vs /\
    no_string rest /\ fields_run fuel m2 k2 rest = Ok m'.
Proof.
  intros fuel m'. induction r as [|l r IH]; intros m k f N K R; [exists [], [], [], m, k; repeat split; [constructor|exact R]|].
  destruct (has_prefix (trim_space l) [QUOTE] && has_suffix (trim_space l) [QUOTE] && rmatch re_line (trim_space l)) eqn:M.
  - apply line_match in M. cbn [fields_run] in R. rewrite (more_scan f k _ K M) in R.
    destruct (message_step fuel m (ltok f) (trim_space l)) as [m1| | |] eqn:ST; try discriminate R. cbn [rbind] in R.
    assert (D : exists v, dec fuel (trim_space l) = Ok v).
    { destruct f; cbn [ltok message_step] in ST; cbv zeta in ST; try (destruct (_ <? 0); [discriminate ST|]); destruct (dec fuel (trim_space l)) as [v0| | |]; try discriminate ST; eauto. }
    destruct D as [v D]. apply text_dec in D; [|eapply within_no_lf; [apply trim_within|exact (Forall_inv N)]].
    destruct (IH m1 (ltok f) f (Forall_inv_tail N) (or_intror eq_refl) R) as (more & vs & rest & m2 & k2 & -> & F & NS & R2).
    exists (l :: more), (v :: vs), rest, m2, k2. repeat split; auto.
  - exists [], [], (l :: r), m, k. repeat split; [constructor| |exact R]. cbn [no_string]. intro S. apply line_match in S. congruence.
Qed.
Lemma fields_exist : forall fuel m' n fl m last, (length fl <= n)%nat -> Forall (fun l => ~ In LF l) fl -> place_of last <> InString \/ no_string fl ->
  fields_run fuel m last fl = Ok m' -> exists fs ks, any_fields fl fs ks.
Proof.
  intros fuel m'. induction n as [|n IH]; intros [|l r] m last L N H R; try (exists [], []; constructor); [cbn [length] in L; lia|].
  cbn [fields_run] in R. destruct (message_step fuel m (scan_message last (trim_space l)) (trim_space l)) as [m1| | |] eqn:ST; try discriminate R. cbn [rbind] in R.
  pose proof (message_step_good _ _ _ _ _ ST) as G. destruct (scan_message_good _ _ G) as [_ [KW|[S P]]]; [|exfalso; destruct H as [H|H]; [exact (H P)|exact (H S)]].
  destruct (keyword_keyed _ KW) as (mk & x & KY). destruct (keyed_step _ _ _ KY) as (SI & WI & SC). destruct (SC last) as [SM MS]. rewrite SM in *. rewrite MS in ST.
  destruct (dec fuel x) as [v| | |] eqn:D; try discriminate ST.
  pose proof (Forall_inv N) as NL. cbn beta in NL.
  apply text_dec in D; [|eapply within_no_lf; [exact WI|]; eapply within_no_lf; [apply trim_within|exact NL]].
  destruct (strings_span fuel m' r m1 (ftok (mk [])) (mk []) (Forall_inv_tail N) (or_introl eq_refl) R) as (more & vs & rest & m2 & k2 & -> & F & NS & R2).
  destruct (IH rest m2 k2) as (fs & ks & A).
  - cbn [length] in L. rewrite app_length in L. lia.
  - apply Forall_inv_tail in N. now apply Forall_app in N.
  - now right.
  - exact R2.
  - exists (mk (v ++ concat vs) :: fs), (length more :: ks). now apply (an_cons l mk x).
Qed.
Lemma span : forall ign ls, exists a fl b, ls = a ++ b /\ lines_on ign a fl /\ ended ign b /\ incl fl a.
Proof.
  intros ign. induction ls as [|l ls (a & fl & b & -> & L & E & IN)]; [exists [], [], []; repeat split; [constructor|intros x []]|].
  destruct (trim_space l) as [|c y] eqn:T.
  - exists [], [], (l :: a ++ b). repeat split; [constructor|now left| |intros x []]. intro P. apply (passed_scans ign TWs) in P as [_ P]. congruence.
  - destruct (Ascii.eqb_spec c "#") as [->|NC].
    + pose proof (comment_scan ign TEof y) as CS. cbv zeta in CS. destruct (scan_comment ign TEof ("#"%char :: y)) as [k|] eqn:S.
      * exists [], [], (l :: a ++ b). repeat split; [constructor|right; exists y; exact T| |intros x []]. intro P. rewrite T in P.
        apply (passed_scans ign TEof) in P as [P _]. assert (SL : scan_line ign TEof ("#"%char :: y) = scan_comment ign TEof ("#"%char :: y)) by reflexivity. congruence.
      * exists (l :: a), fl, b. repeat split; [apply lo_passed; [now rewrite T|exact L]|exact E|]. intros x I. right. now apply IN.
    + exists (l :: a), (l :: fl), b. repeat split; [|exact E|].
      * apply lo_field; [|exact L]. split; [congruence|]. intros [z Z]. congruence.
      * intros x [<-|I]; [now left|right; now apply IN].
Qed.
Lemma any_exists : forall fuel ign n ls last blank o ms, (length ls <= n)%nat -> Forall (fun l => ~ In LF l) ls -> place_of last <> InString -> outside o ->
  collect fuel o (scan_all ign last blank ls) = Ok ms -> exists es, any_file ign ls es.
Proof.
  intros fuel ign. induction n as [|n IH]; intros [|l ls] last blank o ms L N P O C; try (exists []; apply af_nil); [cbn [length] in L; lia|].
  cbn [length] in L. destruct (trim_space l) as [|c y] eqn:T.
  - destruct (quiet_collect fuel ign l ls last blank o ms) as (la & b & o' & O' & C' & P'); [now left|exact O|exact C|].
    destruct (IH ls la b o' ms) as [es A]; [lia|exact (Forall_inv_tail N)|now apply P'|exact O'|exact C'|]. exists es. constructor; [now left|exact A].
  - destruct (Ascii.eqb_spec c "#") as [->|NC].
    + assert (Q : quiet l) by (right; exists y; exact T). destruct (quiet_collect fuel ign l ls last blank o ms Q O C) as (la & b & o' & O' & C' & P').
      destruct (IH ls la b o' ms) as [es A]; [lia|exact (Forall_inv_tail N)|now apply P'|exact O'|exact C'|]. exists es. now constructor.
    + assert (F : field_start l) by (split; [congruence|intros [z Z]; congruence]).
      destruct (span ign ls) as (a & fl & b & -> & LO & E & IN).
      destruct (entry_collect _ _ _ _ _ _ _ _ _ _ F LO O C) as (m & k & R & C').
      destruct (fields_exist fuel m (length (l :: fl)) (l :: fl) (body_msg o) last) as (fs & ks & AF); [lia| |now left|exact R|].
      { constructor; [exact (Forall_inv N)|]. apply Forall_forall. intros x I. pose proof (Forall_inv_tail N) as N'. rewrite Forall_forall in N'. apply N'.
        apply in_or_app. left. now apply IN. }
      assert (B : exists es, any_file ign b es).
      { destruct b as [|l2 b]; [exists []; constructor|]. destruct (quiet_body _ _ _ _ _ _ _ E C') as (la & bl & ms' & _ & PL & C2).
        destruct (IH b la bl MStart ms') as [es A]; [rewrite app_length in L; cbn [length] in L; lia| |exact PL|exact I|exact C2|].
        - apply Forall_inv_tail in N. apply Forall_app in N as [_ N]. exact (Forall_inv_tail N).
        - exists es. constructor; [apply E|exact A]. }
      destruct B as [es B]. exists ((fs, ks) :: es). now apply (af_entry ign l a fl b).
Qed.

(** ** Files that are accepted *)
Lemma scan_no_eof : forall ign ls last blank, Forall (fun t => fst t <> TEof) (scan_all ign last blank ls).
Proof.
  intros ign. induction ls as [|l ls IH]; intros last blank; [constructor|]. cbn [scan_all]. cbv zeta. destruct (is_nil (trim_space l)).
  - destruct blank; [apply IH|]. constructor; [discriminate|apply IH].
  - destruct (scan_line ign last (trim_space l)) as [k|] eqn:S; [|apply IH]. constructor; [|apply IH]. cbn [fst]. intros ->.
    unfold scan_line in S. destruct (trim_space l) as [|c t]; [discriminate|]. destruct (Ascii.eqb c "#").
    + apply comment_kind in S as [S|[S|S]]; discriminate.
    + injection S as S. destruct (scan_message_kind last (c :: t)) as [X|(_ & _ & X & _)]; congruence.
Qed.
Lemma field_step_ok : forall fuel m k l, tok_ok False fuel (k, l) -> good (k, l) -> ends k = false -> k <> TEof -> (k = TStrPL -> m_str m <> []) ->
  exists m', message_step fuel m k l = Ok m' /\ (is_form k -> m_str m' <> []).
Proof.
  intros fuel m k l T (G1 & G2 & G3) K NE SM. cbn [fst snd] in *.
  assert (O : exists m', message_step fuel m k l = Ok m').
  { apply outc_ok; [now apply message_step_outc|]. destruct T as [[L _] _]. cbn [fst snd] in L.
    assert (D : forall q (g : bytes -> message), (do v <- dec fuel q; Ok (g v)) <> Err).
    { intros q g. pose proof (dec_no_err fuel q). destruct (dec fuel q); cbn [rbind]; (discriminate || congruence). }
    destruct k; try discriminate K; try congruence; cbn [least] in L; unfold message_step; cbv zeta; try apply D;
      try (destruct (from_outc False _ l L) as [-> _]; cbn [rbind]; apply D).
    - destruct (G3 eq_refl) as [i ->]. cbn [rbind]. destruct (from_outc False _ l L) as [-> _]; cbn [rbind]. apply D.
    - destruct (Z.ltb_spec (Z.of_nat (length (m_str m)) - 1) 0) as [H|H]; [|apply D].
      exfalso. specialize (SM eq_refl). destruct (m_str m); [congruence|]. cbn [length] in H. lia. }
  destruct O as [m' E]. exists m'. split; [exact E|]. intros [->| ->]; cbn [message_step] in E; cbv zeta in E.
  - destruct (plural_index l) as [i| | |]; try discriminate E. destruct (from 10 l) as [x| | |]; try discriminate E. cbn [rbind] in E.
    destruct (dec fuel x) as [v| | |]; try discriminate E. injection E as <-. apply str_set_ne.
  - destruct (_ <? 0); [discriminate E|]. destruct (dec fuel l) as [v| | |]; try discriminate E. injection E as <-. apply str_set_ne.
Qed.
Lemma collect_total : forall fuel ts prev o, Forall (tok_ok False fuel) ts -> Forall good ts -> Forall (fun t => fst t <> TEof) ts -> linked prev ts ->
  (is_form prev -> exists m, o = MBody m /\ m_str m <> []) -> exists ms, collect fuel o ts = Ok ms.
Proof.
  intros fuel. induction ts as [|[k l] ts IH]; intros prev o T G NE LL FO; [cbn [collect]; eauto|]. destruct LL as [LK LN].
  pose proof (Forall_inv T) as T1. pose proof (Forall_inv G) as G1. pose proof (Forall_inv NE) as N1. cbn [fst] in N1.
  assert (REC : forall o', (is_form k -> exists m, o' = MBody m /\ m_str m <> []) -> exists ms, collect fuel o' ts = Ok ms).
  { intros o' H. exact (IH k o' (Forall_inv_tail T) (Forall_inv_tail G) (Forall_inv_tail NE) LN H). }
  cbn [collect]. destruct (ends k) eqn:E.
  - assert (NF : is_form k -> False) by (intros [->| ->]; discriminate E).
    assert (REC' : forall o', exists ms, collect fuel o' ts = Ok ms) by (intro o'; apply REC; intro H; destruct (NF H)).
    assert (COM : forall c, exists ms, (if is_comment k then do c' <- comment_step fuel c k l; collect fuel (MCom c') ts else collect fuel MStart ts) = Ok ms).
    { intro c. destruct (is_comment k) eqn:K; [|apply REC']. destruct (comment_step_ok fuel c k l T1 K) as [c' ->]. cbn [rbind]. apply REC'. }
    destruct o as [|c|m]; [apply COM|apply COM|]. destruct (REC' MStart) as [ms ->]. cbn [rbind]. eauto.
  - destruct (field_step_ok fuel (body_msg o) k l T1 G1 E N1) as (m' & -> & FM).
    + intro K. destruct (FO (LK K)) as (m & -> & H). exact H.
    + cbn [rbind]. apply REC. intro F. exists m'. auto.
Qed.

(** ** Files *)
Lemma lines_no_lf : forall s rs, reads_lines s rs -> Forall (fun l => ~ In LF l) rs.
Proof.
  intros s rs R. apply reads_file_lines in R as ->. apply Forall_forall. intros l I. apply file_lines_in in I as (l' & IL & W).
  eapply within_no_lf; [exact W|]. exact (proj1 IL).
Qed.
Theorem file_any : forall fuel ign s f rs, parse_po_fuel fuel ign s = Ok f -> reads_lines s rs -> exists es, any_file ign rs es.
Proof.
  intros fuel ign s f rs H R. pose proof (lines_no_lf s rs R) as N. apply reads_file_lines in R as ->. rewrite po_drive in H. apply drive_collect in H as (l & C & _).
  eapply any_exists with (4 := I) (5 := C); [apply le_n|exact N|discriminate].
Qed.
Lemma says_with_id : forall es ms, Forall2 entry_says es ms -> file_says es (with_id ms).
Proof.
  induction 1 as [|e m es ms S _ IH]; [constructor|]. unfold PoFieldProofs.with_id. cbn [filter]. destruct (m_id m) eqn:E; cbn [is_nil negb].
  - constructor; [|exact IH]. rewrite <- E. apply S.
  - constructor; [exact S|congruence|exact IH].
Qed.
Lemma says_keys : forall es ms, Forall2 entry_says es ms -> forall ms', file_says es ms' -> map key (with_id ms) = map key ms'.
Proof.
  induction 1 as [|e m es ms S _ IH]; intros ms' F; inversion F as [|e' es' ms0 I F'|e' es' m' ms0 S' NE F']; subst; [reflexivity| |];
    unfold PoFieldProofs.with_id; cbn [filter]; destruct S as (CT & ID & _).
  - rewrite (PoFieldProofs.last_or_none_unique _ _ _ _ ID I). cbn [is_nil negb]. now apply IH.
  - destruct S' as (CT' & ID' & _). pose proof (PoFieldProofs.last_or_none_unique _ _ _ _ ID ID') as EI.
    rewrite EI. replace (is_nil (m_id m')) with false by (symmetry; now apply PoFieldProofs.is_nil_false). cbn [negb map]. f_equal; [|now apply IH].
    unfold key. now rewrite EI, (PoFieldProofs.last_or_none_unique _ _ _ _ CT CT').
Qed.
Lemma says_heads : forall es ms, Forall2 entry_says es ms -> forall n, heads es n -> length (PoFieldProofs.heads ms) = n.
Proof.
  induction 1 as [|e m es ms S _ IH]; intros n H; inversion H as [|e' es' n' v LV NE H'|e' es' n' IX H'|e' es' n' LN IX H']; subst; [reflexivity|..];
    unfold PoFieldProofs.heads; cbn [filter]; destruct S as (_ & ID & _ & SN & _).
  - assert (E : m_id m = v) by (eapply PoFieldProofs.last_or_none_unique; [exact ID|now left]). rewrite E.
    replace (is_nil v) with false by (symmetry; now apply PoFieldProofs.is_nil_false). cbn [andb]. now apply IH.
  - apply SN in IX. rewrite IX. cbn [is_nil negb]. rewrite andb_false_r. now apply IH.
  - rewrite (PoFieldProofs.last_or_none_unique _ _ _ _ ID LN). destruct (m_str m) eqn:E; [exfalso; apply IX; now apply SN|].
    cbn [is_nil negb andb length]. f_equal. now apply IH.
Qed.
Theorem file_messages : forall fuel ign s f rs es, parse_po_fuel fuel ign s = Ok f -> reads_lines s rs -> any_file ign rs es ->
  file_says es (f_messages f) /\ NoDup (map key (f_messages f)).
Proof.
  intros fuel ign s f rs es H R A. apply reads_file_lines in R as ->. rewrite po_drive in H. apply drive_collect in H as (l & C & RE).
  pose proof (proj1 (any_collect fuel ign _ es A) TEof false MStart l I C) as S. pose proof (PoFieldProofs.result_messages _ _ _ _ RE) as E. cbn [app] in E.
  rewrite E. split; [now apply says_with_id|].
  destruct (ListDec.NoDup_dec (fun a b : bytes * bytes => ltac:(decide equality; apply list_eq_dec, ascii_dec)) (map key (with_id l))) as [D|D]; [exact D|].
  exfalso. rewrite (PoFieldProofs.result_dup l None []) in RE; [discriminate|constructor|exact D].
Qed.
Lemma file_collects : forall fuel ign s rs, reads_lines s rs -> (length s < fuel)%nat -> understood ign Elsewhere rs -> Forall (fun l => ~ unclosed l) rs ->
  exists l, collect fuel MStart (scan_all ign TEof false rs) = Ok l.
Proof.
  intros fuel ign s rs R L U N. pose proof (lines_no_lf s rs R) as NL. apply reads_file_lines in R. 
  apply (collect_total fuel _ TEof MStart).
  - apply scan_all_ok. apply Forall_forall. intros l J. right. rewrite Forall_forall in N, NL. split; [now apply N|]. split; [now apply NL|].
    subst rs. apply file_lines_in in J as (l' & IL & (u & w & E & _)). apply line_length in IL. rewrite E, !app_length in IL. lia.
  - apply (scan_understood ign rs TEof false); [discriminate|exact U].
  - apply scan_no_eof.
  - apply scan_linked.
  - intros [H|H]; discriminate.
Qed.
Theorem file_exists : forall fuel ign s rs, reads_lines s rs -> (length s < fuel)%nat -> understood ign Elsewhere rs -> Forall (fun l => ~ unclosed l) rs ->
  exists es, any_file ign rs es.
Proof.
  intros fuel ign s rs R L U N. destruct (file_collects fuel ign s rs R L U N) as [l C].
  eapply any_exists with (4 := I) (5 := C); [apply le_n|exact (lines_no_lf s rs R)|discriminate].
Qed.
Theorem file_rejects : forall fuel ign s rs es ms, reads_lines s rs -> any_file ign rs es -> file_says es ms -> ~ NoDup (map key ms) ->
  forall f, parse_po_fuel fuel ign s <> Ok f.
Proof.
  intros fuel ign s rs es ms R A F D f H. apply reads_file_lines in R as ->. rewrite po_drive in H. apply drive_collect in H as (l & C & RE).
  pose proof (proj1 (any_collect fuel ign _ es A) TEof false MStart l I C) as S. rewrite (PoFieldProofs.result_dup l None []) in RE; [discriminate|constructor|].
  cbn [map app]. now rewrite (says_keys es l S ms F).
Qed.
Theorem file_accepts : forall fuel ign s rs es ms n, reads_lines s rs -> (length s < fuel)%nat -> understood ign Elsewhere rs -> Forall (fun l => ~ unclosed l) rs ->
  any_file ign rs es -> file_says es ms -> NoDup (map key ms) -> ms <> [] -> heads es n -> (n <= 1)%nat -> exists f, parse_po_fuel fuel ign s = Ok f.
Proof.
  intros fuel ign s rs es ms n R L U N A F D NE H H1. destruct (file_collects fuel ign s rs R L U N) as [l C]. apply reads_file_lines in R as ->.
  pose proof (proj1 (any_collect fuel ign _ es A) TEof false MStart l I C) as S. pose proof (says_keys es l S ms F) as K.
  destruct (PoFieldProofs.result_ok l None []) as [f RE].
  - cbn [map app]. now rewrite K.
  - rewrite (says_heads es l S n H). cbn. lia.
  - right. left. intro E. rewrite E in K. destruct ms; [congruence|discriminate K].
  - exists f. rewrite po_drive. apply drive_collect. eauto.
Qed.
