(** Which plural rule texts are never read to their end. *)
From Coq Require Import String Ascii List ZArith QArith Qabs Bool Lia ZifyBool.
From Verif Require Import Base BaseProofs Utf8Model Utf8Proofs StrModel NumModel F64Model ReModel ReProofs CldrModel CldrSpec CldrEvalProofs CldrOperandProofs CldrTextProofs CldrParseProofs CldrTotalProofs CldrSampleProofs
  CldrGramSpec CldrGramProofs.
Import ListNotations.
Open Scope Z_scope.

Lemma ascends_dec : forall x y, ascends x y \/ ~ ascends x y.
Proof.
  intros x y. unfold ascends. destruct (Z_le_gt_dec (nm_digits x) (nm_digits y)) as [L|G]; [|right; intros [_ X]; lia].
  assert (D : same_places x y \/ ~ same_places x y); [|tauto]. unfold same_places. destruct (nm_fp x) as [f|], (nm_fp y) as [g|]; auto. destruct (Nat.eq_dec (length f) (length g)); auto.
Qed.
Lemma range_hangs : forall x y, sample_num x -> sample_num y -> ~ ascends x y -> forall fuel, parse_sample_range fuel (nm_text x ++ "~"%char :: nm_text y) = OutOfFuel.
Proof.
  intros x y X Y D fuel. unfold parse_sample_range. rewrite split_sample by assumption. destruct (sample_loop_never_err fuel (nm_text x) (nm_text y)) as [A B].
  destruct (sample_loop fuel (nm_text x) (nm_text y)) as [l| | |] eqn:E; try congruence. elim D. exact (sample_loop_ok_inv fuel x y l X Y E).
Qed.
Lemma range_mono : forall f g w l, parse_sample_range f w = Ok l -> (f <= g)%nat -> parse_sample_range g w = Ok l.
Proof. intros f g w l H L. unfold parse_sample_range in *. destruct (split_on "~" w) as [|a [|b [|]]]; try exact H. now apply (sample_loop_mono f). Qed.
Lemma range_no_err : forall f w, parse_sample_range f w <> Err /\ parse_sample_range f w <> Panic.
Proof. intros f w. unfold parse_sample_range. destruct (split_on "~" w) as [|a [|b [|]]]; try (split; discriminate). apply sample_loop_never_err. Qed.
Lemma samples_mono : forall f g n st, (f <= g)%nat -> samples_loop f n st <> OutOfFuel -> samples_loop g n st = samples_loop f n st.
Proof.
  intros f g n. induction n as [|n IH]; intros st L H; [reflexivity|]. rewrite !samples_step in *.
  destruct (p_tok st); try reflexivity.
  - destruct (pnext st) as [st1| | |]; try reflexivity. cbn [rbind] in *. rewrite IH; [reflexivity|exact L|]. intro X. rewrite X in H. now elim H.
  - destruct (pnext st) as [st1| | |]; try reflexivity. cbn [rbind] in *. now apply IH.
  - destruct (pnext st) as [st1| | |]; try reflexivity. cbn [rbind] in *. rewrite IH; [reflexivity|exact L|]. intro X. rewrite X in H. now elim H.
  - destruct (range_no_err f (p_lit st)) as [N1 N2]. destruct (parse_sample_range f (p_lit st)) as [rs| | |] eqn:R; try congruence; [|now elim H]. rewrite (range_mono _ _ _ _ R L). cbn [rbind] in *.
    destruct (pnext st) as [st1| | |]; try reflexivity. cbn [rbind] in *. rewrite IH; [reflexivity|exact L|]. intro X. rewrite X in H. now elim H.
Qed.
Lemma next_mu : forall st st', pnext st = Ok st' -> (mu st' <= length (p_rest st))%nat.
Proof.
  intros st st' E. unfold pnext in E. destruct (cscan (p_rest st)) as [[t l] r] eqn:C. destruct (cscan_shape _ _ _ _ C) as [_ L].
  destruct t; try discriminate; inversion E; subst; unfold mu; cbn [p_tok p_rest]; try lia; specialize (L ltac:(discriminate)); lia.
Qed.
Lemma next_fuel : forall st, pnext st <> OutOfFuel /\ pnext st <> Panic.
Proof. intro st. unfold pnext. destruct (cscan (p_rest st)) as [[[] l] r]; split; discriminate. Qed.

(** *** Where the loop stays *)
Lemma samples_stuck : forall n st, good st -> (forall fuel, samples_loop fuel n st = OutOfFuel) -> (mu st <= n)%nat ->
  exists ts l z x y, samples_of ts l /\ run st ts z /\ shows (p_tok z) (p_lit z) (TSamples x y) /\ ~ ascends x y.
Proof.
  induction n as [|n IH]; intros st G H M.
  - specialize (H 0%nat). cbn [samples_loop] in H. unfold mu in M. destruct (p_tok st); try discriminate; lia.
  - assert (NX : forall st1, pnext st = Ok st1 -> p_tok st <> KEof -> (mu st1 <= n)%nat).
    { intros st1 P NE. pose proof (next_mu st st1 P). unfold mu in M. destruct (p_tok st); try congruence; lia. }
    assert (H1 : forall fuel, samples_loop fuel (S n) st = OutOfFuel) by exact H. clear H. assert (H := fun fuel => eq_trans (eq_sym (samples_step fuel n st)) (H1 fuel)). clear H1.
    destruct (next_fuel st) as [NF _].
    destruct (p_tok st) eqn:T; try (specialize (H 0%nat); discriminate).
    + destruct (pnext st) as [st1| | |] eqn:P; try (specialize (H 0%nat); discriminate); [|congruence].
      destruct (IH st1 (next_good _ _ G P)) as (ts & l & z & x & y & O & R & S & D); [|apply NX; [reflexivity|discriminate]|].
      { intro fuel. specialize (H fuel). cbn [rbind] in H. destruct (samples_loop fuel n st1); try discriminate. reflexivity. }
      destruct (proj2 (proj2 G)) as (t & S0); [now rewrite T|]. pose proof S0 as S1. rewrite T in S1. inversion S1; subst.
      exists (TVal (p_lit st) :: ts), (p_lit st :: l), z, x, y. split; [now constructor|]. split; [now apply ru_step with st1|auto].
    + destruct (pnext st) as [st1| | |] eqn:P; try (specialize (H 0%nat); discriminate); [|congruence].
      destruct (IH st1 (next_good _ _ G P)) as (ts & l & z & x & y & O & R & S & D); [exact H|apply NX; [reflexivity|discriminate]|].
      exists (TMark :: ts), l, z, x, y. split; [now constructor|]. split; [apply ru_step with st1; [rewrite T; constructor|exact P|exact R]|auto].
    + destruct (pnext st) as [st1| | |] eqn:P; try (specialize (H 0%nat); discriminate); [|congruence].
      destruct (IH st1 (next_good _ _ G P)) as (ts & l & z & x & y & O & R & S & D); [|apply NX; [reflexivity|discriminate]|].
      { intro fuel. specialize (H fuel). cbn [rbind] in H. destruct (samples_loop fuel n st1); try discriminate. reflexivity. }
      exists (TSample (p_lit st) :: ts), (p_lit st :: l), z, x, y. split; [now constructor|]. split; [apply ru_step with st1; [rewrite T; constructor|exact P|exact R]|auto].
    + destruct (proj2 (proj2 G)) as (t & S0); [now rewrite T|]. pose proof S0 as S1. rewrite T in S1. apply shows_ksrange in S1 as (x & y & -> & W & X & Y).
      destruct (ascends_dec x y) as [[SP LEQ]|D]; [|exists [], [], st, x, y; split; [constructor|split; [constructor|auto]]].
      set (F0 := Datatypes.S (Z.to_nat (nm_digits y - nm_digits x))). destruct (loop_steps F0 x y X Y SP LEQ ltac:(unfold F0; lia)) as (zs & E0 & SF).
      assert (PR : forall fuel, (F0 <= fuel)%nat -> parse_sample_range fuel (p_lit st) = Ok (map nm_text zs)).
      { intros fuel LF. rewrite W. apply (range_mono F0); [|exact LF]. unfold parse_sample_range. now rewrite split_sample. }
      destruct (pnext st) as [st1| | |] eqn:P; try (specialize (H F0); rewrite PR in H by lia; discriminate); [|congruence].
      destruct (IH st1 (next_good _ _ G P)) as (ts & l & z & x' & y' & O & R & S & D); [|apply NX; [reflexivity|discriminate]|].
      { intro fuel. assert (Q := samples_mono fuel (Nat.max fuel F0) n st1 ltac:(lia)). specialize (H (Nat.max fuel F0)). rewrite PR in H by lia. cbn [rbind] in H.
        destruct (samples_loop fuel n st1) as [m| | |] eqn:L; [| | |reflexivity]; rewrite Q in H by discriminate; discriminate. }
      exists (TSamples x y :: ts), (map nm_text zs ++ l), z, x', y'. split; [now constructor|]. split; [now apply ru_step with st1|auto].
Qed.

(** *** Words read so far *)
Lemma no_join_b : forall r, no_join r <-> ~ In (hd [] r) [bs ".."; bs "~"].
Proof.
  intros [|w r]; cbn [no_join hd]; [split; [intros _ [E|[E|[]]]; discriminate|exact (fun _ => I)]|]. destruct (mem_b w [bs ".."; bs "~"]) eqn:M.
  - split; [discriminate|]. intro N. elim N. now apply mem_b_in.
  - split; [|reflexivity]. intros _ [N|[N|[]]]; subst w; discriminate.
Qed.
Inductive begins : list bytes -> token -> list bytes -> Prop :=
| be_key : forall w t r, keyword w t -> begins [w] t r
| be_num : forall w t r, number w t -> no_join r -> begins [w] t r
| be_join : forall a j b t r, a <> [] -> j = bs ".." \/ j = bs "~" -> number (a ++ j ++ b) t -> begins [a; j; b] t r.
Lemma cscan_prefix : forall ws k l r, nonempty ws -> cscan ws = (k, l, r) -> k <> KEof -> k <> KUnknown ->
  exists fs u t, ws = fs ++ u ++ r /\ Forall filler fs /\ shows k l t /\ begins u t r.
Proof.
  induction ws as [|w ws IH]; intros k l r NE H N1 N2; [injection H as <- _ _; now elim N1|]. inversion NE as [|? ? W NW]; subst.
  assert (KW : forall k0 l0 t, shows k0 l0 t -> ktok (kw_lower w) w = Some t -> (k0, l0, ws) = (k, l, r) -> exists fs u t, w :: ws = fs ++ u ++ r /\ Forall filler fs /\ shows k l t /\ begins u t r).
  { intros k0 l0 t S KT E. injection E as <- <- <-. exists [], [w], t. split; [reflexivity|]. split; [constructor|]. split; [exact S|]. apply be_key. now apply keyword_ktok. }
  cbn [cscan] in H. destruct (beq (kw_lower w) []) eqn:B0; [injection H as <- _ _; now elim N1|].
  unfold ktok in KW. set (kl := kw_lower w) in *.
  destruct (mem_b kl [bs "n"; bs "i"; bs "v"; bs "w"; bs "f"; bs "t"; bs "c"; bs "e"]) eqn:B1; [apply (KW KOperand w (TOper w)); [constructor|reflexivity|exact H]|].
  destruct (beq kl (bs "=")) eqn:B2; [apply (KW KEqual w (TRel false)); [constructor|reflexivity|exact H]|].
  destruct (mem_b kl [bs "%"; bs "mod"]) eqn:B3; [apply (KW KRem (bs "%") TRem); [constructor|reflexivity|exact H]|].
  destruct (beq kl (bs "!=")) eqn:B4; [apply (KW KNotEqual (bs "!=") (TRel true)); [constructor|reflexivity|exact H]|].
  destruct (mem_b kl [bs "@integer"; bs "@decimal"]) eqn:B5; [apply (KW KSample w TMark); [constructor|reflexivity|exact H]|].
  destruct (beq kl (bs "and")) eqn:B6; [apply (KW KAnd w TAnd); [constructor|reflexivity|exact H]|].
  destruct (beq kl (bs "or")) eqn:B7; [apply (KW KOr w TOr); [constructor|reflexivity|exact H]|]. clear KW.
  destruct (mem_b kl [encode_rune 8230; bs "..."; bs "."]) eqn:B8.
  { destruct (IH k l r NW H N1 N2) as (fs & u & t & -> & F & S & B). exists (w :: fs), u, t. split; [reflexivity|]. split; [constructor; [apply filler_iff; exact B8|exact F]|auto]. }
  fold (classify w) in H.
  assert (ONE : no_join ws -> (classify w, w, ws) = (k, l, r) -> exists fs u t, w :: ws = fs ++ u ++ r /\ Forall filler fs /\ shows k l t /\ begins u t r).
  { intros NJ E. injection E as <- <- <-. destruct (classify_number w) as [U|(t & M)]; [congruence|]. exists [], [w], t. split; [reflexivity|]. split; [constructor|]. split; [now apply number_shows|now apply be_num]. }
  destruct ws as [|j ws2]; [now apply ONE|]. destruct (mem_b j [bs ".."; bs "~"]) eqn:MJ; [|now apply ONE]. destruct ws2 as [|b r3]; [injection H as <- _ _; now elim N2|].
  fold (classify (w ++ j ++ b)) in H. injection H as <- <- <-. destruct (classify_number (w ++ j ++ b)) as [U|(t & M)]; [congruence|].
  exists [], [w; j; b], t. split; [reflexivity|]. split; [constructor|]. split; [now apply number_shows|]. apply be_join; [exact W| |exact M]. destruct (mem_b_in _ _ MJ) as [E|[E|[]]]; auto.
Qed.
Lemma cscan_begins : forall u t r, begins u t r -> exists k l, cscan (u ++ r) = (k, l, r) /\ shows k l t.
Proof.
  intros u t r [w t0 r0 K|w t0 r0 M NJ|a j b t0 r0 NA J M]; cbn [app].
  - assert (NW : beq (kw_lower w) [] = false) by (destruct (beq (kw_lower w) []) eqn:B; [|reflexivity]; apply beq_eq in B; apply keyword_ktok in K; rewrite B in K; discriminate).
    apply keyword_ktok in K. unfold ktok in K. cbn [cscan]. rewrite NW.
    repeat match type of K with (if ?c then _ else _) = _ => destruct c; [injection K as <-; eexists _, _; split; [reflexivity|constructor]|] end. discriminate.
  - destruct (number_head _ _ M) as (c & v & -> & D). exists (classify (c :: v)), (c :: v). split; [now apply cscan_digit|now apply number_shows].
  - exists (classify (a ++ j ++ b)), (a ++ j ++ b). split; [|now apply number_shows]. destruct (number_head _ _ M) as (c & v & E & D). destruct a as [|c' a]; [contradiction|]. injection E as -> E.
    destruct (digit_word c a D) as [KT NF]. cbn [cscan]. 
    assert (NW : beq (kw_lower (c :: a)) [] = false) by (destruct (kw_head c a D) as (t' & ->); reflexivity). rewrite NW. unfold ktok in KT.
    repeat match type of KT with (if ?q then _ else _) = _ => destruct q; [discriminate|] end.
    destruct (mem_b (kw_lower (c :: a)) [encode_rune 8230; bs "..."; bs "."]) eqn:B8; [elim NF; now apply filler_iff|].
    destruct J as [-> | ->]; reflexivity.
Qed.
Lemma enter_fillers : forall fs r, Forall filler fs -> enter (fs ++ r) = enter r.
Proof.
  intros fs r F. induction F as [|w fs W F IH]; [reflexivity|]. rewrite <- IH. unfold enter, pnext. cbn [app p_rest]. destruct W as [->|[->| ->]]; reflexivity.
Qed.
Lemma next_enter : forall st, pnext st = enter (p_rest st).
Proof. reflexivity. Qed.
Lemma lexed_app : forall u t r, begins u t r -> forall us ts, lexed us ts -> lexed (u ++ us) (t :: ts).
Proof. intros u t r [w t0 r0 K|w t0 r0 M NJ|a j b t0 r0 NA J M] us ts L; cbn [app]; [now apply lx_keyword|now apply lx_number|now apply lx_joined]. Qed.
Lemma lexed_fillers : forall fs us ts, Forall filler fs -> lexed us ts -> lexed (fs ++ us) ts.
Proof. intros fs us ts F L. induction F; [exact L|]. now apply lx_filler. Qed.
Lemma lexed_end : forall us ts, lexed us ts -> forall fs, Forall filler fs -> lexed (us ++ fs) ts.
Proof.
  intros us ts L. induction L; intros fs F; cbn [app].
  - rewrite <- (app_nil_r fs). apply lexed_fillers; [exact F|constructor].
  - apply lx_filler; auto.
  - apply lx_keyword; auto.
  - apply lx_number; auto.
  - apply lx_joined; auto.
Qed.
Lemma enter_inv : forall ws st, nonempty ws -> enter ws = Ok st -> forall t, shows (p_tok st) (p_lit st) t -> exists fs u, ws = fs ++ u ++ p_rest st /\ Forall filler fs /\ begins u t (p_rest st).
Proof.
  intros ws st N E t S. unfold enter, pnext in E. cbn [p_rest] in E. destruct (cscan ws) as [[k l] r] eqn:C.
  assert (X : k <> KUnknown /\ st = PSt k l r) by (destruct k; (discriminate || (injection E as <-; split; [discriminate|reflexivity]))). destruct X as [NU ->]. cbn [p_tok p_lit p_rest] in *.
  destruct (cscan_prefix ws k l r N C) as (fs & u & t' & EQ & F & S' & B); [intro X; subst k; inversion S|exact NU|]. rewrite (shows_fun _ _ _ _ S S'). eauto.
Qed.
Lemma run_words : forall ts ws st z, nonempty ws -> enter ws = Ok st -> run st ts z -> exists us w2, ws = us ++ w2 /\ lexed us ts /\ enter w2 = Ok z.
Proof.
  induction ts as [|t ts IH]; intros ws st z N E R.
  - inversion R; subst. exists [], ws. split; [reflexivity|]. split; [constructor|exact E].
  - apply run_cons in R as (S & st1 & P & R). destruct (enter_inv ws st N E t S) as (fs & u & EQ & F & B).
    assert (N2 : nonempty (p_rest st)) by (rewrite EQ in N; apply Forall_app in N as [_ N]; now apply Forall_app in N as [_ N]).
    destruct (IH (p_rest st) st1 z N2 P R) as (us & w2 & E2 & L & Z). exists (fs ++ u ++ us), w2. split; [rewrite EQ, E2; now rewrite <- !app_assoc|]. split; [|exact Z].
    apply lexed_fillers; [exact F|]. exact (lexed_app _ _ _ B _ _ L).
Qed.
(** a word that begins with a digit does not join *)
Lemma lexed_head : forall us ts tail, lexed us ts -> no_join tail -> no_join (us ++ tail).
Proof.
  assert (D : forall w, (exists c v, w = c :: v /\ is_digit c = true) -> mem_b w [bs ".."; bs "~"] = false).
  { intros w (c & v & -> & D). destruct (mem_b (c :: v) _) eqn:M; [|reflexivity]. destruct (mem_b_in _ _ M) as [E|[E|[]]]; injection E as <- _; discriminate. }
  intros us ts tail L NJ. destruct L as [|w ws ts F L|w ws t ts K L|w ws t ts M L|a j b ws t ts NA J M L]; cbn [app no_join]; [exact NJ| | | |].
  - destruct F as [->|[->| ->]]; reflexivity.
  - destruct (mem_b w _) eqn:X; [|reflexivity]. apply keyword_ktok in K. destruct (mem_b_in _ _ X) as [E|[E|[]]]; subst w; discriminate.
  - apply D. destruct (number_head _ _ M) as (c & v & E & DC). eauto.
  - apply D. destruct (number_head _ _ M) as (c & v & E & DC). destruct a as [|c' a]; [contradiction|]. injection E as -> _. eauto.
Qed.
Lemma words_run : forall us ts, lexed us ts -> forall tail z, no_join tail -> enter tail = Ok z -> exists st, enter (us ++ tail) = Ok st /\ run st ts z.
Proof.
  intros us ts L.
  assert (STEP : forall u t ws ts0 tail z, begins u t (ws ++ tail) -> (exists st, enter (ws ++ tail) = Ok st /\ run st ts0 z) -> exists st, enter (u ++ ws ++ tail) = Ok st /\ run st (t :: ts0) z).
  { intros u t ws ts0 tail z B (st1 & E1 & R1). destruct (cscan_begins _ _ _ B) as (k & l & C & S). exists (PSt k l (ws ++ tail)). split.
    - unfold enter, pnext. cbn [p_rest]. rewrite C. destruct k; try reflexivity. inversion S.
    - apply ru_step with st1; [exact S|exact E1|exact R1]. }
  induction L as [|w ws ts F L IH|w ws t ts K L IH|w ws t ts M L IH|a j b ws t ts NA J M L IH]; intros tail z NJ E.
  - exists z. split; [exact E|constructor].
  - destruct (IH tail z NJ E) as (st & E1 & R1). exists st. split; [|exact R1]. change ((w :: ws) ++ tail) with ([w] ++ ws ++ tail). rewrite enter_fillers; [exact E1|now constructor].
  - apply (STEP [w]); [now apply be_key|now apply IH].
  - apply (STEP [w]); [apply be_num; [exact M|exact (lexed_head _ _ _ L NJ)]|now apply IH].
  - apply (STEP [a; j; b]); [now apply be_join|now apply IH].
Qed.
Lemma range_begins : forall tail x y, next_range tail x y -> no_join tail /\ exists z, enter tail = Ok z /\ shows (p_tok z) (p_lit z) (TSamples x y).
Proof.
  intros tail x y H.
  assert (B : exists u r, tail = u ++ r /\ begins u (TSamples x y) r) by (destruct H as [w rest x y M J|a j b rest x y NA J M]; [exists [w], rest; split; [reflexivity|apply be_num; [exact M|now apply no_join_b]]|exists [a; j; b], rest; split; [reflexivity|now apply be_join]]).
  destruct B as (u & r & -> & B). split.
  - pose proof (lexed_app _ _ _ B [] [] lx_nil) as L. rewrite app_nil_r in L. pose proof (lexed_head _ _ [] L I) as J. rewrite app_nil_r in J. destruct B; exact J.
  - destruct (cscan_begins _ _ _ B) as (k & l & C & S). exists (PSt k l r). split; [|exact S]. unfold enter, pnext. cbn [p_rest]. rewrite C. destruct k; try reflexivity. inversion S.
Qed.

(** *** Rules *)
Lemma or_no_mark : forall ts n, or_of ts n -> ~ In TMark ts.
Proof.
  assert (EL : forall ls l, Forall2 elem_of ls l -> ~ In TMark ls) by (intros ls l F; induction F as [|t e ls l [s|s u B] F IH]; [intros []| |]; (intros [X|X]; [discriminate|auto])).
  assert (RL : forall ts n, rel_of ts n -> ~ In TMark ts).
  { intros ts n [xs e neg ls l X N F] I. apply in_app_iff in I as [I|[I|I]]; [|discriminate|now apply (EL _ _ F)]. destruct X; cbn [In] in I; intuition discriminate. }
  assert (AN : forall ts n, and_of ts n -> ~ In TMark ts).
  { intros ts n A. induction A as [us n R|us n vs m R A IH]; [exact (RL _ _ R)|]. intro I. apply in_app_iff in I as [I|[I|I]]; [now apply (RL _ _ R)|discriminate|auto]. }
  intros ts n A. induction A as [us n R|us n vs m R A IH]; [exact (AN _ _ R)|]. intro I. apply in_app_iff in I as [I|[I|I]]; [now apply (AN _ _ R)|discriminate|auto].
Qed.
Lemma stuck_intro : forall ws st ts z root l x y, nonempty ws -> enter ws = Ok st -> run st ts z -> rule_of ts root l -> In TMark ts -> shows (p_tok z) (p_lit z) (TSamples x y) -> ~ ascends x y -> stuck ws.
Proof.
  intros ws st ts z root l x y N E R RO M S D. destruct (run_words ts ws st z N E R) as (us & w2 & EQ & L & Z).
  assert (N2 : nonempty w2) by (rewrite EQ in N; now apply Forall_app in N as [_ N]). destruct (enter_inv w2 z N2 Z _ S) as (fs & u & E2 & F & B).
  exists (us ++ fs), (u ++ p_rest z), ts, root, l, x, y. split; [rewrite EQ, E2; now rewrite <- app_assoc|]. split; [now apply lexed_end|]. split; [exact RO|]. split; [exact M|]. split; [|exact D].
  inversion B as [w t r K|w t r NU NJ|a j b t r NA J NU]; subst; [inversion K|apply nr_word; [exact NU|now apply no_join_b]|now apply nr_joined].
Qed.
Lemma hang_sound : forall s, (forall fuel, parse_rule fuel s = OutOfFuel) -> exists ws, words (segs s) ws /\ stuck ws.
Proof.
  intros s H. pose proof (proj2 (tokens_words s (generate_tokens s)) eq_refl) as W. exists (generate_tokens s). split; [exact W|]. pose proof (words_nonempty _ _ W (segs_full _ _)) as N.
  assert (H1 := fun fuel => eq_trans (eq_sym (parse_rule_head fuel s)) (H fuel)). clear H.
  pose proof (head_good (fun _ => True) (fun _ => True) (fun _ _ _ _ => I) (fun _ _ _ => I) (generate_tokens s) I) as HG.
  set (ws := generate_tokens s) in *. clearbody ws. pose proof (enter_view ws N) as EV. change (enter ws) with (pnext (PSt KEof [] ws)) in EV.
  destruct (pnext (PSt KEof [] ws)) as [st| | |] eqn:P; try (specialize (H1 0%nat); discriminate); [|contradiction]. cbn [rbind] in H1, HG. destruct EV as [G _].
  assert (MU : (mu st <= S (length ws))%nat) by (pose proof (next_mu _ _ P) as M; cbn [p_rest] in M; lia).
  assert (FIN : forall st1 us root, run st us st1 -> (us = [] /\ root = None \/ exists n, or_of us n /\ root = Some n) -> (mu st1 <= S (length ws))%nat ->
    (forall fuel, (do sm <- p_samples fuel (S (length ws)) st1; Ok (CRule root sm)) = OutOfFuel) -> stuck ws).
  { intros st1 us root R1 C M1 H. assert (T : p_tok st1 = KSample).
    { specialize (H 0%nat). unfold p_samples in H. destruct (p_tok st1); try discriminate. reflexivity. }
    destruct (samples_stuck (S (length ws)) st1 (run_good _ _ _ R1 G)) as (ts & l & z & x & y & O & R2 & SH & D); [|exact M1|].
    - intro fuel. specialize (H fuel). unfold p_samples in H. rewrite T in H. destruct (samples_loop fuel (S (length ws)) st1); try discriminate. reflexivity.
    - destruct R2 as [st1|st1 t st2 ts z S0 P0 R2]; [rewrite T in SH; inversion SH|]. pose proof S0 as S1. rewrite T in S1. inversion S1; subst. inversion O as [|? ? O1| | |]; subst.
      apply stuck_intro with (st := st) (ts := us ++ TMark :: ts) (z := z) (root := root) (l := l) (x := x) (y := y); auto.
      + exact (run_app _ _ _ _ _ R1 (ru_step _ _ _ _ _ S0 P0 R2)).
      + destruct C as [[-> ->]|(n & OR & ->)]; now constructor.
      + apply in_or_app. right. now left. }
  assert (CASE : p_tok st = KSample \/ p_tok st <> KSample) by (destruct (p_tok st); (now left) || (right; discriminate)). destruct CASE as [T|T].
  - rewrite T in H1. cbn [rbind fst snd] in H1. apply (FIN st [] None); [constructor|left; auto|exact MU|exact H1].
  - assert (H2 : forall fuel, (do ns <- (do r <- p_cond (S (length ws)) st; Ok (Some (fst r), snd r)); do sm <- p_samples fuel (S (length ws)) (snd ns); Ok (CRule (fst ns) sm)) = OutOfFuel).
    { intro fuel. specialize (H1 fuel). destruct (p_tok st); try exact H1. now elim T. }
    assert (HG2 : CldrTotalProofs.good (do r <- p_cond (S (length ws)) st; Ok (Some (fst r), snd r)) (fun ns => (mu (snd ns) <= S (length ws))%nat)).
    { clear - HG T. destruct (p_tok st); try (now elim T); destruct (p_cond (S (length ws)) st) as [r| | |]; cbn [rbind CldrTotalProofs.good snd] in *; try exact I; try contradiction; lia. }
    destruct (p_cond (S (length ws)) st) as [[n st1]| | |] eqn:PC; try (specialize (H2 0%nat); discriminate); cbn [rbind fst snd CldrTotalProofs.good] in *; try contradiction.
    destruct (or_sound _ _ _ _ G PC) as (_ & _ & _ & us & O & R). apply (FIN st1 us (Some n)); [exact R|right; eauto|exact HG2|exact H2].
Qed.
Lemma hang_complete : forall s ws, words (segs s) ws -> stuck ws -> forall fuel, parse_rule fuel s = OutOfFuel.
Proof.
  intros s ws W (us & tail & ts & root & l & x & y & EQ & L & RO & M & NR & D) fuel. apply tokens_words in W. rewrite parse_rule_head, W.
  destruct (range_begins _ _ _ NR) as (NJ & z & EZ & SH). destruct (words_run us ts L tail z NJ EZ) as (st & E & R). rewrite <- EQ in E. change (pnext (PSt KEof [] ws)) with (enter ws). rewrite E. cbn [rbind].
  assert (LEN : (length ts < length ws)%nat).
  { pose proof (lexed_length _ _ L). rewrite EQ, app_length. destruct tail as [|w tail]; [inversion NR|]. cbn [length]. lia. }
  assert (SL : forall sts l st1, samples_of sts l -> (length sts < length ws)%nat -> run st1 sts z -> samples_loop fuel (S (length ws)) st1 = OutOfFuel).
  { intros sts l0 st1 O LE R1. destruct (samples_complete _ _ O) as (F & C). set (g := Nat.max fuel F). specialize (C g (S (length ws) - length sts)%nat st1 z ltac:(unfold g; lia) R1).
    replace (length sts + (S (length ws) - length sts))%nat with (S (length ws)) in C by lia. destruct (S (length ws) - length sts)%nat as [|k] eqn:K; [lia|].
    apply shows_srange in SH as (T & WZ & X & Y). rewrite (samples_step g k z), T, WZ, (range_hangs x y X Y D) in C. cbn [rbind] in C.
    assert (Q := samples_mono fuel g (S (length ws)) st1 ltac:(unfold g; lia)). destruct (samples_loop fuel (S (length ws)) st1) as [m| | |]; [| | |reflexivity]; rewrite Q in C by discriminate; discriminate. }
  destruct RO as [ts n O|ts n sts l O SO|sts l SO].
  - elim (or_no_mark _ _ O M).
  - apply run_split in R as (st1 & R1 & R2). rewrite app_length in LEN. cbn [length] in LEN. assert (K : p_tok st1 = KSample) by (destruct (run_cons _ _ _ _ R2) as (S & _); inversion S; reflexivity).
    assert (T : p_tok st <> KSample).
    { destruct (or_first _ _ O) as (w & r & ->). apply run_cons in R1 as (S & _). intro X. rewrite X in S. inversion S. }
    assert (PC : p_cond (S (length ws)) st = Ok (n, st1)) by (apply (or_complete ts n O); try (now rewrite K); [lia|exact R1]).
    pose proof (SL _ _ st1 (so_mark _ _ SO) ltac:(cbn [length]; lia) R2) as Q. rewrite PC. destruct (p_tok st); try (now elim T); cbn [rbind fst snd]; unfold p_samples; rewrite K, Q; reflexivity.
  - assert (K : p_tok st = KSample) by (destruct (run_cons _ _ _ _ R) as (S & _); inversion S; reflexivity). rewrite K. cbn [rbind fst snd].
    rewrite p_samples_eq, K, (SL _ _ st (so_mark _ _ SO) LEN R). reflexivity.
Qed.

(** *** Evaluation *)
Lemma eval_expr_exact : forall e o, ((capital (ce_operand e) \/ (ce_mod e = Some 0 /\ ce_operand e <> bs "n")) -> eval_expr e o = Panic) /\
  (~ (capital (ce_operand e) \/ (ce_mod e = Some 0 /\ ce_operand e <> bs "n")) -> exists q, eval_expr e o = Ok q).
Proof.
  intros [w m] o. cbn [ce_operand ce_mod].
  destruct (oper_dec w) as [(p & ->)|C].
  - assert (NC : ~ capital (oper_text p)) by (intro X; now apply (X p)).
    assert (IN : forall z, match m with None => Ok (Some (inject_Z (f64_of_int z))) | Some m0 => do r <- irem z m0 ; Ok (Some (inject_Z (f64_of_int r))) end = (Panic : res (option Q)) <-> m = Some 0).
    { intro z. destruct m as [m|]; [|split; discriminate]. unfold irem. destruct (m =? 0) eqn:E; cbn [rbind]; split; intro X; try discriminate; try reflexivity; [f_equal; lia|injection X as ->; discriminate]. }
    assert (OK : forall z, m <> Some 0 -> exists q, match m with None => Ok (Some (inject_Z (f64_of_int z))) | Some m0 => do r <- irem z m0 ; Ok (Some (inject_Z (f64_of_int r))) end = (Ok q : res (option Q))).
    { intros z N. destruct m as [m|]; [|eauto]. unfold irem. destruct (m =? 0) eqn:E; [elim N; f_equal; lia|cbn [rbind]; eauto]. }
    split; [intros [X|[X NE]]; [contradiction|]|intro X].
    + unfold eval_expr. cbn [ce_operand ce_mod]. destruct p; try (cbn [oper_text]; apply IN; exact X). now elim NE.
    + assert (D : oper_text p = bs "n" \/ m <> Some 0). { destruct p; [now left|..]; right; intro Y; apply X; right; (split; [exact Y|discriminate]). }
      unfold eval_expr. cbn [ce_operand ce_mod]. destruct p; cbn [oper_text] in *; try (apply OK; destruct D as [D|D]; [discriminate|exact D]).
      destruct m as [m|]; eexists; reflexivity.
  - split; [|intro X; elim X; now left]. intros _. unfold eval_expr. cbn [ce_operand ce_mod].
    assert (B : forall p, beq w (oper_text p) = false) by (intro p; destruct (beq w (oper_text p)) eqn:E; [apply beq_eq in E; elim (C p E)|reflexivity]).
    pose proof (B On) as B1. pose proof (B Oi) as B2. pose proof (B Ov) as B3. pose proof (B Ow) as B4. pose proof (B Of) as B5. pose proof (B Ot) as B6. pose proof (B Oc) as B7. pose proof (B Oe) as B8.
    cbn [oper_text] in *. now rewrite B1, B2, B3, B4, B5, B6, B7, B8.
Qed.
Lemma list_matches_total : forall q l, Forall (fun e => match e with RRange _ b => b <> 9223372036854775807 | RVal _ => True end) l -> exists b, list_matches q l = Ok b.
Proof.
  intros q l F. induction F as [|el l E F (b & IH)]; [eexists; reflexivity|]. cbn [list_matches].
  assert (M : exists c, elem_matches q el = Ok c).
  { unfold elem_matches. destruct q as [q|]; [|eauto]. destruct el as [v|a m]; [eauto|]. destruct (in_range1 q a m); [eauto|].
    destruct (m =? maxInt64) eqn:X; [apply Z.eqb_eq in X; elim E; exact X|]. cbn [andb]. eauto. }
  destruct M as (c & M). rewrite M. cbn [rbind]. rewrite IH. cbn [rbind]. eauto.
Qed.
Lemma faulty_rel : forall neg e l, faulty (CRel neg e l) <-> capital (ce_operand e) \/ (ce_mod e = Some 0 /\ ce_operand e <> bs "n").
Proof. intros neg e l. split; [intro H; inversion H; subst; auto|intros [H|[H1 H2]]; [now apply fa_capital|now apply fa_zero]]. Qed.
Lemma faulty_dec : forall n, faulty n \/ ~ faulty n.
Proof.
  induction n as [neg e l|a IHa b IHb|a IHa b IHb].
  - rewrite faulty_rel. destruct (oper_dec (ce_operand e)) as [(p & E)|C]; [|left; now left].
    assert (D : {ce_mod e = Some 0} + {ce_mod e <> Some 0}) by (destruct (ce_mod e) as [m|]; [|right; discriminate]; destruct (Z.eq_dec m 0); [left; congruence|right; congruence]).
    destruct D as [D|D]; [|right; intros [C|[C _]]; [now apply (C p)|contradiction]].
    destruct (list_eq_dec ascii_dec (ce_operand e) (bs "n")) as [N|N]; [|left; right; auto]. right. intros [C|[_ C]]; [now apply (C p)|contradiction].
  - destruct IHa as [A|A]; [left; constructor; auto|]. destruct IHb as [B|B]; [left; constructor; auto|]. right. intro X. inversion X; tauto.
  - destruct IHa as [A|A]; [left; constructor; auto|]. destruct IHb as [B|B]; [left; constructor; auto|]. right. intro X. inversion X; tauto.
Qed.
Lemma eval_exact : forall n o, below_max n -> (faulty n -> eval_cnode n o = Panic) /\ (~ faulty n -> exists b, eval_cnode n o = Ok b).
Proof.
  induction n as [neg e l|a IHa b IHb|a IHa b IHb]; intros o B; cbn [below_max eval_cnode] in *.
  - rewrite faulty_rel. destruct (eval_expr_exact e o) as [P Q]. split; intro H; [now rewrite (P H)|]. destruct (Q H) as (q & ->). cbn [rbind]. destruct (list_matches_total q l B) as (c & ->). cbn [rbind]. eauto.
  - destruct B as [BA BB]. destruct (IHa o BA) as [PA QA], (IHb o BB) as [PB QB]. split; intro H.
    + destruct (faulty_dec a) as [FA|FA]; [now rewrite (PA FA)|]. destruct (QA FA) as (x & ->). cbn [rbind]. rewrite PB; [reflexivity|]. inversion H; tauto.
    + destruct QA as (x & ->); [intro X; apply H; constructor; auto|]. destruct QB as (y & ->); [intro X; apply H; constructor; auto|]. cbn [rbind]. eauto.
  - destruct B as [BA BB]. destruct (IHa o BA) as [PA QA], (IHb o BB) as [PB QB]. split; intro H.
    + destruct (faulty_dec a) as [FA|FA]; [now rewrite (PA FA)|]. destruct (QA FA) as (x & ->). cbn [rbind]. rewrite PB; [reflexivity|]. inversion H; tauto.
    + destruct QA as (x & ->); [intro X; apply H; constructor; auto|]. destruct QB as (y & ->); [intro X; apply H; constructor; auto|]. cbn [rbind]. eauto.
Qed.

(** *** Evaluation of every rule *)
Lemma range_loop_iff : forall q n v, range_loop q v n = false <->
  forall z, v <= z < v + Z.of_nat n -> (feps < Qabs.Qabs (inject_Z (f64_of_int z) - q))%Q.
Proof.
  intros q n. induction n as [|n IH]; intro v; [split; [intros _ z Z; lia|reflexivity]|]. cbn [range_loop].
  unfold float_equal at 1. destruct (Qle_bool _ feps) eqn:E.
  - split; [discriminate|]. intro H. apply Qle_bool_iff in E. specialize (H v ltac:(lia)). elim (Qlt_not_le _ _ H E).
  - rewrite IH. split; intros H z Z.
    + destruct (Z.eq_dec z v) as [->|N]; [|apply H; lia]. apply Qnot_le_lt. intro X. apply Qle_bool_iff in X. congruence.
    + apply H. lia.
Qed.
Lemma elem_outcome : forall q el, (endless q el -> elem_matches (Some q) el = OutOfFuel) /\ (~ endless q el -> exists b, elem_matches (Some q) el = Ok b).
Proof.
  intros q [v|a b]; cbn [elem_matches]; [split; [intros (x & X & _); discriminate|eauto]|].
  assert (MX : f64_of_int maxInt64 = 9223372036854775808) by (vm_compute; reflexivity).
  split.
  - intros (x & X & L & U & M). injection X as <- ->. rewrite (Z.eqb_refl maxInt64 : 9223372036854775807 =? maxInt64 = true).
    unfold qle. change 9223372036854775807 with maxInt64 in *. rewrite MX. rewrite (proj2 (Qle_bool_iff _ _) L), (proj2 (Qle_bool_iff _ _) U). unfold in_range1, qle.
    rewrite MX, (proj2 (Qle_bool_iff _ _) L), (proj2 (Qle_bool_iff _ _) U). cbn [andb].
    rewrite (proj2 (range_loop_iff q _ a)); [reflexivity|]. intros z Z. apply M. unfold maxInt64 in *. lia.
  - intro N. destruct (in_range1 q a b) eqn:R; [eauto|]. destruct (b =? maxInt64) eqn:B; cbn [andb]; [|eauto].
    apply Z.eqb_eq in B. subst b. unfold qle in *. rewrite MX. destruct (Qle_bool (inject_Z (f64_of_int a)) q) eqn:L; cbn [andb]; [|eauto].
    destruct (Qle_bool q (inject_Z 9223372036854775808)) eqn:U; [|eauto]. elim N.
    unfold in_range1, qle in R. rewrite MX, L, U in R. cbn [andb] in R. exists a. split; [reflexivity|]. split; [now apply Qle_bool_iff|]. split; [now apply Qle_bool_iff|].
    intros z Z. apply (proj1 (range_loop_iff q _ a) R). change maxInt64 with 9223372036854775807. rewrite Z2Nat.id by lia. lia.
Qed.
Lemma endless_dec : forall q el, endless q el \/ ~ endless q el.
Proof.
  intros q el. destruct (elem_matches (Some q) el) eqn:E.
  - right. intro X. apply elem_outcome in X. congruence.
  - right. intro X. apply elem_outcome in X. congruence.
  - right. intro X. apply elem_outcome in X. congruence.
  - left. destruct el as [v|a b]; [discriminate|]. cbn [elem_matches] in E. destruct (in_range1 q a b) eqn:R; [discriminate|].
    assert (MX : f64_of_int maxInt64 = 9223372036854775808) by (vm_compute; reflexivity).
    destruct (b =? maxInt64) eqn:B; cbn [andb] in E; [|discriminate]. apply Z.eqb_eq in B. subst b. unfold qle in E. rewrite MX in E.
    destruct (Qle_bool (inject_Z (f64_of_int a)) q) eqn:L; cbn [andb] in E; [|discriminate].
    destruct (Qle_bool q (inject_Z 9223372036854775808)) eqn:U; [|discriminate].
    unfold in_range1, qle in R. rewrite MX, L, U in R. cbn [andb] in R. exists a. split; [reflexivity|]. split; [now apply Qle_bool_iff|]. split; [now apply Qle_bool_iff|].
    intros z Z. apply (proj1 (range_loop_iff q _ a) R). change maxInt64 with 9223372036854775807. rewrite Z2Nat.id by lia. lia.
Qed.
Lemma list_outcome : forall q l, ((exists el, In el l /\ endless q el) -> list_matches (Some q) l = OutOfFuel) /\
  (~ (exists el, In el l /\ endless q el) -> exists b, list_matches (Some q) l = Ok b).
Proof.
  intros q l. induction l as [|el l [IH1 IH2]]; [split; [intros (x & [] & _)|intros _; eexists; reflexivity]|].
  cbn [list_matches]. destruct (elem_outcome q el) as [E1 E2]. destruct (endless_dec q el) as [E|E].
  - rewrite (E1 E). split; [reflexivity|]. intro N. elim N. exists el. split; [now left|exact E].
  - destruct (E2 E) as (b & ->). cbn [rbind]. split.
    + intros (x & [<-|I] & X); [contradiction|]. rewrite IH1; [reflexivity|]. exists x. auto.
    + intro N. destruct IH2 as (c & ->); [intros (x & I & X); apply N; exists x; split; [now right|exact X]|]. cbn [rbind]. eauto.
Qed.
Lemma list_nan : forall l, list_matches None l = Ok false.
Proof. induction l as [|e l IH]; [reflexivity|]. cbn [list_matches elem_matches rbind]. now rewrite IH. Qed.
Lemma eval_outcome : forall n o, (trouble o n Panics -> eval_cnode n o = Panic) /\ (trouble o n Hangs -> eval_cnode n o = OutOfFuel) /\
  ((forall k, ~ trouble o n k) -> exists b, eval_cnode n o = Ok b) /\ (trouble o n Panics \/ trouble o n Hangs \/ forall k, ~ trouble o n k).
Proof.
  induction n as [neg e l|a IHa b IHb|a IHa b IHb]; intro o.
  - cbn [trouble eval_cnode]. rewrite faulty_rel. destruct (eval_expr_exact e o) as [P Q].
    assert (D : (capital (ce_operand e) \/ (ce_mod e = Some 0 /\ ce_operand e <> bs "n")) \/ ~ (capital (ce_operand e) \/ (ce_mod e = Some 0 /\ ce_operand e <> bs "n"))).
    { rewrite <- (faulty_rel neg e l). apply faulty_dec. }
    split; [intro H; now rewrite (P H)|]. split; [intros (q & el & E & I & X); rewrite E; cbn [rbind]; rewrite (proj1 (list_outcome q l)); [reflexivity|eauto]|].
    destruct D as [D|D].
    + split; [intro N; elim (N Panics); rewrite faulty_rel; exact D|now left].
    + destruct (Q D) as ([q|] & E).
      * destruct (list_outcome q l) as [L1 L2]. rewrite E. cbn [rbind]. split.
        { intro N. destruct L2 as (c & ->); [intros (el & I & X); apply (N Hangs); exists q, el; auto|]. cbn [rbind]. eauto. }
        right. destruct (list_matches (Some q) l) as [c| | |] eqn:M.
        { right. intros []; [rewrite faulty_rel; exact D|]. intros (q' & el & E' & I & X). injection E' as <-. pose proof (L1 (ex_intro _ el (conj I X))) as Y. congruence. }
        { right. intros []; [rewrite faulty_rel; exact D|]. intros (q' & el & E' & I & X). injection E' as <-. pose proof (L1 (ex_intro _ el (conj I X))) as Y. congruence. }
        { right. intros []; [rewrite faulty_rel; exact D|]. intros (q' & el & E' & I & X). injection E' as <-. pose proof (L1 (ex_intro _ el (conj I X))) as Y. congruence. }
        { left. exists q. assert (X : (exists el, In el l /\ endless q el) \/ ~ (exists el, In el l /\ endless q el)).
          { clear. induction l as [|el l [IH|IH]]; [right; intros (x & [] & _)|left; destruct IH as (x & I & X); exists x; split; [now right|exact X]|].
            destruct (endless_dec q el) as [E|E]; [left; exists el; split; [now left|exact E]|]. right. intros (x & [<-|I] & X); [contradiction|]. apply IH. eauto. }
          destruct X as [(el & I & X)|X]; [exists el; auto|]. destruct (L2 X) as (c & C). congruence. }
      * rewrite E. cbn [rbind]. rewrite list_nan. cbn [rbind]. split; [eauto|]. right. right. intros []; [rewrite faulty_rel; exact D|]. intros (q' & el & E' & _). congruence.
  - cbn [trouble eval_cnode]. destruct (IHa o) as (A1 & A2 & A3 & A4), (IHb o) as (B1 & B2 & B3 & B4).
    split; [intros [H|[N H]]; [now rewrite (A1 H)|]; destruct (A3 N) as (x & ->); cbn [rbind]; now rewrite (B1 H)|].
    split; [intros [H|[N H]]; [now rewrite (A2 H)|]; destruct (A3 N) as (x & ->); cbn [rbind]; now rewrite (B2 H)|].
    destruct A4 as [A4|[A4|A4]]; [split; [intro N; elim (N Panics)|]; auto|split; [intro N; elim (N Hangs)|]; auto|].
    split; [|destruct B4 as [B4|[B4|B4]]; [left; auto|right; left; auto|]; right; right; intros k [X|[_ X]]; [now elim (A4 k)|now elim (B4 k)]].
    intro N. destruct (A3 A4) as (x & ->). cbn [rbind]. destruct B3 as (y & ->); [intros k X; apply (N k); auto|]. cbn [rbind]. eauto.
  - cbn [trouble eval_cnode]. destruct (IHa o) as (A1 & A2 & A3 & A4), (IHb o) as (B1 & B2 & B3 & B4).
    split; [intros [H|[N H]]; [now rewrite (A1 H)|]; destruct (A3 N) as (x & ->); cbn [rbind]; now rewrite (B1 H)|].
    split; [intros [H|[N H]]; [now rewrite (A2 H)|]; destruct (A3 N) as (x & ->); cbn [rbind]; now rewrite (B2 H)|].
    destruct A4 as [A4|[A4|A4]]; [split; [intro N; elim (N Panics)|]; auto|split; [intro N; elim (N Hangs)|]; auto|].
    split; [|destruct B4 as [B4|[B4|B4]]; [left; auto|right; left; auto|]; right; right; intros k [X|[_ X]]; [now elim (A4 k)|now elim (B4 k)]].
    intro N. destruct (A3 A4) as (x & ->). cbn [rbind]. destruct B3 as (y & ->); [intros k X; apply (N k); auto|]. cbn [rbind]. eauto.
Qed.

(** a number between two integers is in no range *)
Lemma range_loop_misses : forall q, (forall z, float_equal (inject_Z z) q = false) -> forall n v, range_loop q v n = false.
Proof. intros q H n. induction n as [|n IH]; intro v; [reflexivity|]. cbn [range_loop]. now rewrite H, IH. Qed.
Lemma clear_half : forall z, float_equal (inject_Z z) (11 # 2) = false.
Proof.
  intro z. destruct (float_equal (inject_Z z) (11 # 2)) eqn:E; [|reflexivity]. exfalso. unfold float_equal in E. apply Qle_bool_iff in E.
  pose proof (Qle_trans _ _ _ E feps_le) as L. unfold Qabs.Qabs, Qminus, Qplus, Qopp, Qle, inject_Z in L. cbn in L. lia.
Qed.

(** *** One or the other *)
Lemma samples_or : forall n st, good st -> (exists fuel, samples_loop fuel n st <> OutOfFuel) \/ (forall fuel, samples_loop fuel n st = OutOfFuel).
Proof.
  induction n as [|n IH]; intros st G; [cbn [samples_loop]; destruct (p_tok st); ((left; exists 0%nat; discriminate) || (right; reflexivity))|].
  destruct (next_fuel st) as [NF NP].
  assert (R : forall k : list bytes -> list bytes, (exists fuel, (do st' <- pnext st; do l <- samples_loop fuel n st'; Ok (k l)) <> OutOfFuel) \/ (forall fuel, (do st' <- pnext st; do l <- samples_loop fuel n st'; Ok (k l)) = OutOfFuel)).
  { intro k. destruct (pnext st) as [st1| | |] eqn:P; try congruence; [|left; exists 0%nat; discriminate]. cbn [rbind].
    destruct (IH st1 (next_good _ _ G P)) as [(f & H)|H]; [left; exists f; destruct (samples_loop f n st1); try discriminate; congruence|right; intro f; now rewrite H]. }
  destruct (p_tok st) eqn:T.
  all: try (left; exists 0%nat; rewrite samples_step, T; discriminate).
  - destruct (R (fun l => p_lit st :: l)) as [(f & H)|H]; [left; exists f|right; intro f]; rewrite samples_step, T; [exact H|apply H].
  - destruct (pnext st) as [st1| | |] eqn:P; try congruence; [|left; exists 0%nat; rewrite samples_step, T, P; discriminate].
    destruct (IH st1 (next_good _ _ G P)) as [(f & H)|H]; [left; exists f|right; intro f]; rewrite samples_step, T, P; [exact H|apply H].
  - destruct (R (fun l => p_lit st :: l)) as [(f & H)|H]; [left; exists f|right; intro f]; rewrite samples_step, T; [exact H|apply H].
  - destruct (proj2 (proj2 G)) as (t & S0); [now rewrite T|]. rewrite T in S0. apply shows_ksrange in S0 as (x & y & -> & W & X & Y).
    destruct (ascends_dec x y) as [[SP LEQ]|D]; [|right; intro f; rewrite samples_step, T, W, range_hangs by assumption; reflexivity].
    set (F0 := Datatypes.S (Z.to_nat (nm_digits y - nm_digits x))). destruct (loop_steps F0 x y X Y SP LEQ ltac:(unfold F0; lia)) as (zs & E0 & SF).
    assert (PR : forall fuel, (F0 <= fuel)%nat -> parse_sample_range fuel (p_lit st) = Ok (map nm_text zs)).
    { intros fuel LF. rewrite W. apply (range_mono F0); [|exact LF]. unfold parse_sample_range. now rewrite split_sample. }
    destruct (pnext st) as [st1| | |] eqn:P; try congruence; [|left; exists F0; rewrite samples_step, T, P, PR by lia; discriminate].
    destruct (IH st1 (next_good _ _ G P)) as [(f & H)|H].
    + left. exists (Nat.max f F0). rewrite samples_step, T, P, PR by lia. cbn [rbind]. rewrite (samples_mono f) by (auto; lia). destruct (samples_loop f n st1); try discriminate. congruence.
    + right. intro f. rewrite samples_step, T, P. destruct (range_no_err f (p_lit st)) as [N1 N2]. destruct (parse_sample_range f (p_lit st)); try congruence; [cbn [rbind]; now rewrite H|reflexivity].
Qed.
Lemma parse_or : forall s, (exists fuel, parse_rule fuel s <> OutOfFuel) \/ (forall fuel, parse_rule fuel s = OutOfFuel).
Proof.
  intro s. pose proof (proj2 (tokens_words s (generate_tokens s)) eq_refl) as W. pose proof (words_nonempty _ _ W (segs_full _ _)) as N. clear W.
  pose proof (fun fuel => parse_rule_head fuel s) as H. set (ws := generate_tokens s) in *. clearbody ws.
  pose proof (enter_view ws N) as EV. change (enter ws) with (pnext (PSt KEof [] ws)) in EV.
  destruct (pnext (PSt KEof [] ws)) as [st| | |] eqn:P; try contradiction; [|left; exists 0%nat; rewrite H; discriminate]. cbn [rbind] in H. destruct EV as [G _].
  assert (FIN : forall st1 root, good st1 -> (forall fuel, parse_rule fuel s = do sm <- p_samples fuel (S (length ws)) st1; Ok (CRule root sm)) ->
     (exists fuel, parse_rule fuel s <> OutOfFuel) \/ (forall fuel, parse_rule fuel s = OutOfFuel)).
  { intros st1 root G1 E. unfold p_samples in E. destruct (p_tok st1); try (left; exists 0%nat; rewrite E; discriminate).
    destruct (samples_or (S (length ws)) st1 G1) as [(f & A)|A]; [left; exists f; rewrite E; destruct (samples_loop f (S (length ws)) st1); try discriminate; congruence|right; intro f; now rewrite E, A]. }
  assert (CASE : p_tok st = KSample \/ p_tok st <> KSample) by (destruct (p_tok st); (now left) || (right; discriminate)). destruct CASE as [T|T].
  - rewrite T in H. cbn [rbind fst snd] in H. exact (FIN st None G H).
  - assert (H2 : forall fuel, parse_rule fuel s = (do ns <- (do r <- p_cond (S (length ws)) st; Ok (Some (fst r), snd r)); do sm <- p_samples fuel (S (length ws)) (snd ns); Ok (CRule (fst ns) sm))).
    { intro fuel. specialize (H fuel). destruct (p_tok st); try exact H. now elim T. }
    destruct (p_cond (S (length ws)) st) as [[n st1]| | |] eqn:PC; cbn [rbind fst snd] in H2; try (left; exists 0%nat; rewrite H2; discriminate); [|right; exact H2].
    destruct (or_sound _ _ _ _ G PC) as (_ & _ & _ & us & O & R). exact (FIN st1 (Some n) (run_good _ _ _ R G) H2).
Qed.
Lemma parse_mono : forall f g s, (f <= g)%nat -> parse_rule f s <> OutOfFuel -> parse_rule g s = parse_rule f s.
Proof.
  intros f g s L. rewrite !parse_rule_head. destruct (pnext (PSt KEof [] (generate_tokens s))) as [st| | |]; try reflexivity. cbn [rbind].
  match goal with |- (do ns <- ?x; _) <> _ -> _ => destruct x as [ns| | |]; try reflexivity end. cbn [rbind]. unfold p_samples. destruct (p_tok (snd ns)); try reflexivity.
  intro H. rewrite (samples_mono f g) by (auto; intro X; rewrite X in H; now apply H). reflexivity.
Qed.
