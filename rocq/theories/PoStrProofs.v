From Coq Require Import String Ascii List ZArith Bool Lia ZifyBool.
From Verif Require Import Base BaseProofs Utf8Model Utf8Proofs StrModel PoStrModel PoStrSpec.
Import ListNotations.
Open Scope Z_scope.

(** ** Runes as bytes *)
Lemma encode_ascii : forall r, 0 <= r < 128 -> encode_rune r = [byte_of r].
Proof.
  intros r H. unfold encode_rune.
  replace (scalar r) with true by (unfold scalar, in_rng; lia).
  replace (r <? 128) with true by lia. reflexivity.
Qed.

Lemma encode_high : forall r, scalar r = true -> 128 <= r ->
  Forall (fun c => 128 <= bval c) (encode_rune r).
Proof.
  intros r S H. unfold encode_rune. rewrite S. apply scalar_range in S.
  replace (r <? 128) with false by lia.
  assert (X : forall z, 128 <= z < 256 -> 128 <= bval (byte_of z))
    by (intros; rewrite byte_of_val; lia).
  pose proof (Z.div_pos r 64). pose proof (Z.mod_pos_bound r 64 ltac:(lia)).
  pose proof (Z.mod_pos_bound (r / 64) 64 ltac:(lia)).
  pose proof (Z.mod_pos_bound (r / 4096) 64 ltac:(lia)).
  destruct (r <? 2048) eqn:A.
  { assert (0 <= r / 64 < 32) by (split; [apply Z.div_pos; lia|apply Z.div_lt_upper_bound; lia]).
    repeat constructor; apply X; lia. }
  destruct (r <? 65536) eqn:B.
  { assert (0 <= r / 4096 < 16) by (split; [apply Z.div_pos; lia|apply Z.div_lt_upper_bound; lia]).
    repeat constructor; apply X; lia. }
  assert (0 <= r / 262144 < 5) by (split; [apply Z.div_pos; lia|apply Z.div_lt_upper_bound; lia]).
  repeat constructor; apply X; lia.
Qed.

(** the bytes of one decoding step *)
Lemma decode_high : forall c s, 128 <= bval c ->
  Forall (fun b => 128 <= bval b) (firstn (snd (decode_rune (c :: s))) (c :: s)).
Proof.
  intros c s H. destruct (decode_rune (c :: s)) as [r w] eqn:D. cbn [snd].
  pose proof (decode_width c s) as W. rewrite D in W. cbn [snd] in W.
  destruct (Nat.eq_dec w 1) as [->|Nw]; [simpl; repeat constructor; exact H|].
  rewrite <- (encode_decode _ _ _ D) by lia.
  pose proof (decode_scalar (c :: s)) as Sc. rewrite D in Sc. cbn [fst] in Sc.
  apply encode_high; [assumption|].
  destruct (Z_lt_le_dec r 128) as [L|]; [|assumption]. exfalso.
  apply scalar_range in Sc as R.
  assert (E : encode_rune r = firstn w (c :: s)) by (apply (encode_decode _ _ _ D); lia).
  rewrite encode_ascii in E by lia. destruct w as [|w]; [lia|]. simpl in E.
  injection E as E _. subst c. rewrite byte_of_val in H; lia.
Qed.

(** ** The unquoting loop *)
Definition dangling := fix d (pend : bool) (s : bytes) : bool :=
  match s with
  | [] => pend
  | c :: s' => d (if Ascii.eqb c BSLASH then negb pend else false) s'
  end.

Lemma dangling_cons : forall p c s,
  dangling p (c :: s) = dangling (if Ascii.eqb c BSLASH then negb p else false) s.
Proof. reflexivity. Qed.

Lemma high_not_bslash : forall c, 128 <= bval c -> Ascii.eqb c BSLASH = false.
Proof.
  intros c H. destruct (Ascii.eqb_spec c BSLASH); [subst; vm_compute in H; congruence|reflexivity].
Qed.

Lemma dangling_high : forall x p s, x <> [] -> Forall (fun c => 128 <= bval c) x ->
  dangling p (x ++ s) = dangling false s.
Proof.
  induction x as [|c x IH]; intros p s N H; [congruence|]. inversion H; subst.
  cbn [app]. rewrite dangling_cons, high_not_bslash by assumption.
  destruct x as [|c' x]; [reflexivity|]. apply IH; [discriminate|assumption].
Qed.

Lemma dangling_skip : forall w c s, (1 <= w)%nat ->
  Forall (fun b => 128 <= bval b) (firstn w (c :: s)) ->
  dangling false (skipn w (c :: s)) = dangling false (c :: s).
Proof.
  intros w c s W H. rewrite <- (firstn_skipn w (c :: s)) at 2. symmetry.
  apply dangling_high; [|assumption]. destruct w; [lia|discriminate].
Qed.

Lemma dangling_pend : forall c s, Ascii.eqb c BSLASH = false ->
  dangling true (c :: s) = dangling false (c :: s).
Proof. intros c s H. rewrite !dangling_cons, H. reflexivity. Qed.

Lemma unescape_char_bslash : unescape_char BSLASH = Some BSLASH.
Proof. reflexivity. Qed.

Lemma loop_total : forall n s f, (length s <= n)%nat -> (length s < f)%nat ->
  dangling false s = false -> exists v, unescape_loop f s = Ok v.
Proof.
  induction n as [|n IH]; intros s f Hn Hf D.
  - destruct s; [|simpl in Hn; lia]. destruct f; [lia|]. exists []. reflexivity.
  - destruct f as [|f]; [lia|]. destruct s as [|c s1]; [exists []; reflexivity|].
    cbn [length] in Hn, Hf. cbn [unescape_loop].
    destruct (Ascii.eqb c BSLASH) eqn:B.
    + destruct s1 as [|e s2]; [rewrite dangling_cons, B in D; discriminate|].
      cbn [length] in Hn, Hf.
      rewrite dangling_cons, B in D. cbn [negb] in D.
      destruct (unescape_char e) as [b|] eqn:U.
      * destruct (IH s2 f) as [v V]; [lia|lia| |exists (b :: v); rewrite V; reflexivity].
        rewrite dangling_cons in D. cbn [negb] in D. now destruct (Ascii.eqb e BSLASH).
      * destruct (IH (e :: s2) f) as [v V]; [cbn [length]; lia|cbn [length]; lia| |].
        { rewrite <- dangling_pend; [exact D|].
          destruct (Ascii.eqb_spec e BSLASH); [subst; rewrite unescape_char_bslash in U; discriminate|reflexivity]. }
        exists (BSLASH :: v). rewrite V. reflexivity.
    + destruct (bval c <? 128) eqn:A.
      * destruct (IH s1 f) as [v V]; [lia|lia| |exists (c :: v); rewrite V; reflexivity].
        now rewrite dangling_cons, B in D.
      * pose proof (decode_width c s1) as W. pose proof (decode_high c s1 ltac:(lia)) as Hi.
        destruct (decode_rune (c :: s1)) as [r w] eqn:E. cbn [snd] in *.
        destruct (IH (skipn w (c :: s1)) f) as [v V];
          [rewrite skipn_length; cbn [length]; lia|rewrite skipn_length; cbn [length]; lia| |].
        { rewrite dangling_skip; [exact D|lia|assumption]. }
        exists (encode_rune r ++ v). rewrite V. reflexivity.
Qed.

Lemma loop_dangling : forall f s, dangling false s = true -> unescape_loop f s = OutOfFuel.
Proof.
  induction f as [|f IH]; intros s D; [reflexivity|].
  destruct s as [|c s1]; [discriminate|]. cbn [unescape_loop].
  destruct (Ascii.eqb c BSLASH) eqn:B.
  - destruct s1 as [|e s2]; [apply IH; assumption|].
    rewrite dangling_cons, B in D. cbn [negb] in D.
    destruct (unescape_char e) as [b|] eqn:U.
    + rewrite IH; [reflexivity|]. rewrite dangling_cons in D. cbn [negb] in D.
      now destruct (Ascii.eqb e BSLASH).
    + rewrite IH; [reflexivity|]. rewrite <- dangling_pend; [exact D|].
      destruct (Ascii.eqb_spec e BSLASH); [subst; rewrite unescape_char_bslash in U; discriminate|reflexivity].
  - destruct (bval c <? 128) eqn:A.
    + rewrite IH; [reflexivity|]. now rewrite dangling_cons, B in D.
    + pose proof (decode_width c s1) as W. pose proof (decode_high c s1 ltac:(lia)) as Hi.
      destruct (decode_rune (c :: s1)) as [r w] eqn:E. cbn [snd] in *.
      rewrite IH; [reflexivity|].
      rewrite dangling_skip; [exact D|lia|assumption].
Qed.

Lemma loop_mono : forall f f' s v, unescape_loop f s = Ok v -> (f <= f')%nat ->
  unescape_loop f' s = Ok v.
Proof.
  induction f as [|f IH]; intros f' s v H L; [discriminate|].
  destruct f' as [|f']; [lia|]. cbn [unescape_loop] in *.
  destruct s as [|c s1]; [assumption|].
  destruct (Ascii.eqb c BSLASH).
  - destruct s1 as [|e s2]; [eapply IH; [eassumption|lia]|].
    destruct (unescape_char e).
    + destruct (unescape_loop f s2) eqn:E; try discriminate.
      rewrite (IH f' s2 _ E) by lia. assumption.
    + destruct (unescape_loop f (e :: s2)) eqn:E; try discriminate.
      rewrite (IH f' _ _ E) by lia. assumption.
  - destruct (bval c <? 128).
    + destruct (unescape_loop f s1) eqn:E; try discriminate.
      rewrite (IH f' _ _ E) by lia. assumption.
    + destruct (decode_rune (c :: s1)) as [r w].
      destruct (unescape_loop f (skipn w (c :: s1))) eqn:E; try discriminate.
      rewrite (IH f' _ _ E) by lia. assumption.
Qed.

(** ** The fast path *)
Lemma prefix_loop : forall n s p q, plain_prefix n s = (p, q) ->
  s = p ++ q /\ dangling false s = dangling false q /\
  (forall f t, unescape_loop f q = Ok t -> unescape_loop (length s + f) s = Ok (p ++ t)).
Proof.
  induction n as [|n IH]; intros s p q H.
  { injection H as <- <-. repeat split; try reflexivity.
    intros f t L. eapply loop_mono; [exact L|lia]. }
  destruct s as [|c s1].
  { injection H as <- <-. repeat split; try reflexivity. intros f t L. exact L. }
  cbn [plain_prefix] in H.
  destruct (Ascii.eqb c BSLASH || Ascii.eqb c QUOTE || (bval c <? 32)) eqn:Sp.
  { injection H as <- <-. repeat split; try reflexivity.
    intros f t L. eapply loop_mono; [exact L|lia]. }
  assert (B : Ascii.eqb c BSLASH = false) by (destruct (Ascii.eqb c BSLASH); [discriminate|reflexivity]).
  destruct (bval c <? 128) eqn:A.
  { destruct (plain_prefix n s1) as [p1 q1] eqn:E. injection H as <- <-.
    destruct (IH _ _ _ E) as [-> [D L]]. split; [reflexivity|]. split.
    - rewrite dangling_cons, B. exact D.
    - intros f t Lt. cbn [length Nat.add unescape_loop]. rewrite B, A, (L f t Lt). reflexivity. }
  pose proof (decode_width c s1) as W. pose proof (decode_high c s1 ltac:(lia)) as Hi.
  destruct (decode_rune (c :: s1)) as [r w] eqn:Dc. cbn [snd] in *.
  destruct ((r =? RuneError) && Nat.eqb w 1) eqn:X.
  { injection H as <- <-. repeat split; try reflexivity.
    intros f t L. eapply loop_mono; [exact L|lia]. }
  destruct (plain_prefix n (skipn w (c :: s1))) as [p1 q1] eqn:E. injection H as <- <-.
  destruct (IH _ _ _ E) as [Es [D L]]. split; [|split].
  - rewrite <- app_assoc, <- Es. symmetry. apply firstn_skipn.
  - rewrite <- D. rewrite <- (firstn_skipn w (c :: s1)) at 1.
    apply dangling_high; [|assumption]. destruct w; [lia|discriminate].
  - intros f t Lt. cbn [length Nat.add]. cbn [unescape_loop]. rewrite B, A, Dc.
    specialize (L f t Lt). eapply loop_mono with (f' := (length s1 + f)%nat) in L.
    2: { rewrite skipn_length. cbn [length]. lia. }
    rewrite L. cbn [rbind]. rewrite <- app_assoc.
    rewrite (encode_decode _ _ _ Dc); [reflexivity|].
    intros [-> Hw]. assert (w = 1)%nat as -> by lia. discriminate X.
Qed.

Lemma unescape_ok : forall s f f' v, unescape_loop f' s = Ok v -> (length s < f)%nat ->
  unescape f s = Ok v.
Proof.
  intros s f f' v H Hf. unfold unescape.
  destruct (plain_prefix (length s) s) as [p q] eqn:E.
  destruct (prefix_loop _ _ _ _ E) as [Es [D L]].
  assert (Dn : dangling false s = false).
  { destruct (dangling false s) eqn:X; [|reflexivity].
    rewrite loop_dangling in H by assumption. discriminate. }
  destruct (loop_total (length q) q f) as [t T]; [lia| |congruence|].
  { rewrite Es, app_length in Hf. lia. }
  assert (V : v = p ++ t).
  { specialize (L f t T).
    eapply loop_mono with (f' := (length s + f + f')%nat) in L; [|lia].
    eapply loop_mono with (f' := (length s + f + f')%nat) in H; [|lia]. congruence. }
  destruct q as [|c q].
  - assert (t = []) as -> by (destruct f; [lia|]; simpl in T; congruence).
    rewrite app_nil_r in *. congruence.
  - rewrite T. cbn [rbind]. congruence.
Qed.

Lemma unescape_dangling : forall s f, dangling false s = true -> unescape f s = OutOfFuel.
Proof.
  intros s f H. unfold unescape. destruct (plain_prefix (length s) s) as [p q] eqn:E.
  destruct (prefix_loop _ _ _ _ E) as [Es [D L]].
  destruct q as [|c q]; [rewrite D in H; discriminate|].
  rewrite loop_dangling by congruence. reflexivity.
Qed.

Lemma unescape_total : forall s f, dangling false s = false -> (length s < f)%nat ->
  exists v, unescape f s = Ok v.
Proof.
  intros s f D H. destruct (loop_total (length s) s f) as [v V]; [lia|assumption|assumption|].
  exists v. eapply unescape_ok; eauto.
Qed.

(** ** Bodies *)
Lemma po_body_app : forall a v b w, po_body a v -> po_body b w -> po_body (a ++ b) (v ++ w).
Proof.
  induction 1; intro H'; [exact H'| |].
  - cbn [app]. constructor; auto.
  - rewrite <- !app_assoc. constructor; auto.
Qed.

Lemma escapes_unescape : forall e z, In (e, z) po_escapes -> unescape_char e = Some (byte_of z).
Proof.
  intros e z H. simpl in H.
  repeat (destruct H as [H|H]; [injection H as <- <-; reflexivity|]). destruct H.
Qed.

Lemma po_body_loop : forall b v, po_body b v -> exists f, unescape_loop f b = Ok v.
Proof.
  induction 1 as [|e z s v I H [f IH]|r s v Sc N1 N2 N3 H [f IH]].
  - exists 1%nat. reflexivity.
  - exists (S f). cbn [unescape_loop]. rewrite Ascii.eqb_refl, (escapes_unescape _ _ I), IH. reflexivity.
  - exists (S f). destruct (encode_rune r) as [|c x] eqn:E; [now apply encode_rune_ne in E|].
    cbn [app unescape_loop]. apply scalar_range in Sc as R.
    destruct (Z_lt_le_dec r 128).
    + rewrite encode_ascii in E by lia. injection E as <- <-.
      destruct (Ascii.eqb_spec (byte_of r) BSLASH) as [Q|_].
      { apply (f_equal bval) in Q. rewrite byte_of_val in Q by lia. vm_compute in Q. lia. }
      rewrite byte_of_val by lia. replace (r <? 128) with true by lia.
      cbn [app]. rewrite IH. reflexivity.
    + pose proof (encode_high r Sc ltac:(lia)) as Hi. rewrite E in Hi. inversion Hi; subst.
      rewrite high_not_bslash by assumption.
      replace (bval c <? 128) with false by lia.
      change (c :: x ++ s) with ((c :: x) ++ s). rewrite <- E.
      rewrite decode_encode by assumption. rewrite skipn_len_app, IH. cbn [rbind]. rewrite E. reflexivity.
Qed.

(** ** Lines *)
Definition no_lf (s : bytes) : Prop := ~ In LF s.

Lemma split_no_lf : forall a t, no_lf a -> split_on LF (a ++ LF :: t) = a :: split_on LF t.
Proof.
  induction a as [|c a IH]; intros t H.
  - simpl. reflexivity.
  - cbn [app split_on]. destruct (Ascii.eqb_spec c LF); [subst; exfalso; apply H; now left|].
    rewrite IH; [reflexivity|]. intro I. apply H. now right.
Qed.

Lemma split_no_lf_end : forall a, no_lf a -> split_on LF a = [a].
Proof.
  induction a as [|c a IH]; intro H; [reflexivity|].
  cbn [split_on]. destruct (Ascii.eqb_spec c LF); [subst; exfalso; apply H; now left|].
  rewrite IH; [reflexivity|]. intro I. apply H. now right.
Qed.

Lemma high_not_lf : forall x, Forall (fun c => 128 <= bval c) x -> no_lf x.
Proof.
  intros x H I. rewrite Forall_forall in H. specialize (H _ I). vm_compute in H. congruence.
Qed.

Lemma encode_no_lf : forall r, scalar r = true -> r <> 10 -> no_lf (encode_rune r).
Proof.
  intros r Sc N. apply scalar_range in Sc as R. destruct (Z_lt_le_dec r 128).
  - rewrite encode_ascii by lia. intros [E|[]]. apply (f_equal bval) in E.
    rewrite byte_of_val in E by lia. vm_compute in E. lia.
  - apply high_not_lf, encode_high; assumption.
Qed.

Lemma po_body_no_lf : forall b v, po_body b v -> no_lf b.
Proof.
  induction 1 as [|e z s v I H IH|r s v Sc N1 N2 N3 H IH]; intro J.
  - destruct J.
  - destruct J as [J|[J|J]]; [discriminate| |now apply IH].
    subst e. simpl in I. repeat (destruct I as [I|I]; [discriminate|]). destruct I.
  - apply in_app_or in J as [J|J]; [|now apply IH].
    exact (encode_no_lf r Sc N1 J).
Qed.

Lemma last_index_end : forall c s, last_index_byte c (s ++ [c]) = Some (length s).
Proof.
  induction s as [|a s IH]; cbn [app last_index_byte length].
  - now rewrite Ascii.eqb_refl.
  - now rewrite IH.
Qed.

Lemma decode_quoted : forall f b, decode_line f (QUOTE :: b ++ [QUOTE]) = unescape f b.
Proof.
  intros f b. unfold decode_line. cbn [index_byte]. rewrite Ascii.eqb_refl.
  change (QUOTE :: b ++ [QUOTE]) with ((QUOTE :: b) ++ [QUOTE]).
  rewrite last_index_end. cbn [length Nat.eqb]. f_equal.
  unfold slice. cbn [app skipn]. replace (S (length b) - 1)%nat with (length b) by lia.
  apply firstn_len_app.
Qed.

Lemma quoted_no_lf : forall b, no_lf b -> no_lf (QUOTE :: b ++ [QUOTE]).
Proof.
  intros b H [I|I]; [discriminate|]. apply in_app_or in I as [I|[I|[]]]; [now apply H|discriminate].
Qed.

Lemma source_lines : forall t v, po_source t v -> forall f, (length t < f)%nat ->
  exists vs, decode_lines f (split_on LF t) = Ok vs /\ concat vs = v.
Proof.
  induction 1 as [b v H|b v t w H Ht IH]; intros f Hf.
  - apply po_body_no_lf in H as N. rewrite split_no_lf_end by now apply quoted_no_lf.
    destruct (po_body_loop _ _ H) as [f' L].
    cbn [decode_lines]. rewrite decode_quoted, (unescape_ok _ f f' _ L).
    + exists [v]. split; [reflexivity|]. simpl. apply app_nil_r.
    + cbn [length] in Hf. rewrite app_length in Hf. lia.
  - apply po_body_no_lf in H as N.
    replace (QUOTE :: b ++ QUOTE :: LF :: t) with ((QUOTE :: b ++ [QUOTE]) ++ LF :: t)
      by (cbn [app]; now rewrite <- app_assoc).
    rewrite split_no_lf by now apply quoted_no_lf.
    destruct (po_body_loop _ _ H) as [f' L].
    assert (Hl : (length b < f /\ length t < f)%nat).
    { cbn [length] in Hf. rewrite app_length in Hf. cbn [length] in Hf. lia. }
    cbn [decode_lines]. rewrite decode_quoted, (unescape_ok _ f f' _ L) by lia.
    destruct (IH f ltac:(lia)) as [vs [D C]]. cbn [rbind]. rewrite D.
    exists (v :: vs). split; [reflexivity|]. simpl. now rewrite C.
Qed.

Lemma source_not_empty : po_source [QUOTE; QUOTE] [].
Proof. exact (ps_one [] [] pb_nil). Qed.

(** every PO source decodes to its text *)
Lemma decode_source : forall t v, po_source t v -> decode_po t = Ok v.
Proof.
  intros t v H. unfold decode_po, decode_po_fuel.
  destruct (source_lines t v H (S (length t)) ltac:(lia)) as [vs [D C]].
  destruct (beq t [QUOTE; QUOTE]) eqn:B.
  - apply beq_eq in B. subst t. vm_compute in D. injection D as <-. now rewrite <- C.
  - rewrite D. cbn [rbind]. now rewrite C.
Qed.

(** ** Escaping *)
Definition bad_rune (r : rune) : bool := (r <? 32) && negb (in_rng 7 13 r).

Lemma escape_fuel_rune : forall r s f, scalar r = true ->
  (length (encode_rune r ++ s) <= f)%nat ->
  exists f', (length s <= f')%nat /\
    ((bad_rune r = true /\ escape_fuel f (encode_rune r ++ s) = Panic) \/
     (bad_rune r = false /\ exists b, po_body b (encode_rune r) /\
        escape_fuel f (encode_rune r ++ s) = do t <- escape_fuel f' s ; Ok (b ++ t))).
Proof.
  intros r s f Sc Hf. apply scalar_range in Sc as R.
  destruct (Z_lt_le_dec r 128).
  - rewrite encode_ascii in * by lia. cbn [app length] in *. destruct f as [|f]; [lia|].
    exists f. split; [lia|]. cbn [escape_fuel]. rewrite byte_of_val by lia.
    replace (r <? 128) with true by lia.
    destruct (safe_set (byte_of r)) eqn:Sf.
    + right. unfold safe_set in Sf. rewrite byte_of_val in Sf by lia.
      unfold in_rng in Sf. split; [unfold bad_rune; lia|].
      exists [byte_of r]. split; [|reflexivity].
      assert (r <> 34 /\ r <> 92) as [N1 N2].
      { split; intro; subst r; vm_compute in Sf; discriminate. }
      pose proof (pb_rune r [] [] Sc ltac:(lia) N1 N2 pb_nil) as P.
      rewrite encode_ascii in P by lia. exact P.
    + destruct (escape_char (byte_of r)) as [e|] eqn:E.
      * right. unfold escape_char in E. rewrite byte_of_val in E by lia.
        assert (X : forall e z, In (e, z) po_escapes -> r = z ->
          exists b, po_body b [byte_of r] /\
            (do t <- escape_fuel f s; Ok (BSLASH :: e :: t)) =
            (do t <- escape_fuel f s; Ok (b ++ t))).
        { intros e' z I ->. exists [BSLASH; e']. split; [|reflexivity].
          constructor; [assumption|constructor]. }
        destruct (Ascii.eqb_spec (byte_of r) BSLASH) as [Q|_];
          [apply (f_equal bval) in Q; rewrite byte_of_val in Q by lia; vm_compute in Q;
           subst r; injection E as <-; split; [reflexivity|];
           apply (X _ 92); [simpl; tauto|reflexivity]|].
        destruct (Ascii.eqb_spec (byte_of r) QUOTE) as [Q|_];
          [apply (f_equal bval) in Q; rewrite byte_of_val in Q by lia; vm_compute in Q;
           subst r; injection E as <-; split; [reflexivity|];
           apply (X _ 34); [simpl; tauto|reflexivity]|].
        cbn [orb] in E.
        repeat match type of E with
        | (if r =? ?k then _ else _) = _ =>
            destruct (Z.eqb_spec r k) as [Q|_];
            [subst r; injection E as <-; split; [reflexivity|];
             refine (X _ _ _ eq_refl); simpl; tauto|]
        end. discriminate.
      * left. split; [|reflexivity]. unfold safe_set in Sf. unfold escape_char in E.
        rewrite byte_of_val in * by lia.
        destruct (Ascii.eqb (byte_of r) BSLASH); [discriminate|].
        destruct (Ascii.eqb (byte_of r) QUOTE); [discriminate|].
        cbn [orb negb] in *. rewrite !andb_true_r in Sf.
        repeat match type of E with
        | (if r =? ?k then _ else _) = _ => destruct (Z.eqb_spec r k); [discriminate|]
        end. unfold bad_rune, in_rng in *. lia.
  - destruct (encode_rune r) as [|c x] eqn:E; [now apply encode_rune_ne in E|].
    cbn [app length] in Hf. destruct f as [|f]; [lia|].
    exists f. rewrite app_length in Hf. split; [lia|]. right. split; [unfold bad_rune; lia|].
    exists (c :: x). split.
    + rewrite <- E. rewrite <- (app_nil_r (encode_rune r)).
      apply pb_rune; [assumption|lia|lia|lia|constructor].
    + cbn [app escape_fuel]. pose proof (encode_high r Sc ltac:(lia)) as Hi.
      rewrite E in Hi. inversion Hi; subst. replace (bval c <? 128) with false by lia.
      change (c :: x ++ s) with ((c :: x) ++ s). rewrite <- E.
      rewrite decode_encode by assumption.
      assert (Lw : (r =? RuneError) && Nat.eqb (length (encode_rune r)) 1 = false).
      { destruct (Z.eqb_spec r RuneError); [subst r; reflexivity|reflexivity]. }
      rewrite Lw, skipn_len_app, firstn_len_app, E. reflexivity.
Qed.

Lemma escape_fuel_all : forall rs f, Forall (fun r => scalar r = true) rs ->
  (length (encode_all rs) <= f)%nat ->
  (existsb bad_rune rs = true /\ escape_fuel f (encode_all rs) = Panic) \/
  (existsb bad_rune rs = false /\ exists b, escape_fuel f (encode_all rs) = Ok b /\
     po_body b (encode_all rs)).
Proof.
  induction rs as [|r rs IH]; intros f H Hf.
  - right. split; [reflexivity|]. exists []. split; [destruct f; reflexivity|constructor].
  - inversion H as [|? ? Hr Hrs]; subst.
    unfold encode_all in Hf |- *. cbn [map concat] in Hf |- *. fold (encode_all rs) in Hf |- *.
    destruct (escape_fuel_rune r (encode_all rs) f Hr Hf) as [f' [L [[B E]|[B [b [Pb E]]]]]].
    + left. cbn [existsb]. rewrite B. auto.
    + cbn [existsb]. rewrite B, E. cbn [orb].
      destruct (IH f' Hrs L) as [[B' E']|[B' [b' [E' P']]]].
      * left. rewrite E'. auto.
      * right. split; [assumption|]. exists (b ++ b'). rewrite E'. split; [reflexivity|].
        now apply po_body_app.
Qed.

Lemma escape_all : forall rs, Forall (fun r => scalar r = true) rs ->
  (existsb bad_rune rs = true /\ escape (encode_all rs) = Panic) \/
  (existsb bad_rune rs = false /\ exists b, escape (encode_all rs) = Ok b /\
     po_body b (encode_all rs)).
Proof. intros rs H. unfold escape. apply escape_fuel_all; auto. Qed.

(** ** Wrapping for encoding *)
Definition wtext (s : wst) : list rune :=
  concat (w_lines s) ++ w_line s ++ w_word s ++ w_space s.

Lemma wtext_new_line : forall s, wtext (new_line s) = wtext s.
Proof.
  intro s. unfold wtext, new_line. simpl. rewrite concat_app. simpl.
  now rewrite app_nil_r, <- app_assoc.
Qed.

Lemma wtext_flush : forall s, wtext (flush s) = wtext s.
Proof. intro s. unfold wtext, flush. simpl. rewrite app_nil_r. now rewrite <- ?app_assoc. Qed.

Lemma wtext_space_break : forall w s, wtext (space_break w s) = wtext s.
Proof. intros w s. unfold space_break. destruct (_ && _); [apply wtext_new_line|reflexivity]. Qed.

Lemma wtext_step : forall w s r, wtext (wrap_step w s r) = wtext s ++ [r].
Proof.
  intros w s r. unfold wrap_step. destruct (Z.eqb_spec r NL) as [->|N].
  - cbv zeta. rewrite wtext_new_line. unfold wtext, flush. simpl.
    rewrite !app_nil_r. now rewrite <- !app_assoc.
  - cbv zeta. set (s0 := WSt (w_lines s) (w_line s) (w_word s) (w_space s) (rlen (w_line s))).
    assert (E0 : wtext s0 = wtext s) by reflexivity. destruct (breaking r).
    + rewrite wtext_space_break. rewrite <- E0, <- (wtext_space_break w s0).
      unfold wtext. simpl. now rewrite <- !app_assoc.
    + rewrite <- E0.
      match goal with |- wtext {| w_lines := w_lines ?x |} = _ => set (s2 := x) end.
      assert (E2 : wtext s2 = wtext s0 /\ w_space s2 = []).
      { subst s2. destruct (0 <? rlen (w_space s0)) eqn:P.
        - split; [|reflexivity]. rewrite wtext_flush.
          destruct (_ && _); [rewrite wtext_new_line, wtext_flush|]; reflexivity.
        - split; [reflexivity|]. unfold rlen in P. destruct (w_space s0); [reflexivity|simpl in P; lia]. }
      destruct E2 as [E2 E3]. rewrite <- E2. unfold wtext. simpl. rewrite E3, !app_nil_r.
      now rewrite <- ?app_assoc.
Qed.

Lemma concat_last_line : forall ls rest, concat (last_line ls rest) = concat ls ++ rest.
Proof.
  intros ls rest. unfold last_line. destruct rest as [|r rest].
  - destruct ls; [reflexivity|]. now rewrite app_nil_r.
  - rewrite concat_app. simpl. now rewrite app_nil_r.
Qed.

Lemma wrap_runes_concat : forall w rs, concat (wrap_runes w rs) = rs.
Proof.
  intros w rs. unfold wrap_runes.
  assert (G : forall rs s, wtext (fold_left (wrap_step w) rs s) = wtext s ++ rs).
  { induction rs0 as [|r rs0 IH]; intro s; cbn [fold_left]; [now rewrite app_nil_r|].
    rewrite IH, wtext_step, <- app_assoc. reflexivity. }
  cbv zeta. rewrite concat_last_line.
  specialize (G rs (WSt [] [] [] [] 0)).
  rewrite <- wtext_flush in G. unfold wtext at 1 in G. simpl in G.
  rewrite !app_nil_r in G. exact G.
Qed.

Lemma wrap_runes_ne : forall w rs, wrap_runes w rs <> [].
Proof.
  intros w rs. unfold wrap_runes. cbv zeta. unfold last_line.
  destruct (w_line _); destruct (w_lines _); try discriminate;
    intro H; apply app_eq_nil in H as [_ H]; discriminate.
Qed.

(** ** Rendered lines *)
Definition quoted (x v : bytes) : Prop := exists b, x = QUOTE :: b ++ [QUOTE] /\ po_body b v.

Definition allb (rs : list rune) := Forall (fun r => scalar r = true) rs.

Lemma render_spec : forall l, allb l ->
  (existsb bad_rune l = true /\ render l = Panic) \/
  (existsb bad_rune l = false /\ exists x, render l = Ok x /\ quoted x (encode_all l)).
Proof.
  intros l H. unfold render. destruct (escape_all l H) as [[B E]|[B [b [E P]]]].
  - left. rewrite E. auto.
  - right. rewrite E. split; [assumption|]. eexists. split; [reflexivity|]. exists b. auto.
Qed.

Lemma encode_all_app : forall a b, encode_all (a ++ b) = encode_all a ++ encode_all b.
Proof. intros. unfold encode_all. now rewrite map_app, concat_app. Qed.

Lemma render_nl_spec : forall l, allb l ->
  (existsb bad_rune l = true /\ render_nl l = Panic) \/
  (existsb bad_rune l = false /\ exists x, render_nl l = Ok x /\ quoted x (encode_all (l ++ [NL]))).
Proof.
  intros l H. unfold render_nl. destruct (escape_all l H) as [[B E]|[B [b [E P]]]].
  - left. rewrite E. auto.
  - right. rewrite E. split; [assumption|]. eexists. split; [reflexivity|].
    exists (b ++ [BSLASH; "n"%char]). split; [now rewrite <- app_assoc|].
    rewrite encode_all_app. apply po_body_app; [assumption|].
    exact (pb_esc "n"%char 10 [] [] ltac:(simpl; tauto) pb_nil).
Qed.

Lemma render_all_spec : forall ls, allb (concat ls) ->
  (existsb bad_rune (concat ls) = true /\ render_all ls = Panic) \/
  (existsb bad_rune (concat ls) = false /\ exists xs, render_all ls = Ok xs /\
     Forall2 quoted xs (map encode_all ls)).
Proof.
  induction ls as [|l ls IH]; intro H.
  - right. split; [reflexivity|]. exists []. split; [reflexivity|constructor].
  - cbn [concat] in H. apply Forall_app in H as [H1 H2].
    cbn [concat render_all]. rewrite existsb_app.
    destruct (render_spec l H1) as [[B E]|[B [x [E Q]]]].
    + left. rewrite B, E. auto.
    + rewrite B, E. cbn [rbind orb]. destruct (IH H2) as [[B' E']|[B' [xs [E' Q']]]].
      * left. rewrite E'. auto.
      * right. rewrite E'. split; [assumption|]. exists (x :: xs). split; [reflexivity|].
        cbn [map]. constructor; assumption.
Qed.

Lemma bad_NL : bad_rune NL = false.
Proof. reflexivity. Qed.

Lemma encode_nowrap_spec : forall rs buf some, allb (buf ++ rs) ->
  (existsb bad_rune (buf ++ rs) = true /\ encode_nowrap rs buf some = Panic) \/
  (existsb bad_rune (buf ++ rs) = false /\ exists xs vs, encode_nowrap rs buf some = Ok xs /\
     Forall2 quoted xs vs /\ concat vs = encode_all (buf ++ rs) /\
     (some = false -> xs <> [])).
Proof.
  induction rs as [|r rs IH]; intros buf some H; cbn [encode_nowrap].
  - rewrite app_nil_r in *.
    assert (G : (existsb bad_rune buf = true /\ (do x <- render buf; Ok [x]) = Panic) \/
      (existsb bad_rune buf = false /\ exists xs vs, (do x <- render buf; Ok [x]) = Ok xs /\
         Forall2 quoted xs vs /\ concat vs = encode_all buf /\ (some = false -> xs <> []))).
    { destruct (render_spec buf H) as [[B E]|[B [x [E Q]]]].
      - left. rewrite E. auto.
      - right. rewrite E. split; [assumption|]. exists [x], [encode_all buf].
        split; [reflexivity|]. split; [repeat constructor; assumption|].
        split; [simpl; apply app_nil_r|discriminate]. }
    destruct buf; [|exact G]. destruct some; [|exact G].
    right. split; [reflexivity|]. exists [], []. repeat split; [constructor|discriminate].
  - destruct (Z.eqb_spec r NL) as [->|N].
    + replace (buf ++ NL :: rs) with ((buf ++ [NL]) ++ rs) in * by (now rewrite <- app_assoc).
      apply Forall_app in H as [H1 H2]. apply Forall_app in H1 as [H1 _].
      rewrite !existsb_app. cbn [existsb]. rewrite bad_NL. cbn [orb]. rewrite orb_false_r.
      destruct (render_nl_spec buf H1) as [[B E]|[B [x [E Q]]]].
      * left. rewrite B, E. auto.
      * rewrite B, E. cbn [rbind orb].
        destruct (IH [] true H2) as [[B' E']|[B' [xs [vs [E' [F [C _]]]]]]].
        -- left. rewrite E'. auto.
        -- right. rewrite E'. split; [assumption|].
           exists (x :: xs), (encode_all (buf ++ [NL]) :: vs).
           split; [reflexivity|]. split; [constructor; assumption|].
           split; [|discriminate]. cbn [concat]. rewrite C, !encode_all_app, <- ?app_assoc.
           reflexivity.
    + specialize (IH (buf ++ [r]) some). rewrite <- app_assoc in IH. cbn [app] in IH.
      apply IH. assumption.
Qed.

(** ** Layout *)
Lemma quoted_join : forall xs vs, Forall2 quoted xs vs -> xs <> [] ->
  po_source (join [LF] xs) (concat vs).
Proof.
  induction 1 as [|x v xs vs [b [-> P]] F IH]; intro N; [congruence|].
  destruct xs as [|x' xs].
  - inversion F; subst. cbn [join concat]. rewrite app_nil_r. now constructor.
  - specialize (IH ltac:(discriminate)).
    change (join [LF] ((QUOTE :: b ++ [QUOTE]) :: x' :: xs))
      with ((QUOTE :: b ++ [QUOTE]) ++ [LF] ++ join [LF] (x' :: xs)).
    replace ((QUOTE :: b ++ [QUOTE]) ++ [LF] ++ join [LF] (x' :: xs))
      with (QUOTE :: b ++ QUOTE :: LF :: join [LF] (x' :: xs))
      by (cbn [app]; rewrite <- !app_assoc; reflexivity).
    cbn [concat]. now constructor.
Qed.

Lemma quoted_empty : forall x v, quoted x v -> is_empty_line x = true -> v = [].
Proof.
  intros x v [b [-> P]] H. unfold is_empty_line in H. apply orb_true_iff in H as [H|H].
  - apply beq_eq in H. discriminate.
  - apply beq_eq in H. injection H as H. destruct b as [|c b].
    + inversion P as [| |r s w Sc N1 N2 N3 P' E1 E2]; [reflexivity|].
      apply app_eq_nil in E1 as [E1 _]. now apply encode_rune_ne in E1.
    + destruct b; discriminate.
Qed.

Lemma Forall2_removelast : forall A B (R : A -> B -> Prop) xs ys, Forall2 R xs ys ->
  Forall2 R (removelast xs) (removelast ys).
Proof.
  induction 1 as [|x y xs ys H F IH]; [constructor|]. cbn [removelast].
  destruct F; [constructor|]. constructor; assumption.
Qed.

Lemma Forall2_last : forall A B (R : A -> B -> Prop) xs ys d e, Forall2 R xs ys -> xs <> [] ->
  R (last xs d) (last ys e).
Proof.
  induction 1 as [|x y xs ys H F IH]; intro N; [congruence|]. cbn [last].
  destruct F; [assumption|]. apply IH. discriminate.
Qed.

Lemma concat_removelast : forall (ys : list bytes), last ys [] = [] ->
  concat (removelast ys) = concat ys.
Proof.
  induction ys as [|y ys IH]; [reflexivity|]. cbn [removelast last]. destruct ys as [|y' ys].
  - intros ->. reflexivity.
  - intro H. change (concat (y :: y' :: ys)) with (y ++ concat (y' :: ys)).
    rewrite <- IH by assumption. reflexivity.
Qed.

Lemma multi_line_source : forall xs vs, Forall2 quoted xs vs -> xs <> [] ->
  po_source (join [LF] (multi_line xs)) (concat vs).
Proof.
  intros xs vs F N. unfold multi_line. cbv zeta.
  assert (F' : Forall2 quoted ([QUOTE; QUOTE] :: xs) ([] :: vs)).
  { constructor; [|assumption]. exists []. split; [reflexivity|constructor]. }
  destruct (is_empty_line (last ([QUOTE; QUOTE] :: xs) [])) eqn:E.
  - pose proof (Forall2_last _ _ _ _ _ [] [] F' ltac:(discriminate)) as Q.
    apply quoted_empty in Q; [|assumption].
    change (concat vs) with (concat ([] :: vs)).
    rewrite <- (concat_removelast ([] :: vs)) by assumption.
    apply quoted_join; [now apply Forall2_removelast|]. destruct xs; [congruence|discriminate].
  - exact (quoted_join _ _ F' ltac:(discriminate)).
Qed.

Lemma layout_source : forall xs vs, Forall2 quoted xs vs -> xs <> [] ->
  po_source (layout xs) (concat vs).
Proof.
  intros xs vs F N. unfold layout.
  destruct xs as [|x [|y xs]]; [congruence| |].
  - exact (quoted_join _ _ F N).
  - destruct xs as [|z xs]; [|now apply multi_line_source].
    destruct (is_empty_line y) eqn:E; [|now apply multi_line_source].
    inversion F as [|? ? ? ? Q1 F1]; subst. inversion F1 as [|? v2 ? ? Q2 F2]; subst.
    inversion F2; subst. apply quoted_empty in Q2; [|assumption]. subst v2. cbn [concat].
    destruct Q1 as [b [-> P]]. rewrite !app_nil_r. now constructor.
Qed.

(** ** Main lemmas *)
Lemma encode_spec : forall s lim,
  (existsb bad_rune (runes s) = true /\ encode_po s lim = Panic) \/
  (existsb bad_rune (runes s) = false /\ exists t, encode_po s lim = Ok t /\
     po_source t (sanitized s)).
Proof.
  intros s lim. unfold encode_po, sanitized. pose proof (runes_scalar s) as Sc.
  destruct (lim <=? 0).
  - destruct (encode_nowrap_spec (runes s) [] false Sc) as [[B E]|[B [xs [vs [E [F [C N]]]]]]].
    + left. rewrite E. auto.
    + right. rewrite E. split; [assumption|]. eexists. split; [reflexivity|].
      cbn [app] in C. rewrite <- C. apply layout_source; auto.
  - pose proof (render_all_spec (wrap_runes lim (runes s))) as R.
    rewrite wrap_runes_concat in R. destruct (R Sc) as [[B E]|[B [xs [E F]]]].
    + left. rewrite E. auto.
    + right. rewrite E. split; [assumption|]. eexists. split; [reflexivity|].
      assert (C : concat (map encode_all (wrap_runes lim (runes s))) = encode_all (runes s)).
      { rewrite <- (wrap_runes_concat lim (runes s)) at 2.
        generalize (wrap_runes lim (runes s)) as ls. induction ls as [|l ls IH]; [reflexivity|].
        cbn [map concat]. now rewrite IH, encode_all_app. }
      rewrite <- C. apply layout_source; [assumption|].
      intro X. subst xs. apply (wrap_runes_ne lim (runes s)).
      destruct (wrap_runes lim (runes s)); [reflexivity|inversion F].
Qed.

Lemma sanitized_valid : forall s, valid_utf8 s -> sanitized s = s.
Proof.
  intros s [rs [H ->]]. unfold sanitized. rewrite <- (app_nil_r (encode_all rs)) at 1.
  rewrite runes_encode by assumption. change (runes []) with (@nil rune). now rewrite app_nil_r.
Qed.

(** ** Bad runes are bad bytes *)
Lemma bad_runes_bytes : forall n s, (length s <= n)%nat ->
  (existsb bad_rune (runes s) = true <-> Exists unescapable s).
Proof.
  induction n as [|n IH]; intros s Hn.
  - destruct s; [|simpl in Hn; lia]. split; [discriminate|inversion 1].
  - destruct s as [|c s]; [split; [discriminate|inversion 1]|].
    rewrite runes_cons. pose proof (decode_width c s) as W.
    destruct (Z_lt_le_dec (bval c) 128).
    + assert (D : decode_rune (c :: s) = (bval c, 1%nat)).
      { unfold decode_rune. now replace (bval c <? 128) with true by lia. }
      rewrite D. cbn [fst snd skipn existsb]. rewrite Exists_cons, orb_true_iff.
      rewrite <- (IH s) by (simpl in Hn; lia).
      unfold unescapable, bad_rune, in_rng.
      rewrite andb_true_iff, negb_true_iff, andb_false_iff, Z.ltb_lt, !Z.leb_gt.
      assert (X : bval c < 32 /\ (bval c < 7 \/ 13 < bval c) <->
                  bval c < 32 /\ ~ (7 <= bval c <= 13)) by lia.
      tauto.
    + pose proof (decode_high c s ltac:(lia)) as Hi. pose proof (decode_scalar (c :: s)) as Sc.
      destruct (decode_rune (c :: s)) as [r w] eqn:D. cbn [fst snd] in *.
      assert (R : 128 <= r).
      { destruct (Z_lt_le_dec r 128) as [L|]; [|assumption]. exfalso.
        apply scalar_range in Sc as R.
        assert (E : encode_rune r = firstn w (c :: s)).
        { apply (encode_decode _ _ _ D). intros [-> _]. vm_compute in L. discriminate. }
        rewrite encode_ascii in E by lia. destruct w as [|w]; [lia|]. simpl in E.
        injection E as E _. subst c. rewrite byte_of_val in l; lia. }
      cbn [existsb]. replace (bad_rune r) with false by (unfold bad_rune; lia). cbn [orb].
      rewrite (IH (skipn w (c :: s))) by (rewrite skipn_length; cbn [length] in *; lia).
      rewrite <- (firstn_skipn w (c :: s)) at 2. rewrite Exists_app.
      split; [auto|]. intros [X|X]; [|assumption]. exfalso.
      apply Exists_exists in X as [b [Ib [Lb _]]]. rewrite Forall_forall in Hi.
      specialize (Hi b Ib). lia.
Qed.

Lemma encode_total_iff : forall s lim,
  encode_po s lim = Panic <-> Exists unescapable s.
Proof.
  intros s lim. rewrite <- (bad_runes_bytes (length s) s (le_n _)).
  destruct (encode_spec s lim) as [[B E]|[B [t [E P]]]]; rewrite B, E; split; congruence.
Qed.

