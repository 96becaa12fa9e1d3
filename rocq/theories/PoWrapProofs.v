From Coq Require Import String Ascii List ZArith Bool Lia ZifyBool.
From Verif Require Import Base BaseProofs Utf8Model StrModel PoStrModel PoStrSpec PoStrProofs WrapProofs PoWrapSpec.
Import ListNotations.
Open Scope Z_scope.

Definition ends_blank (x : list rune) : Prop := exists a r, x = a ++ [r] /\ breakable r = true.
Definition pairs (w : Z) (ls : list (list rune)) : Prop := forall a x y b, ls = a ++ x :: y :: b -> needed w x y.
Definition pending (w : Z) (ls : list (list rune)) (line rest : list rune) : Prop :=
  forall a x, ls = a ++ [x] -> (exists b, x = b ++ [10]) \/ (one_word x /\ w - 1 <= len x) \/
    exists p, one_word p /\ w < len x + len p /\ ((exists q, line = p ++ q) \/ (line = [] /\ exists q, rest = p ++ q)).

Lemma len_app : forall a b, len (a ++ b) = len a + len b.
Proof. intros. unfold len. rewrite app_length. lia. Qed.
Lemma len_nonneg : forall a, 0 <= len a.
Proof. intro. unfold len. lia. Qed.
Lemma pairs_nil : forall w, pairs w [].
Proof. intros w a x y b H. destruct a; discriminate. Qed.
Lemma pairs_snoc : forall w ls y, pairs w ls -> (forall a x, ls = a ++ [x] -> needed w x y) -> pairs w (ls ++ [y]).
Proof.
  intros w ls y P L a x z b E. destruct b as [|u b _] using rev_ind.
  - replace (a ++ [x; z]) with ((a ++ [x]) ++ [z]) in E by now rewrite <- app_assoc. apply app_inj_tail in E as [-> ->]. eapply L. reflexivity.
  - replace (a ++ x :: z :: b ++ [u]) with ((a ++ x :: z :: b) ++ [u]) in E by now rewrite <- app_assoc. apply app_inj_tail in E as [-> _]. eapply P. reflexivity.
Qed.
Lemma pairs_push : forall w ls line rest y q, pairs w ls -> pending w ls line rest -> (line = [] -> y = rest ++ q) -> (line <> [] -> exists q', y = line ++ q') -> pairs w (ls ++ [y]).
Proof.
  intros w ls line rest y q P E L0 L1. apply pairs_snoc; [exact P|]. intros a x EQ. destruct (E a x EQ) as [H|[H|(p & O & B & H)]]; [now left|now right; left|].
  right. right. destruct H as [(u & ->)|(-> & u & ->)].
  - destruct (p ++ u) as [|c t] eqn:Z.
    + apply app_eq_nil in Z as [-> ->]. exists [], y. split; [reflexivity|]. now split.
    + destruct (L1 ltac:(discriminate)) as (q' & ->). rewrite <- Z. exists p, (u ++ q'). rewrite <- app_assoc. now repeat split.
  - rewrite (L0 eq_refl). exists p, (u ++ q). rewrite <- app_assoc. now repeat split.
Qed.
Lemma pending_snoc : forall w ls x line rest, ((exists b, x = b ++ [10]) \/ (one_word x /\ w - 1 <= len x) \/
    exists p, one_word p /\ w < len x + len p /\ ((exists q, line = p ++ q) \/ (line = [] /\ exists q, rest = p ++ q))) -> pending w (ls ++ [x]) line rest.
Proof. intros w ls x line rest H a y E. apply app_inj_tail in E as [_ <-]. exact H. Qed.
Lemma pending_more : forall w ls line rest line' rest', pending w ls line rest ->
  (forall p, (exists q, line = p ++ q) \/ (line = [] /\ exists q, rest = p ++ q) -> (exists q, line' = p ++ q) \/ (line' = [] /\ exists q, rest' = p ++ q)) -> pending w ls line' rest'.
Proof. intros w ls line rest line' rest' P H a x E. destruct (P a x E) as [K|[K|(p & O & B & K)]]; [now left|now right; left|]. right. right. exists p. split; [exact O|]. split; [exact B|]. now apply H. Qed.

Record inv0 (w : Z) (s : wst) : Prop := {
  i_lines : Forall (fun x => fits w false x /\ ends_blank x) (w_lines s);
  i_pairs : pairs w (w_lines s);
  i_len : len (w_line s) <= w;
  i_feed : ~ In 10 (w_line s);
  i_end : w_line s = [] \/ ends_blank (w_line s);
  i_word : Forall solid (w_word s);
  i_space : Forall gap (w_space s);
  i_pend : pending w (w_lines s) (w_line s) (w_word s ++ w_space s) }.
Definition tight (w : Z) (s : wst) : Prop := w_space s = [] \/ w_line s = [] \/ len (w_line s) + len (w_word s) + len (w_space s) <= w.

Lemma solid_no_feed : forall l, Forall solid l -> ~ In 10 l.
Proof. intros l F I. rewrite Forall_forall in F. specialize (F _ I). discriminate F. Qed.
Lemma gap_no_feed : forall l, Forall gap l -> ~ In 10 l.
Proof. intros l F I. rewrite Forall_forall in F. now destruct (F _ I) as [_ N]. Qed.
Lemma word_no_feed : forall a b, Forall solid a -> Forall gap b -> ~ In 10 (a ++ b).
Proof. intros a b A B I. apply in_app_or in I as [I|I]; [eapply solid_no_feed|eapply gap_no_feed]; eauto. Qed.
Lemma fits_short : forall w last x, len x <= w -> ~ In 10 x -> fits w last x.
Proof. intros w last x L N. exists x, []. rewrite app_nil_r. split; [reflexivity|]. split; [exact N|]. split; [now left|now left]. Qed.
Lemma one_word_of : forall a b, Forall solid a -> Forall gap b -> one_word (a ++ b).
Proof. intros a b A B. now exists a, b. Qed.
Lemma gap_end : forall a b, Forall gap b -> b <> [] -> ends_blank (a ++ b).
Proof.
  intros a b G N. destruct (exists_last N) as (b' & r & ->). exists (a ++ b'), r. rewrite app_assoc. split; [reflexivity|].
  apply Forall_app in G as [_ G]. inversion G as [|? ? [B _]]; subst. exact B.
Qed.

Lemma break_inv : forall w s, 0 < w -> inv0 w s -> w_len s = rlen (w_line s) ->
  inv0 w (space_break w s) /\ tight w (space_break w s) /\ w_len (space_break w s) = rlen (w_line (space_break w s)).
Proof.
  intros w s W [A B C D E F G H] L. unfold space_break. destruct ((w <=? w_len s + rlen (w_word s) + rlen (w_space s) - 1) && (0 <? w_len s)) eqn:X.
  - assert (NE : w_line s <> []) by (intro Z; rewrite L, Z in X; unfold rlen in X; cbn in X; lia).
    split; [|split; [right; left; reflexivity|reflexivity]]. unfold new_line. split; cbn [w_lines w_line w_word w_space].
    + apply Forall_app. split; [exact A|]. constructor; [|constructor]. split; [now apply fits_short|]. now destruct E.
    + eapply (pairs_push w _ _ _ _ []); [exact B|exact H|intro Z; contradiction|]. intros _. exists []. now rewrite app_nil_r.
    + unfold len. cbn. lia.
    + intros [].
    + now left.
    + exact F.
    + exact G.
    + apply pending_snoc. right. right. exists (w_word s ++ w_space s). split; [now apply one_word_of|]. split; [rewrite len_app; unfold rlen, len in *; lia|].
      right. split; [reflexivity|]. exists []. now rewrite app_nil_r.
  - split; [now split|]. split; [|exact L]. right. destruct (w_line s) as [|c l] eqn:Z; [now left|]. right. rewrite L in X. unfold rlen, len in *. cbn [length] in *. lia.
Qed.
Lemma step_inv : forall w s r, 0 < w -> inv0 w s -> tight w s -> inv0 w (wrap_step w s r) /\ tight w (wrap_step w s r).
Proof.
  intros w s r W I T. unfold wrap_step. destruct (Z.eqb_spec r NL) as [->|N].
  - cbv zeta. destruct I as [A B C D E F G H]. split; [|now left]. unfold new_line, flush. cbn [w_lines w_line w_word w_space]. split; cbn [w_lines w_line w_word w_space].
    + apply Forall_app. split; [exact A|]. constructor; [|constructor]. split.
      * exists (w_line s ++ w_word s ++ w_space s), [10]. split; [reflexivity|]. split.
        { intro I. apply in_app_or in I as [I|I]; [now apply D|]. revert I; apply word_no_feed; assumption. }
        split; [now right|]. destruct T as [T|[T|T]].
        -- right. right. split; [now left|]. exists (w_line s), (w_word s). rewrite T, app_nil_r. now split.
        -- right. left. rewrite T. cbn [app]. now apply one_word_of.
        -- left. rewrite !len_app. lia.
      * now exists (w_line s ++ w_word s ++ w_space s), NL.
    + eapply (pairs_push w _ _ _ _ [NL]); [exact B|exact H| |].
      * intros ->. cbn [app]. reflexivity.
      * intros _. exists ((w_word s ++ w_space s) ++ [NL]). now rewrite <- !app_assoc.
    + unfold len. cbn. lia.
    + intros [].
    + now left.
    + constructor.
    + constructor.
    + apply pending_snoc. left. now exists (w_line s ++ w_word s ++ w_space s).
  - cbv zeta. set (s0 := WSt (w_lines s) (w_line s) (w_word s) (w_space s) (rlen (w_line s))).
    assert (I0 : inv0 w s0) by (destruct I; now split). assert (T0 : tight w s0) by exact T. clear I T.
    destruct (breaking r) eqn:BR.
    + destruct (break_inv w s0 W I0 eq_refl) as (I1 & _ & L1). set (s1 := space_break w s0) in *. clearbody s1. clear I0 T0 s0.
      assert (I2 : inv0 w (WSt (w_lines s1) (w_line s1) (w_word s1) (w_space s1 ++ [r]) (w_len s1))).
      { destruct I1 as [A B C D E F G H]. split; cbn [w_lines w_line w_word w_space]; try assumption.
        - apply Forall_app. split; [exact G|]. constructor; [|constructor]. split; [exact BR|exact N].
        - eapply pending_more; [exact H|]. intros p [K|[K (q & K2)]]; [now left|]. right. split; [exact K|]. exists (q ++ [r]). now rewrite app_assoc, K2, <- app_assoc. }
      destruct (break_inv w _ W I2 L1) as (I3 & T3 & _). now split.
    + match goal with |- inv0 w {| w_lines := w_lines ?x |} /\ _ => set (s2 := x) end.
      assert (X : inv0 w s2 /\ w_space s2 = []).
      { subst s2. destruct (0 <? rlen (w_space s0)) eqn:P.
        - assert (NS : w_space s0 <> []) by (intro Z; rewrite Z in P; discriminate P).
          assert (W0 : w_len s0 = rlen (w_line s0)) by reflexivity. clearbody s0.
          destruct ((w <=? w_len s0 + rlen (w_word s0) + rlen (w_space s0) + 1) && (w_len s0 =? 0)) eqn:X.
          + split; [|reflexivity]. destruct I0 as [A B C D E F G H].
            assert (Z : w_line s0 = []) by (rewrite W0 in X; unfold rlen in X; destruct (w_line s0); [reflexivity|cbn in X; lia]).
            unfold new_line, flush. rewrite Z in *. cbn [w_lines w_line w_word w_space app]. split; cbn [w_lines w_line w_word w_space].
            * apply Forall_app. split; [exact A|]. constructor; [|constructor]. split; [|now apply gap_end].
              exists (w_word s0 ++ w_space s0), []. rewrite app_nil_r. split; [reflexivity|]. split; [now apply word_no_feed|]. split; [now left|]. right. left. now apply one_word_of.
            * eapply (pairs_push w _ _ _ _ []); [exact B|exact H| |]; [intros _; now rewrite app_nil_r|congruence].
            * unfold len. cbn. lia.
            * intros [].
            * now left.
            * constructor.
            * constructor.
            * apply pending_snoc. right. left. split; [now apply one_word_of|]. rewrite len_app. unfold rlen, len in *. lia.
          + split; [|reflexivity]. destruct I0 as [A B C D E F G H]. unfold flush. split; cbn [w_lines w_line w_word w_space]; try assumption.
            * rewrite !len_app. destruct T0 as [T|[T|T]]; [contradiction| |lia]. rewrite W0, T in X. rewrite T. unfold rlen, len in *. cbn [length] in *. lia.
            * intro I. apply in_app_or in I as [I|I]; [now apply D|]. revert I; apply word_no_feed; assumption.
            * right. rewrite app_assoc. now apply gap_end.
            * constructor.
            * constructor.
            * eapply pending_more; [exact H|]. intros p [(q & K)|[K (q & K2)]].
              -- left. exists (q ++ w_word s0 ++ w_space s0). rewrite K. now rewrite <- !app_assoc.
              -- left. exists q. now rewrite K.
        - split; [exact I0|]. unfold rlen in P. destruct (w_space s0); [reflexivity|cbn in P; lia]. }
      destruct X as [[A B C D E F G H] S2]. clearbody s2. clear I0 T0 s0. split; [|left; exact S2].
      split; cbn [w_lines w_line w_word w_space]; try assumption.
      * apply Forall_app. split; [exact F|]. now constructor.
      * rewrite S2 in *. rewrite app_nil_r in *. eapply pending_more; [exact H|]. intros p [K|[K (q & K2)]]; [now left|]. right. split; [exact K|]. exists (q ++ [r]). now rewrite K2, app_assoc.
Qed.
Lemma fold_inv : forall w rs s, 0 < w -> inv0 w s -> tight w s -> inv0 w (fold_left (wrap_step w) rs s) /\ tight w (fold_left (wrap_step w) rs s).
Proof. induction rs as [|r rs IH]; intros s W I T; cbn [fold_left]; [now split|]. destruct (step_inv w s r W I T) as [I1 T1]. now apply IH. Qed.

Lemma fits_any : forall w x, fits w false x -> forall last, fits w last x.
Proof. intros w x (b & f & E & N & F & H) last. exists b, f. repeat (split; [assumption|]). destruct H as [H|[H|[[H|H] K]]]; [now left|now right; left| |discriminate]. right. right. now split; [left|]. Qed.
Lemma wrap_spec : forall w rs, 0 < w -> wrapped w (wrap_runes w rs) /\
  (forall a x y b, wrap_runes w rs = a ++ x :: y :: b -> ends_blank x).
Proof.
  intros w rs W.
  assert (I : inv0 w (WSt [] [] [] [] 0)).
  { split; cbn [w_lines w_line w_word w_space]; [constructor|apply pairs_nil|unfold len; cbn; lia|intros []|now left|constructor|constructor|]. intros a x E. destruct a; discriminate. }
  destruct (fold_inv w rs _ W I ltac:(now left)) as [[A B C D E F G H] T]. unfold wrap_runes. cbv zeta. set (s := fold_left _ _ _) in *. clearbody s. clear I.
  unfold flush. cbn [w_lines w_line].
  assert (FL : fits w true (w_line s ++ w_word s ++ w_space s)).
  { exists (w_line s ++ w_word s ++ w_space s), []. rewrite app_nil_r. split; [reflexivity|]. split.
    { intro I. apply in_app_or in I as [I|I]; [now apply D|]. revert I; apply word_no_feed; assumption. }
    split; [now left|]. destruct T as [T|[T|T]].
    - right. right. split; [now right|]. exists (w_line s), (w_word s). rewrite T, app_nil_r. now split.
    - right. left. rewrite T. cbn [app]. now apply one_word_of.
    - left. rewrite !len_app. lia. }
  assert (PL : pairs w (w_lines s ++ [w_line s ++ w_word s ++ w_space s])).
  { eapply (pairs_push w _ _ _ _ []); [exact B|exact H| |].
    - intros ->. now rewrite app_nil_r.
    - intros _. now exists (w_word s ++ w_space s). }
  assert (ALL : forall ls, Forall (fun x => fits w false x /\ ends_blank x) ls -> forall a x b, ls = a ++ x :: b -> fits w false x /\ ends_blank x).
  { intros ls FA a x b ->. apply Forall_app in FA as [_ FA]. now inversion FA. }
  assert (SN : forall (ls : list (list rune)) z a x b, ls ++ [z] = a ++ x :: b -> (b = [] /\ x = z) \/ exists b', ls = a ++ x :: b').
  { intros ls z a x b Q. destruct b as [|u b _] using rev_ind.
    - apply app_inj_tail in Q as [_ ->]. now left.
    - replace (a ++ x :: b ++ [u]) with ((a ++ x :: b) ++ [u]) in Q by now rewrite <- app_assoc. apply app_inj_tail in Q as [-> _]. right. now exists b. }
  unfold last_line. destruct (w_line s ++ w_word s ++ w_space s) as [|c t] eqn:Z; [destruct (w_lines s) as [|l0 ls] eqn:Y|].
  - cbn [app]. split; [split|].
    + intros a x b Q. destruct a as [|? a]; [|destruct a; discriminate]. injection Q as <- <-. exact FL.
    + intros a x y b Q. destruct a as [|? a]; [|destruct a]; discriminate.
    + intros a x y b Q. destruct a as [|? a]; [|destruct a]; discriminate.
  - split; [split|].
    + intros a x b Q. apply fits_any. now apply (ALL _ A a x b).
    + exact B.
    + intros a x y b Q. now apply (ALL _ A a x (y :: b)).
  - rewrite <- Z in *. split; [split|].
    + intros a x b Q. destruct (SN _ _ _ _ _ Q) as [[-> ->]|(b' & Q2)]; [exact FL|]. apply fits_any. now apply (ALL _ A a x b').
    + exact PL.
    + intros a x y b Q. destruct (SN _ _ _ _ _ Q) as [[K _]|(b' & Q2)]; [discriminate|]. now apply (ALL _ A a x b').
Qed.

(** *** Words *)
Lemma W_blank_end : forall x r y, breakable r = true -> W ((x ++ [r]) ++ y) = W (x ++ [r]) ++ W y.
Proof.
  intros x r y B. rewrite <- app_assoc. assert (A : allbr [r]) by (repeat constructor; exact B).
  rewrite (W_join x [r] y A) by discriminate. pose proof (W_join x [r] [] A ltac:(discriminate)) as J. rewrite app_nil_r in J. rewrite J. now rewrite app_nil_r.
Qed.
Lemma words_lines : forall ls, (forall a x y b, ls = a ++ x :: y :: b -> ends_blank x) -> concat (map W ls) = W (concat ls).
Proof.
  induction ls as [|x ls IH]; intro H; [reflexivity|]. cbn [map concat]. destruct ls as [|y ls].
  - cbn [map concat]. now rewrite !app_nil_r.
  - rewrite IH; [|intros a u v b E; apply (H (x :: a) u v b); now rewrite E]. destruct (H [] x y ls eq_refl) as (a & r & -> & B). now rewrite W_blank_end.
Qed.
Lemma wrap_nonempty : forall w rs, 0 < w -> In [] (wrap_runes w rs) -> wrap_runes w rs = [[]].
Proof.
  intros w rs W.
  assert (I : inv0 w (WSt [] [] [] [] 0)).
  { split; cbn [w_lines w_line w_word w_space]; [constructor|apply pairs_nil|unfold len; cbn; lia|intros []|now left|constructor|constructor|]. intros a x E. destruct a; discriminate. }
  destruct (fold_inv w rs _ W I ltac:(now left)) as [[A _ _ _ _ _ _ _] _]. unfold wrap_runes. cbv zeta. set (s := fold_left _ _ _) in *. clearbody s. clear I.
  assert (N : ~ In [] (w_lines s)).
  { intro K. rewrite Forall_forall in A. destruct (A _ K) as [_ (a & r & E & _)]. destruct a; discriminate. }
  unfold flush. cbn [w_lines w_line]. unfold last_line. destruct (w_line s ++ w_word s ++ w_space s) as [|c t]; [destruct (w_lines s)|]; [reflexivity|contradiction|].
  intro K. apply in_app_or in K as [K|[K|[]]]; [contradiction|discriminate].
Qed.
