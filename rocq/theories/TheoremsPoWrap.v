(** C76: wrapping the texts of a PO file. *)
From Coq Require Import String Ascii List ZArith Bool Lia ZifyBool.
From Verif Require Import Base BaseProofs Utf8Model Utf8Proofs StrModel PoStrModel PoStrSpec PoStrProofs PoWrapSpec PoWrapProofs.
Import ListNotations.
Open Scope Z_scope.

(** Nothing is lost and no word is cut: the lines together are the text, their
    words are its words. *)
Theorem C76_words : forall w rs, 0 < w ->
  concat (wrap_runes w rs) = rs /\
  concat (map (words breakable) (wrap_runes w rs)) = words breakable rs.
Proof.
  intros w rs W. pose proof (wrap_runes_concat w rs) as C. split; [exact C|].
  destruct (wrap_spec w rs W) as [_ E]. rewrite (words_lines _ E). now rewrite C.
Qed.

(** Lines keep the width as far as [fits] says, and are broken only where it is
    [needed]. *)
Theorem C76_lines_partial : forall w rs, 0 < w -> wrapped w (wrap_runes w rs).
Proof. intros w rs W. exact (proj1 (wrap_spec w rs W)). Qed.
Example C76_example : wrap_runes 11 (runes (bs "a few words  to wrap it")) = map runes [bs "a few "; bs "words  to "; bs "wrap it"] /\
  words breakable (runes (bs "a few words  to wrap it")) = map runes [bs "a"; bs "few"; bs "words"; bs "to"; bs "wrap"; bs "it"].
Proof. split; vm_compute; reflexivity. Qed.

(** The property, at most the width unless a line is one word, is false: the
    last word of a paragraph is added whatever its length. *)
Theorem C76_width_refuted : exists w rs x, 0 < w /\ In x (wrap_runes w rs) /\ w < len x /\ ~ one_word x.
Proof.
  exists 8, (runes (bs "two unbreakable")), (runes (bs "two unbreakable")). split; [reflexivity|].
  assert (H : wrap_runes 8 (runes (bs "two unbreakable")) = [runes (bs "two unbreakable")]) by (vm_compute; reflexivity). rewrite H. split; [now left|]. split; [vm_compute; reflexivity|].
  intros (a & b & E & A & B). assert (N : In 32 (runes (bs "two unbreakable"))) by (vm_compute; tauto). assert (M : In 101 (runes (bs "two unbreakable"))) by (vm_compute; tauto).
  assert (K : exists q, runes (bs "two unbreakable") = q ++ [101]) by (exists (runes (bs "two unbreakabl")); vm_compute; reflexivity). destruct K as (q & K).
  rewrite E in *. destruct b as [|u b _] using rev_ind.
  - rewrite app_nil_r in N. rewrite Forall_forall in A. specialize (A _ N). vm_compute in A. discriminate A.
  - rewrite app_assoc in K. apply app_inj_tail in K as [_ ->]. apply Forall_app in B as [_ B]. inversion B as [|? ? [X _]]; subst. vm_compute in X. discriminate X.
Qed.

(** The text that is written consists of these lines in quotes and escaped, one
    alone or all below an empty one. *)
Theorem C76_text : forall s w t, 0 < w -> encode_po s w = Ok t ->
  exists lines qs, concat lines = runes s /\ wrapped w lines /\
    Forall2 (fun q l => exists b, q = QUOTE :: b ++ [QUOTE] /\ po_body b (encode_all l)) qs lines /\
    t = match qs with [q] => q | _ => join [LF] ([QUOTE; QUOTE] :: qs) end.
Proof.
  intros s w t W E. unfold encode_po in E. replace (w <=? 0) with false in E by lia.
  destruct (wrap_spec w (runes s) W) as [WR EB]. pose proof (wrap_runes_concat w (runes s)) as C.
  pose proof (render_all_spec (wrap_runes w (runes s))) as R. rewrite C in R.
  destruct (R (runes_scalar s)) as [[_ X]|[_ (xs & X & F)]]; rewrite X in E; cbn [rbind] in E; [discriminate|].
  injection E as <-. exists (wrap_runes w (runes s)), xs. split; [exact C|]. split; [exact WR|].
  assert (F2 : Forall2 (fun q l => quoted q (encode_all l)) xs (wrap_runes w (runes s))).
  { clear - F. remember (map encode_all (wrap_runes w (runes s))) as m eqn:M. generalize dependent (wrap_runes w (runes s)).
    induction F as [|x y xs ys Q F IH]; intros [|l ls] M; try discriminate; constructor; injection M as -> ->; [exact Q|now apply IH]. }
  split; [exact F2|].
  assert (NE : forall a x b, (2 <= length xs)%nat -> xs = a ++ x :: b -> is_empty_line x = false).
  { intros a x b L ->. destruct (is_empty_line x) eqn:Z; [|reflexivity]. exfalso.
    apply Forall2_app_inv_l in F2 as (la & lb & FA & FB & LE). inversion FB as [|? l ? lb' Q FB' E1 E2]; subst. apply (quoted_empty _ _ Q) in Z.
    assert (l = []) as -> by (destruct l as [|r l]; [reflexivity|]; unfold encode_all in Z; cbn [map concat] in Z; apply app_eq_nil in Z as [Z _]; now apply encode_rune_ne in Z).
    pose proof (wrap_nonempty w (runes s) W) as N1. rewrite LE in N1. specialize (N1 ltac:(apply in_or_app; right; now left)).
    assert (FL : forall A B (R : A -> B -> Prop) xs ys, Forall2 R xs ys -> length xs = length ys) by (induction 1; cbn; congruence).
    assert (LL : length (a ++ x :: b) = 1%nat).
    { rewrite app_length. cbn [length]. rewrite (FL _ _ _ _ _ FA), (FL _ _ _ _ _ FB'). change (S (length lb')) with (length ([] :: lb')). rewrite <- app_length, N1. reflexivity. }
    lia. }
  unfold layout. destruct xs as [|x [|y xs]]; [exfalso; apply (wrap_runes_ne w (runes s)); now inversion F2|reflexivity|].
  assert (ML : multi_line (x :: y :: xs) = [QUOTE; QUOTE] :: x :: y :: xs).
  { unfold multi_line. cbv zeta. assert (L : last ([QUOTE; QUOTE] :: x :: y :: xs) [] = last (x :: y :: xs) []) by reflexivity. rewrite L.
    destruct (exists_last (l := x :: y :: xs) ltac:(discriminate)) as (a & u & Q). rewrite Q, last_last.
    rewrite (NE a u [] ltac:(cbn; lia) Q). reflexivity. }
  rewrite <- ML. destruct xs as [|z xs]; [|reflexivity]. rewrite (NE [x] y [] ltac:(cbn; lia) eq_refl). reflexivity.
Qed.
Example C76_text_example : exists t, encode_po (bs "a few words  to wrap it") 11 = Ok t /\
  t = join [LF] [bs """"""; bs """a few """; bs """words  to """; bs """wrap it"""].
Proof. eexists. split; vm_compute; reflexivity. Qed.

Print Assumptions C76_words.
Print Assumptions C76_lines_partial.
Print Assumptions C76_width_refuted.
Print Assumptions C76_text.
