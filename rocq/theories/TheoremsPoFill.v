(** C76: exactly where EncodePoString breaks a text. *)
From Coq Require Import String Ascii List ZArith Bool Lia ZifyBool.
From Verif Require Import Base BaseProofs Utf8Model Utf8Proofs StrModel PoStrModel PoStrSpec PoStrProofs PoWrapSpec PoWrapProofs PoFillSpec PoFillProofs.
Import ListNotations.
Open Scope Z_scope.

(** Every text is broken as [filled_text] says ... *)
Theorem C76_breaks : forall w rs, filled_text w true rs (wrap_runes w rs).
Proof. exact wrap_filled. Qed.
(** ... and in no other way. *)
Theorem C76_breaks_unique : forall w rs ls, filled_text w true rs ls -> wrap_runes w rs = ls.
Proof. exact filled_wrap. Qed.
(** The text that is written, from the lines that the specification gives. *)
Theorem C76_written : forall s w t lines, 0 < w -> filled_text w true (runes s) lines -> encode_po s w = Ok t ->
  exists qs, Forall2 (fun q l => exists b, q = QUOTE :: b ++ [QUOTE] /\ po_body b (encode_all l)) qs lines /\
    t = match qs with [q] => q | _ => join [LF] ([QUOTE; QUOTE] :: qs) end.
Proof.
  intros s w t lines W FT E. apply filled_wrap in FT. subst lines. unfold encode_po in E. replace (w <=? 0) with false in E by lia.
  destruct (wrap_spec w (runes s) W) as [WR EB]. pose proof (wrap_runes_concat w (runes s)) as C.
  pose proof (render_all_spec (wrap_runes w (runes s))) as R. rewrite C in R.
  destruct (R (runes_scalar s)) as [[_ X]|[_ (xs & X & F)]]; rewrite X in E; cbn [rbind] in E; [discriminate|].
  injection E as <-. exists xs.
  assert (F2 : Forall2 (fun q l => quoted q (encode_all l)) xs (wrap_runes w (runes s))).
  { clear - F. remember (map encode_all (wrap_runes w (runes s))) as m eqn:M. generalize dependent (wrap_runes w (runes s)).
    induction F as [|x y xs ys Q F IH]; intros [|l ls] M; try discriminate; constructor; injection M as -> ->; [exact Q|now apply IH]. }
  split; [exact F2|].
  assert (NE : forall a x b, (2 <= length xs)%nat -> xs = a ++ x :: b -> is_empty_line x = false).
  { intros a x b L ->. destruct (is_empty_line x) eqn:Z; [|reflexivity]. exfalso.
    apply Forall2_app_inv_l in F2 as (la & lb & FA & FB & LE). inversion FB as [|? l ? lb' Q FB' E1 E2]; subst. apply (quoted_empty _ _ Q) in Z.
    assert (l = []) as -> by (destruct l as [|r l]; [reflexivity|]; unfold encode_all in Z; cbn [map concat] in Z; apply app_eq_nil in Z as [Z _]; now apply encode_rune_ne in Z).
    pose proof (wrap_nonempty w (runes s) W) as N1. rewrite LE in N1. specialize (N1 ltac:(apply in_or_app; right; now left)).
    assert (FL : forall A B (R : A -> B -> Prop) xs ys, Forall2 R xs ys -> length xs = length ys) by (induction 1; cbn; congruence).
    assert (LL : length (a ++ x :: b) = 1%nat).
    { rewrite app_length. cbn [length]. rewrite (FL _ _ _ _ _ FA), (FL _ _ _ _ _ FB'). change (S (length lb')) with (length ([] :: lb')). rewrite <- app_length, N1. reflexivity. }
    lia. }
  unfold layout. destruct xs as [|x [|y xs]]; [exfalso; apply (wrap_runes_ne w (runes s)); now inversion F2|reflexivity|].
  assert (ML : multi_line (x :: y :: xs) = [QUOTE; QUOTE] :: x :: y :: xs).
  { unfold multi_line. cbv zeta. assert (L : last ([QUOTE; QUOTE] :: x :: y :: xs) [] = last (x :: y :: xs) []) by reflexivity. rewrite L.
    destruct (exists_last (l := x :: y :: xs) ltac:(discriminate)) as (a & u & Q). rewrite Q, last_last.
    rewrite (NE a u [] ltac:(cbn; lia) Q). reflexivity. }
  rewrite <- ML. destruct xs as [|z xs]; [|reflexivity]. rewrite (NE [x] y [] ltac:(cbn; lia) eq_refl). reflexivity.
Qed.

Lemma chunk_word : forall x g l, (forall r, In r x -> breakable r = false) -> (forall r, In r g -> breakable r = true) -> x <> [] -> g <> [] -> chunk l (x ++ g).
Proof. intros x g l X G NX NG. exists x, g. split; [reflexivity|]. split; [now apply Forall_forall|]. split; [exact NG|]. split; [now apply Forall_forall|]. intros _. exact NX. Qed.
Example C76_breaks_example : filled_text 8 true (runes (bs "a few words to")) (map runes [bs "a few "; bs "words to"]) /\
  encode_po (bs "a few words to") 8 = Ok (join [LF] [bs """"""; bs """a few """; bs """words to"""]).
Proof.
  split; [|vm_compute; reflexivity]. apply ft_last; [vm_compute; intuition discriminate|now left|].
  assert (W : forall c, In c [bs "a "; bs "few "; bs "words "] -> forall l, chunk l (runes c)).
  { intros c I l. destruct I as [<-|[<-|[<-|[]]]];
      [apply (chunk_word (runes (bs "a")) (runes (bs " ")))|apply (chunk_word (runes (bs "few")) (runes (bs " ")))|apply (chunk_word (runes (bs "words")) (runes (bs " ")))];
      try discriminate; intros r R; vm_compute in R; intuition (subst; reflexivity). }
  assert (F : forall s, In s [bs "few words to"; bs "words to"; bs "to"] -> fresh (runes s)).
  { intros s I. right. destruct I as [<-|[<-|[<-|[]]]]; vm_compute; eexists _, _; (split; [reflexivity|reflexivity]). }
  apply (fi_first 8 (runes (bs "a ")) (runes (bs "few words to"))); [apply W; now left|apply F; now left|right; reflexivity|].
  apply (fi_more 8 (runes (bs "a ")) (runes (bs "few ")) (runes (bs "words to"))); [discriminate|apply W; auto with datatypes|apply F; auto with datatypes|vm_compute; discriminate|].
  apply (fi_next 8 (runes (bs "a few ")) (runes (bs "words ")) (runes (bs "to"))); [discriminate|apply W; auto with datatypes|apply F; auto with datatypes|reflexivity|].
  apply (fi_first 8 (runes (bs "words ")) (runes (bs "to"))); [apply W; auto with datatypes|apply F; auto with datatypes|right; reflexivity|].
  apply (fi_last 8 (runes (bs "words ")) (runes (bs "to"))). vm_compute. repeat constructor.
Qed.

Print Assumptions C76_breaks.
Print Assumptions C76_breaks_unique.
Print Assumptions C76_written.
