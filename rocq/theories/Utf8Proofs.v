From Coq Require Import String Ascii List ZArith Bool Lia ZifyBool.
From Verif Require Import Base BaseProofs Utf8Model.
Import ListNotations.
Open Scope Z_scope.
Ltac Zify.zify_post_hook ::= Z.to_euclidean_division_equations.

Lemma scalar_range : forall r, scalar r = true -> 0 <= r <= 1114111 /\ ~ (55296 <= r <= 57343).
Proof. intros r. unfold scalar, in_rng. lia. Qed.

Lemma scalar_error : scalar RuneError = true.
Proof. reflexivity. Qed.

(** Decoding an encoded rune. *)
Lemma decode_encode : forall r s, scalar r = true ->
  decode_rune (encode_rune r ++ s) = (r, length (encode_rune r)).
Proof.
  intros r s H. unfold encode_rune. rewrite H. apply scalar_range in H as [H1 H2].
  destruct (r <? 128) eqn:A.
  { cbn [app decode_rune length]. rewrite byte_of_val by lia. rewrite A. reflexivity. }
  destruct (r <? 2048) eqn:B.
  { cbn [app decode_rune length]. rewrite !byte_of_val by lia.
    unfold in_rng, cont, in_rng.
    replace (192 + r / 64 <? 128) with false by lia.
    replace ((194 <=? 192 + r / 64) && (192 + r / 64 <=? 223)) with true by lia.
    replace ((128 <=? 128 + r mod 64) && (128 + r mod 64 <=? 191)) with true by lia.
    f_equal. lia. }
  destruct (r <? 65536) eqn:C.
  { cbn [app decode_rune length]. rewrite !byte_of_val by lia.
    unfold in_rng, cont, in_rng.
    replace (224 + r / 4096 <? 128) with false by lia.
    replace ((194 <=? 224 + r / 4096) && (224 + r / 4096 <=? 223)) with false by lia.
    replace ((224 <=? 224 + r / 4096) && (224 + r / 4096 <=? 239)) with true by lia.
    match goal with |- (if ?c then _ else _) = _ => assert (c = true) as -> end.
    { destruct (224 + r / 4096 =? 224) eqn:E1; destruct (224 + r / 4096 =? 237) eqn:E2; lia. }
    f_equal. lia. }
  cbn [app decode_rune length]. rewrite !byte_of_val by lia.
  unfold in_rng, cont, in_rng.
  replace (240 + r / 262144 <? 128) with false by lia.
  replace ((194 <=? 240 + r / 262144) && (240 + r / 262144 <=? 223)) with false by lia.
  replace ((224 <=? 240 + r / 262144) && (240 + r / 262144 <=? 239)) with false by lia.
  replace ((240 <=? 240 + r / 262144) && (240 + r / 262144 <=? 244)) with true by lia.
  match goal with |- (if ?c then _ else _) = _ => assert (c = true) as -> end.
  { destruct (240 + r / 262144 =? 240) eqn:E1; destruct (240 + r / 262144 =? 244) eqn:E2; lia. }
  f_equal. lia.
Qed.

Lemma encode_rune_ne : forall r, encode_rune r <> [].
Proof.
  intro r. unfold encode_rune. destruct (_ <? 128); [discriminate|].
  destruct (_ <? 2048); [discriminate|]. destruct (_ <? 65536); discriminate.
Qed.

(** Every rune the decoder returns is a scalar value; it consumes at least one
    byte and at most the input. *)
Lemma decode_width : forall c s, (1 <= snd (decode_rune (c :: s)) <= S (length s))%nat.
Proof.
  intros c s. unfold decode_rune.
  repeat match goal with
  | |- context [if ?b then _ else _] => destruct b
  | |- context [match ?l with [] => _ | _ :: _ => _ end] => destruct l
  end; simpl; lia.
Qed.

Lemma decode_scalar : forall s, scalar (fst (decode_rune s)) = true.
Proof.
  intro s. unfold decode_rune. destruct s as [|c0 s1]; [reflexivity|].
  pose proof (bval_range c0).
  destruct (bval c0 <? 128) eqn:A. { simpl. unfold scalar, in_rng. lia. }
  destruct (in_rng 194 223 (bval c0)) eqn:B.
  { destruct s1 as [|c1 s2]; [reflexivity|]. destruct (cont (bval c1)) eqn:D; [|reflexivity].
    simpl. unfold scalar, cont, in_rng in *. lia. }
  destruct (in_rng 224 239 (bval c0)) eqn:C.
  { destruct s1 as [|c1 [|c2 s2]]; try reflexivity.
    match goal with |- context [if ?c then _ else _] => destruct c eqn:D end; [|reflexivity].
    simpl. unfold scalar, cont, in_rng in *.
    destruct (bval c0 =? 224) eqn:E1; destruct (bval c0 =? 237) eqn:E2; lia. }
  destruct (in_rng 240 244 (bval c0)) eqn:E; [|reflexivity].
  destruct s1 as [|c1 [|c2 [|c3 s2]]]; try reflexivity.
  match goal with |- context [if ?c then _ else _] => destruct c eqn:D end; [|reflexivity].
  simpl. unfold scalar, cont, in_rng in *.
  destruct (bval c0 =? 240) eqn:E1; destruct (bval c0 =? 244) eqn:E2; lia.
Qed.

(** A decoded rune that is not the one-byte error re-encodes to the bytes read. *)
Lemma encode_decode : forall s r w, decode_rune s = (r, w) ->
  ~ (r = RuneError /\ (w <= 1)%nat) -> encode_rune r = firstn w s.
Proof.
  intros s r w D N. pose proof (decode_scalar s) as Sc. rewrite D in Sc. cbn [fst] in Sc.
  unfold encode_rune. rewrite Sc.
  assert (X : forall c z, z = bval c -> byte_of z = c) by (intros c z ->; apply byte_of_bval).
  unfold decode_rune in D. destruct s as [|c0 s1]; [injection D as <- <-; exfalso; apply N; auto|].
  pose proof (bval_range c0).
  destruct (bval c0 <? 128) eqn:A.
  { injection D as <- <-. rewrite A. simpl. f_equal. now apply X. }
  destruct (in_rng 194 223 (bval c0)) eqn:B.
  { destruct s1 as [|c1 s2]; [injection D as <- <-; exfalso; apply N; auto|].
    destruct (cont (bval c1)) eqn:E; [|injection D as <- <-; exfalso; apply N; auto].
    injection D as <- <-. unfold cont, in_rng in *. clear N Sc.
    match goal with |- context [?a <? 128] => replace (a <? 128) with false by lia end.
    match goal with |- context [?a <? 2048] => replace (a <? 2048) with true by lia end.
    cbn [firstn]. repeat f_equal; apply X; lia. }
  destruct (in_rng 224 239 (bval c0)) eqn:C.
  { destruct s1 as [|c1 [|c2 s2]];
      try (injection D as <- <-; exfalso; apply N; auto; fail).
    match type of D with (if ?c then _ else _) = _ => destruct c eqn:E end;
      [|injection D as <- <-; exfalso; apply N; auto].
    injection D as <- <-. unfold cont, in_rng in *.
    pose proof (bval_range c1). pose proof (bval_range c2).
    assert (bval c0 = 224 \/ bval c0 = 237 \/ (bval c0 <> 224 /\ bval c0 <> 237)) as Q by lia.
    assert (2048 <= (bval c0 - 224) * 4096 + (bval c1 - 128) * 64 + (bval c2 - 128) < 65536) as K.
    { destruct (bval c0 =? 224) eqn:E1; destruct (bval c0 =? 237) eqn:E2; lia. }
    assert (128 <= bval c1 <= 191 /\ 128 <= bval c2 <= 191) as J.
    { destruct (bval c0 =? 224) eqn:E1; destruct (bval c0 =? 237) eqn:E2; lia. }
    clear E Sc N.
    match goal with |- context [?a <? 128] => replace (a <? 128) with false by lia end.
    match goal with |- context [?a <? 2048] => replace (a <? 2048) with false by lia end.
    match goal with |- context [?a <? 65536] => replace (a <? 65536) with true by lia end.
    cbn [firstn]. repeat f_equal; apply X; lia. }
  destruct (in_rng 240 244 (bval c0)) eqn:E; [|injection D as <- <-; exfalso; apply N; auto].
  destruct s1 as [|c1 [|c2 [|c3 s2]]];
    try (injection D as <- <-; exfalso; apply N; auto; fail).
  match type of D with (if ?c then _ else _) = _ => destruct c eqn:F end;
    [|injection D as <- <-; exfalso; apply N; auto].
  injection D as <- <-. unfold cont, in_rng in *.
  assert (128 <= bval c1 <= 191 /\ 128 <= bval c2 <= 191 /\ 128 <= bval c3 <= 191) as J.
  { destruct (bval c0 =? 240) eqn:E1; destruct (bval c0 =? 244) eqn:E2; lia. }
  assert (bval c0 = 240 -> 144 <= bval c1) as J1.
  { intro. destruct (bval c0 =? 240) eqn:E1; lia. }
  clear F Sc N.
  match goal with |- context [?a <? 128] => replace (a <? 128) with false by lia end.
  match goal with |- context [?a <? 2048] => replace (a <? 2048) with false by lia end.
  match goal with |- context [?a <? 65536] => replace (a <? 65536) with false by lia end.
  cbn [firstn]. repeat f_equal; apply X; lia.
Qed.

(** ** The range loop *)
Lemma skipn_len_app : forall A (x s : list A), skipn (length x) (x ++ s) = s.
Proof. induction x; simpl; auto. Qed.

Lemma firstn_len_app : forall A (x s : list A), firstn (length x) (x ++ s) = x.
Proof. induction x; simpl; [reflexivity|]. intro s. now rewrite IHx. Qed.

Lemma runes_fuel_enough : forall f f' s, (length s <= f)%nat -> (length s <= f')%nat ->
  runes_fuel f s = runes_fuel f' s.
Proof.
  induction f as [|f IH]; intros f' s H H'.
  - destruct s; [|simpl in H; lia]. destruct f'; reflexivity.
  - destruct s as [|c s]; [destruct f'; reflexivity|].
    destruct f' as [|f']; [simpl in H'; lia|].
    cbn [runes_fuel]. pose proof (decode_width c s) as W.
    destruct (decode_rune (c :: s)) as [r w] eqn:D. cbn [snd] in W. f_equal.
    simpl in H, H'. apply IH; rewrite skipn_length; cbn [length]; lia.
Qed.

Lemma runes_cons : forall c s,
  runes (c :: s) = fst (decode_rune (c :: s)) :: runes (skipn (snd (decode_rune (c :: s))) (c :: s)).
Proof.
  intros c s. unfold runes at 1. cbn [length runes_fuel].
  pose proof (decode_width c s) as W.
  destruct (decode_rune (c :: s)) as [r w] eqn:D. cbn [fst snd] in *. f_equal.
  unfold runes. apply runes_fuel_enough; rewrite skipn_length; cbn [length] in *; lia.
Qed.

Lemma runes_encode : forall rs s, Forall (fun r => scalar r = true) rs ->
  runes (encode_all rs ++ s) = rs ++ runes s.
Proof.
  induction rs as [|r rs IH]; intros s H; [reflexivity|].
  inversion H; subst. unfold encode_all. cbn [map concat]. rewrite <- !app_assoc.
  destruct (encode_rune r ++ concat (map encode_rune rs) ++ s) as [|c t] eqn:E.
  { apply app_eq_nil in E as [E _]. now apply encode_rune_ne in E. }
  rewrite runes_cons, <- E, decode_encode by assumption. cbn [fst snd].
  rewrite skipn_len_app. cbn [app]. f_equal. now apply IH.
Qed.

Lemma runes_scalar : forall s, Forall (fun r => scalar r = true) (runes s).
Proof.
  intro s. unfold runes. generalize (length s) as f. intro f. revert s.
  induction f as [|f IH]; intro s; [constructor|]. destruct s as [|c s]; [constructor|].
  cbn [runes_fuel]. pose proof (decode_scalar (c :: s)) as Sc.
  destruct (decode_rune (c :: s)) as [r w]. constructor; [exact Sc|apply IH].
Qed.
