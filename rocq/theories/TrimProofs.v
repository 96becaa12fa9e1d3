(** Lemmas about trimming and splitting text (StrModel). *)
From Coq Require Import String Ascii List ZArith Bool Lia ZifyBool.
From Verif Require Import Base BaseProofs Utf8Model Utf8Proofs StrModel PoStrProofs PoFileSpec.
Import ListNotations.
Open Scope Z_scope.

Definition cont_byte (c : ascii) : Prop := 128 <= bval c < 192.

Lemma enc_shape : forall r, scalar r = true -> exists a cs, encode_rune r = a :: cs /\
  ~ cont_byte a /\ Forall cont_byte cs.
Proof.
  intros r S. unfold encode_rune. rewrite S. apply scalar_range in S. unfold cont_byte.
  assert (M : forall z, 0 <= z mod 64 < 64) by (intro; apply Z.mod_pos_bound; lia).
  destruct (r <? 128) eqn:A.
  { eexists _, _. split; [reflexivity|]. split; [rewrite byte_of_val by lia; lia|constructor]. }
  destruct (r <? 2048) eqn:B.
  { pose proof (M r). assert (0 <= r / 64 < 32) by (split; [apply Z.div_pos; lia|apply Z.div_lt_upper_bound; lia]).
    eexists _, _. split; [reflexivity|]. rewrite byte_of_val by lia. split; [lia|].
    repeat constructor; rewrite byte_of_val by lia; lia. }
  destruct (r <? 65536) eqn:C.
  { pose proof (M r). pose proof (M (r / 64)).
    assert (0 <= r / 4096 < 16) by (split; [apply Z.div_pos; lia|apply Z.div_lt_upper_bound; lia]).
    eexists _, _. split; [reflexivity|]. rewrite byte_of_val by lia. split; [lia|].
    repeat constructor; rewrite byte_of_val by lia; lia. }
  pose proof (M r). pose proof (M (r / 64)). pose proof (M (r / 4096)).
  assert (0 <= r / 262144 < 5) by (split; [apply Z.div_pos; lia|apply Z.div_lt_upper_bound; lia]).
  eexists _, _. split; [reflexivity|]. rewrite byte_of_val by lia. split; [lia|].
  repeat constructor; rewrite byte_of_val by lia; lia.
Qed.

Lemma suffix_unique : forall cs ds p q a b, p ++ a :: cs = q ++ b :: ds ->
  ~ cont_byte a -> ~ cont_byte b -> Forall cont_byte cs -> Forall cont_byte ds ->
  p = q /\ a :: cs = b :: ds.
Proof.
  induction cs as [|x cs IH] using rev_ind; intros ds p q a b E A B C D.
  - destruct ds as [|y ds] using rev_ind.
    + apply app_inj_tail in E as [-> ->]. split; reflexivity.
    + clear IHds. change (q ++ b :: ds ++ [y]) with (q ++ (b :: ds) ++ [y]) in E. rewrite app_assoc in E.
      apply app_inj_tail in E as [_ ->]. apply Forall_app in D as [_ D]. inversion D; subst. contradiction.
  - destruct ds as [|y ds] using rev_ind.
    + change (p ++ a :: cs ++ [x]) with (p ++ (a :: cs) ++ [x]) in E. rewrite app_assoc in E.
      apply app_inj_tail in E as [_ ->]. apply Forall_app in C as [_ C]. inversion C; subst. contradiction.
    + clear IHds. change (p ++ a :: cs ++ [x]) with (p ++ (a :: cs) ++ [x]) in E.
      change (q ++ b :: ds ++ [y]) with (q ++ (b :: ds) ++ [y]) in E. rewrite !app_assoc in E.
      apply app_inj_tail in E as [E ->]. apply Forall_app in C as [C _]. apply Forall_app in D as [D _].
      destruct (IH ds p q a b E A B C D) as [-> H]. split; [reflexivity|].
      change (a :: cs ++ [y]) with ((a :: cs) ++ [y]). rewrite H. reflexivity.
Qed.

Lemma encode_inj : forall r s, scalar r = true -> scalar s = true -> encode_rune r = encode_rune s -> r = s.
Proof.
  intros r s R S E. pose proof (decode_encode r [] R) as A. rewrite E in A.
  rewrite (decode_encode s [] S) in A. congruence.
Qed.

Lemma enc_suffix : forall p q r s, scalar r = true -> scalar s = true ->
  p ++ encode_rune r = q ++ encode_rune s -> p = q /\ r = s.
Proof.
  intros p q r s R S E. destruct (enc_shape r R) as (a & cs & Ea & A & C).
  destruct (enc_shape s S) as (b & ds & Eb & B & D). rewrite Ea, Eb in E.
  destruct (suffix_unique cs ds p q a b E A B C D) as [-> H]. split; [reflexivity|].
  apply encode_inj; auto. congruence.
Qed.

Lemma has_prefix_iff : forall p s, has_prefix s p = true <-> exists t, s = p ++ t.
Proof.
  induction p as [|a p IH]; intro s.
  - split; [exists s; reflexivity|destruct s; reflexivity].
  - destruct s as [|b s]; cbn [has_prefix].
    + split; [discriminate|intros [t T]; discriminate].
    + rewrite andb_true_iff, IH, Ascii.eqb_eq. split.
      * intros [-> [t ->]]. exists t. reflexivity.
      * intros [t T]. injection T as -> ->. split; [reflexivity|eauto].
Qed.

Lemma space_in : forall r, is_space r = true <-> In r space_runes.
Proof.
  intro r. unfold is_space, in_rng, space_runes. cbn [In]. split.
  - intro H. lia.
  - intro H. repeat (destruct H as [<-|H]; [reflexivity|]). destruct H.
Qed.
Lemma space_scalar : forall r, is_space r = true -> scalar r = true.
Proof. intros r H. unfold is_space, in_rng, scalar, in_rng in *. lia. Qed.

(** ** Left *)
Lemma strip_space_shorter : forall s s', strip_space s = Some s' -> (length s' < length s)%nat.
Proof.
  intros s s' H. destruct s as [|c s]; [discriminate|]. unfold strip_space in H.
  pose proof (decode_width c s) as W. destruct (decode_rune (c :: s)) as [r w]. cbn [snd] in W.
  destruct (is_space r); [|discriminate]. injection H as <-. rewrite skipn_length. cbn [length]. lia.
Qed.
Lemma trim_left_fuel_enough : forall f f' s, (length s <= f)%nat -> (length s <= f')%nat ->
  trim_left_fuel f s = trim_left_fuel f' s.
Proof.
  induction f as [|f IH]; intros f' s L L'.
  - destruct s; [|simpl in L; lia]. destruct f'; reflexivity.
  - destruct f' as [|f']; [destruct s; [reflexivity|simpl in L'; lia]|].
    cbn [trim_left_fuel]. destruct (strip_space s) as [t|] eqn:E; [|reflexivity].
    apply strip_space_shorter in E. apply IH; lia.
Qed.
Lemma trim_left_step : forall s, trim_left s =
  match strip_space s with Some s' => trim_left s' | None => s end.
Proof.
  intro s. unfold trim_left at 1. destruct s as [|c s]; [reflexivity|]. cbn [length trim_left_fuel].
  destruct (strip_space (c :: s)) as [t|] eqn:E; [|reflexivity].
  apply strip_space_shorter in E. apply trim_left_fuel_enough; cbn [length] in *; lia.
Qed.
Lemma strip_space_enc : forall r t, scalar r = true ->
  strip_space (encode_rune r ++ t) = if is_space r then Some t else None.
Proof.
  intros r t R. unfold strip_space. destruct (encode_rune r ++ t) as [|c u] eqn:E.
  - apply app_eq_nil in E as [E _]. destruct (encode_rune_ne r E).
  - rewrite <- E. rewrite decode_encode by exact R. rewrite skipn_len_app. reflexivity.
Qed.
Lemma trim_left_spaces : forall ws t, Forall (fun r => is_space r = true) ws ->
  trim_left (encode_all ws ++ t) = trim_left t.
Proof.
  induction 1 as [|r ws R W IH]; [reflexivity|]. unfold encode_all. cbn [map concat]. rewrite <- app_assoc.
  rewrite trim_left_step, strip_space_enc by (now apply space_scalar). rewrite R. exact IH.
Qed.
Lemma trim_left_stop : forall r t, scalar r = true -> is_space r = false ->
  trim_left (encode_rune r ++ t) = encode_rune r ++ t.
Proof. intros r t R N. rewrite trim_left_step, strip_space_enc, N by exact R. reflexivity. Qed.

(** ** Right *)
Lemma strip_rev_none : forall l t, (forall r, In r l -> has_prefix t (rev (encode_rune r)) = false) ->
  strip_rev l t = None.
Proof.
  induction l as [|r l IH]; intros t H; [reflexivity|]. cbn [strip_rev]. rewrite H by (now left).
  apply IH. intros q Q. apply H. now right.
Qed.
Lemma strip_rev_some : forall l t p r, In r l -> (forall q, In q l -> scalar q = true) ->
  t = rev (p ++ encode_rune r) -> strip_rev l t = Some (rev p).
Proof.
  induction l as [|q l IH]; intros t p r I SC E; [destruct I|]. cbn [strip_rev]. cbv zeta.
  destruct (has_prefix t (rev (encode_rune q))) eqn:HP.
  - apply has_prefix_iff in HP as [u U]. rewrite E in U. apply (f_equal (@rev ascii)) in U.
    rewrite rev_involutive, rev_app_distr, rev_involutive in U.
    apply enc_suffix in U as [-> ->]; [|apply SC; exact I|apply SC; now left].
    rewrite E, rev_app_distr. rewrite skipn_len_app. reflexivity.
  - destruct I as [->|I].
    + exfalso. enough (has_prefix t (rev (encode_rune r)) = true) by congruence.
      apply has_prefix_iff. exists (rev p). rewrite E. apply rev_app_distr.
    + apply (IH t p r I); [intros x X; apply SC; now right|exact E].
Qed.
Lemma strip_rev_shorter : forall l t t', strip_rev l t = Some t' -> (length t' < length t)%nat.
Proof.
  induction l as [|r l IH]; intros t t' H; [discriminate|]. cbn [strip_rev] in H. cbv zeta in H.
  destruct (has_prefix t (rev (encode_rune r))) eqn:HP; [|now apply IH].
  apply has_prefix_iff in HP as [u ->]. rewrite skipn_len_app in H. injection H as <-.
  rewrite app_length, rev_length. pose proof (encode_rune_ne r). destruct (encode_rune r); [congruence|]. cbn [length]. lia.
Qed.
Lemma trim_rev_fuel_enough : forall f f' s, (length s <= f)%nat -> (length s <= f')%nat ->
  trim_rev_fuel f s = trim_rev_fuel f' s.
Proof.
  induction f as [|f IH]; intros f' s L L'.
  - destruct s; [|simpl in L; lia]. destruct f'; reflexivity.
  - destruct f' as [|f']; [destruct s; [reflexivity|simpl in L'; lia]|].
    cbn [trim_rev_fuel]. destruct (strip_rev space_runes s) as [t|] eqn:E; [|reflexivity].
    apply strip_rev_shorter in E. apply IH; lia.
Qed.
Lemma trim_rev_step : forall t, trim_rev_fuel (length t) t =
  match strip_rev space_runes t with Some t' => trim_rev_fuel (length t') t' | None => t end.
Proof.
  intro t. destruct (length t) as [|n] eqn:L.
  - destruct t; [reflexivity|discriminate].
  - cbn [trim_rev_fuel]. destruct (strip_rev space_runes t) as [t'|] eqn:E; [|reflexivity].
    apply strip_rev_shorter in E. apply trim_rev_fuel_enough; lia.
Qed.
Lemma trim_right_space : forall t r, is_space r = true -> trim_right (t ++ encode_rune r) = trim_right t.
Proof.
  intros t r R. unfold trim_right. rewrite <- (rev_length (t ++ encode_rune r)), trim_rev_step.
  erewrite strip_rev_some; [| |intros q Q; apply space_scalar, space_in; exact Q|reflexivity].
  - now rewrite rev_length.
  - now apply space_in.
Qed.
Lemma trim_right_spaces : forall ws t, Forall (fun r => is_space r = true) ws ->
  trim_right (t ++ encode_all ws) = trim_right t.
Proof.
  induction ws as [|r ws IH] using rev_ind; intros t H; [now rewrite app_nil_r|].
  apply Forall_app in H as [H R]. inversion R; subst. rewrite encode_all_app, app_assoc.
  replace (encode_all [r]) with (encode_rune r) by (unfold encode_all; cbn; now rewrite app_nil_r).
  rewrite trim_right_space by assumption. now apply IH.
Qed.
Lemma trim_right_stop : forall t r, scalar r = true -> is_space r = false ->
  trim_right (t ++ encode_rune r) = t ++ encode_rune r.
Proof.
  intros t r R N. unfold trim_right. rewrite <- (rev_length (t ++ encode_rune r)), trim_rev_step.
  rewrite strip_rev_none; [now rewrite rev_involutive|].
  intros q Q. destruct (has_prefix (rev (t ++ encode_rune r)) (rev (encode_rune q))) eqn:HP; [|reflexivity].
  exfalso. apply has_prefix_iff in HP as [u U]. apply (f_equal (@rev ascii)) in U.
  rewrite rev_involutive, rev_app_distr, rev_involutive in U. apply space_in in Q.
  apply enc_suffix in U as [_ ->]; [congruence|exact R|now apply space_scalar].
Qed.
Lemma trim_right_nil : trim_right [] = [].
Proof. reflexivity. Qed.

(** ** Both sides.  *)
Lemma clean_trim : forall t, clean t -> trim_space t = t.
Proof.
  intros t [->|(r & u & s & v & R & NR & E1 & S & NS & E2)]; [reflexivity|].
  unfold trim_space. rewrite E1, trim_left_stop by assumption. rewrite <- E1, E2.
  now apply trim_right_stop.
Qed.
Lemma trim_pad : forall w1 t w2, Forall (fun r => is_space r = true) w1 ->
  Forall (fun r => is_space r = true) w2 -> clean t ->
  trim_space (encode_all w1 ++ t ++ encode_all w2) = t.
Proof.
  intros w1 t w2 W1 W2 C. unfold trim_space. rewrite trim_left_spaces by exact W1.
  destruct C as [->|(r & u & s & v & R & NR & E1 & S & NS & E2)].
  - cbn [app]. rewrite <- (app_nil_r (encode_all w2)), trim_left_spaces by exact W2. reflexivity.
  - rewrite E1, <- app_assoc, trim_left_stop by assumption. rewrite app_assoc, trim_right_spaces by exact W2.
    rewrite <- E1, E2. now apply trim_right_stop.
Qed.

(** ASCII ends *)
Lemma encode_byte : forall c, bval c < 128 -> encode_rune (bval c) = [c].
Proof. intros c H. pose proof (bval_range c). rewrite encode_ascii by lia. now rewrite byte_of_bval. Qed.
Definition solid (c : ascii) : bool := (bval c <? 128) && negb (is_space (bval c)).
Lemma solid_scalar : forall c, bval c < 128 -> scalar (bval c) = true.
Proof. intros c H. pose proof (bval_range c). unfold scalar, in_rng. lia. Qed.
Lemma clean_ascii : forall a t z, solid a = true -> solid z = true -> clean (a :: t ++ [z]).
Proof.
  intros a t z A Z. unfold solid in *. right. exists (bval a), (t ++ [z]), (bval z), (a :: t).
  rewrite !encode_byte by lia. rewrite !solid_scalar by lia.
  apply andb_true_iff in A as [A1 A2]. apply andb_true_iff in Z as [Z1 Z2].
  apply negb_true_iff in A2. apply negb_true_iff in Z2. auto 10.
Qed.
Lemma clean_ascii_end : forall a t s v, solid a = true -> a :: t = v ++ encode_rune s ->
  scalar s = true -> is_space s = false -> clean (a :: t).
Proof.
  intros a t s v A E S N. unfold solid in A. right. exists (bval a), t, s, v.
  rewrite encode_byte by lia. rewrite solid_scalar by lia.
  apply andb_true_iff in A as [A1 A2]. apply negb_true_iff in A2. auto 10.
Qed.
