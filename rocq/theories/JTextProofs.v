(** Reading JSON text: the reader accepts exactly the grammar. *)
From Coq Require Import String Ascii List ZArith Bool Lia ZifyBool.
From Verif Require Import Base BaseProofs Utf8Model Utf8Proofs PoStrModel PoStrSpec PoStrProofs JsonModel JTextModel JTextSpec.
Import ListNotations.
Open Scope Z_scope.

(** ** Bytes *)
Lemma hex_val_in : forall c d, hex_val c = Some d <-> In (c, d) hex_digits.
Proof.
  intros c d. split.
  - intro H. assert (X : match hex_val c with Some e => In (c, e) hex_digits | None => True end).
    { clear. destruct c as [[] [] [] [] [] [] [] []]; vm_compute; auto 30. }
    rewrite H in X. exact X.
  - intro H. cbn [In hex_digits] in H. repeat destruct H as [H|H]; try (injection H as <- <-; reflexivity). destruct H.
Qed.
Lemma hex_not_quote : forall c d, In (c, d) hex_digits -> c <> QUOTE /\ c <> BSLASH /\ 48 <= bval c < 103 /\ bval c <> 60 /\ bval c <> 62 /\ 0 <= d < 16.
Proof.
  intros c d H. cbn [In hex_digits] in H. repeat destruct H as [H|H]; try (injection H as <- <-; repeat split; try discriminate; vm_compute; congruence). destruct H.
Qed.
Lemma u4_hex : forall h x s, hex4 h x -> u4 (h ++ s) = Some (x, s).
Proof.
  intros h x s H. destruct H as [a b c d w x y z A B C D].
  apply hex_val_in in A, B, C, D. cbn [app u4]. rewrite A, B, C, D. do 2 f_equal. lia.
Qed.
Lemma u4_some : forall s x r, u4 s = Some (x, r) -> exists h, hex4 h x /\ s = h ++ r.
Proof.
  intros s x r H. destruct s as [|a [|b [|c [|d s]]]]; try discriminate. cbn [u4] in H.
  destruct (hex_val a) as [w|] eqn:A; [|discriminate]. destruct (hex_val b) as [y|] eqn:B; [|discriminate].
  destruct (hex_val c) as [z|] eqn:C; [|discriminate]. destruct (hex_val d) as [u|] eqn:D; [|discriminate].
  injection H as <- <-. exists [a; b; c; d]. split; [|reflexivity].
  apply hex_val_in in A, B, C, D. replace (((w * 16 + y) * 16 + z) * 16 + u) with (4096 * w + 256 * y + 16 * z + u) by lia. now constructor.
Qed.
Lemma hex4_fun : forall h x y, hex4 h x -> hex4 h y -> x = y.
Proof. intros h x y A B. pose proof (u4_hex h x [] A) as C. rewrite (u4_hex h y [] B) in C. congruence. Qed.
Lemma hex4_length : forall h x, hex4 h x -> length h = 4%nat.
Proof. intros h x []. reflexivity. Qed.
Lemma hex4_range : forall h x, hex4 h x -> 0 <= x < 65536.
Proof. intros h x []. repeat match goal with H : In _ hex_digits |- _ => apply hex_not_quote in H end. lia. Qed.
Lemma hex4_no_quote : forall h x, hex4 h x -> ~ In QUOTE h.
Proof.
  intros h x [a b c d w x' y z A B C D] I. apply hex_not_quote in A, B, C, D. cbn [In] in I. intuition congruence.
Qed.
Lemma escape_in : forall e d, json_escape e = Some d <-> exists z, In (e, z) json_escapes /\ d = byte_of z.
Proof.
  intros e d. split.
  - intro H. assert (X : match json_escape e with Some d => exists z, In (e, z) json_escapes /\ d = byte_of z | None => True end).
    { clear. destruct e as [[] [] [] [] [] [] [] []]; vm_compute; try exact I; eauto 20. }
    rewrite H in X. exact X.
  - intros (z & H & ->). cbn [In json_escapes] in H. repeat destruct H as [H|H]; try (injection H as <- <-; reflexivity). destruct H.
Qed.
Lemma escape_u : json_escape "u" = None. Proof. reflexivity. Qed.

(** a prefix without quotes lies before the first quote *)
Lemma prefix_body : forall x t b r, ~ In QUOTE x -> x ++ t = b ++ QUOTE :: r -> exists t', b = x ++ t' /\ t = t' ++ QUOTE :: r.
Proof.
  induction x as [|c x IH]; intros t b r N E; [exists b; auto|].
  destruct b as [|d b]; cbn [app] in E; [injection E as -> _; exfalso; apply N; now left|].
  injection E as -> E. destruct (IH t b r) as (t' & -> & ->); [intro I; apply N; now right|exact E|]. exists t'. auto.
Qed.
Lemma high_no_quote : forall x, Forall (fun c => 128 <= bval c) x -> ~ In QUOTE x.
Proof. intros x F I. rewrite Forall_forall in F. apply F in I. vm_compute in I. congruence. Qed.
Lemma encode_no_quote : forall r, scalar r = true -> r <> 34 -> ~ In QUOTE (encode_rune r).
Proof.
  intros r S N. destruct (Z_lt_le_dec r 128) as [L|L]; [|apply high_no_quote, encode_high; assumption].
  apply scalar_range in S as [R _]. rewrite encode_ascii by lia. intros [E|[]]. apply (f_equal bval) in E. rewrite byte_of_val in E by lia.
  change (bval QUOTE) with 34 in E. lia.
Qed.

(** surrogates *)
Lemma surrogate_iff : forall x, surrogate x = true <-> high x \/ low x.
Proof. intro x. unfold surrogate, in_rng, high, low. lia. Qed.
Lemma low_half_some : forall x s r t, low_half x s = Some (r, t) ->
  exists k y, hex4 k y /\ high x /\ low y /\ s = bs "\u" ++ k ++ t /\ r = 65536 + (x - 55296) * 1024 + (y - 56320).
Proof.
  intros x s r t H. destruct s as [|b [|u s]]; try discriminate. cbn [low_half] in H.
  destruct (Ascii.eqb_spec b BSLASH) as [->|]; [|discriminate]. destruct (Ascii.eqb_spec u "u") as [->|]; [|discriminate].
  cbn [andb] in H. destruct (u4 s) as [[y s2]|] eqn:U; [|discriminate]. apply u4_some in U as (k & K & ->).
  unfold in_rng in H. destruct ((55296 <=? x) && (x <=? 56319) && ((56320 <=? y) && (y <=? 57343))) eqn:R; [|discriminate].
  injection H as <- <-. exists k, y. split; [exact K|]. unfold high, low. repeat split; lia.
Qed.
Lemma low_half_pair : forall x k y t, high x -> hex4 k y -> low y ->
  low_half x (bs "\u" ++ k ++ t) = Some (65536 + (x - 55296) * 1024 + (y - 56320), t).
Proof.
  intros x k y t H K L. change (bs "\u" ++ k ++ t) with (BSLASH :: "u"%char :: k ++ t). unfold low_half.
  rewrite (u4_hex k y t K). change ((BSLASH =? BSLASH)%char && ("u" =? "u")%char)%bool with true. cbv iota.
  unfold high, low in *. replace (in_rng 55296 56319 x && in_rng 56320 57343 y) with true by (unfold in_rng; lia). do 2 f_equal. lia.
Qed.
Lemma low_half_none : forall x b r, lone_half x b -> low_half x (b ++ QUOTE :: r) = None.
Proof.
  intros x b r H. destruct (low_half x (b ++ QUOTE :: r)) as [[z t]|] eqn:E; [|reflexivity]. exfalso.
  apply low_half_some in E as (k & y & K & HX & LY & E & _).
  destruct H as [H|[_ H]]; [unfold high, low in *; lia|].
  rewrite app_assoc in E. symmetry in E. apply prefix_body in E as (t' & -> & _).
  - rewrite <- app_assoc in H. now apply (H k y t').
  - intro I. apply in_app_or in I as [I|I]; [|now apply (hex4_no_quote k y)]. vm_compute in I. intuition discriminate.
Qed.

(** ** Strings *)
Lemma decode_bad : forall c s, 128 <= bval c -> (forall r t, scalar r = true -> c :: s <> encode_rune r ++ t) -> decode_rune (c :: s) = (RuneError, 1%nat).
Proof.
  intros c s H N. destruct (decode_rune (c :: s)) as [r w] eqn:D.
  pose proof (decode_width c s) as W. rewrite D in W. cbn [snd] in W. pose proof (decode_scalar (c :: s)) as S. rewrite D in S. cbn [fst] in S.
  assert (X : r = RuneError /\ (w <= 1)%nat \/ ~ (r = RuneError /\ (w <= 1)%nat)).
  { destruct (Z.eq_dec r RuneError), (le_dec w 1); tauto. }
  destruct X as [[-> L]|X]; [f_equal; lia|]. exfalso. apply (N r (skipn w (c :: s)) S). rewrite (encode_decode _ _ _ D X). symmetry. apply firstn_skipn.
Qed.
Lemma decode_bad_inv : forall c s, decode_rune (c :: s) = (RuneError, 1%nat) -> 128 <= bval c /\ forall r t, scalar r = true -> c :: s <> encode_rune r ++ t.
Proof.
  intros c s D. split.
  - destruct (Z_lt_le_dec (bval c) 128) as [L|]; [|assumption]. exfalso. unfold decode_rune in D. replace (bval c <? 128) with true in D by lia.
    injection D as D. unfold RuneError in D. lia.
  - intros r t S E. rewrite E, decode_encode in D by exact S. injection D as -> D. discriminate D.
Qed.
Lemma bad_body : forall c b r, bad_byte c b -> decode_rune (c :: b ++ QUOTE :: r) = (RuneError, 1%nat).
Proof.
  intros c b r [H N]. apply decode_bad; [exact H|]. intros x t S E.
  destruct (Z.eq_dec x 34) as [->|NE].
  { change (encode_rune 34) with [QUOTE] in E. injection E as -> _. vm_compute in H. congruence. }
  symmetry in E. change (c :: b ++ QUOTE :: r) with ((c :: b) ++ QUOTE :: r) in E. apply prefix_body in E as (t' & E & _); [|now apply encode_no_quote].
  exact (N x t' S E).
Qed.

Lemma piece_ne : forall p v, piece p v -> (1 <= length p)%nat.
Proof.
  intros p v []; try (cbn; lia). destruct (encode_rune r) eqn:E; [now apply encode_rune_ne in E|cbn; lia].
Qed.
Lemma rune_first : forall r s, scalar r = true -> 32 <= r -> r <> 34 -> r <> 92 ->
  exists c t, encode_rune r ++ s = c :: t /\ (c =? QUOTE)%char = false /\ (c =? BSLASH)%char = false /\ (bval c <? 32) = false.
Proof.
  intros r s S L N1 N2. destruct (Z_lt_le_dec r 128) as [H|H].
  - apply scalar_range in S as [R _]. rewrite encode_ascii by lia. exists (byte_of r), s. split; [reflexivity|]. rewrite byte_of_val by lia.
    repeat split; try lia; apply Ascii.eqb_neq; intro E; apply (f_equal bval) in E; rewrite byte_of_val in E by lia; vm_compute in E; lia.
  - pose proof (encode_high r S H) as F. destruct (encode_rune r) as [|c t] eqn:E; [now apply encode_rune_ne in E|].
    inversion F; subst. exists c, (t ++ s). split; [reflexivity|].
    repeat split; try lia; apply Ascii.eqb_neq; intros ->; vm_compute in H2; congruence.
Qed.
Lemma p_str_escape : forall f e d s, json_escape e = Some d -> p_str (S f) (BSLASH :: e :: s) = also [d] (p_str f s).
Proof. intros f e d s H. cbn [p_str]. change (BSLASH =? QUOTE)%char with false. change (BSLASH =? BSLASH)%char with true. cbv iota. now rewrite H. Qed.
Lemma p_str_u : forall f s, p_str (S f) (bs "\u" ++ s) =
  match u4 s with
  | Some (x, s3) =>
      if surrogate x then
        match low_half x s3 with
        | Some (r, s4) => also (encode_rune r) (p_str f s4)
        | None => also (encode_rune RuneError) (p_str f s3)
        end
      else also (encode_rune x) (p_str f s3)
  | None => Err
  end.
Proof. reflexivity. Qed.
Lemma p_str_rune : forall f c s, (c =? QUOTE)%char = false -> (c =? BSLASH)%char = false -> (bval c <? 32) = false ->
  p_str (S f) (c :: s) = let (r, w) := decode_rune (c :: s) in also (encode_rune r) (p_str f (skipn w (c :: s))).
Proof. intros f c s A B C. cbn [p_str]. now rewrite A, B, C. Qed.

Lemma p_str_lenient : forall b v, lenient b v -> forall f rest, (length b < f)%nat -> p_str f (b ++ QUOTE :: rest) = Ok (v, rest).
Proof.
  intros b v H. induction H as [|p v s w P H IH|c s w B H IH|h x s w X L H IH]; intros f rest F.
  - destruct f; [cbn in F; lia|]. reflexivity.
  - pose proof (piece_ne p v P) as NE. rewrite app_length in F. destruct f as [|f]; [lia|]. specialize (IH f rest ltac:(lia)). rewrite <- app_assoc.
    destruct P as [r S R N1 N2|e z I|h x X H1 H2|h x k y X H1 Y H2].
    + destruct (rune_first r (s ++ QUOTE :: rest) S R N1 N2) as (c & t & E & A & B & C). rewrite E, p_str_rune by assumption.
      rewrite <- E, decode_encode by exact S. rewrite skipn_len_app, IH. reflexivity.
    + change ([BSLASH; e] ++ s ++ QUOTE :: rest) with (BSLASH :: e :: s ++ QUOTE :: rest). rewrite (p_str_escape f e (byte_of z)), IH; [reflexivity|].
      apply escape_in. eauto.
    + rewrite <- app_assoc, p_str_u, (u4_hex h x _ X). destruct (surrogate x) eqn:SU; [apply surrogate_iff in SU; tauto|]. rewrite IH. reflexivity.
    + rewrite <- !app_assoc, p_str_u, (u4_hex h x _ X). replace (surrogate x) with true by (symmetry; apply surrogate_iff; now left).
      rewrite (low_half_pair x k y _ H1 Y H2), IH. reflexivity.
  - destruct f as [|f]; [lia|]. cbn [app]. rewrite p_str_rune.
    + rewrite (bad_body c s rest B). cbn [skipn]. rewrite IH by (cbn in F; lia). reflexivity.
    + apply Ascii.eqb_neq. intros ->. destruct B as [B _]. vm_compute in B. congruence.
    + apply Ascii.eqb_neq. intros ->. destruct B as [B _]. vm_compute in B. congruence.
    + destruct B as [B _]. lia.
  - destruct f as [|f]; [lia|]. rewrite <- !app_assoc, p_str_u, (u4_hex h x _ X).
    replace (surrogate x) with true by (symmetry; apply surrogate_iff; destruct L as [L|[L _]]; auto).
    rewrite (low_half_none x s rest L), IH; [reflexivity|]. rewrite !app_length, (hex4_length h x X) in F. cbn in F. lia.
Qed.

Lemma also_ok : forall x r v s, also x r = Ok (v, s) -> exists v', r = Ok (v', s) /\ v = x ++ v'.
Proof. intros x [[v' s']| | |] v s H; try discriminate. injection H as <- <-. eauto. Qed.
Lemma p_str_sound : forall f s v r, p_str f s = Ok (v, r) -> exists b, s = b ++ QUOTE :: r /\ lenient b v.
Proof.
  induction f as [|f IH]; intros s v r H; [discriminate|]. destruct s as [|c s]; [discriminate|].
  destruct (Ascii.eqb_spec c QUOTE) as [->|NQ].
  { injection H as <- <-. exists []. split; [reflexivity|constructor]. }
  destruct (Ascii.eqb_spec c BSLASH) as [->|NB].
  { destruct s as [|e s]; [discriminate|]. destruct (json_escape e) as [d|] eqn:J.
    - rewrite (p_str_escape f e d s J) in H. apply also_ok in H as (v' & H & ->). apply IH in H as (b & -> & L).
      apply escape_in in J as (z & J & ->). exists ([BSLASH; e] ++ b). split; [reflexivity|]. constructor; [now constructor|exact L].
    - destruct (Ascii.eqb_spec e "u") as [->|NU].
      2:{ cbn [p_str] in H. change (BSLASH =? QUOTE)%char with false in H. change (BSLASH =? BSLASH)%char with true in H. cbv iota in H. rewrite J in H.
          apply Ascii.eqb_neq in NU. rewrite NU in H. discriminate. }
      change (BSLASH :: "u"%char :: s) with (bs "\u" ++ s) in *. rewrite p_str_u in H.
      destruct (u4 s) as [[x s3]|] eqn:U; [|discriminate]. apply u4_some in U as (h & X & ->).
      destruct (surrogate x) eqn:SU.
      + apply surrogate_iff in SU. destruct (low_half x s3) as [[z s4]|] eqn:LH.
        * apply low_half_some in LH as (k & y & Y & HX & LY & -> & ->). apply also_ok in H as (v' & H & ->). apply IH in H as (b & -> & L).
          exists ((bs "\u" ++ h ++ bs "\u" ++ k) ++ b). split; [now rewrite <- !app_assoc|]. constructor; [now constructor|exact L].
        * apply also_ok in H as (v' & H & ->). apply IH in H as (b & -> & L). exists (bs "\u" ++ h ++ b). split; [now rewrite <- !app_assoc|].
          apply (le_half h x b v' X); [|exact L]. destruct SU as [HX|LX]; [right|now left]. split; [exact HX|].
          intros k y t Y LY ->. rewrite <- !app_assoc, (low_half_pair x k y _ HX Y LY) in LH. discriminate.
      + assert (NS : ~ (high x \/ low x)) by (rewrite <- surrogate_iff; congruence).
        apply also_ok in H as (v' & H & ->). apply IH in H as (b & -> & L). exists ((bs "\u" ++ h) ++ b). split; [now rewrite <- !app_assoc|].
        constructor; [constructor; tauto|exact L]. }
  apply Ascii.eqb_neq in NQ as NQ', NB as NB'. destruct (bval c <? 32) eqn:CT.
  { cbn [p_str] in H. rewrite NQ', NB', CT in H. discriminate. }
  rewrite p_str_rune in H by assumption. pose proof (decode_width c s) as W. pose proof (decode_scalar (c :: s)) as S.
  destruct (decode_rune (c :: s)) as [x w] eqn:D. cbn [fst snd] in *.
  assert (Z : x = RuneError /\ (w <= 1)%nat \/ ~ (x = RuneError /\ (w <= 1)%nat)).
  { destruct (Z.eq_dec x RuneError), (le_dec w 1); tauto. }
  destruct Z as [[-> L1]|Z].
  - replace w with 1%nat in * by lia. cbn [skipn] in H. apply also_ok in H as (v' & H & ->). apply IH in H as (b & -> & L).
    exists (c :: b). split; [reflexivity|]. apply le_byte; [|exact L]. apply decode_bad_inv in D as [D1 D2]. split; [exact D1|].
    intros y t Y E. apply (D2 y (t ++ QUOTE :: r) Y). change (c :: b ++ QUOTE :: r) with ((c :: b) ++ QUOTE :: r). rewrite E. now rewrite <- app_assoc.
  - apply also_ok in H as (v' & H & ->). apply IH in H as (b & E & L). pose proof (encode_decode _ _ _ D Z) as ED.
    exists (encode_rune x ++ b). split; [rewrite <- app_assoc, <- E, ED; symmetry; apply firstn_skipn|]. constructor; [|exact L].
    assert (HD : exists t, c :: s = encode_rune x ++ t) by (exists (skipn w (c :: s)); rewrite ED; symmetry; apply firstn_skipn). destruct HD as (t & HD).
    assert (x <> 34) by (intros ->; change (encode_rune 34) with [QUOTE] in HD; injection HD as HD _; contradiction).
    assert (x <> 92) by (intros ->; change (encode_rune 92) with [BSLASH] in HD; injection HD as HD _; contradiction).
    constructor; try assumption. apply scalar_range in S as [[R _] _]. destruct (Z_lt_le_dec x 32) as [LT|]; [|assumption]. exfalso.
    rewrite encode_ascii in HD by lia. injection HD as HD _. apply (f_equal bval) in HD. rewrite byte_of_val in HD by lia. lia.
Qed.
Lemma also_fin : forall x r, (also x r = Panic <-> r = Panic) /\ (also x r = OutOfFuel <-> r = OutOfFuel).
Proof. intros x [[]| | |]; cbn; split; split; congruence. Qed.
Lemma p_str_fin : forall f s, p_str f s <> Panic /\ ((length s < f)%nat -> p_str f s <> OutOfFuel).
Proof.
  induction f as [|f IH]; intro s; [split; [discriminate|lia]|]. destruct s as [|c s]; [split; discriminate|].
  assert (A : forall x t, (length t <= length s)%nat -> also x (p_str f t) <> Panic /\ ((length (c :: s) < S f)%nat -> also x (p_str f t) <> OutOfFuel)).
  { intros x t L. destruct (also_fin x (p_str f t)) as [A B]. destruct (IH t) as [C D]. rewrite A, B. split; [exact C|]. intro F. apply D. cbn in F. lia. }
  cbn [p_str]. destruct (c =? QUOTE)%char; [split; discriminate|]. destruct (c =? BSLASH)%char.
  - destruct s as [|e s]; [split; discriminate|]. destruct (json_escape e); [apply A; cbn; lia|]. destruct (e =? "u")%char; [|split; discriminate].
    destruct (u4 s) as [[x s3]|] eqn:U; [|split; discriminate]. apply u4_some in U as (h & X & ->).
    destruct (surrogate x); [|apply A; cbn [length]; rewrite ?app_length; lia]. destruct (low_half x s3) as [[z s4]|] eqn:LH; [|apply A; cbn [length]; rewrite ?app_length; lia].
    apply low_half_some in LH as (k & y & _ & _ & _ & -> & _). apply A. cbn [length]. rewrite !app_length. lia.
  - destruct (bval c <? 32); [split; discriminate|]. pose proof (decode_width c s) as W. destruct (decode_rune (c :: s)) as [x w]. cbn [snd] in W.
    apply A. rewrite skipn_length. cbn [length]. lia.
Qed.

(** ** Numbers *)
Lemma is_digit_iff : forall c, is_digit c = true <-> digit c.
Proof.
  intro c. split.
  - intro H. assert (X : is_digit c = true -> digit c); [|auto]. clear. destruct c as [[] [] [] [] [] [] [] []]; vm_compute; auto 20; discriminate.
  - unfold digit. intro H. vm_compute in H. repeat destruct H as [<-|H]; try reflexivity. destruct H.
Qed.
Definition no_digit (s : bytes) : Prop := match s with c :: _ => is_digit c = false | [] => True end.
Definition ends (s : bytes) : Prop :=
  match s with c :: _ => is_digit c = false /\ c <> "."%char /\ c <> "e"%char /\ c <> "E"%char | [] => True end.
Lemma span_digits_app : forall d r, Forall digit d -> no_digit r -> span_digits (d ++ r) = (d, r).
Proof.
  induction d as [|c d IH]; intros r F N.
  - destruct r as [|c r]; [reflexivity|]. cbn in N |- *. now rewrite N.
  - inversion F; subst. cbn [app span_digits]. apply is_digit_iff in H1. rewrite H1, IH by assumption. reflexivity.
Qed.
Lemma span_digits_sound : forall s a b, span_digits s = (a, b) -> s = a ++ b /\ Forall digit a.
Proof.
  induction s as [|c s IH]; intros a b H; cbn [span_digits] in H; [injection H as <- <-; auto|].
  destruct (is_digit c) eqn:D; [|injection H as <- <-; auto]. destruct (span_digits s) as [x y]. injection H as <- <-.
  destruct (IH x y eq_refl) as [-> F]. split; [reflexivity|]. constructor; [now apply is_digit_iff|exact F].
Qed.
Lemma digit_cases : forall c, digit c -> is_digit c = true /\ c <> "."%char /\ c <> "e"%char /\ c <> "E"%char /\ c <> "-"%char /\ c <> "+"%char.
Proof. intros c H. split; [now apply is_digit_iff|]. unfold digit in H. vm_compute in H. repeat destruct H as [<-|H]; try (repeat split; discriminate). destruct H. Qed.
Lemma p_number_text : forall n r, number_text n -> ends r -> p_number (n ++ r) = Some (n, r).
Proof.
  intros n r [m i f e M [NI FI] Z FR EX] ER.
  assert (EXP : p_exp (e ++ r) = Some (e, r)).
  { destruct EX as [->|(x & g & d & -> & X & G & ND & FD)].
    - destruct r as [|c r]; [reflexivity|]. cbn in ER |- *. destruct ER as (_ & _ & A & B). apply Ascii.eqb_neq in A, B. now rewrite A, B.
    - assert (NR : no_digit r) by (destruct r; cbn in *; tauto).
      cbn [app p_exp]. replace ((x =? "e") || (x =? "E"))%char with true by (destruct X as [->| ->]; reflexivity). rewrite <- app_assoc.
      destruct d as [|c d]; [congruence|]. inversion FD; subst.
      assert (SP' : span_digits ((c :: d) ++ r) = (c :: d, r)) by (apply span_digits_app; assumption).
      assert (Q : (match g ++ (c :: d) ++ r with
                   | q :: s2 => if ((q =? "+") || (q =? "-"))%char then ([q], s2) else ([], g ++ (c :: d) ++ r)
                   | [] => ([], [])
                   end) = (g, (c :: d) ++ r)).
      { destruct G as [->|[->| ->]]; try reflexivity. cbn [app]. destruct (digit_cases c H1) as (_ & _ & _ & _ & A & B). apply Ascii.eqb_neq in A, B. now rewrite A, B. }
      rewrite Q, SP'. reflexivity. }
  assert (ND : no_digit (e ++ r) /\ forall c t, e ++ r = c :: t -> c <> "."%char).
  { destruct EX as [->|(x & g & d & -> & X & _)].
    - destruct r as [|c r]; cbn in *; [split; [exact I|discriminate]|]. split; [tauto|]. intros c' t E. injection E as -> _. tauto.
    - cbn. destruct X as [->| ->]; (split; [reflexivity|]); intros c t E; injection E as <- _; discriminate. }
  destruct ND as [ND1 ND2].
  assert (FRC : p_frac (f ++ e ++ r) = Some (f, e ++ r)).
  { destruct FR as [->|(d & -> & ND & FD)].
    - cbn [app]. destruct (e ++ r) as [|c t] eqn:E; [reflexivity|]. cbn [p_frac]. specialize (ND2 c t eq_refl). apply Ascii.eqb_neq in ND2. now rewrite ND2.
    - cbn [app p_frac]. change ("." =? ".")%char with true. cbv iota. rewrite span_digits_app by assumption. destruct d; [congruence|reflexivity]. }
  assert (ND3 : no_digit (f ++ e ++ r)).
  { destruct FR as [->|(d & -> & _)]; [exact ND1|reflexivity]. }
  assert (INT : p_int (i ++ f ++ e ++ r) = Some (i, f ++ e ++ r)).
  { destruct i as [|c i]; [congruence|]. inversion FI; subst. cbn [app p_int]. destruct (Ascii.eqb_spec c "0") as [->|].
    - rewrite (Z i eq_refl). reflexivity.
    - apply is_digit_iff in H1 as D. rewrite D. f_equal. apply (span_digits_app (c :: i)); assumption. }
  assert (SG : (match m ++ i ++ f ++ e ++ r with c :: s1 => if (c =? "-")%char then ([c], s1) else ([], m ++ i ++ f ++ e ++ r) | [] => ([], []) end)
    = (m, i ++ f ++ e ++ r)).
  { destruct M as [->| ->]; [|reflexivity]. destruct i as [|c i]; [congruence|]. inversion FI; subst. cbn [app]. destruct (digit_cases c H1) as (_ & _ & _ & _ & A & _).
    apply Ascii.eqb_neq in A. now rewrite A. }
  rewrite <- !app_assoc. unfold p_number. rewrite SG, INT, FRC, EXP. reflexivity.
Qed.
Lemma p_number_sound : forall s n r, p_number s = Some (n, r) -> s = n ++ r /\ number_text n.
Proof.
  intros s n r H. unfold p_number in H.
  match type of H with (let (_, _) := ?x in _) = _ => destruct x as [m s1] eqn:M end.
  assert (M' : s = m ++ s1 /\ (m = [] \/ m = bs "-")).
  { destruct s as [|c s]; [injection M as <- <-; auto|]. destruct (Ascii.eqb_spec c "-") as [->|]; injection M as <- <-; auto. }
  clear M. destruct M' as [-> M].
  destruct (p_int s1) as [[i s2]|] eqn:PI; [|discriminate]. destruct (p_frac s2) as [[f s3]|] eqn:PF; [|discriminate].
  destruct (p_exp s3) as [[e s4]|] eqn:PE; [|discriminate]. injection H as <- <-.
  assert (I : s1 = i ++ s2 /\ digits i /\ forall t, i = ("0"%char :: t) -> t = []).
  { destruct s1 as [|c s1]; [discriminate|]. cbn [p_int] in PI. destruct (Ascii.eqb_spec c "0") as [->|NZ].
    - injection PI as <- <-. split; [reflexivity|]. split; [split; [discriminate|repeat constructor]|]. intros t E. injection E as <-. reflexivity.
    - destruct (is_digit c) eqn:D; [|discriminate]. injection PI as PI. cbn [span_digits] in PI. rewrite D in PI.
      destruct (span_digits s1) as [a b] eqn:SD. injection PI as <- <-. apply span_digits_sound in SD as [-> F].
      split; [reflexivity|]. split; [split; [discriminate|constructor; [now apply is_digit_iff|exact F]]|]. intros t E. injection E as E _. contradiction. }
  assert (F : s2 = f ++ s3 /\ (f = [] \/ exists d, f = "."%char :: d /\ digits d)).
  { destruct s2 as [|c s2]; [injection PF as <- <-; auto|]. cbn [p_frac] in PF. destruct (Ascii.eqb_spec c ".") as [->|]; [|injection PF as <- <-; auto].
    destruct (span_digits s2) as [a b] eqn:SD. apply span_digits_sound in SD as [-> F]. destruct a as [|a0 a]; [discriminate|].
    injection PF as <- <-. split; [reflexivity|]. right. exists (a0 :: a). split; [reflexivity|]. split; [discriminate|exact F]. }
  assert (E : s3 = e ++ s4 /\ (e = [] \/ exists x g d, e = x :: g ++ d /\ (x = "e"%char \/ x = "E"%char) /\ (g = [] \/ g = bs "+" \/ g = bs "-") /\ digits d)).
  { destruct s3 as [|c s3]; [injection PE as <- <-; auto|]. cbn [p_exp] in PE.
    destruct ((c =? "e") || (c =? "E"))%char eqn:C; [|injection PE as <- <-; auto].
    match type of PE with (let (_, _) := ?x in _) = _ => destruct x as [g s5] eqn:G end.
    assert (G' : s3 = g ++ s5 /\ (g = [] \/ g = bs "+" \/ g = bs "-")).
    { destruct s3 as [|q s3]; [injection G as <- <-; auto|]. destruct (Ascii.eqb_spec q "+") as [->|]; [injection G as <- <-; auto|].
      destruct (Ascii.eqb_spec q "-") as [->|]; injection G as <- <-; auto. }
    destruct G' as [-> G']. destruct (span_digits s5) as [a b] eqn:SD. apply span_digits_sound in SD as [-> FD]. destruct a as [|a0 a]; [discriminate|].
    injection PE as <- <-. split; [cbn [app]; now rewrite <- app_assoc|]. right. exists c, g, (a0 :: a). split; [reflexivity|].
    split; [|split; [exact G'|split; [discriminate|exact FD]]]. destruct (Ascii.eqb_spec c "e"); [auto|]. destruct (Ascii.eqb_spec c "E"); [auto|discriminate]. }
  destruct I as (-> & I1 & I2), F as (-> & F), E as (-> & E). split; [now rewrite <- !app_assoc|]. now constructor.
Qed.

(** ** White space and words *)
Lemma is_ws_iff : forall c, is_ws c = true <-> In c [SP; TAB; LF; CR].
Proof.
  intro c. unfold is_ws. cbn [In]. rewrite !orb_true_iff, !Ascii.eqb_eq. intuition congruence.
Qed.
Lemma skip_ws_white : forall w s, white w -> skip_ws (w ++ s) = skip_ws s.
Proof. induction w as [|c w IH]; intros s F; [reflexivity|]. inversion F; subst. apply is_ws_iff in H1. cbn [app skip_ws]. rewrite H1. now apply IH. Qed.
Lemma skip_ws_split : forall s, exists w, s = w ++ skip_ws s /\ white w.
Proof.
  induction s as [|c s (w & E & W)]; [exists []; split; [reflexivity|constructor]|]. cbn [skip_ws]. destruct (is_ws c) eqn:C.
  - exists (c :: w). split; [cbn; congruence|]. constructor; [now apply is_ws_iff|exact W].
  - exists []. split; [reflexivity|constructor].
Qed.
Lemma skip_ws_stop : forall c s, is_ws c = false -> skip_ws (c :: s) = c :: s.
Proof. intros c s H. cbn. now rewrite H. Qed.
Lemma skip_ws_only : forall w, white w -> skip_ws w = [].
Proof. intros w W. pose proof (skip_ws_white w [] W) as E. rewrite app_nil_r in E. exact E. Qed.
Lemma literal_app : forall w s, literal w (w ++ s) = Some s.
Proof. induction w as [|c w IH]; intro s; [reflexivity|]. cbn [app literal]. rewrite Ascii.eqb_refl. apply IH. Qed.
Lemma literal_sound : forall w s r, literal w s = Some r -> s = w ++ r.
Proof.
  induction w as [|c w IH]; intros s r H; [injection H as <-; reflexivity|]. destruct s as [|d s]; [discriminate|]. cbn [literal] in H.
  destruct (Ascii.eqb_spec c d) as [->|]; [|discriminate]. cbn. f_equal. now apply IH.
Qed.
Lemma number_first : forall n, number_text n -> exists c t, n = c :: t /\ (c = "-"%char \/ digit c).
Proof.
  intros n [m i f e M [NI FI] _ _ _]. destruct M as [->| ->]; [|eexists _, _; split; [reflexivity|now left]].
  destruct i as [|c i]; [congruence|]. inversion FI; subst. exists c, (i ++ f ++ e). split; [reflexivity|now right].
Qed.
(** how the first byte of a value looks *)
Definition begins (s : bytes) : Prop := exists c t, s = c :: t /\ is_ws c = false /\ c <> "]"%char /\ c <> "}"%char.
Lemma jtext_begins : forall body v s, jtext body v s -> begins s.
Proof.
  intros body v s H. unfold begins. destruct H; try (eexists _, _; split; [reflexivity|]; repeat split; discriminate).
  destruct (number_first n H) as (c & t & -> & C). exists c, t. split; [reflexivity|]. destruct C as [->|C]; [repeat split; discriminate|].
  unfold digit in C. vm_compute in C. repeat destruct C as [<-|C]; try (repeat split; discriminate). destruct C.
Qed.

(** ** Values *)
Lemma white_ends : forall w c s, white w -> ends (c :: s) -> ends (w ++ c :: s).
Proof.
  intros [|d w] c s W E; [exact E|]. inversion W; subst. cbn. cbn [In] in H1. repeat destruct H1 as [<-|H1]; try (repeat split; discriminate). destruct H1.
Qed.
Lemma white_ends_nil : forall w, white w -> ends w.
Proof.
  intros [|d w] W; [exact I|]. inversion W; subst. cbn. cbn [In] in H1. repeat destruct H1 as [<-|H1]; try (repeat split; discriminate). destruct H1.
Qed.

Lemma p_value_complete :
  (forall v s, jtext lenient v s -> forall f rest, (2 * length s < f)%nat -> ends rest -> p_value f (s ++ rest) = Ok (v, rest)) /\
  (forall l s, elements lenient l s -> forall f rest, (2 * length s + 1 < f)%nat ->
     (exists d t, skip_ws (s ++ "]"%char :: rest) = d :: t /\ d <> "]"%char) /\
     p_elems f (skip_ws (s ++ "]"%char :: rest)) = Ok (l, rest)) /\
  (forall l s, members lenient l s -> forall f rest, (2 * length s + 1 < f)%nat ->
     (exists d t, skip_ws (s ++ "}"%char :: rest) = d :: t /\ d <> "}"%char) /\
     p_members f (skip_ws (s ++ "}"%char :: rest)) = Ok (l, rest)).
Proof.
  apply (jtext_mutual lenient
    (fun v s _ => forall f rest, (2 * length s < f)%nat -> ends rest -> p_value f (s ++ rest) = Ok (v, rest))
    (fun l s _ => forall f rest, (2 * length s + 1 < f)%nat ->
       (exists d t, skip_ws (s ++ "]"%char :: rest) = d :: t /\ d <> "]"%char) /\
       p_elems f (skip_ws (s ++ "]"%char :: rest)) = Ok (l, rest))
    (fun l s _ => forall f rest, (2 * length s + 1 < f)%nat ->
       (exists d t, skip_ws (s ++ "}"%char :: rest) = d :: t /\ d <> "}"%char) /\
       p_members f (skip_ws (s ++ "}"%char :: rest)) = Ok (l, rest))).
  - intros [|f] rest F _; [cbn in F; lia|reflexivity].
  - intros [|f] rest F _; [cbn in F; lia|reflexivity].
  - intros [|f] rest F _; [cbn in F; lia|reflexivity].
  - intros n N [|f] rest F E; [lia|]. pose proof (p_number_text n rest N E) as P. destruct (number_first n N) as (c & t & -> & C).
    change ((c :: t) ++ rest) with (c :: t ++ rest) in *. cbn [p_value]. rewrite P.
    assert (X : (c =? QUOTE)%char = false /\ (c =? "{")%char = false /\ (c =? "[")%char = false /\
                literal (bs "null") (c :: t ++ rest) = None /\ literal (bs "true") (c :: t ++ rest) = None /\ literal (bs "false") (c :: t ++ rest) = None).
    { destruct C as [->|C]; [repeat (split; [reflexivity|]); reflexivity|]. unfold digit in C. vm_compute in C. repeat destruct C as [<-|C]; try (repeat (split; [reflexivity|]); reflexivity). destruct C. }
    destruct X as (-> & -> & -> & -> & -> & ->). reflexivity.
  - intros s v B [|f] rest F E; [lia|]. cbn [app p_value]. rewrite <- app_assoc. cbn [app].
    change (QUOTE =? QUOTE)%char with true. cbv iota. rewrite (p_str_lenient s v B); [reflexivity|]. rewrite app_length. cbn. lia.
  - intros w W [|f] rest F E; [lia|]. cbn [app p_value]. rewrite <- app_assoc, skip_ws_white by exact W. reflexivity.
  - intros l s _ IH [|f] rest F E; [lia|]. cbn [app p_value]. rewrite <- app_assoc. change (bs "]" ++ rest) with ("]"%char :: rest).
    cbn [length] in F. rewrite app_length in F. cbn [length] in F. destruct (IH f rest) as ((d & t & ED & ND) & EP); [cbn in F; lia|].
    change ("[" =? QUOTE)%char with false. change ("[" =? "{")%char with false. change ("[" =? "[")%char with true. cbv iota.
    rewrite ED in *. apply Ascii.eqb_neq in ND. rewrite ND, EP. reflexivity.
  - intros w W [|f] rest F E; [lia|]. cbn [app p_value]. rewrite <- app_assoc, skip_ws_white by exact W. reflexivity.
  - intros l s _ IH [|f] rest F E; [lia|]. cbn [app p_value]. rewrite <- app_assoc. change (bs "}" ++ rest) with ("}"%char :: rest).
    cbn [length] in F. rewrite app_length in F. cbn [length] in F. destruct (IH f rest) as ((d & t & ED & ND) & EP); [cbn in F; lia|].
    change ("{" =? QUOTE)%char with false. change ("{" =? "{")%char with true. cbv iota.
    rewrite ED in *. apply Ascii.eqb_neq in ND. rewrite ND, EP. reflexivity.
  - intros w v s w' W J IH W' f rest F. destruct (jtext_begins _ _ _ J) as (c & t & -> & C1 & C2 & C3).
    rewrite <- !app_assoc, skip_ws_white by exact W. cbn [app]. rewrite skip_ws_stop by exact C1. split; [eauto|].
    destruct f as [|f]; [lia|]. cbn [p_elems]. rewrite !app_length in F. cbn [length] in F, IH. specialize (IH f (w' ++ "]"%char :: rest)). cbn [app] in IH.
    rewrite IH; [|lia|apply white_ends; [exact W'|repeat split; discriminate]]. cbn [rbind].
    rewrite skip_ws_white by exact W'. reflexivity.
  - intros w v s w' l u W J IH W' M IHM f rest F. destruct (jtext_begins _ _ _ J) as (c & t & -> & C1 & C2 & C3).
    rewrite <- ?app_assoc, skip_ws_white by exact W. cbn [app]. rewrite skip_ws_stop by exact C1. split; [eauto|].
    destruct f as [|f]; [lia|]. cbn [p_elems]. rewrite !app_length in F. cbn [length] in F, IH.
    specialize (IH f (w' ++ ","%char :: u ++ "]"%char :: rest)). cbn [app] in IH. rewrite <- ?app_assoc. cbn [app].
    rewrite IH; [|lia|apply white_ends; [exact W'|repeat split; discriminate]]. cbn [rbind].
    rewrite skip_ws_white by exact W'. cbn [skip_ws]. change (is_ws ",") with false. cbv iota. change ("," =? "]")%char with false. change ("," =? ",")%char with true. cbv iota.
    destruct (IHM f rest) as [_ EP]; [lia|]. rewrite EP. reflexivity.
  - intros w k kv w1 w2 v s w3 W B W1 W2 J IH W3 f rest F. destruct (jtext_begins _ _ _ J) as (c & t & -> & C1 & C2 & C3).
    rewrite <- ?app_assoc, skip_ws_white by exact W. cbn [app].
    match goal with |- context [skip_ws (QUOTE :: ?x)] => change (skip_ws (QUOTE :: x)) with (QUOTE :: x) end.
    split; [eexists _, _; split; [reflexivity|discriminate]|].
    destruct f as [|f]; [lia|]. cbn [p_members]. change (QUOTE =? QUOTE)%char with true. cbv iota.
    repeat (cbn [length] in F || rewrite app_length in F). cbn [length] in IH. rewrite <- ?app_assoc. cbn [app].
    rewrite (p_str_lenient k kv B) by (rewrite app_length; cbn; lia). cbn [rbind].
    rewrite <- ?app_assoc, skip_ws_white by exact W1. cbn [app skip_ws]. change (is_ws ":") with false. cbv iota. change (":" =? ":")%char with true. cbv iota.
    rewrite <- ?app_assoc, skip_ws_white by exact W2. cbn [app]. rewrite skip_ws_stop by exact C1. rewrite <- ?app_assoc.
    specialize (IH f (w3 ++ "}"%char :: rest)). cbn [app] in IH. rewrite IH; [|lia|apply white_ends; [exact W3|repeat split; discriminate]]. cbn [rbind].
    rewrite skip_ws_white by exact W3. reflexivity.
  - intros w k kv w1 w2 v s w3 l u W B W1 W2 J IH W3 M IHM f rest F. destruct (jtext_begins _ _ _ J) as (c & t & -> & C1 & C2 & C3).
    rewrite <- ?app_assoc, skip_ws_white by exact W. cbn [app].
    match goal with |- context [skip_ws (QUOTE :: ?x)] => change (skip_ws (QUOTE :: x)) with (QUOTE :: x) end.
    split; [eexists _, _; split; [reflexivity|discriminate]|].
    destruct f as [|f]; [lia|]. cbn [p_members]. change (QUOTE =? QUOTE)%char with true. cbv iota.
    repeat (cbn [length] in F || rewrite app_length in F). cbn [length] in IH. rewrite <- ?app_assoc. cbn [app].
    rewrite (p_str_lenient k kv B) by (rewrite app_length; cbn; lia). cbn [rbind].
    rewrite <- ?app_assoc, skip_ws_white by exact W1. cbn [app skip_ws]. change (is_ws ":") with false. cbv iota. change (":" =? ":")%char with true. cbv iota.
    rewrite <- ?app_assoc, skip_ws_white by exact W2. cbn [app]. rewrite skip_ws_stop by exact C1. rewrite <- ?app_assoc. cbn [app].
    specialize (IH f (w3 ++ ","%char :: u ++ "}"%char :: rest)). cbn [app] in IH. rewrite IH; [|lia|apply white_ends; [exact W3|repeat split; discriminate]]. cbn [rbind].
    rewrite skip_ws_white by exact W3. cbn [skip_ws]. change (is_ws ",") with false. cbv iota. change ("," =? "}")%char with false. change ("," =? ",")%char with true. cbv iota.
    destruct (IHM f rest) as [_ EP]; [lia|]. rewrite EP. reflexivity.
Qed.

Lemma elements_white : forall body l s w, white w -> elements body l s -> elements body l (w ++ s).
Proof.
  intros body l s w W H. assert (A : forall w', white w' -> white (w ++ w')) by (intros; apply Forall_app; auto).
  destruct H; rewrite app_assoc; constructor; auto.
Qed.
Lemma members_white : forall body l s w, white w -> members body l s -> members body l (w ++ s).
Proof.
  intros body l s w W H. assert (A : forall w', white w' -> white (w ++ w')) by (intros; apply Forall_app; auto).
  destruct H; rewrite app_assoc; constructor; auto.
Qed.

Lemma rbind_ok : forall A B (r : res A) (k : A -> res B) b, rbind r k = Ok b -> exists a, r = Ok a /\ k a = Ok b.
Proof. intros A B [a| | |] k b H; try discriminate. eauto. Qed.

Lemma p_value_sound : forall f,
  (forall s v r, p_value f s = Ok (v, r) -> exists t, s = t ++ r /\ jtext lenient v t) /\
  (forall s l r, p_elems f s = Ok (l, r) -> exists t, s = t ++ "]"%char :: r /\ elements lenient l t) /\
  (forall s l r, p_members f s = Ok (l, r) -> exists t, s = t ++ "}"%char :: r /\ members lenient l t).
Proof.
  induction f as [|f (IHV & IHE & IHM)]; [split; [|split]; discriminate|]. split; [|split].
  - intros s v r H. destruct s as [|c s]; [discriminate|]. cbn [p_value] in H.
    destruct (Ascii.eqb_spec c QUOTE) as [->|NQ].
    { apply rbind_ok in H as ([x y] & P & E). injection E as <- <-. apply p_str_sound in P as (b & -> & L).
      exists (QUOTE :: b ++ [QUOTE]). split; [cbn; now rewrite <- app_assoc|]. now constructor. }
    destruct (Ascii.eqb_spec c "{") as [->|NO].
    { destruct (skip_ws_split s) as (w & ES & W). destruct (skip_ws s) as [|d t] eqn:SK; [discriminate|]. destruct (Ascii.eqb_spec d "}") as [->|ND].
      - injection H as <- <-. exists ("{"%char :: w ++ bs "}"). split; [rewrite ES; cbn; now rewrite <- app_assoc|]. now constructor.
      - apply rbind_ok in H as ([x y] & P & E). injection E as <- <-. apply IHM in P as (b & E & L).
        exists ("{"%char :: (w ++ b) ++ bs "}"). split; [rewrite ES, E; cbn; rewrite <- !app_assoc; reflexivity|]. constructor. now apply members_white. }
    destruct (Ascii.eqb_spec c "[") as [->|NA].
    { destruct (skip_ws_split s) as (w & ES & W). destruct (skip_ws s) as [|d t] eqn:SK; [discriminate|]. destruct (Ascii.eqb_spec d "]") as [->|ND].
      - injection H as <- <-. exists ("["%char :: w ++ bs "]"). split; [rewrite ES; cbn; now rewrite <- app_assoc|]. now constructor.
      - apply rbind_ok in H as ([x y] & P & E). injection E as <- <-. apply IHE in P as (b & E & L).
        exists ("["%char :: (w ++ b) ++ bs "]"). split; [rewrite ES, E; cbn; rewrite <- !app_assoc; reflexivity|]. constructor. now apply elements_white. }
    destruct (literal (bs "null") (c :: s)) eqn:L1.
    { injection H as <- <-. apply literal_sound in L1. eexists. split; [exact L1|constructor]. }
    destruct (literal (bs "true") (c :: s)) eqn:L2.
    { injection H as <- <-. apply literal_sound in L2. eexists. split; [exact L2|constructor]. }
    destruct (literal (bs "false") (c :: s)) eqn:L3.
    { injection H as <- <-. apply literal_sound in L3. eexists. split; [exact L3|constructor]. }
    destruct (p_number (c :: s)) as [[n t]|] eqn:P; [|discriminate]. injection H as <- <-. apply p_number_sound in P as [E N].
    exists n. split; [exact E|now constructor].
  - intros s l r H. cbn [p_elems] in H. apply rbind_ok in H as ([v t] & P & H). apply IHV in P as (b & -> & J).
    destruct (skip_ws_split t) as (w & ET & W). destruct (skip_ws t) as [|c t']; [discriminate|].
    destruct (Ascii.eqb_spec c "]") as [->|NC].
    { injection H as <- <-. exists ([] ++ b ++ w). split; [rewrite ET; cbn [app]; now rewrite <- app_assoc|]. constructor; [constructor|exact J|exact W]. }
    destruct (Ascii.eqb_spec c ",") as [->|]; [|discriminate]. apply rbind_ok in H as ([l' t2] & P & H). injection H as <- <-. apply IHE in P as (b' & E & L).
    destruct (skip_ws_split t') as (w' & ET' & W'). exists ([] ++ b ++ w ++ ","%char :: w' ++ b').
    split; [rewrite ET, ET', E; cbn [app]; rewrite <- !app_assoc; cbn [app]; now rewrite <- app_assoc|]. constructor; [constructor|exact J|exact W|]. now apply elements_white.
  - intros s l r H. cbn [p_members] in H. destruct s as [|q s]; [discriminate|]. destruct (Ascii.eqb_spec q QUOTE) as [->|]; [|discriminate].
    apply rbind_ok in H as ([k t] & P & H). apply p_str_sound in P as (b & -> & B).
    destruct (skip_ws_split t) as (w1 & ET & W1). destruct (skip_ws t) as [|c t']; [discriminate|]. destruct (Ascii.eqb_spec c ":") as [->|]; [|discriminate].
    apply rbind_ok in H as ([v t2] & P & H). apply IHV in P as (b2 & E2 & J). destruct (skip_ws_split t') as (w2 & ET2 & W2). rewrite E2 in ET2.
    destruct (skip_ws_split t2) as (w3 & ET3 & W3). destruct (skip_ws t2) as [|d t3]; [discriminate|].
    destruct (Ascii.eqb_spec d "}") as [->|].
    { injection H as <- <-. exists ([] ++ QUOTE :: b ++ QUOTE :: w1 ++ ":"%char :: w2 ++ b2 ++ w3). split.
      - rewrite ET, ET2, ET3. cbn [app]. f_equal. rewrite <- !app_assoc. cbn [app]. f_equal. f_equal. rewrite <- !app_assoc. cbn [app]. do 2 f_equal. now rewrite <- !app_assoc.
      - constructor; try assumption. constructor. }
    destruct (Ascii.eqb_spec d ",") as [->|]; [|discriminate]. apply rbind_ok in H as ([l' t4] & P & H). injection H as <- <-. apply IHM in P as (b3 & E & L).
    destruct (skip_ws_split t3) as (w4 & ET4 & W4). rewrite E in ET4. exists ([] ++ QUOTE :: b ++ QUOTE :: w1 ++ ":"%char :: w2 ++ b2 ++ w3 ++ ","%char :: w4 ++ b3). split.
    + rewrite ET, ET2, ET3, ET4. cbn [app]. f_equal. rewrite <- !app_assoc. cbn [app]. f_equal. f_equal. rewrite <- !app_assoc. cbn [app]. do 2 f_equal. rewrite <- !app_assoc. cbn [app].
      do 4 f_equal. now rewrite <- app_assoc.
    + constructor; try assumption; [constructor|]. now apply members_white.
Qed.

Lemma rbind_fin : forall A B (r : res A) (k : A -> res B), r <> Panic -> r <> OutOfFuel -> (forall a, r = Ok a -> k a <> Panic /\ k a <> OutOfFuel) ->
  rbind r k <> Panic /\ rbind r k <> OutOfFuel.
Proof. intros A B [a| | |] k P O K; cbn; try (split; congruence). now apply K. Qed.
Lemma p_value_fin : forall f,
  (forall s, (2 * length s < f)%nat -> p_value f s <> Panic /\ p_value f s <> OutOfFuel) /\
  (forall s, (2 * length s + 1 < f)%nat -> p_elems f s <> Panic /\ p_elems f s <> OutOfFuel) /\
  (forall s, (2 * length s + 1 < f)%nat -> p_members f s <> Panic /\ p_members f s <> OutOfFuel).
Proof.
  assert (SK : forall s, (length (skip_ws s) <= length s)%nat).
  { intro s. destruct (skip_ws_split s) as (w & E & _). rewrite E at 2. rewrite app_length. lia. }
  assert (ST : forall s, p_str (S (length s)) s <> Panic /\ p_str (S (length s)) s <> OutOfFuel).
  { intro s. destruct (p_str_fin (S (length s)) s) as [A B]. split; [exact A|apply B; lia]. }
  induction f as [|f (IHV & IHE & IHM)]; [split; [|split]; intros; lia|]. split; [|split].
  - intros s F. cbn [p_value]. destruct s as [|c s]; [split; discriminate|]. cbn [length] in F. specialize (SK s).
    destruct (c =? QUOTE)%char.
    { destruct (ST s) as [A B]. apply rbind_fin; [exact A|exact B|]. intros [? ?] _. split; discriminate. }
    destruct (c =? "{")%char.
    { destruct (skip_ws s) as [|d t]; [split; discriminate|]. destruct (d =? "}")%char; [split; discriminate|].
      destruct (IHM (d :: t)) as [A B]; [cbn [length] in *; lia|]. apply rbind_fin; [exact A|exact B|]. intros [? ?] _. split; discriminate. }
    destruct (c =? "[")%char.
    { destruct (skip_ws s) as [|d t]; [split; discriminate|]. destruct (d =? "]")%char; [split; discriminate|].
      destruct (IHE (d :: t)) as [A B]; [cbn [length] in *; lia|]. apply rbind_fin; [exact A|exact B|]. intros [? ?] _. split; discriminate. }
    destruct (literal (bs "null") (c :: s)), (literal (bs "true") (c :: s)), (literal (bs "false") (c :: s)), (p_number (c :: s)) as [[? ?]|]; split; discriminate.
  - intros s F. cbn [p_elems]. destruct (IHV s) as [A B]; [lia|]. apply rbind_fin; [exact A|exact B|]. intros [v t] P.
    apply (proj1 (p_value_sound f)) in P as (b & -> & J). destruct (jtext_begins _ _ _ J) as (c0 & t0 & -> & _). rewrite app_length in F. cbn [length] in F.
    pose proof (SK t) as SKT. destruct (skip_ws t) as [|c t']; [split; discriminate|]. destruct (c =? "]")%char; [split; discriminate|]. destruct (c =? ",")%char; [|split; discriminate].
    cbn [length] in SKT. specialize (SK t'). destruct (IHE (skip_ws t')) as [C D]; [lia|]. apply rbind_fin; [exact C|exact D|]. intros [? ?] _. split; discriminate.
  - intros s F. cbn [p_members]. destruct s as [|q s]; [split; discriminate|]. cbn [length] in F. destruct (q =? QUOTE)%char; [|split; discriminate].
    destruct (ST s) as [A B]. apply rbind_fin; [exact A|exact B|]. intros [k t] P. apply p_str_sound in P as (b & -> & _). rewrite app_length in F. cbn [length] in F.
    pose proof (SK t) as SKT. destruct (skip_ws t) as [|c t']; [split; discriminate|]. destruct (c =? ":")%char; [|split; discriminate]. cbn [length] in SKT.
    pose proof (SK t') as SKT'. destruct (IHV (skip_ws t')) as [C D]; [lia|]. apply rbind_fin; [exact C|exact D|]. intros [v t2] P.
    apply (proj1 (p_value_sound f)) in P as (b2 & E & _). rewrite E, app_length in SKT'.
    pose proof (SK t2) as SKT2. destruct (skip_ws t2) as [|d t3]; [split; discriminate|]. destruct (d =? "}")%char; [split; discriminate|]. destruct (d =? ",")%char; [|split; discriminate].
    cbn [length] in SKT2. specialize (SK t3). destruct (IHM (skip_ws t3)) as [G H]; [lia|]. apply rbind_fin; [exact G|exact H|]. intros [? ?] _. split; discriminate.
Qed.

(** ** Documents *)
Fixpoint json_size (v : json) : nat :=
  match v with
  | JArr l => S (fold_right (fun v n => (json_size v + n)%nat) O l)
  | JObj l => S (fold_right (fun kv n => (json_size (snd kv) + n)%nat) O l)
  | _ => 1%nat
  end.
Lemma fold_size {A} (f : A -> nat) l x : In x l -> (f x <= fold_right (fun a n => (f a + n)%nat) O l)%nat.
Proof. induction l as [|a l IH]; intros []; cbn [fold_right]; [subst; lia|specialize (IH H); lia]. Qed.
Lemma fold_max {A} (f : A -> nat) l m : (fold_right (fun a n => Nat.max (f a) n) O l <= m)%nat <-> forall x, In x l -> (f x <= m)%nat.
Proof.
  induction l as [|a l IH]; cbn [fold_right In]; [split; [intros _ ? []|lia]|]. rewrite Nat.max_lub_iff, IH. split.
  - intros [A1 B1] x [<-|I]; auto.
  - intro H. split; [apply H; now left|]. intros x I. apply H. now right.
Qed.
Lemma nesting_within : forall k v, (json_size v < k)%nat -> forall n, (nesting v <= n)%nat <-> within n v.
Proof.
  induction k as [|k IH]; intros v S n; [lia|].
  destruct v as [|b|x|x|l|l]; try (split; [intros _; constructor|cbn; lia]); cbn [json_size] in S; cbn [nesting].
  - destruct n as [|n]; [split; [lia|intro H; inversion H]|]. rewrite <- Nat.succ_le_mono, fold_max. split.
    + intro H. constructor. intros v I. apply IH; [pose proof (fold_size json_size l v I); lia|]. now apply H.
    + intros H v I. inversion H; subst. apply IH; [pose proof (fold_size json_size l v I); lia|]. now auto.
  - destruct n as [|n]; [split; [lia|intro H; inversion H]|]. rewrite <- Nat.succ_le_mono.
    rewrite (fold_max (fun kv => nesting (snd kv)) l n). split.
    + intro H. constructor. intros kk v I. apply IH; [pose proof (fold_size (fun kv => json_size (snd kv)) l (kk, v) I); cbn [snd] in *; lia|].
      exact (H (kk, v) I).
    + intros H [kk v] I. inversion H; subst. cbn [snd]. apply IH; [pose proof (fold_size (fun kv => json_size (snd kv)) l (kk, v) I); cbn [snd] in *; lia|]. eauto.
Qed.
Lemma shallow_iff : forall v, (Z.of_nat (nesting v) <=? max_nesting) = true <-> shallow v.
Proof. intro v. unfold shallow. rewrite <- (nesting_within (S (json_size v)) v ltac:(lia)). unfold max_nesting. lia. Qed.
Lemma within_more : forall n v, within n v -> forall m, (n <= m)%nat -> within m v.
Proof.
  intros n v W. apply (nesting_within (S (json_size v)) v ltac:(lia)) in W. intros m L.
  apply (nesting_within (S (json_size v)) v ltac:(lia)). lia.
Qed.
Theorem parse_json_iff : forall s v, parse_json s = Ok v <-> document lenient v s /\ shallow v.
Proof.
  intros s v. unfold parse_json. split.
  - intro H. apply rbind_ok in H as ([x r] & P & E). destruct (skip_ws_split r) as (w' & ER & W'). destruct (skip_ws r); [|discriminate].
    destruct (Z.of_nat (nesting x) <=? max_nesting) eqn:N; [|discriminate]. apply shallow_iff in N. injection E as ->. split; [|exact N].
    apply (proj1 (p_value_sound _)) in P as (t & ET & J). destruct (skip_ws_split s) as (w & ES & W). rewrite ES, ET, ER, app_nil_r. now constructor.
  - intros [[w x t w' W J W'] N]. rewrite skip_ws_white by exact W. destruct (jtext_begins _ _ _ J) as (c & u & -> & C & _). cbn [app]. rewrite skip_ws_stop by exact C.
    pose proof (proj1 p_value_complete _ _ J (2 + 2 * length (w ++ (c :: u) ++ w'))%nat w') as P. change ((c :: u) ++ w') with (c :: u ++ w') in *.
    apply shallow_iff in N.
    rewrite P; [cbn [rbind]; now rewrite skip_ws_only, N|repeat (rewrite app_length || cbn [length]); lia|now apply white_ends_nil].
Qed.
(** a text stands for one value *)
Lemma document_unique : forall s v w, document lenient v s -> document lenient w s -> v = w.
Proof.
  assert (X : forall s v, document lenient v s -> exists r, p_value (2 + 2 * length s) (skip_ws s) = Ok (v, r)).
  { intros s v [w x t w' W J W']. exists w'. rewrite skip_ws_white by exact W. destruct (jtext_begins _ _ _ J) as (c & u & -> & C & _). cbn [app]. rewrite skip_ws_stop by exact C.
    change (c :: u ++ w') with ((c :: u) ++ w'). apply (proj1 p_value_complete _ _ J); [repeat (rewrite app_length || cbn [length]); lia|now apply white_ends_nil]. }
  intros s v w A B. destruct (X _ _ A) as (r & E). destruct (X _ _ B) as (r' & E'). congruence.
Qed.
Theorem parse_json_fin : forall s, parse_json s <> Panic /\ parse_json s <> OutOfFuel.
Proof.
  intro s. unfold parse_json. destruct (skip_ws_split s) as (w & E & _). apply (f_equal (@length ascii)) in E. rewrite app_length in E.
  destruct (proj1 (p_value_fin (2 + 2 * length s)) (skip_ws s)) as [A B]; [lia|]. apply rbind_fin; [exact A|exact B|].
  intros [v r] _. destruct (skip_ws r); [|split; discriminate]. destruct (_ <=? _); split; discriminate.
Qed.
Lemma strict_lenient : forall b v, strict b v -> lenient b v.
Proof. induction 1; [constructor|now constructor]. Qed.
Lemma jtext_incl : forall (b1 b2 : bytes -> bytes -> Prop), (forall s v, b1 s v -> b2 s v) ->
  (forall v s, jtext b1 v s -> jtext b2 v s) /\ (forall l s, elements b1 l s -> elements b2 l s) /\ (forall l s, members b1 l s -> members b2 l s).
Proof.
  intros b1 b2 H. apply (jtext_mutual b1 (fun v s _ => jtext b2 v s) (fun l s _ => elements b2 l s) (fun l s _ => members b2 l s)); intros; constructor; auto.
Qed.
Lemma document_strict : forall v s, document strict v s -> document lenient v s.
Proof. intros v s []. constructor; try assumption. now apply (jtext_incl strict lenient strict_lenient). Qed.
