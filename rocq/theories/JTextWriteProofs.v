(** Writing JSON text: what is written is strict JSON and stands for the value. *)
From Coq Require Import String Ascii List ZArith Bool Lia ZifyBool.
From Verif Require Import Base BaseProofs Utf8Model Utf8Proofs PoStrModel PoStrSpec PoStrProofs CldrModel JsonModel JTextModel JTextSpec JTextProofs.
Import ListNotations.
Open Scope Z_scope.

(** ** Strings *)
Lemma hex_char_in : forall d, 0 <= d < 16 -> In (hex_char d, d) hex_digits.
Proof.
  intros d H. assert (X : d = 0 \/ d = 1 \/ d = 2 \/ d = 3 \/ d = 4 \/ d = 5 \/ d = 6 \/ d = 7 \/ d = 8 \/ d = 9 \/ d = 10 \/ d = 11 \/ d = 12 \/ d = 13 \/ d = 14 \/ d = 15) by lia.
  repeat destruct X as [->|X]; try (vm_compute; auto 25). subst. vm_compute. auto 25.
Qed.
Lemma hex_char_lower : forall d, 0 <= d < 16 -> ~ In (hex_char d) (bs "ABCDEF").
Proof.
  intros d H. assert (X : d = 0 \/ d = 1 \/ d = 2 \/ d = 3 \/ d = 4 \/ d = 5 \/ d = 6 \/ d = 7 \/ d = 8 \/ d = 9 \/ d = 10 \/ d = 11 \/ d = 12 \/ d = 13 \/ d = 14 \/ d = 15) by lia.
  repeat destruct X as [->|X]; try (vm_compute; intuition discriminate). subst. vm_compute. intuition discriminate.
Qed.
Lemma coded_range : forall x, coded x -> 0 <= x < 55296.
Proof. intros x [I|[R _]]; [|lia]. cbn [In] in I. lia. Qed.
Lemma u_escape_neat : forall x, coded x -> neat_piece (u_escape x) (encode_rune x).
Proof.
  intros x C. pose proof (coded_range x C) as H. assert (B : 0 <= x / 4096 < 16) by (split; [apply Z.div_pos; lia|apply Z.div_lt_upper_bound; lia]).
  apply np_code; [| |now left].
  2:{ repeat (constructor; [apply hex_char_lower; try (apply Z.mod_pos_bound; lia); exact B|]). constructor. }
  replace x with (4096 * (x / 4096) + 256 * (x / 256 mod 16) + 16 * (x / 16 mod 16) + x mod 16) at 5.
  - constructor; apply hex_char_in; try (apply Z.mod_pos_bound; lia). exact B.
  - rewrite (Z.div_mod x 16) at 4 by lia. rewrite (Z.div_mod (x / 16) 16) at 2 by lia. rewrite (Z.div_mod (x / 16 / 16) 16) at 1 by lia.
    rewrite !Z.div_div by lia. change (16 * 16) with 256. change (256 * 16) with 4096.
    rewrite (Z.div_mod x 16) at 6 by lia. lia.
Qed.
Lemma neat_is_piece : forall p v, neat_piece p v -> piece p v.
Proof.
  intros p v [r S C N|e z I|h x X L C].
  - unfold coded in C. cbn [map snd short_escapes In] in *. apply pc_char; [exact S| |lia|lia]. apply scalar_range in S as [R _]. destruct (Z_lt_le_dec r 32); [|lia]. exfalso.
    apply C. right. split; [lia|exact N].
  - apply pc_escape. cbn [short_escapes json_escapes In] in *. tauto.
  - apply pc_code; [exact X| |]; (destruct C as [C| ->]; [apply coded_range in C|]); unfold high, low; lia.
Qed.
Lemma neat_strict : forall b v, neat b v -> strict b v.
Proof. induction 1; [constructor|]. constructor; [now apply neat_is_piece|assumption]. Qed.
Lemma put_rune_neat : forall r bad, scalar r = true -> (bad = true -> r = RuneError) -> neat_piece (put_rune r bad) (encode_rune r).
Proof.
  intros r bad S B. unfold put_rune. destruct bad.
  { rewrite (B eq_refl). change (bs "\ufffd") with (bs "\u" ++ bs "fffd"). apply np_code; [|repeat constructor; vm_compute; intuition discriminate|now right].
    change (hex4 ["f"%char; "f"%char; "f"%char; "d"%char] (4096 * 15 + 256 * 15 + 16 * 15 + 13)). constructor; vm_compute; auto 25. }
  clear B. apply scalar_range in S as R. destruct R as [R _].
  assert (A : 0 <= r < 128 -> encode_rune r = [byte_of r]) by apply encode_ascii.
  destruct (r =? 34) eqn:E1. { replace r with 34 in * by lia. apply (np_escape QUOTE 34). now left. }
  destruct (r =? 92) eqn:E2. { replace r with 92 in * by lia. apply (np_escape BSLASH 92). right. now left. }
  cbn [orb]. destruct (r =? 8) eqn:E3. { replace r with 8 in * by lia. apply (np_escape "b" 8). vm_compute. auto 10. }
  destruct (r =? 12) eqn:E4. { replace r with 12 in * by lia. apply (np_escape "f" 12). vm_compute. auto 10. }
  destruct (r =? 10) eqn:E5. { replace r with 10 in * by lia. apply (np_escape "n" 10). vm_compute. auto 10. }
  destruct (r =? 13) eqn:E6. { replace r with 13 in * by lia. apply (np_escape "r" 13). vm_compute. auto 10. }
  destruct (r =? 9) eqn:E7. { replace r with 9 in * by lia. apply (np_escape "t" 9). vm_compute. auto 10. }
  assert (N : ~ In r (map snd short_escapes)) by (cbn [map snd short_escapes In]; lia).
  match goal with |- neat_piece (if ?b then _ else _) _ => destruct b eqn:E8 end.
  - apply u_escape_neat. unfold coded. destruct (Z_lt_le_dec r 32); [right; split; [lia|exact N]|]. left. cbn [In]. lia.
  - apply np_char; [exact S| |exact N]. unfold coded. cbn [In]. lia.
Qed.
Lemma put_runes_neat : forall f s, neat (put_runes f s) (encode_all (runes_fuel f s)).
Proof.
  induction f as [|f IH]; intro s; [constructor|]. destruct s as [|c s]; [constructor|]. cbn [put_runes runes_fuel].
  pose proof (decode_scalar (c :: s)) as S. destruct (decode_rune (c :: s)) as [r w]. cbn [fst] in S. unfold encode_all. cbn [map concat].
  constructor; [apply put_rune_neat; [exact S|intro B; lia]|apply IH].
Qed.
Lemma put_string_text : forall s, jtext neat (JStr (sanitized s)) (put_string s).
Proof. intro s. unfold put_string, sanitized, runes. apply jt_str. apply put_runes_neat. Qed.

(** ** Dropping white space *)
Lemma compact_plain : forall q e c s, c <> "<"%char -> c <> ">"%char -> c <> "&"%char -> bval c <> 226 ->
  compact q e (c :: s) =
    if q then c :: (if e then compact true false s else if (c =? BSLASH)%char then compact true true s else compact (negb (c =? QUOTE)%char) false s)
    else if is_ws c then compact false false s else c :: compact (c =? QUOTE)%char false s.
Proof.
  intros q e c s A B C D. apply Ascii.eqb_neq in A, B, C. cbn [compact]. rewrite A, B, C. cbn [orb].
  replace (match s with b :: d :: _ => (bval c =? 226) && (bval b =? 128) && ((bval d =? 168) || (bval d =? 169)) | _ => false end) with false; [reflexivity|].
  destruct s as [|b [|d s]]; try reflexivity. replace (bval c =? 226) with false by lia. reflexivity.
Qed.
Lemma compact_cont : forall x s, Forall (fun c => 128 <= bval c /\ bval c <> 226) x -> compact true false (x ++ s) = x ++ compact true false s.
Proof.
  induction x as [|c x IH]; intros s F; [reflexivity|]. inversion F as [|? ? [A B] F']; subst. cbn [app].
  assert (N : forall d, bval d < 128 -> c <> d) by (intros d L ->; lia).
  rewrite compact_plain; try (apply N; reflexivity); [|exact B]. rewrite (proj2 (Ascii.eqb_neq c BSLASH) (N BSLASH%char eq_refl)), (proj2 (Ascii.eqb_neq c QUOTE) (N QUOTE%char eq_refl)). cbn [negb].
  f_equal. now apply IH.
Qed.
Lemma compact_rune : forall r s, scalar r = true -> 128 <= r -> r <> 8232 -> r <> 8233 ->
  compact true false (encode_rune r ++ s) = encode_rune r ++ compact true false s.
Proof.
  intros r s S H N1 N2. unfold encode_rune. rewrite S. apply scalar_range in S as [R _]. replace (r <? 128) with false by lia.
  assert (X : forall z, 128 <= z < 256 -> z <> 226 -> 128 <= bval (byte_of z) /\ bval (byte_of z) <> 226) by (intros; rewrite byte_of_val; lia).
  assert (Y : forall z, 0 <= z < 64 -> 128 <= bval (byte_of (128 + z)) /\ bval (byte_of (128 + z)) <> 226) by (intros; apply X; lia).
  pose proof (Z.mod_pos_bound r 64 ltac:(lia)) as M1. pose proof (Z.mod_pos_bound (r / 64) 64 ltac:(lia)) as M2. pose proof (Z.mod_pos_bound (r / 4096) 64 ltac:(lia)) as M3.
  destruct (r <? 2048) eqn:A.
  { assert (0 <= r / 64 < 32) by (split; [apply Z.div_pos; lia|apply Z.div_lt_upper_bound; lia]). apply compact_cont. repeat constructor; try (apply X; lia); apply Y; lia. }
  destruct (r <? 65536) eqn:B.
  2:{ assert (0 <= r / 262144 < 5) by (split; [apply Z.div_pos; lia|apply Z.div_lt_upper_bound; lia]). apply compact_cont. repeat constructor; try (apply X; lia); apply Y; lia. }
  assert (D : 0 <= r / 4096 < 16) by (split; [apply Z.div_pos; lia|apply Z.div_lt_upper_bound; lia]).
  destruct (Z.eq_dec (r / 4096) 2) as [E|NE].
  2:{ apply compact_cont. repeat constructor; try (apply X; lia); apply Y; lia. }
  set (a := byte_of (224 + r / 4096)). set (b := byte_of (128 + (r / 64) mod 64)). set (c := byte_of (128 + r mod 64)).
  assert (VA : bval a = 226) by (unfold a; rewrite byte_of_val; lia).
  assert (VB : bval b = 128 + (r / 64) mod 64) by (unfold b; rewrite byte_of_val; lia).
  assert (VC : bval c = 128 + r mod 64) by (unfold c; rewrite byte_of_val; lia). clearbody a b c.
  assert (N : forall d, bval d < 128 -> a <> d) by (intros d L ->; lia).
  change ([a; b; c] ++ s) with (a :: b :: c :: s). change ([a; b; c] ++ compact true false s) with (a :: [b; c] ++ compact true false s).
  rewrite <- compact_cont by (repeat constructor; lia). cbn [app].
  cbn [compact]. rewrite (proj2 (Ascii.eqb_neq a "<") (N "<"%char eq_refl)), (proj2 (Ascii.eqb_neq a ">") (N ">"%char eq_refl)), (proj2 (Ascii.eqb_neq a "&") (N "&"%char eq_refl)). cbn [orb].
  replace ((bval a =? 226) && (bval b =? 128) && ((bval c =? 168) || (bval c =? 169))) with false.
  - rewrite (proj2 (Ascii.eqb_neq a BSLASH) (N BSLASH%char eq_refl)), (proj2 (Ascii.eqb_neq a QUOTE) (N QUOTE%char eq_refl)). reflexivity.
  - rewrite VA, VB, VC. symmetry. destruct (Z.eq_dec (r / 64 mod 64) 0) as [Z0|Z0]; [|lia].
    assert (r = 8192 + r mod 64); [|lia].
    assert (E64 : r / 64 = 128). { rewrite (Z.div_mod (r / 64) 64) by lia. rewrite Z.div_div by lia. change (64 * 64) with 4096. lia. }
    rewrite (Z.div_mod r 64) at 1 by lia. lia.
Qed.
Lemma compact_sep : forall d s, (bval d =? 168) || (bval d =? 169) = true ->
  compact true false (byte_of 226 :: byte_of 128 :: d :: s) = u_escape (8192 + bval d - 128) ++ compact true false s.
Proof.
  intros d s H. cbn [compact]. change (byte_of 226 =? "<")%char with false. change (byte_of 226 =? ">")%char with false. change (byte_of 226 =? "&")%char with false. cbn [orb].
  change (bval (byte_of 226) =? 226) with true. change (bval (byte_of 128) =? 128) with true. cbn [andb]. rewrite H. reflexivity.
Qed.
Definition simple (c : ascii) : Prop := c <> "<"%char /\ c <> ">"%char /\ c <> "&"%char /\ bval c < 128.
Lemma compact_simple : forall q e c s, simple c ->
  compact q e (c :: s) =
    if q then c :: (if e then compact true false s else if (c =? BSLASH)%char then compact true true s else compact (negb (c =? QUOTE)%char) false s)
    else if is_ws c then compact false false s else c :: compact (c =? QUOTE)%char false s.
Proof. intros q e c s (A & B & C & D). apply compact_plain; auto. lia. Qed.
Lemma hex_simple : forall c d, In (c, d) hex_digits -> simple c /\ (c =? BSLASH)%char = false /\ (c =? QUOTE)%char = false.
Proof.
  intros c d H. cbn [In hex_digits] in H. repeat destruct H as [H|H]; try (injection H as <- _; repeat split; discriminate). destruct H.
Qed.
Lemma compact_hex : forall h x s, hex4 h x -> compact true false (h ++ s) = h ++ compact true false s.
Proof.
  intros h x s [a b c d w x' y z A B C D]. apply hex_simple in A as (A1 & A2 & A3), B as (B1 & B2 & B3), C as (C1 & C2 & C3), D as (D1 & D2 & D3).
  cbn [app]. rewrite !compact_simple by assumption. rewrite A2, A3, B2, B3, C2, C3, D2, D3. reflexivity.
Qed.
Lemma compact_u : forall s, compact true false (bs "\u" ++ s) = bs "\u" ++ compact true false s.
Proof. intro s. change (bs "\u" ++ s) with (BSLASH :: "u"%char :: s). rewrite !compact_simple by (repeat split; discriminate). reflexivity. Qed.
Lemma compact_piece : forall p v s, neat_piece p v -> compact true false (p ++ s) = p ++ compact true false s.
Proof.
  intros p v s P. destruct P as [r S C N|e z I|h x X _ _].
  - unfold coded in C. cbn [map snd short_escapes In] in *. apply scalar_range in S as R. destruct R as [R _]. destruct (Z_lt_le_dec r 128) as [L|L].
    + rewrite encode_ascii by lia. cbn [app].
      assert (D : forall d, bval d <> r -> byte_of r <> d) by (intros d D <-; rewrite byte_of_val in D; lia).
      rewrite compact_simple by (repeat split; try (apply D; vm_compute; lia); rewrite byte_of_val; lia).
      rewrite (proj2 (Ascii.eqb_neq _ BSLASH)) by (apply D; change (bval BSLASH) with 92; lia).
      rewrite (proj2 (Ascii.eqb_neq _ QUOTE)) by (apply D; change (bval QUOTE) with 34; lia). reflexivity.
    + apply compact_rune; lia || assumption.
  - cbn [In short_escapes] in I.
    repeat destruct I as [I|I]; try (injection I as <- <-; cbn [app]; rewrite !compact_simple by (repeat split; discriminate); reflexivity). destruct I.
  - rewrite <- app_assoc, compact_u, (compact_hex h x _ X). now rewrite <- app_assoc.
Qed.
Lemma compact_neat : forall b v, neat b v -> forall rest, compact true false (b ++ QUOTE :: rest) = b ++ QUOTE :: compact false false rest.
Proof.
  induction 1 as [|p v s w P H IH]; intro rest; [cbn [app]; rewrite compact_simple by (repeat split; discriminate); reflexivity|].
  rewrite <- !app_assoc, (compact_piece p v) by exact P. now rewrite IH.
Qed.
Definition copied (c : ascii) : Prop := simple c /\ is_ws c = false /\ c <> QUOTE.
Lemma compact_copied : forall x s, Forall copied x -> compact false false (x ++ s) = x ++ compact false false s.
Proof.
  induction x as [|c x IH]; intros s F; [reflexivity|]. inversion F as [|? ? (A & B & C) F']; subst. cbn [app]. rewrite compact_simple by exact A.
  apply Ascii.eqb_neq in C. rewrite B, C. f_equal. now apply IH.
Qed.
Lemma digit_copied : forall c, digit c -> copied c.
Proof. intros c H. unfold digit in H. vm_compute in H. repeat destruct H as [<-|H]; try (repeat split; discriminate). destruct H. Qed.
Lemma number_chars : forall n, number_text n -> Forall (fun c => digit c \/ In c (bs "-+.eE")) n.
Proof.
  intros n [m i f e M [_ FI] _ FR EX].
  assert (A : forall l, Forall digit l -> Forall (fun c => digit c \/ In c (bs "-+.eE")) l) by (intros l; apply Forall_impl; auto).
  rewrite !Forall_app. repeat split.
  - destruct M as [->| ->]; [constructor|]. constructor; [right; now left|constructor].
  - auto.
  - destruct FR as [->|(d & -> & _ & FD)]; [constructor|]. constructor; [right; vm_compute; auto|auto].
  - destruct EX as [->|(x & g & d & -> & X & G & _ & FD)]; [constructor|]. constructor; [right; destruct X as [->| ->]; vm_compute; auto 10|].
    rewrite Forall_app. split; [|auto]. destruct G as [->|[->| ->]]; [constructor| |]; (constructor; [right; vm_compute; auto|constructor]).
Qed.
Lemma number_copied : forall n, number_text n -> Forall copied n.
Proof.
  intros n N. apply number_chars in N. revert N. apply Forall_impl. intros c [D|I]; [now apply digit_copied|].
  vm_compute in I. repeat destruct I as [<-|I]; try (repeat split; discriminate). destruct I.
Qed.
Lemma compact_white : forall w s, white w -> compact false false (w ++ s) = compact false false s.
Proof.
  induction w as [|c w IH]; intros s F; [reflexivity|]. inversion F as [|? ? I F']; subst. cbn [app].
  rewrite compact_simple; [|cbn [In] in I; repeat destruct I as [<-|I]; try (repeat split; discriminate); destruct I].
  apply is_ws_iff in I. rewrite I. now apply IH.
Qed.
Lemma compact_quote : forall s, compact false false (QUOTE :: s) = QUOTE :: compact true false s.
Proof. intro s. rewrite compact_simple by (repeat split; discriminate). reflexivity. Qed.
Lemma compact_one : forall c s, copied c -> compact false false (c :: s) = c :: compact false false s.
Proof. intros c s C. apply (compact_copied [c]). repeat constructor; apply C. Qed.
Ltac cop := repeat split; discriminate.
Ltac napp := repeat (progress (cbn [app]; rewrite <- ?app_assoc, ?app_nil_r)); try reflexivity.

Lemma compact_jtext :
  (forall v s, jtext neat v s -> exists s', jtext neat v s' /\ forall rest, compact false false (s ++ rest) = s' ++ compact false false rest) /\
  (forall l s, elements neat l s -> exists s', elements neat l s' /\ forall rest, compact false false (s ++ rest) = s' ++ compact false false rest) /\
  (forall l s, members neat l s -> exists s', members neat l s' /\ forall rest, compact false false (s ++ rest) = s' ++ compact false false rest).
Proof.
  apply (jtext_mutual neat
    (fun v s _ => exists s', jtext neat v s' /\ forall rest, compact false false (s ++ rest) = s' ++ compact false false rest)
    (fun l s _ => exists s', elements neat l s' /\ forall rest, compact false false (s ++ rest) = s' ++ compact false false rest)
    (fun l s _ => exists s', members neat l s' /\ forall rest, compact false false (s ++ rest) = s' ++ compact false false rest)).
  - eexists. split; [constructor|]. intro rest. apply compact_copied. repeat constructor; try discriminate.
  - eexists. split; [constructor|]. intro rest. apply compact_copied. repeat constructor; try discriminate.
  - eexists. split; [constructor|]. intro rest. apply compact_copied. repeat constructor; try discriminate.
  - intros n N. exists n. split; [now constructor|]. intro rest. apply compact_copied. now apply number_copied.
  - intros s v B. pose proof (compact_neat s v B) as E. exists (QUOTE :: s ++ [QUOTE]). split; [now constructor|].
    intro rest. cbn [app]. rewrite <- !app_assoc. cbn [app]. rewrite compact_quote, E. reflexivity.
  - intros w W. exists (bs "[]"). split; [apply (jt_arr0 neat []); constructor|]. intro rest. cbn [app]. rewrite compact_one by cop.
    rewrite <- app_assoc, compact_white by exact W. change (bs "]" ++ rest) with ("]"%char :: rest). rewrite compact_one by cop. reflexivity.
  - intros l s _ (s' & J & E). exists ("["%char :: s' ++ bs "]"). split; [now constructor|]. intro rest. cbn [app]. rewrite compact_one by cop.
    rewrite <- !app_assoc, E. change (bs "]" ++ rest) with ("]"%char :: rest). rewrite compact_one by cop. reflexivity.
  - intros w W. exists (bs "{}"). split; [apply (jt_obj0 neat []); constructor|]. intro rest. cbn [app]. rewrite compact_one by cop.
    rewrite <- app_assoc, compact_white by exact W. change (bs "}" ++ rest) with ("}"%char :: rest). rewrite compact_one by cop. reflexivity.
  - intros l s _ (s' & J & E). exists ("{"%char :: s' ++ bs "}"). split; [now constructor|]. intro rest. cbn [app]. rewrite compact_one by cop.
    rewrite <- !app_assoc, E. change (bs "}" ++ rest) with ("}"%char :: rest). rewrite compact_one by cop. reflexivity.
  - intros w v s w' W _ (s' & J & E) W'. exists ([] ++ s' ++ []). split; [constructor; [constructor|exact J|constructor]|]. intro rest.
    rewrite <- !app_assoc, compact_white, E, compact_white by assumption. reflexivity.
  - intros w v s w' l t W _ (s' & J & E) W' _ (t' & M & EM). exists ([] ++ s' ++ [] ++ ","%char :: t'). split; [constructor; try assumption; constructor|]. intro rest.
    rewrite <- !app_assoc, compact_white, E by assumption. rewrite compact_white by assumption. cbn [app]. rewrite compact_one by cop. rewrite EM. reflexivity.
  - intros w k kv w1 w2 v s w3 W B W1 W2 _ (s' & J & E) W3. pose proof (compact_neat k kv B) as EK.
    exists ([] ++ QUOTE :: k ++ QUOTE :: [] ++ ":"%char :: [] ++ s' ++ []). split; [constructor; try assumption; constructor|]. intro rest.
    rewrite <- ?app_assoc, compact_white by assumption. cbn [app]. rewrite compact_quote, <- ?app_assoc. cbn [app]. rewrite EK, <- ?app_assoc, compact_white by assumption.
    cbn [app]. rewrite compact_one by cop. rewrite <- ?app_assoc, compact_white, E, compact_white by assumption. napp.
  - intros w k kv w1 w2 v s w3 l t W B W1 W2 _ (s' & J & E) W3 _ (t' & M & EM). pose proof (compact_neat k kv B) as EK.
    exists ([] ++ QUOTE :: k ++ QUOTE :: [] ++ ":"%char :: [] ++ s' ++ [] ++ ","%char :: t'). split; [constructor; try assumption; constructor|]. intro rest.
    rewrite <- ?app_assoc, compact_white by assumption. cbn [app]. rewrite compact_quote, <- ?app_assoc. cbn [app]. rewrite EK, <- ?app_assoc, compact_white by assumption.
    cbn [app]. rewrite compact_one by cop. rewrite <- ?app_assoc, compact_white, E by assumption. rewrite <- ?app_assoc, compact_white by assumption. cbn [app].
    rewrite compact_one by cop. rewrite EM. napp.
Qed.

(** ** Indenting *)
Lemma indent_body : forall x need d s, ~ In QUOTE x -> ~ In BSLASH x -> indent true false need d (x ++ s) = x ++ indent true false need d s.
Proof.
  induction x as [|c x IH]; intros need d s A B; [reflexivity|]. cbn [app indent].
  destruct (Ascii.eqb_spec c BSLASH) as [->|]; [exfalso; apply B; now left|]. destruct (Ascii.eqb_spec c QUOTE) as [->|]; [exfalso; apply A; now left|].
  cbn [negb]. f_equal. apply IH; intro I; [apply A|apply B]; now right.
Qed.
Lemma encode_no_bslash : forall r, scalar r = true -> r <> 92 -> ~ In BSLASH (encode_rune r).
Proof.
  intros r S N. destruct (Z_lt_le_dec r 128) as [L|L].
  - apply scalar_range in S as [R _]. rewrite encode_ascii by lia. intros [E|[]]. apply (f_equal bval) in E. rewrite byte_of_val in E by lia.
    change (bval BSLASH) with 92 in E. lia.
  - intro I. pose proof (encode_high r S L) as F. rewrite Forall_forall in F. apply F in I. vm_compute in I. congruence.
Qed.
Lemma hex4_no_bslash : forall h x, hex4 h x -> ~ In BSLASH h.
Proof. intros h x [a b c d w x' y z A B C D] I. apply hex_not_quote in A, B, C, D. cbn [In] in I. intuition congruence. Qed.
Lemma indent_piece : forall p v need d s, piece p v -> indent true false need d (p ++ s) = p ++ indent true false need d s.
Proof.
  assert (U : forall need d s, indent true false need d (bs "\u" ++ s) = bs "\u" ++ indent true false need d s) by reflexivity.
  assert (H : forall h x need d s, hex4 h x -> indent true false need d (h ++ s) = h ++ indent true false need d s).
  { intros h x need d s X. apply indent_body; [now apply (hex4_no_quote h x)|now apply (hex4_no_bslash h x)]. }
  intros p v need d s P. destruct P as [r S R N1 N2|e z I|h x X H1 H2|h x k y X H1 Y H2].
  - apply indent_body; [now apply encode_no_quote|now apply encode_no_bslash].
  - reflexivity.
  - rewrite <- !app_assoc, U, (H h x) by exact X. reflexivity.
  - rewrite <- !app_assoc, U, (H h x), U, (H k y) by assumption. reflexivity.
Qed.
Lemma indent_strict : forall b v need d rest, strict b v -> indent true false need d (b ++ QUOTE :: rest) = b ++ QUOTE :: indent false false need d rest.
Proof. intros b v need d rest H. induction H as [|p v s w P H IH]; [reflexivity|]. rewrite <- !app_assoc, (indent_piece p v) by exact P. now rewrite IH. Qed.
Lemma new_line_white : forall d, white (new_line d).
Proof. intro d. unfold new_line. constructor; [cbn; auto|]. induction d as [|d IH]; [constructor|]. cbn [repeat concat]. apply Forall_app. split; [repeat constructor; cbn; auto|exact IH]. Qed.
Lemma indent_white : forall w need d s, white w -> (need = true \/ (1 <= d)%nat) -> indent false false need d (w ++ s) = indent false false need d s.
Proof.
  induction w as [|c w IH]; intros need d s W C; [reflexivity|]. inversion W as [|? ? I W']; subst. apply is_ws_iff in I. cbn [app indent]. rewrite I.
  replace (true && negb (Nat.eqb d 0 && negb need)) with true; [now apply IH|]. destruct need; [now rewrite andb_false_r|]. destruct d; [destruct C; [discriminate|lia]|reflexivity].
Qed.
(** a byte that is neither white space nor punctuation *)
Definition inert (c : ascii) : Prop := is_ws c = false /\ ~ In c (bs "{}[],:""").
Lemma inert_eqs : forall c, inert c -> is_ws c = false /\ (c =? "{")%char = false /\ (c =? "}")%char = false /\ (c =? "[")%char = false /\ (c =? "]")%char = false /\
  (c =? ",")%char = false /\ (c =? ":")%char = false /\ (c =? QUOTE)%char = false.
Proof.
  intros c [W N]. split; [exact W|]. repeat split; apply Ascii.eqb_neq; intros ->; apply N; vm_compute; auto 10.
Qed.
Lemma indent_inert : forall x d s, Forall inert x -> indent false false false d (x ++ s) = x ++ indent false false false d s.
Proof.
  induction x as [|c x IH]; intros d s F; [reflexivity|]. inversion F as [|? ? I F']; subst. destruct (inert_eqs c I) as (E1 & E2 & E3 & E4 & E5 & E6 & E7 & E8).
  cbn [app indent]. rewrite E1, E2, E3, E4, E5, E6, E7, E8. cbn [andb orb]. f_equal. now apply IH.
Qed.
Lemma indent_inert_need : forall c x d s, Forall inert (c :: x) ->
  indent false false true d ((c :: x) ++ s) = new_line (S d) ++ (c :: x) ++ indent false false false (S d) s.
Proof.
  intros c x d s F. inversion F as [|? ? I F']; subst. destruct (inert_eqs c I) as (E1 & E2 & E3 & E4 & E5 & E6 & E7 & E8).
  cbn [app indent]. rewrite E1, E2, E3, E4, E5, E8. cbn [andb orb negb]. f_equal. f_equal. now apply indent_inert.
Qed.
Lemma number_inert : forall n, number_text n -> Forall inert n.
Proof.
  intros n N. apply number_chars in N. revert N. apply Forall_impl. intros c [D|I].
  - unfold digit in D. vm_compute in D. repeat destruct D as [<-|D]; try (split; [reflexivity|vm_compute; intuition discriminate]). destruct D.
  - vm_compute in I. repeat destruct I as [<-|I]; try (split; [reflexivity|vm_compute; intuition discriminate]). destruct I.
Qed.
Lemma elements_white_end : forall body l s w, white w -> elements body l s -> elements body l (s ++ w).
Proof.
  intros body l s w W H. induction H; rewrite <- !app_assoc; constructor; auto. apply Forall_app; auto.
Qed.
Lemma members_white_end : forall body l s w, white w -> members body l s -> members body l (s ++ w).
Proof.
  intros body l s w W H. induction H.
  - replace ((w0 ++ QUOTE :: k ++ QUOTE :: w1 ++ ":"%char :: w2 ++ s ++ w3) ++ w) with (w0 ++ QUOTE :: k ++ QUOTE :: w1 ++ ":"%char :: w2 ++ s ++ (w3 ++ w)) by napp.
    constructor; auto. apply Forall_app; auto.
  - replace ((w0 ++ QUOTE :: k ++ QUOTE :: w1 ++ ":"%char :: w2 ++ s ++ w3 ++ ","%char :: t) ++ w) with (w0 ++ QUOTE :: k ++ QUOTE :: w1 ++ ":"%char :: w2 ++ s ++ w3 ++ ","%char :: (t ++ w)) by napp.
    constructor; auto.
Qed.
(** [s], put at depth [d], first after a bracket or not, becomes [s'] *)
Definition indents (d : nat) (s s' : bytes) : Prop :=
  (forall rest, indent false false false d (s ++ rest) = s' ++ indent false false false d rest) /\
  (forall e rest, d = S e -> indent false false true e (s ++ rest) = new_line d ++ s' ++ indent false false false d rest).
Definition indents_list (d : nat) (s s' : bytes) : Prop :=
  (forall rest, indent false false false (S d) (s ++ rest) = s' ++ indent false false false (S d) rest) /\
  (forall rest, indent false false true d (s ++ rest) = new_line (S d) ++ s' ++ indent false false false (S d) rest).
Lemma indents_inert : forall c x d, Forall inert (c :: x) -> indents d (c :: x) (c :: x).
Proof. intros c x d F. split; [intros; now apply indent_inert|]. intros e rest ->. now apply indent_inert_need. Qed.
Lemma indents_string : forall b v d, strict b v -> indents d (QUOTE :: b ++ [QUOTE]) (QUOTE :: b ++ [QUOTE]).
Proof.
  intros b v d B. split.
  - intro rest. cbn [app indent]. change (is_ws QUOTE) with false. cbn [andb]. change ((QUOTE =? "{") || (QUOTE =? "["))%char with false.
    change (QUOTE =? ",")%char with false. change (QUOTE =? ":")%char with false. change ((QUOTE =? "}") || (QUOTE =? "]"))%char with false. change (QUOTE =? QUOTE)%char with true. cbv iota.
    rewrite <- !app_assoc. cbn [app]. now rewrite (indent_strict b v).
  - intros e rest ->. cbn [app indent]. change (is_ws QUOTE) with false. cbn [andb]. change ((QUOTE =? "{") || (QUOTE =? "["))%char with false.
    change ((QUOTE =? "}") || (QUOTE =? "]"))%char with false. change (QUOTE =? QUOTE)%char with true. cbn [negb]. cbv iota.
    rewrite <- !app_assoc. cbn [app]. now rewrite (indent_strict b v).
Qed.
Lemma open_step : forall c d s, (c = "{" \/ c = "[")%char -> indent false false false d (c :: s) = c :: indent false false true d s.
Proof. intros c d s [->| ->]; reflexivity. Qed.
Lemma open_need : forall c d s, (c = "{" \/ c = "[")%char -> indent false false true d (c :: s) = new_line (S d) ++ c :: indent false false true (S d) s.
Proof. intros c d s [->| ->]; reflexivity. Qed.
Lemma close_empty : forall c d s, (c = "}" \/ c = "]")%char -> indent false false true d (c :: s) = c :: indent false false false d s.
Proof. intros c d s [->| ->]; reflexivity. Qed.
Lemma close_step : forall c d s, (c = "}" \/ c = "]")%char -> indent false false false (S d) (c :: s) = new_line d ++ c :: indent false false false d s.
Proof. intros c d s [->| ->]; reflexivity. Qed.
Lemma comma_step : forall d s, indent false false false d (","%char :: s) = ","%char :: new_line d ++ indent false false false d s.
Proof. reflexivity. Qed.
Lemma colon_step : forall d s, indent false false false d (":"%char :: s) = ":"%char :: SP :: indent false false false d s.
Proof. reflexivity. Qed.
Lemma indents_empty : forall o c w d, (o = "{" /\ c = "}" \/ o = "[" /\ c = "]")%char -> white w -> indents d (o :: w ++ [c]) [o; c].
Proof.
  intros o c w d P W. assert (O : (o = "{" \/ o = "[")%char) by tauto. assert (C : (c = "}" \/ c = "]")%char) by tauto. split.
  - intro rest. cbn [app]. rewrite (open_step o d _ O), <- app_assoc, indent_white by auto. cbn [app]. now rewrite (close_empty c d rest C).
  - intros e rest ->. cbn [app]. rewrite (open_need o e _ O), <- app_assoc, indent_white by auto. cbn [app]. now rewrite (close_empty c (S e) rest C).
Qed.
Lemma indents_bracket : forall o c s s' d, (o = "{" /\ c = "}" \/ o = "[" /\ c = "]")%char -> indents_list d s s' ->
  indents d (o :: s ++ [c]) (o :: (new_line (S d) ++ s' ++ new_line d) ++ [c]).
Proof.
  intros o c s s' d P [A B]. assert (O : (o = "{" \/ o = "[")%char) by tauto. assert (C : (c = "}" \/ c = "]")%char) by tauto. split.
  - intro rest. cbn [app]. rewrite (open_step o d _ O), <- app_assoc, B. cbn [app]. rewrite (close_step c d rest C). napp.
  - intros e rest ->. cbn [app]. rewrite (open_need o e _ O), <- app_assoc, B. cbn [app]. rewrite (close_step c (S e) rest C). napp.
Qed.
(** the words "key": of a member *)
Lemma indents_key : forall k kv d s, strict k kv ->
  indent false false false d (QUOTE :: k ++ QUOTE :: s) = QUOTE :: k ++ QUOTE :: indent false false false d s /\
  indent false false true d (QUOTE :: k ++ QUOTE :: s) = new_line (S d) ++ QUOTE :: k ++ QUOTE :: indent false false false (S d) s.
Proof.
  intros k kv d s K. pose proof (indents_string k kv) as I. split.
  - destruct (I d K) as [A _]. specialize (A s). cbn [app] in A. rewrite <- !app_assoc in A. exact A.
  - destruct (I (S d) K) as [_ A]. specialize (A d s eq_refl). cbn [app] in A. rewrite <- !app_assoc in A. exact A.
Qed.

Lemma new_line_next : forall d, new_line d = next_line d.
Proof.
  intro d. unfold new_line, next_line. f_equal. induction d as [|d IH]; [reflexivity|]. cbn [repeat concat]. rewrite IH. replace (2 * S d)%nat with (S (S (2 * d))) by lia. reflexivity.
Qed.
Lemma indent_jtext :
  (forall v s, jtext neat v s -> forall d, exists s', laid d v s' /\ indents d s s') /\
  (forall l s, elements neat l s -> forall d, exists s', laid_list (S d) l s' /\ indents_list d s s') /\
  (forall l s, members neat l s -> forall d, exists s', laid_members (S d) l s' /\ indents_list d s s').
Proof.
  apply (jtext_mutual neat
    (fun v s _ => forall d, exists s', laid d v s' /\ indents d s s')
    (fun l s _ => forall d, exists s', laid_list (S d) l s' /\ indents_list d s s')
    (fun l s _ => forall d, exists s', laid_members (S d) l s' /\ indents_list d s s')).
  - intro d. exists (bs "null"). split; [constructor|]. apply indents_inert. repeat constructor; vm_compute; intuition discriminate.
  - intro d. exists (bs "true"). split; [constructor|]. apply indents_inert. repeat constructor; vm_compute; intuition discriminate.
  - intro d. exists (bs "false"). split; [constructor|]. apply indents_inert. repeat constructor; vm_compute; intuition discriminate.
  - intros n N d. exists n. split; [now constructor|]. destruct (number_first n N) as (c & t & E & _). pose proof (number_inert n N) as F. subst n. now apply indents_inert.
  - intros s v B d. exists (QUOTE :: s ++ [QUOTE]). split; [now constructor|]. apply (indents_string s v), neat_strict, B.
  - intros w W d. exists (bs "[]"). split; [constructor|]. apply indents_empty; auto.
  - intros l s _ IH d. destruct (IH d) as (s' & J & I). eexists. split; [apply la_arr; exact J|]. rewrite <- !new_line_next.
    replace (bs "[" ++ new_line (S d) ++ s' ++ new_line d ++ bs "]") with ("["%char :: (new_line (S d) ++ s' ++ new_line d) ++ bs "]") by napp.
    apply (indents_bracket "[" "]" s s' d); [now right|exact I].
  - intros w W d. exists (bs "{}"). split; [constructor|]. apply indents_empty; auto.
  - intros l s _ IH d. destruct (IH d) as (s' & J & I). eexists. split; [apply la_obj; exact J|]. rewrite <- !new_line_next.
    replace (bs "{" ++ new_line (S d) ++ s' ++ new_line d ++ bs "}") with ("{"%char :: (new_line (S d) ++ s' ++ new_line d) ++ bs "}") by napp.
    apply (indents_bracket "{" "}" s s' d); [now left|exact I].
  - intros w v s w' W _ IH W' d. destruct (IH (S d)) as (s' & J & A & B). exists s'. split; [now constructor|]. split; intro rest.
    + rewrite <- !app_assoc, indent_white by (auto; right; lia). rewrite A, indent_white by (auto; right; lia). napp.
    + rewrite <- !app_assoc, indent_white by auto. rewrite (B d _ eq_refl), indent_white by (auto; right; lia). napp.
  - intros w v s w' l t W _ IH W' _ IHM d. destruct (IH (S d)) as (s' & J & A & B). destruct (IHM d) as (t' & M & C & _).
    exists (s' ++ bs "," ++ next_line (S d) ++ t'). split; [now constructor|]. rewrite <- new_line_next. split; intro rest.
    + rewrite <- !app_assoc, indent_white by (auto; right; lia). rewrite A, indent_white by (auto; right; lia). cbn [app]. rewrite comma_step, C. napp.
    + rewrite <- !app_assoc, indent_white by auto. rewrite (B d _ eq_refl), indent_white by (auto; right; lia). cbn [app]. rewrite comma_step, C. napp.
  - intros w k kv w1 w2 v s w3 W K W1 W2 _ IH W3 d. destruct (IH (S d)) as (s' & J & A & B).
    exists (QUOTE :: k ++ QUOTE :: bs ": " ++ s'). split; [now constructor|]. apply neat_strict in K.
    assert (X : forall rest, indent false false false (S d) ((w1 ++ ":"%char :: w2 ++ s ++ w3) ++ rest) = ":"%char :: SP :: s' ++ indent false false false (S d) rest).
    { intro rest. rewrite <- !app_assoc, indent_white by (auto; right; lia). cbn [app]. rewrite colon_step. rewrite <- !app_assoc, indent_white by (auto; right; lia).
      rewrite A, indent_white by (auto; right; lia). reflexivity. }
    split; intro rest.
    + rewrite <- app_assoc, indent_white by (auto; right; lia). cbn [app]. rewrite <- app_assoc. cbn [app]. rewrite (proj1 (indents_key k kv (S d) _ K)), X. napp.
    + rewrite <- app_assoc, indent_white by auto. cbn [app]. rewrite <- app_assoc. cbn [app]. rewrite (proj2 (indents_key k kv d _ K)), X. napp.
  - intros w k kv w1 w2 v s w3 l t W K W1 W2 _ IH W3 _ IHM d. destruct (IH (S d)) as (s' & J & A & B). destruct (IHM d) as (t' & M & C & _).
    exists (QUOTE :: k ++ QUOTE :: bs ": " ++ s' ++ bs "," ++ next_line (S d) ++ t'). split; [now constructor|]. apply neat_strict in K. rewrite <- new_line_next.
    assert (X : forall rest, indent false false false (S d) ((w1 ++ ":"%char :: w2 ++ s ++ w3 ++ ","%char :: t) ++ rest) =
      ":"%char :: SP :: s' ++ ","%char :: new_line (S d) ++ t' ++ indent false false false (S d) rest).
    { intro rest. rewrite <- !app_assoc, indent_white by (auto; right; lia). cbn [app]. rewrite colon_step. rewrite <- !app_assoc, indent_white by (auto; right; lia).
      rewrite A, indent_white by (auto; right; lia). cbn [app]. rewrite comma_step, C. reflexivity. }
    split; intro rest.
    + rewrite <- app_assoc, indent_white by (auto; right; lia). cbn [app]. rewrite <- app_assoc. cbn [app]. rewrite (proj1 (indents_key k kv (S d) _ K)), X. napp.
    + rewrite <- app_assoc, indent_white by auto. cbn [app]. rewrite <- app_assoc. cbn [app]. rewrite (proj2 (indents_key k kv d _ K)), X. napp.
Qed.
(** the layout is JSON *)
Lemma laid_jtext :
  (forall d v s, laid d v s -> jtext strict v s) /\ (forall d l s, laid_list d l s -> elements strict l s) /\ (forall d l s, laid_members d l s -> members strict l s).
Proof.
  assert (SPW : white [SP]) by (repeat constructor; cbn; auto). assert (NL : forall d, white (next_line d)) by (intro d; rewrite <- new_line_next; apply new_line_white).
  apply (laid_mutual (fun d v s _ => jtext strict v s) (fun d l s _ => elements strict l s) (fun d l s _ => members strict l s)).
  1-3: intros; constructor.
  - intros d n N. now constructor.
  - intros d s v B. constructor. now apply neat_strict.
  - intro d. apply (jt_arr0 strict []). constructor.
  - intros d l s _ E. replace (bs "[" ++ next_line (S d) ++ s ++ next_line d ++ bs "]") with ("["%char :: (next_line (S d) ++ s ++ next_line d) ++ bs "]") by napp.
    apply jt_arr. apply elements_white; [apply NL|]. apply elements_white_end; [apply NL|exact E].
  - intro d. apply (jt_obj0 strict []). constructor.
  - intros d l s _ E. replace (bs "{" ++ next_line (S d) ++ s ++ next_line d ++ bs "}") with ("{"%char :: (next_line (S d) ++ s ++ next_line d) ++ bs "}") by napp.
    apply jt_obj. apply members_white; [apply NL|]. apply members_white_end; [apply NL|exact E].
  - intros d v s _ J. replace s with ([] ++ s ++ []) by napp. constructor; [constructor|exact J|constructor].
  - intros d v s l t _ J _ E. replace (s ++ bs "," ++ next_line d ++ t) with ([] ++ s ++ [] ++ ","%char :: (next_line d ++ t)) by napp.
    constructor; [constructor|exact J|constructor|]. apply elements_white; [apply NL|exact E].
  - intros d k kv v s K _ J. replace (QUOTE :: k ++ QUOTE :: bs ": " ++ s) with ([] ++ QUOTE :: k ++ QUOTE :: [] ++ ":"%char :: [SP] ++ s ++ []) by napp.
    constructor; [constructor|now apply neat_strict|constructor|exact SPW|exact J|constructor].
  - intros d k kv v s l t K _ J _ E.
    replace (QUOTE :: k ++ QUOTE :: bs ": " ++ s ++ bs "," ++ next_line d ++ t) with ([] ++ QUOTE :: k ++ QUOTE :: [] ++ ":"%char :: [SP] ++ s ++ [] ++ ","%char :: (next_line d ++ t)) by napp.
    constructor; [constructor|now apply neat_strict|constructor|exact SPW|exact J|constructor|]. apply members_white; [apply NL|exact E].
Qed.

(** ** Messages and catalogs *)
Lemma message_within : forall m, within 1 (clean (marshal_message m)).
Proof.
  intro m. unfold marshal_message. set (tr := if Nat.eqb _ 0 then _ else _). clearbody tr.
  destruct (is_nil (j_comment m) && is_nil (j_context m) && Nat.eqb (length tr) 1); [constructor|].
  cbn [clean]. constructor. intros k v I. apply in_map_iff in I as ([k' v'] & Q & I). apply pair_equal_spec in Q as [_ <-]. cbn [snd].
  rewrite !in_app_iff in I. destruct I as [I|[I|I]].
  - destruct (is_nil (j_comment m)); [destruct I|]. destruct I as [I|[]]. apply pair_equal_spec in I as [_ <-]. constructor.
  - destruct (is_nil (j_context m)); [destruct I|]. destruct I as [I|[]]. apply pair_equal_spec in I as [_ <-]. constructor.
  - apply in_flat_map in I as (c & _ & I). destruct (cat_get tr c); [|destruct I]. destruct I as [I|[]]. apply pair_equal_spec in I as [_ <-]. constructor.
Qed.
Lemma catalog_within : forall tag (c : jcat tag), within 2 (clean (marshal_catalog tag c)).
Proof.
  intros tag c. unfold marshal_catalog. cbn [clean]. constructor. intros k v I. apply in_map_iff in I as ([k' v'] & Q & I).
  apply pair_equal_spec in Q as [_ <-]. cbn [snd]. apply in_map_iff in I as ([k2 m] & Q & _). apply pair_equal_spec in Q as [_ <-]. cbn [snd]. apply message_within.
Qed.
Lemma small_shallow : forall n v, (n <= 2)%nat -> within n v -> shallow v.
Proof. intros n v L W. apply (within_more n v W). lia. Qed.
Lemma compacted_text : forall v s, shallow v -> jtext neat v s -> exists s', compacted s = Ok s' /\ jtext neat v s'.
Proof.
  intros v s SH J. destruct (proj1 compact_jtext v s J) as (s' & J' & E). specialize (E []). rewrite !app_nil_r in E. exists s'. split; [|exact J'].
  unfold compacted. assert (P : parse_json s = Ok v).
  { apply parse_json_iff. split; [|exact SH]. apply document_strict. pose proof (doc strict [] v s []) as D. cbn [app] in D. rewrite app_nil_r in D. apply D; [constructor| |constructor].
    now apply (jtext_incl neat strict neat_strict). }
  rewrite P. cbn [rbind]. rewrite E. reflexivity.
Qed.
Lemma indented_text : forall v s, shallow v -> jtext neat v s -> exists s', indented (s ++ [LF]) = Ok (s' ++ [LF]) /\ laid 0 v s'.
Proof.
  intros v s SH J. destruct (proj1 indent_jtext v s J 0%nat) as (s' & J' & E & _). specialize (E [LF]). exists s'. split; [|exact J'].
  unfold indented. assert (P : parse_json (s ++ [LF]) = Ok v).
  { apply parse_json_iff. split; [|exact SH]. apply document_strict. apply (doc strict [] v s [LF]); [constructor|now apply (jtext_incl neat strict neat_strict)|constructor; [cbn; auto|constructor]]. }
  rewrite P. cbn [rbind]. rewrite E. reflexivity.
Qed.
Lemma key_neat : forall k, Forall (fun c => 97 <= bval c <= 122) k -> neat k k.
Proof.
  induction k as [|c k IH]; intro F; [constructor|]. inversion F; subst. apply (ne_piece [c] [c] k k); [|now apply IH].
  rewrite <- (byte_of_bval c), <- encode_ascii by lia. apply np_char; [unfold scalar, in_rng; lia|unfold coded; cbn [In]; lia|cbn [map snd short_escapes In]; lia].
Qed.
Lemma key_clean : forall k, Forall (fun c => 97 <= bval c <= 122) k -> sanitized k = k.
Proof.
  intros k F. assert (E : k = encode_all (map bval k)).
  { induction F as [|c k C F IH]; [reflexivity|]. unfold encode_all. cbn [map concat]. rewrite encode_ascii by lia. rewrite byte_of_bval. cbn [app]. f_equal. exact IH. }
  unfold sanitized. rewrite E at 1. rewrite <- (app_nil_r (encode_all (map bval k))), runes_encode.
  - change (runes []) with (@nil rune). rewrite app_nil_r. now symmetry.
  - apply Forall_forall. intros r I. apply in_map_iff in I as (c & <- & I). rewrite Forall_forall in F. specialize (F c I). unfold scalar, in_rng. lia.
Qed.
Lemma commas_cons : forall x l, l <> [] -> commas (x :: l) = x ++ bs "," ++ commas l.
Proof. intros x [|y l] H; [congruence|reflexivity]. Qed.
(** members of a written message *)
Definition key_ok (k : bytes) : Prop := Forall (fun c => 97 <= bval c <= 122) k.
Lemma members_of : forall l, l <> [] -> Forall (fun kv => key_ok (fst kv)) l ->
  members neat (map (fun kv => (fst kv, JStr (sanitized (snd kv)))) l) (commas (map (fun kv => member_text (fst kv) (snd kv)) l)).
Proof.
  assert (SPW : white [SP]) by (repeat constructor; cbn; auto).
  assert (T : forall k v, member_text k v = QUOTE :: k ++ QUOTE :: [] ++ ":"%char :: [SP] ++ put_string v) by reflexivity.
  induction l as [|[k v] l IH]; intros NE F; [congruence|]. inversion F as [|? ? K F']; subst. cbn [fst snd map] in *. destruct l as [|y l].
  - cbn [map commas]. rewrite T. replace (QUOTE :: k ++ QUOTE :: [] ++ ":"%char :: [SP] ++ put_string v) with ([] ++ QUOTE :: k ++ QUOTE :: [] ++ ":"%char :: [SP] ++ put_string v ++ []) by napp.
    apply me_one; [constructor|now apply key_neat|constructor|exact SPW|apply put_string_text|constructor].
  - rewrite commas_cons by discriminate. rewrite T.
    replace ((QUOTE :: k ++ QUOTE :: [] ++ ":"%char :: [SP] ++ put_string v) ++ bs "," ++ commas (map (fun kv => member_text (fst kv) (snd kv)) (y :: l)))
      with ([] ++ QUOTE :: k ++ QUOTE :: [] ++ ":"%char :: [SP] ++ put_string v ++ [] ++ ","%char :: commas (map (fun kv => member_text (fst kv) (snd kv)) (y :: l))) by napp.
    apply me_cons; [constructor|now apply key_neat|constructor|exact SPW|apply put_string_text|constructor|]. apply IH; [discriminate|exact F'].
Qed.
Lemma flat_map_map : forall A B C (f : B -> C) (g : A -> list B) l, map f (flat_map g l) = flat_map (fun a => map f (g a)) l.
Proof. intros A B C f g. induction l as [|a l IH]; [reflexivity|]. cbn [flat_map]. now rewrite map_app, IH. Qed.
Definition cat_texts (t : catmap) : list (bytes * bytes) := flat_map (fun c => match cat_get t c with Some s => [(cat_name c, s)] | None => [] end) all_categories.
Lemma cat_texts_key : forall t, Forall (fun kv => key_ok (fst kv)) (cat_texts t).
Proof.
  intro t. apply Forall_forall. intros [k s] I. apply in_flat_map in I as (c & _ & I). destruct (cat_get t c); [|destruct I]. destruct I as [I|[]]. injection I as <- _.
  destruct c; repeat constructor; vm_compute; discriminate.
Qed.
Lemma cat_texts_ne : forall t, t <> [] -> cat_texts t <> [].
Proof.
  intros [|[c s] t] N; [congruence|]. intros E. assert (I : In (cat_name c, s) (cat_texts ((c, s) :: t))); [|rewrite E in I; destruct I].
  apply in_flat_map. exists c. split; [destruct c; cbn; auto 10|]. cbn [cat_get]. replace (cat_eqb c c) with true by (destruct c; reflexivity). now left.
Qed.
Lemma message_text_ok : forall m, jtext neat (clean (marshal_message m)) (message_text m).
Proof.
  intro m. unfold marshal_message, message_text. set (tr := if Nat.eqb _ 0 then _ else _).
  assert (NT : tr <> []).
  { unfold tr. destruct (match j_tr m with Some t => t | None => [] end) as [|p t]; cbn; discriminate. }
  clearbody tr. destruct (is_nil (j_comment m) && is_nil (j_context m) && Nat.eqb (length tr) 1); [apply put_string_text|].
  set (L := (if is_nil (j_comment m) then [] else [(bs "comment", j_comment m)]) ++ (if is_nil (j_context m) then [] else [(bs "context", j_context m)]) ++ cat_texts tr).
  assert (KO : Forall (fun kv => key_ok (fst kv)) L).
  { assert (K1 : key_ok (bs "comment")) by (repeat constructor; vm_compute; discriminate). assert (K2 : key_ok (bs "context")) by (repeat constructor; vm_compute; discriminate).
    unfold L. rewrite !Forall_app. split; [destruct (is_nil (j_comment m)); auto|]. split; [destruct (is_nil (j_context m)); auto|apply cat_texts_key]. }
  assert (NE : cat_texts tr <> []) by (apply cat_texts_ne, NT).
  assert (ML : forall V (f : bytes * bytes -> V), flat_map (fun c => match cat_get tr c with Some s => [f (cat_name c, s)] | None => [] end) all_categories = map f (cat_texts tr)).
  { intros V f. unfold cat_texts. rewrite flat_map_map. apply flat_map_ext. intro c. destruct (cat_get tr c); reflexivity. }
  assert (NL : L <> []).
  { unfold L. intro E. apply app_eq_nil in E as [_ E]. apply app_eq_nil in E as [_ E]. contradiction. }
  pose proof (members_of L NL KO) as M.
  assert (NM : forall (f : bytes * bytes -> bytes), map f (cat_texts tr) <> []) by (intros f E; apply map_eq_nil in E; contradiction).
  set (g := fun kv => member_text (fst kv) (snd kv)) in M.
  match goal with |- jtext neat ?v ?t => replace t with ("{"%char :: commas (map g L) ++ bs "}"); [replace v with (JObj (map (fun kv => (fst kv, JStr (sanitized (snd kv)))) L))|] end.
  - now apply jt_obj.
  - cbn [clean]. f_equal. pose proof (ML _ (fun kv => (fst kv, JStr (snd kv)))) as Q. cbn [fst snd] in Q. rewrite Q. clear Q. unfold L. rewrite !map_app, !map_map. cbn [fst snd clean].
    assert (X : map (fun kv : bytes * bytes => (fst kv, JStr (sanitized (snd kv)))) (cat_texts tr) = map (fun x => (sanitized (fst x), JStr (sanitized (snd x)))) (cat_texts tr)).
    { apply map_ext_in. intros kv I. pose proof (cat_texts_key tr) as F. rewrite Forall_forall in F. rewrite (key_clean (fst kv) (F kv I)). reflexivity. }
    rewrite X. destruct (is_nil (j_comment m)), (is_nil (j_context m)); reflexivity.
  - pose proof (ML _ g) as Q. unfold g at 1 in Q. cbn [fst snd] in Q. rewrite Q. clear Q. unfold L. rewrite !map_app. destruct (is_nil (j_comment m)), (is_nil (j_context m)); cbn [map app].
    + reflexivity.
    + rewrite commas_cons by apply NM. unfold g at 1. cbn [fst snd]. napp.
    + rewrite commas_cons by apply NM. unfold g at 1. cbn [fst snd]. napp.
    + rewrite commas_cons by discriminate. rewrite commas_cons by apply NM. unfold g at 1 2. cbn [fst snd]. napp.
Qed.
Lemma member_texts_ok : forall l, exists ts, member_texts l = Ok ts /\
  (l <> [] -> members neat (map (fun km => (sanitized (fst km), clean (marshal_message (snd km)))) l) (commas ts)) /\ (l = [] -> ts = []) /\ length ts = length l.
Proof.
  induction l as [|[k m] l (ts & E & M & Z & L)]; [exists []; split; [reflexivity|split; [congruence|auto]]|].
  destruct (compacted_text _ _ (small_shallow 1 _ ltac:(lia) (message_within m)) (message_text_ok m)) as (t & C & J). cbn [member_texts]. rewrite C, E. cbn [rbind]. eexists. split; [reflexivity|]. split; [|split; [discriminate|cbn; now rewrite L]].
  intros _. cbn [map fst snd].
  assert (T : forall r, (put_string k ++ bs ":" ++ t) ++ r = [] ++ QUOTE :: put_runes (length k) k ++ QUOTE :: [] ++ ":"%char :: [] ++ t ++ r) by (intro r; unfold put_string; napp).
  destruct l as [|y l].
  - rewrite (Z eq_refl). cbn [commas map]. rewrite <- (app_nil_r (put_string k ++ bs ":" ++ t)), T.
    apply me_one; [constructor|apply put_runes_neat|constructor|constructor|exact J|constructor].
  - destruct ts as [|t0 ts]; [discriminate|]. rewrite commas_cons by discriminate. rewrite T. change (t ++ bs "," ++ commas (t0 :: ts)) with (t ++ [] ++ ","%char :: commas (t0 :: ts)).
    apply me_cons; [constructor|apply put_runes_neat|constructor|constructor|exact J|constructor|]. apply M. discriminate.
Qed.
Theorem encode_json_text : forall tag (c : jcat tag), exists t, encode_json tag (Some c) = Ok (t ++ [LF]) /\ laid 0 (clean (marshal_catalog tag c)) t.
Proof.
  intros tag c. cbn [encode_json]. unfold catalog_text, marshal_catalog. cbn [clean]. rewrite map_map. cbn [fst snd].
  destruct (member_texts_ok (sorted_keys (j_messages tag c))) as (ts & E & M & Z & _). rewrite E. cbn [rbind].
  assert (J : jtext neat (JObj (map (fun km => (sanitized (fst km), clean (marshal_message (snd km)))) (sorted_keys (j_messages tag c)))) (bs "{" ++ commas ts ++ bs "}")).
  { destruct (sorted_keys (j_messages tag c)) as [|x l]; [rewrite (Z eq_refl); apply (jt_obj0 neat []); constructor|]. apply jt_obj. apply M. discriminate. }
  pose proof (small_shallow 2 _ (le_n 2) (catalog_within tag c)) as SH. unfold marshal_catalog in SH. cbn [clean] in SH. rewrite map_map in SH. cbn [fst snd] in SH. destruct (compacted_text _ _ SH J) as (t1 & C & J1). rewrite C. cbn [rbind]. destruct (indented_text _ _ SH J1) as (t2 & I & J2). rewrite I. eauto.
Qed.

(** ** UTF-8 *)
Lemma encode_all_app : forall a b, encode_all (a ++ b) = encode_all a ++ encode_all b.
Proof. intros a b. unfold encode_all. now rewrite map_app, concat_app. Qed.
Lemma valid_app : forall a b, valid_utf8 a -> valid_utf8 b -> valid_utf8 (a ++ b).
Proof.
  intros a b (x & X & ->) (y & Y & ->). exists (x ++ y). split; [apply Forall_app; auto|]. now rewrite encode_all_app.
Qed.
Lemma valid_rune : forall r, valid_utf8 (encode_rune r).
Proof.
  intro r. assert (E : encode_rune r = encode_rune (if scalar r then r else RuneError)).
  { unfold encode_rune. destruct (scalar r) eqn:S; [now rewrite S|]. reflexivity. }
  rewrite E. exists [if scalar r then r else RuneError]. split; [|unfold encode_all; cbn; now rewrite app_nil_r].
  constructor; [|constructor]. destruct (scalar r) eqn:S; [exact S|reflexivity].
Qed.
Lemma valid_piece : forall p v, piece p v -> valid_utf8 v.
Proof.
  intros p v P. destruct P; try apply valid_rune. cbn [In json_escapes] in H. 
  repeat destruct H as [H|H]; try (injection H as _ <-; match goal with |- valid_utf8 [byte_of ?z] => apply (valid_rune z) end). destruct H.
Qed.
Lemma valid_lenient : forall b v, lenient b v -> valid_utf8 v.
Proof.
  induction 1; [exists []; split; [constructor|reflexivity]| | |]; (apply valid_app; [|assumption]); [eapply valid_piece; eassumption| |]; apply valid_rune.
Qed.
Lemma read_utf8 : (forall v s, jtext lenient v s -> all_utf8 v) /\ (forall l s, elements lenient l s -> Forall all_utf8 l) /\
  (forall l s, members lenient l s -> Forall (fun kv => valid_utf8 (fst kv)) l /\ Forall (fun kv => all_utf8 (snd kv)) l).
Proof.
  apply (jtext_mutual lenient (fun v _ _ => all_utf8 v) (fun l _ _ => Forall all_utf8 l)
    (fun l _ _ => Forall (fun kv => valid_utf8 (fst kv)) l /\ Forall (fun kv => all_utf8 (snd kv)) l)); intros; try (constructor; auto; fail).
  - constructor. eapply valid_lenient; eassumption.
  - destruct H. now constructor.
  - split; constructor; try constructor; cbn [fst snd]; auto. eapply valid_lenient; eassumption.
  - destruct H0. split; constructor; cbn [fst snd]; auto. eapply valid_lenient; eassumption.
Qed.
Lemma sanitized_valid : forall s, valid_utf8 (sanitized s).
Proof. intro s. exists (runes s). split; [apply runes_scalar|reflexivity]. Qed.
Lemma valid_sanitized : forall s, valid_utf8 s -> sanitized s = s.
Proof.
  intros s (rs & F & ->). unfold sanitized. pose proof (runes_encode rs [] F) as E. rewrite app_nil_r in E. rewrite E. change (runes []) with (@nil rune). now rewrite app_nil_r.
Qed.
Lemma clean_utf8 : forall v, all_utf8 v -> clean v = v.
Proof.
  fix IH 1. intros v H. destruct v as [| | |s|l|l]; try reflexivity; cbn [clean].
  - inversion H; subst. now rewrite valid_sanitized.
  - f_equal. inversion H as [| | | |? F|]; subst. clear H. revert l F. fix IHl 1. intros [|x l] F; [reflexivity|]. cbn [map].
    f_equal; [apply IH; now inversion F|apply IHl; now inversion F].
  - f_equal. inversion H as [| | | | |? F G]; subst. clear H. revert l F G. fix IHl 1. intros [|[k x] l] F G; [reflexivity|]. cbn [map fst snd].
    f_equal; [f_equal|apply IHl; [now inversion F|now inversion G]]; [apply valid_sanitized; now inversion F|apply IH; now inversion G].
Qed.
