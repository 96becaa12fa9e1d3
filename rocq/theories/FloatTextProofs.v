(** strconv.ParseFloat accepts the texts of the Go specification. *)
From Coq Require Import String Ascii List ZArith QArith Qpower Qabs Bool Lia ZifyBool.
From Verif Require Import Base BaseProofs NumModel NumProofs F64Model F64Proofs HumModel CastModel FloatTextSpec.
Import ListNotations.
Open Scope Z_scope.
Opaque f64_round.

Lemma lower_range : forall c, 65 <= bval c <= 90 /\ bval (lower c) = bval c + 32 \/ ~ (65 <= bval c <= 90) /\ lower c = c.
Proof.
  intro c. unfold lower, is_upper. destruct ((65 <=? bval c) && (bval c <=? 90)) eqn:E.
  - left. split; [lia|]. apply byte_of_val. lia.
  - right. split; [lia|reflexivity].
Qed.
Lemma digit_of_spec : forall hex c, (digit_of hex c = None /\ ~ base_digit hex c) \/ (digit_of hex c = Some (digit_value c) /\ base_digit hex c).
Proof.
  intros hex c. unfold digit_of, is_digit, digit_val, base_digit, digit_value.
  destruct ((48 <=? bval c) && (bval c <=? 57)) eqn:D.
  - right. replace (bval c <=? 57) with true by lia. split; [reflexivity|]. left. lia.
  - destruct hex; cbn [andb]; [|left; split; [reflexivity|intros [H|[H _]]; [lia|discriminate]]].
    destruct (lower_range c) as [[R E]|[R E]]; rewrite E.
    + destruct ((97 <=? bval c + 32) && (bval c + 32 <=? 102)) eqn:H.
      * right. replace (bval c <=? 57) with false by lia. replace (bval c <=? 70) with true by lia.
        split; [f_equal; lia|]. right. split; [reflexivity|lia].
      * left. split; [reflexivity|]. intros [K|[_ [K|K]]]; lia.
    + destruct ((97 <=? bval c) && (bval c <=? 102)) eqn:H.
      * right. replace (bval c <=? 57) with false by lia. replace (bval c <=? 70) with false by lia.
        split; [reflexivity|]. right. split; [reflexivity|lia].
      * left. split; [reflexivity|]. intros [K|[_ [K|K]]]; lia.
Qed.
Lemma digit_of_some : forall hex c, base_digit hex c -> digit_of hex c = Some (digit_value c).
Proof. intros hex c H. destruct (digit_of_spec hex c) as [[_ N]|[E _]]; [contradiction|exact E]. Qed.
Lemma digit_of_none : forall hex c, ~ base_digit hex c -> digit_of hex c = None.
Proof. intros hex c H. destruct (digit_of_spec hex c) as [[E _]|[_ N]]; [exact E|contradiction]. Qed.
Lemma base_dec : forall hex c, base_digit hex c \/ ~ base_digit hex c.
Proof. intros hex c. destruct (digit_of_spec hex c) as [[_ N]|[_ E]]; auto. Qed.
Lemma dec_digit : forall c, base_digit false c <-> is_digit c = true.
Proof. intro c. unfold base_digit, is_digit. split; [intros [H|[H _]]; [lia|discriminate]|left; lia]. Qed.
Lemma dec_base : forall hex c, base_digit false c -> base_digit hex c.
Proof. intros hex c [H|[H _]]; [now left|discriminate]. Qed.
Lemma dec_value : forall c, base_digit false c -> digit_value c = digit_val c.
Proof. intros c [H|[H _]]; [|discriminate]. unfold digit_value, digit_val. now replace (bval c <=? 57) with true by lia. Qed.

(** Characters that are no digits. *)
Lemma no_digit : forall hex c d, base_digit hex c -> In d ["_"; "."; "+"; "-"; "p"; "P"; "x"; "X"]%char -> c <> d.
Proof.
  intros hex c d H I ->. unfold base_digit in H. cbn [In] in I.
  repeat (destruct I as [<-|I]; [vm_compute in H; intuition congruence|]). contradiction.
Qed.
Lemma und_eqb : forall hex c, base_digit hex c -> (c =? "_")%char = false.
Proof. intros hex c H. apply Ascii.eqb_neq. eapply no_digit; [exact H|cbn; tauto]. Qed.
Lemma dot_eqb : forall hex c, base_digit hex c -> (c =? ".")%char = false.
Proof. intros hex c H. apply Ascii.eqb_neq. eapply no_digit; [exact H|cbn; tauto]. Qed.

Notation strip := without_underscores.
Lemma strip_app : forall a b, strip (a ++ b) = (strip a ++ strip b)%list.
Proof. intros. apply filter_app. Qed.
Lemma strip_und : forall s, strip ("_"%char :: s) = strip s.
Proof. reflexivity. Qed.
Lemma strip_cons : forall c s, c <> "_"%char -> strip (c :: s) = c :: strip s.
Proof. intros c s N. unfold without_underscores. cbn [filter]. apply Ascii.eqb_neq in N. now rewrite N. Qed.
Definition has_und (s : bytes) : bool := existsb (fun c => (c =? "_")%char) s.

Definition has_dot (s : bytes) : bool := existsb (fun c => (c =? ".")%char) s.

(** ** The mantissa *)
Definition mantissa (hex dot : bool) (w ip fp : bytes) : Prop :=
  Forall (base_digit hex) ip /\ Forall (base_digit hex) fp /\
  (w = ip /\ fp = [] \/ dot = false /\ w = (ip ++ "."%char :: fp)%list).
Definition stops (hex dot : bool) (r : bytes) : Prop :=
  match r with
  | [] => True
  | c :: _ => c <> "_"%char /\ ~ base_digit hex c /\ (c = "."%char -> dot = true)
  end.

Lemma mant_split : forall hex s dot, exists t r ip fp, s = (t ++ r)%list /\ mantissa hex dot (strip t) ip fp /\
  stops hex (dot || has_dot t) r.
Proof.
  intros hex. induction s as [|c s IH]; intro dot.
  - exists [], [], [], []. split; [reflexivity|]. split; [|exact I]. repeat split; auto.
  - destruct (Ascii.eqb_spec c "_") as [->|NU].
    { destruct (IH dot) as (t & r & ip & fp & -> & M & S). exists ("_"%char :: t), r, ip, fp. auto. }
    destruct (Ascii.eqb_spec c ".") as [->|ND].
    { destruct dot.
      - exists [], ("."%char :: s), [], []. split; [reflexivity|]. split; [repeat split; auto|].
        cbn. split; [discriminate|]. split; [|reflexivity]. intro B. apply dot_eqb in B. discriminate.
      - destruct (IH true) as (t & r & ip & fp & -> & (MI & MF & [[E1 E2]|[E _]]) & S); [|discriminate].
        exists ("."%char :: t), r, [], ip. split; [reflexivity|]. split; [|exact S].
        split; [constructor|]. split; [exact MI|]. right. split; [reflexivity|]. rewrite strip_cons by discriminate. cbn. now rewrite E1. }
    destruct (base_dec hex c) as [B|B].
    + destruct (IH dot) as (t & r & ip & fp & -> & (MI & MF & E) & S). exists (c :: t), r, (c :: ip), fp.
      split; [reflexivity|]. split.
      * split; [now constructor|]. split; [exact MF|]. rewrite strip_cons by exact NU.
        destruct E as [[E1 E2]|[E1 E2]]; [left; now rewrite E1|right; now rewrite E2].
      * cbn [has_dot existsb]. apply Ascii.eqb_neq in ND. rewrite ND. exact S.
    + exists [], (c :: s), [], []. split; [reflexivity|]. split; [repeat split; auto|].
      cbn. split; [exact NU|]. split; [exact B|]. congruence.
Qed.

Definition digits_from (b m : Z) (s : bytes) : Z := fold_left (fun a c => a * b + digit_value c) s m.
Lemma scan_mant_value : forall hex r t dot m nf saw und ip fp, mantissa hex dot (strip t) ip fp -> stops hex (dot || has_dot t) r ->
  scan_mant hex (t ++ r) dot m nf saw und =
  (digits_from (if hex then 16 else 10) m (ip ++ fp), (if dot then nf + Z.of_nat (length ip) else nf + Z.of_nat (length fp)),
   saw || match (ip ++ fp)%list with [] => false | _ => true end, und || has_und t, r).
Proof.
  intros hex r. induction t as [|c t IH]; intros dot m nf saw und ip fp (MI & MF & E) S.
  - cbn in E. assert (X : ip = [] /\ fp = []).
    { destruct E as [[E1 E2]|[_ E]]; [auto|]. destruct ip; discriminate. }
    destruct X as [-> ->]. cbn [app has_und existsb length digits_from fold_left]. rewrite !orb_false_r, Z.add_0_r.
    replace (if dot then nf else nf) with nf by now destruct dot.
    destruct r as [|c r]; [reflexivity|]. cbn [stops has_dot existsb] in S. rewrite orb_false_r in S. destruct S as (N1 & N2 & N3).
    cbn [scan_mant]. apply Ascii.eqb_neq in N1. rewrite N1. destruct (Ascii.eqb_spec c ".") as [->|_].
    + now rewrite (N3 eq_refl).
    + now rewrite (digit_of_none hex c N2).
  - cbn [app scan_mant]. destruct (Ascii.eqb_spec c "_") as [->|NU].
    { rewrite (IH dot m nf saw true ip fp); [|split; [exact MI|split; [exact MF|exact E]]|exact S].
      cbn [has_und existsb]. change ("_" =? "_")%char with true. cbn [orb]. now rewrite orb_true_r. }
    assert (HU : has_und (c :: t) = has_und t).
    { cbn [has_und existsb]. apply Ascii.eqb_neq in NU. now rewrite NU. }
    rewrite HU. rewrite strip_cons in E by exact NU.
    destruct (Ascii.eqb_spec c ".") as [->|ND].
    { assert (X : dot = false /\ ip = [] /\ strip t = fp).
      { destruct E as [[E1 _]|[E1 E2]].
        - exfalso. rewrite <- E1 in MI. inversion MI as [|? ? B _]. apply dot_eqb in B. discriminate.
        - split; [exact E1|]. destruct ip as [|d ip]; [injection E2 as <-; auto|]. exfalso.
          injection E2 as <- _. inversion MI as [|? ? B _]. apply dot_eqb in B. discriminate. }
      destruct X as (-> & -> & X). rewrite (IH true m nf saw und fp []).
      - cbn [app]. now rewrite app_nil_r.
      - split; [exact MF|]. split; [constructor|]. left. auto.
      - exact S. }
    assert (X : exists ip', ip = c :: ip' /\ (strip t = ip' /\ fp = [] \/ dot = false /\ strip t = (ip' ++ "."%char :: fp)%list)).
    { destruct E as [[E1 E2]|[E1 E2]].
      - exists (strip t). auto.
      - destruct ip as [|d ip]; [injection E2 as -> _; congruence|]. injection E2 as <- E2. exists ip. auto. }
    destruct X as (ip' & -> & X). inversion MI as [|? ? B MI']; subst.
    rewrite (digit_of_some hex c B).
    rewrite (IH dot _ _ true und ip' fp); [|repeat split; auto|].
    + cbn [app digits_from fold_left length]. rewrite orb_true_r. cbn [orb]. rewrite Nat2Z.inj_succ.
      destruct dot; [|reflexivity]. replace (nf + 1 + Z.of_nat (length ip')) with (nf + Z.succ (Z.of_nat (length ip'))) by lia. reflexivity.
    + cbn [has_dot existsb] in S. apply Ascii.eqb_neq in ND. now rewrite ND in S.
Qed.

(** ** The exponent *)
Lemma exp_split : forall s, exists u r ds, s = (u ++ r)%list /\ strip u = ds /\ Forall (base_digit false) ds /\
  match r with [] => True | c :: _ => c <> "_"%char /\ ~ base_digit false c end.
Proof.
  induction s as [|c s IH].
  - exists [], [], []. repeat split; auto.
  - destruct (Ascii.eqb_spec c "_") as [->|NU].
    { destruct IH as (u & r & ds & -> & E & F & S). exists ("_"%char :: u), r, ds. auto. }
    destruct (base_dec false c) as [B|B].
    + destruct IH as (u & r & ds & -> & E & F & S). exists (c :: u), r, (c :: ds). repeat split; auto.
      rewrite strip_cons by exact NU. now rewrite E.
    + exists [], (c :: s), []. repeat split; auto.
Qed.
Definition capped (s : bytes) (e : Z) : Z := fold_left (fun a c => if a <? 10000 then a * 10 + digit_value c else a) s e.
Lemma scan_exp_value : forall r u e und, Forall (base_digit false) (strip u) ->
  match r with [] => True | c :: _ => c <> "_"%char /\ ~ base_digit false c end ->
  scan_exp (u ++ r) e und = (capped (strip u) e, und || has_und u, r).
Proof.
  intro r. induction u as [|c u IH]; intros e und F S.
  - cbn [app strip filter has_und existsb capped fold_left]. rewrite orb_false_r. destruct r as [|c r]; [reflexivity|].
    destruct S as [N1 N2]. cbn [scan_exp]. apply Ascii.eqb_neq in N1. rewrite N1.
    destruct (is_digit c) eqn:D; [apply dec_digit in D; contradiction|reflexivity].
  - cbn [app scan_exp]. destruct (Ascii.eqb_spec c "_") as [->|NU].
    + rewrite (IH e true F S). cbn [has_und existsb]. change ("_" =? "_")%char with true. cbn [orb]. now rewrite orb_true_r.
    + rewrite strip_cons in F |- * by exact NU. inversion F as [|? ? B F']; subst.
      rewrite (proj1 (dec_digit c) B). rewrite IH by assumption. cbn [capped fold_left has_und existsb].
      rewrite (dec_value c B). apply Ascii.eqb_neq in NU. now rewrite NU.
Qed.
Lemma digits_mono : forall s m, Forall (base_digit false) s -> 0 <= m -> m <= digits_from 10 m s.
Proof.
  induction s as [|c s IH]; intros m F M; [cbn; lia|]. inversion F as [|? ? B F']; subst. cbn [digits_from fold_left].
  assert (0 <= digit_value c) by (rewrite dec_value by exact B; apply dec_digit in B; unfold is_digit in B; unfold digit_val; lia).
  specialize (IH (m * 10 + digit_value c) F' ltac:(lia)). unfold digits_from in IH. lia.
Qed.
Lemma capped_exact : forall s m, Forall (base_digit false) s -> 0 <= m -> digits_from 10 m s < 100000 -> capped s m = digits_from 10 m s.
Proof.
  induction s as [|c s IH]; intros m F M L; [reflexivity|]. inversion F as [|? ? B F']; subst.
  assert (0 <= digit_value c) by (rewrite dec_value by exact B; apply dec_digit in B; unfold is_digit in B; unfold digit_val; lia).
  cbn [digits_from capped fold_left] in *.
  pose proof (digits_mono s (m * 10 + digit_value c) F' ltac:(lia)) as G. unfold digits_from in G.
  replace (m <? 10000) with true by lia. apply IH; [assumption|lia|assumption].
Qed.

(** ** Underscores *)
Definition starts_digit (hex : bool) (s : bytes) : Prop := match s with [] => False | c :: _ => base_digit hex c end.
Definition places (hex : bool) (last : uclass) (s : bytes) : Prop := forall u v, s = (u ++ "_"%char :: v)%list ->
  match rev u with [] => last = UDigit | c :: _ => base_digit hex c end /\ starts_digit hex v.
Definition class_of (hex : bool) (c : ascii) : uclass :=
  match digit_of hex c with Some _ => UDigit | None => if (c =? "_")%char then UUnder else UOther end.
Lemma places_cons : forall hex last c s,
  places hex last (c :: s) <-> (c = "_"%char -> last = UDigit /\ starts_digit hex s) /\ places hex (class_of hex c) s.
Proof.
  intros hex last c s.
  assert (R : forall u, match rev (c :: u) with [] => last = UDigit | d :: _ => base_digit hex d end <->
    match rev u with [] => class_of hex c = UDigit | d :: _ => base_digit hex d end).
  { intro u. cbn [rev]. destruct (rev u) as [|d r]; cbn [app]; [|tauto]. unfold class_of.
    destruct (digit_of_spec hex c) as [[-> N]|[-> Y]]; [|tauto].
    split; [tauto|]. destruct (c =? "_")%char; discriminate. }
  split.
  - intro P. split.
    + intros ->. exact (P [] s eq_refl).
    + intros u v ->. rewrite <- R. exact (P (c :: u) v eq_refl).
  - intros [A P] u v E. destruct u as [|d u]; cbn [app] in E; injection E as E1 E2.
    + subst v. exact (A E1).
    + subst d. rewrite R. now apply P.
Qed.
Lemma underscores_places : forall hex s last,
  underscores hex s last = true <-> (last = UUnder -> starts_digit hex s) /\ places hex last s.
Proof.
  intro hex. induction s as [|c s IH]; intro last.
  - cbn [underscores starts_digit]. split.
    + intro H. split; [intros ->; discriminate|]. intros [|] v E; discriminate.
    + intros [H _]. destruct last; auto.
  - cbn [underscores starts_digit]. rewrite places_cons. unfold class_of.
    destruct (digit_of_spec hex c) as [[-> N]|[-> Y]].
    + destruct (Ascii.eqb_spec c "_") as [->|NU].
      * destruct last; [rewrite IH|..].
        -- intuition discriminate.
        -- split; [discriminate|]. intros [A [B _]]. destruct (B eq_refl). discriminate.
        -- split; [discriminate|]. intros [A [B _]]. destruct (B eq_refl). discriminate.
      * destruct last; [rewrite IH|..|rewrite IH].
        -- intuition discriminate.
        -- split; [discriminate|]. intros [A _]. specialize (A eq_refl). contradiction.
        -- intuition discriminate.
    + rewrite IH. assert (NU : c <> "_"%char) by (eapply no_digit; [exact Y|cbn; tauto]). intuition discriminate.
Qed.
Lemma underscores_spec : forall hex s, underscores hex s (if hex then UDigit else UOther) = true <-> underscores_ok hex s.
Proof.
  intros hex s. rewrite underscores_places. unfold places, underscores_ok, starts_digit. split.
  - intros [_ P] a b E. destruct (P a b E) as [P1 P2]. split; [|exact P2]. destruct (rev a); [|exact P1]. now destruct hex.
  - intro P. split; [destruct hex; discriminate|]. intros a b E. destruct (P a b E) as [P1 P2]. split; [|exact P2].
    destruct (rev a); [|exact P1]. now rewrite P1.
Qed.
Lemma no_underscores : forall hex s, has_und s = false -> underscores_ok hex s.
Proof.
  intros hex s H a b ->. exfalso. unfold has_und in H. rewrite existsb_app in H. cbn [existsb] in H.
  change ("_" =? "_")%char with true in H. rewrite orb_true_r in H. discriminate.
Qed.
Lemma has_und_app : forall a b, has_und (a ++ b) = has_und a || has_und b.
Proof. intros. apply existsb_app. Qed.

(** ** Signs *)
Lemma take_sign_spec : forall s, exists sg r, s = (sg ++ r)%list /\ sign_text (fst (take_sign s)) sg /\ snd (take_sign s) = r.
Proof.
  intros [|c s]; [exists [], []; cbn; auto|]. cbn [take_sign]. destruct (Ascii.eqb_spec c "-") as [->|N].
  - exists ["-"%char], s. cbn. auto.
  - destruct (Ascii.eqb_spec c "+") as [->|N']; [exists ["+"%char], s|exists [], (c :: s)]; cbn; auto.
Qed.
Lemma take_sign_text : forall neg sg r, sign_text neg sg ->
  match r with [] => True | c :: _ => c <> "-"%char /\ c <> "+"%char end -> take_sign (sg ++ r) = (neg, r).
Proof.
  intros neg sg r S H. unfold sign_text in S. destruct neg; [subst sg; reflexivity|]. destruct S as [-> | ->]; [|reflexivity].
  destruct r as [|c r]; [reflexivity|]. destruct H as [A B]. cbn [app take_sign]. apply Ascii.eqb_neq in A, B. now rewrite A, B.
Qed.
Lemma sign_no_und : forall neg sg, sign_text neg sg -> strip sg = sg /\ has_und sg = false.
Proof. intros neg sg S. unfold sign_text in S. destruct neg; [subst; auto|]. destruct S as [-> | ->]; auto. Qed.
Lemma lower_letter : forall (hex : bool) c, lower c = (if hex then "p"%char else "e"%char) <-> exp_letter hex c.
Proof.
  intros hex c. unfold exp_letter. destruct hex.
  - destruct c as [[] [] [] [] [] [] [] []]; vm_compute; intuition congruence.
  - destruct c as [[] [] [] [] [] [] [] []]; vm_compute; intuition congruence.
Qed.
Lemma letter_class : forall hex c, exp_letter hex c -> c <> "_"%char /\ c <> "."%char /\ ~ base_digit hex c /\ (c =? "_")%char = false.
Proof.
  intros hex c L. unfold exp_letter, base_digit in *.
  destruct hex; destruct L as [-> | ->]; (split; [discriminate|split; [discriminate|split; [vm_compute; intuition congruence|reflexivity]]]).
Qed.

(** ** Accepted texts *)
Definition lit_capped (x : literal) : Z :=
  match l_exp x with None => 0 | Some (n, ds) => if n then - capped ds 0 else capped ds 0 end.

Lemma has_hex_spec : forall s, has_hex s = true -> exists pre body, (pre = bs "0x" \/ pre = bs "0X") /\ s = (pre ++ body)%list /\ skipn 2 s = body.
Proof.
  intros [|c [|d s]] H; try discriminate. cbn [has_hex] in H. apply andb_true_iff in H as [H1 H2].
  apply Ascii.eqb_eq in H1, H2. subst c. assert (D : d = "x"%char \/ d = "X"%char).
  { destruct d as [[] [] [] [] [] [] [] []]; vm_compute in H2; try discriminate; auto. }
  destruct D as [-> | ->]; [exists (bs "0x"), s|exists (bs "0X"), s]; auto.
Qed.

Lemma accepted : forall s x, parse_number s = Some x -> exists l, lit_ok l /\ spelled l s.
Proof.
  intros s x H. unfold parse_number in H. destruct (take_sign_spec s) as (sg & s1 & -> & SG & E1).
  destruct (take_sign (sg ++ s1)) as [neg s1'] eqn:TS. cbn [fst snd] in *. subst s1'.
  assert (HB : exists pre body, s1 = (pre ++ body)%list /\ (if has_hex s1 then pre = bs "0x" \/ pre = bs "0X" else pre = []) /\
    (if has_hex s1 then skipn 2 s1 else s1) = body).
  { destruct (has_hex s1) eqn:HX; [|exists [], s1; auto]. destruct (has_hex_spec s1 HX) as (pre & body & P & E & B). eauto. }
  destruct HB as (pre & body & EB & PRE & B). rewrite B in H. set (hex := has_hex s1) in *. clearbody hex. clear B.
  destruct (mant_split hex body false) as (t & r & ip & fp & ET & M & S).
  assert (MM := M). destruct MM as (MI & MF & MW).
  rewrite ET in H at 1. rewrite (scan_mant_value hex r t false 0 0 false false ip fp M S) in H. cbn [orb] in H.
  destruct ((ip ++ fp)%list) as [|c0 w0] eqn:NE; [discriminate|]. cbn [negb] in H.
  assert (UN : forall und, (if und && negb (underscores hex body (if hex then UDigit else UOther)) then None else Some tt) = Some tt ->
    (und = false -> has_und body = false) -> underscores_ok hex body).
  { intros und U V. destruct und; [|apply no_underscores; auto]. cbn [andb] in U. apply underscores_spec.
    destruct (underscores hex body (if hex then UDigit else UOther)); [reflexivity|discriminate]. }
  assert (BODY : forall et e, strip r = et -> (match e with None => et = [] | Some (n, ds) => exists c sg0, et = (c :: sg0 ++ ds)%list /\ exp_letter hex c /\ sign_text n sg0 end) ->
    plain_body (Lit neg hex ip fp e) (strip body)).
  { intros et e ER EX. rewrite ET, strip_app, ER. destruct MW as [[W1 W2]|[_ W]].
    - exists [], et. cbn [l_ip l_fp l_exp l_hex]. rewrite W1. split; [reflexivity|]. split; [left; auto|exact EX].
    - exists ("."%char :: fp), et. cbn [l_ip l_fp l_exp l_hex]. rewrite W, <- app_assoc. split; [reflexivity|]. split; [right; auto|exact EX]. }
  assert (NEF : (ip ++ fp)%list <> []) by (rewrite NE; discriminate).
  destruct r as [|c s4].
  - destruct hex; [discriminate|].
    destruct (has_und t && negb (underscores false body UOther)) eqn:U; [discriminate|].
    exists (Lit neg false ip fp None). split; [repeat split; cbn; auto|].
    exists sg, pre, body. cbn [l_neg l_hex]. split; [now rewrite EB|]. split; [exact SG|]. split; [exact PRE|].
    split; [now apply (BODY [])|]. apply (UN (has_und t)); [now rewrite U|]. intro Z. now rewrite ET, app_nil_r.
  - destruct (lower c =? (if hex then "p" else "e"))%char eqn:LC.
    + apply Ascii.eqb_eq in LC. apply lower_letter in LC. destruct (letter_class hex c LC) as (LU & _ & _ & LUE).
      destruct (take_sign_spec s4) as (sg0 & s5 & -> & SG0 & E5). destruct (take_sign (sg0 ++ s5)) as [eneg s5'] eqn:TS0. cbn [fst snd] in *. subst s5'.
      destruct s5 as [|d s5']; [discriminate|]. destruct (is_digit d) eqn:DD; [|discriminate].
      destruct (exp_split (d :: s5')) as (u & r6 & ds & EU & DS & FD & S6). rewrite EU in H at 1.
      assert (FD' : Forall (base_digit false) (strip u)) by now rewrite DS.
      rewrite (scan_exp_value r6 u 0 (has_und t) FD' S6) in H. destruct r6; [|discriminate].
      rewrite app_nil_r in EU.
      destruct ((has_und t || has_und u) && negb (underscores hex body (if hex then UDigit else UOther))) eqn:U; [discriminate|].
      assert (DN : ds <> []).
      { rewrite <- DS, <- EU. rewrite strip_cons; [discriminate|]. intros ->. discriminate. }
      exists (Lit neg hex ip fp (Some (eneg, ds))). split; [repeat split; cbn; auto|].
      exists sg, pre, body. cbn [l_neg l_hex]. split; [now rewrite EB|]. split; [exact SG|]. split; [exact PRE|].
      destruct (sign_no_und eneg sg0 SG0) as [SS SU].
      split.
      * apply (BODY (c :: sg0 ++ ds)); [rewrite strip_cons by exact LU; rewrite strip_app, SS, EU, DS; reflexivity|].
        exists c, sg0. auto.
      * apply (UN (has_und t || has_und u)); [now rewrite U|]. intro Z. apply orb_false_iff in Z as [Z1 Z2].
        rewrite ET, has_und_app, Z1. cbn [orb]. change (c :: (sg0 ++ d :: s5')%list) with ([c] ++ (sg0 ++ d :: s5'))%list.
        rewrite !has_und_app, SU, EU, Z2. cbn [has_und existsb]. now rewrite LUE.
    + destruct hex; discriminate.
Qed.

Lemma first_char : forall l body, lit_ok l -> plain_body l (strip body) -> underscores_ok (l_hex l) body ->
  l_hex l = false -> match body with [] => True | c :: _ => c <> "-"%char /\ c <> "+"%char end.
Proof.
  intros l body (DI & DF & NE & X) (pt & et & E & PT & ET) U HX. destruct body as [|c body]; [exact I|].
  destruct (Ascii.eqb_spec c "_") as [->|NU]; [split; discriminate|].
  rewrite strip_cons in E by exact NU. destruct (l_ip l) as [|d ip] eqn:IP.
  - destruct PT as [[-> FP]| ->]; [rewrite FP in NE; now elim NE|]. injection E as -> _. split; discriminate.
  - injection E as -> _. inversion DI as [|? ? B _]; subst. split; (eapply no_digit; [exact B|cbn; tauto]).
Qed.
Lemma strip_split : forall body w c v, c <> "_"%char -> strip body = (w ++ c :: v)%list ->
  exists t r, body = (t ++ c :: r)%list /\ strip t = w /\ strip r = v.
Proof.
  induction body as [|d body IH]; intros w c v N E; [destruct w; discriminate|].
  destruct (Ascii.eqb_spec d "_") as [->|ND].
  - rewrite strip_und in E. destruct (IH w c v N E) as (t & r & -> & A & B). exists ("_"%char :: t), r. auto.
  - rewrite strip_cons in E by exact ND. destruct w as [|e w]; injection E as -> E.
    + exists [], body. auto.
    + destruct (IH w c v N E) as (t & r & -> & A & B). exists (e :: t), r. repeat split; auto.
      rewrite strip_cons by exact ND. now rewrite A.
Qed.
Lemma after_mark : forall hex body a c r, body = (a ++ c :: r)%list -> underscores_ok hex body -> c <> "_"%char -> ~ base_digit hex c ->
  match r with [] => True | d :: _ => d <> "_"%char end.
Proof.
  intros hex body a c r E U NU NB. destruct r as [|d r]; [exact I|]. intros ->.
  destruct (U (a ++ [c])%list r) as [P _]; [rewrite E, <- app_assoc; reflexivity|].
  rewrite rev_app_distr in P. cbn in P. contradiction.
Qed.
Lemma no_x : forall l body, lit_ok l -> l_hex l = false -> plain_body l (strip body) -> has_hex body = false.
Proof.
  intros l body (DI & DF & _ & XX) HX (pt & et & E & PT & ET).
  destruct (has_hex body) eqn:H; [|reflexivity]. exfalso.
  destruct (has_hex_spec body H) as (pre & b & P & EB & _). rewrite HX in *.
  assert (IN : In "x"%char (strip body) \/ In "X"%char (strip body)).
  { rewrite EB, strip_app. destruct P as [-> | ->]; [left|right]; apply in_or_app; left; cbn; auto. }
  assert (ND : forall q w, In q ["x"; "X"]%char -> Forall (base_digit false) w -> ~ In q w).
  { intros q w Q F I. rewrite Forall_forall in F. apply F in I. apply (no_digit false q q I); [|reflexivity]. cbn in *. tauto. }
  assert (SG : forall q n sg, In q ["x"; "X"]%char -> sign_text n sg -> ~ In q sg).
  { intros q n sg Q S I. unfold sign_text in S. cbn in Q. destruct n; [subst sg|destruct S as [-> | ->]]; cbn in I; intuition (subst; discriminate). }
  assert (G : forall q, In q ["x"; "X"]%char -> ~ In q (strip body)).
  { intros q Q I. rewrite E in I. apply in_app_or in I as [I|I]; [now apply (ND q _ Q DI)|].
    apply in_app_or in I as [I|I].
    - destruct PT as [[-> _]| ->]; [exact I|]. destruct I as [<-|I]; [cbn in Q; intuition discriminate|now apply (ND q _ Q DF)].
    - destruct (l_exp l) as [[n ds]|]; [|subst et; exact I]. destruct ET as (c & sg & -> & L & S). destruct XX as [_ FD].
      destruct I as [<-|I]; [unfold exp_letter in L; cbn in Q; intuition (subst; discriminate)|].
      apply in_app_or in I as [I|I]; [exact (SG q n sg Q S I)|exact (ND q ds Q FD I)]. }
  destruct IN as [I|I]; revert I; apply G; cbn; auto.
Qed.

Lemma spelled_parse : forall l s, lit_ok l -> spelled l s ->
  parse_number s = float_value (l_hex l) (l_neg l) (lit_digits l) (Z.of_nat (length (l_fp l))) (lit_capped l).
Proof.
  intros l s K (sg & pre & body & -> & SG & PRE & PB & U).
  assert (T : take_sign (sg ++ pre ++ body) = (l_neg l, (pre ++ body)%list)).
  { apply take_sign_text; [exact SG|]. destruct (l_hex l) eqn:HX.
    - destruct PRE as [-> | ->]; split; discriminate.
    - subst pre. cbn [app]. eapply first_char; eauto. now rewrite HX. }
  assert (HX : has_hex (pre ++ body) = l_hex l /\ (if l_hex l then skipn 2 (pre ++ body) else (pre ++ body)%list) = body).
  { destruct (l_hex l) eqn:HX; [destruct PRE as [-> | ->]; split; reflexivity|]. subst pre. cbn [app]. split; [|reflexivity].
    now apply (no_x l). }
  destruct HX as [HX HB]. unfold parse_number. rewrite T, HX, HB.
  assert (KK := K). destruct KK as (DI & DF & NE & XX). destruct PB as (pt & et & E & PT & ET).
  assert (SP : exists t r, body = (t ++ r)%list /\ strip t = (l_ip l ++ pt)%list /\
    match l_exp l with
    | None => r = []
    | Some (n, ds) => exists c sg0 u d u', r = (c :: sg0 ++ u)%list /\ exp_letter (l_hex l) c /\ sign_text n sg0 /\ strip u = ds /\ u = d :: u' /\ base_digit false d
    end).
  { destruct (l_exp l) as [[n ds]|].
    - destruct ET as (c & sg0 & -> & L & S0). destruct XX as [DN FD]. destruct (letter_class (l_hex l) c L) as (NU & _ & NB & _).
      rewrite app_assoc in E. destruct (strip_split body _ c _ NU E) as (t & r & EB & ST & SR).
      exists t, (c :: r). split; [exact EB|]. split; [exact ST|].
      pose proof (after_mark (l_hex l) body t c r EB U NU NB) as AM.
      assert (Q : exists u, r = (sg0 ++ u)%list /\ strip u = ds /\ match u with [] => True | d :: _ => d <> "_"%char end).
      { assert (SC : sg0 = [] \/ exists q, sg0 = [q] /\ (q = "+"%char \/ q = "-"%char)).
        { unfold sign_text in S0. destruct n; [right; eauto|]. destruct S0 as [-> | ->]; [now left|right; eauto]. }
        destruct SC as [-> |(q & -> & Q)]; [exists r; auto|].
        destruct r as [|q' r]; [discriminate|]. rewrite strip_cons in SR by exact AM. injection SR as -> SR.
        exists r. split; [reflexivity|]. split; [exact SR|].
        eapply (after_mark (l_hex l) body (t ++ [c])%list q r); [rewrite EB, <- app_assoc; reflexivity|exact U|exact AM|].
        intro B. apply (no_digit _ q q B); [|reflexivity]. cbn. destruct Q as [-> | ->]; auto 8. }
      destruct Q as (u & -> & SU & HU). destruct u as [|d u]; [cbn in SU; congruence|].
      exists c, sg0, (d :: u), d, u. repeat split; auto. rewrite strip_cons in SU by exact HU. rewrite <- SU in FD. now inversion FD.
    - subst et. rewrite app_nil_r in E. exists body, []. rewrite app_nil_r. auto. }
  destruct SP as (t & r & EB & ST & R). rewrite EB at 1.
  rewrite (scan_mant_value (l_hex l) r t false 0 0 false false (l_ip l) (l_fp l)).
  2:{ split; [exact DI|]. split; [exact DF|]. rewrite ST. destruct PT as [[-> F]| ->]; [left|right]; auto. rewrite app_nil_r. auto. }
  2:{ destruct (l_exp l) as [[n ds]|]; [|subst r; exact I]. destruct R as (c & sg0 & u & d & u' & -> & L & _).
      destruct (letter_class (l_hex l) c L) as (A & B & C & _). cbn. repeat split; auto. }
  cbn [orb]. destruct ((l_ip l ++ l_fp l)%list) as [|c0 w0] eqn:NN; [congruence|]. cbn [negb].
  assert (UOK : underscores (l_hex l) body (if l_hex l then UDigit else UOther) = true) by now apply underscores_spec.
  unfold lit_digits, digits_value. rewrite NN. fold (digits_from (if l_hex l then 16 else 10) 0 (c0 :: w0)).
  unfold lit_capped. destruct (l_exp l) as [[n ds]|].
  - destruct R as (c & sg0 & u & d & u' & -> & L & S0 & SU & EU & B). destruct XX as [_ FD].
    assert (LL := L). apply lower_letter in LL. rewrite LL, Ascii.eqb_refl.
    rewrite (take_sign_text n sg0 u S0).
    2:{ rewrite EU. split; (eapply no_digit; [exact B|cbn; tauto]). }
    rewrite EU at 1. rewrite (proj1 (dec_digit d) B). rewrite <- (app_nil_r u) at 1.
    rewrite scan_exp_value; [|now rewrite SU|exact I]. rewrite SU, UOK. cbn [negb]. rewrite andb_false_r. reflexivity.
  - subst r. rewrite XX in *. rewrite UOK. cbn [negb]. rewrite andb_false_r. reflexivity.
Qed.

(** ** The value *)
Transparent f64_round.
Lemma round_error : forall n d q, 0 < n -> 0 < d -> f64_round n d = Some q ->
  0 <= Qnum q /\ (2 ^ 53 * Z.abs (Qnum q * d - n * Zpos (Qden q)) <= n * Zpos (Qden q) \/
                  2 ^ 1075 * Z.abs (Qnum q * d - n * Zpos (Qden q)) <= d * Zpos (Qden q)).
Proof.
  intros n d q N D H. split; [apply (f64_round_nonneg n d q); [lia|lia|exact H]|].
  destruct (Z_lt_le_dec (floor_log2 n d) (-1022)) as [L|L].
  - right. unfold f64_round in H. destruct (n =? 0) eqn:E0; [lia|].
    rewrite Z.max_r in H by lia. change (0 <=? -1074) with false in H. cbv iota zeta in H.
    change ((971 <? -1074) || ((-1074 =? 971) && (9007199254740992 <=? div_even (n * 2 ^ (- (-1074))) d))) with false in H.
    cbv iota in H. unfold dyadic in H. change (0 <=? -1074) with false in H. cbv iota in H. change (- (-1074)) with 1074 in H.
    remember (2 ^ 1074) as b eqn:HB. assert (PB : 0 < b) by (subst b; apply Z.pow_pos_nonneg; lia).
    injection H as <-. cbn [Qnum Qden]. rewrite Z2Pos.id by exact PB.
    pose proof (div_even_near (n * b) d ltac:(nia) D) as NE.
    assert (P : 2 ^ 1075 = 2 * b) by (subst b; reflexivity). rewrite P. clear P HB.
    set (m := div_even (n * b) d) in *. replace (m * d - n * b) with (- (n * b - m * d)) by ring. rewrite Z.abs_opp.
    set (w := Z.abs _) in *. clearbody w. nia.
  - left. destruct (f64_round_error n d q N D L H) as [_ E]. exact E.
Qed.
Lemma floor_log2_max : forall n d k, 0 < n -> 0 < d -> 0 <= k -> d * 2 ^ k <= n -> k <= floor_log2 n d.
Proof.
  intros n d k N D K H. unfold floor_log2.
  pose proof (Z.log2_spec n N) as [N1 N2]. pose proof (Z.log2_spec d D) as [D1 D2].
  pose proof (Z.log2_nonneg n). pose proof (Z.log2_nonneg d).
  assert (L : k <= Z.log2 n - Z.log2 d).
  { assert (Z.log2 d + k <= Z.log2 n); [|lia]. apply Z.log2_le_pow2; [lia|]. rewrite Z.pow_add_r by lia.
    assert (0 < 2 ^ k) by (apply Z.pow_pos_nonneg; lia). nia. }
  replace (0 <=? Z.log2 n - Z.log2 d) with true by lia.
  destruct (d * 2 ^ (Z.log2 n - Z.log2 d) <=? n) eqn:E; [exact L|].
  destruct (Z.eq_dec k (Z.log2 n - Z.log2 d)) as [->|NE]; lia.
Qed.
(** Half a unit above the largest float64. *)
Definition float_limit : Z := 2 ^ 1024 - 2 ^ 970.
Lemma limit_units : forall d, 2 * (d * float_limit) = d * 2 ^ 971 * (2 ^ 54 - 1).
Proof.
  intro d. unfold float_limit. replace (2 ^ 1024) with (2 ^ 53 * 2 ^ 971) by reflexivity. replace (2 ^ 971) with (2 * 2 ^ 970) by reflexivity.
  replace (2 ^ 54) with (2 * 2 ^ 53) by reflexivity. generalize (2 ^ 970) (2 ^ 53). intros. ring.
Qed.
Lemma limit_range : 2 ^ 1023 < float_limit < 2 ^ 1024.
Proof. split; reflexivity. Qed.
Lemma round_defined : forall n d, 0 <= n -> 0 < d -> n < d * float_limit -> exists q, f64_round n d = Some q.
Proof.
  intros n d N D H. unfold f64_round. destruct (n =? 0) eqn:E; [eexists; reflexivity|].
  pose proof limit_range as LR.
  assert (L : floor_log2 n d < 1024) by (apply floor_log2_le; try lia; generalize dependent float_limit; generalize (2 ^ 1024); intros; nia).
  cbv zeta. destruct (Z.eq_dec (floor_log2 n d) 1023) as [E1|E1].
  - rewrite E1. change (Z.max (1023 - 52) (-1074)) with 971. change (0 <=? 971) with true. cbv iota.
    change (971 <? 971) with false. change (971 =? 971) with true. cbn [orb andb].
    destruct (9007199254740992 <=? div_even n (d * 2 ^ 971)) eqn:M; [|eexists; reflexivity]. exfalso.
    assert (Y : 0 < d * 2 ^ 971) by (assert (0 < 2 ^ 971) by reflexivity; generalize dependent (2 ^ 971); intros; nia).
    pose proof (div_even_near n (d * 2 ^ 971) N Y) as NE. pose proof (limit_units d) as U. change (2 ^ 54 - 1) with 18014398509481983 in U.
    revert M NE U Y. generalize (d * 2 ^ 971) (d * float_limit) (div_even n (d * 2 ^ 971)) H. clear. intros. nia.
  - set (e := Z.max (floor_log2 n d - 52) (-1074)) in *. assert (e < 971) by lia.
    destruct ((971 <? e) || _) eqn:O; [|eexists; reflexivity].
    exfalso. apply orb_true_iff in O. destruct O as [O|O]; [lia|]. apply andb_true_iff in O. lia.
Qed.
Lemma round_overflow : forall n d, 0 < n -> 0 < d -> d * float_limit <= n -> f64_round n d = None.
Proof.
  intros n d N D H. unfold f64_round. destruct (n =? 0) eqn:E; [lia|]. pose proof limit_range as LR.
  assert (L : 1023 <= floor_log2 n d) by (apply floor_log2_max; try lia; generalize dependent float_limit; generalize (2 ^ 1023); intros; nia).
  cbv zeta. destruct (Z.eq_dec (floor_log2 n d) 1023) as [E1|E1].
  - rewrite E1. change (Z.max (1023 - 52) (-1074)) with 971. change (0 <=? 971) with true. cbv iota.
    change (971 <? 971) with false. change (971 =? 971) with true. cbn [orb andb].
    assert (Y : 0 < d * 2 ^ 971) by (assert (0 < 2 ^ 971) by reflexivity; generalize dependent (2 ^ 971); intros; nia).
    pose proof (div_even_near n (d * 2 ^ 971) ltac:(lia) Y) as NE. pose proof (limit_units d) as U. change (2 ^ 54 - 1) with 18014398509481983 in U.
    pose proof (div_even_tie n (d * 2 ^ 971) ltac:(lia) Y) as TI.
    destruct (9007199254740992 <=? div_even n (d * 2 ^ 971)) eqn:M; [reflexivity|]. exfalso.
    revert M NE U Y TI. generalize (d * 2 ^ 971) (d * float_limit) (div_even n (d * 2 ^ 971)) H. clear. intros y x m H M NE U Y TI.
    assert (MM : m = 9007199254740991) by nia. subst m. specialize (TI ltac:(nia)). discriminate TI.
  - replace (971 <? Z.max (floor_log2 n d - 52) (-1074)) with true by lia. reflexivity.
Qed.
Opaque f64_round.

Lemma qpower_frac : forall b x, 0 < b ->
  (Qpower (inject_Z b) x == if (0 <=? x)%Z then inject_Z (b ^ x)%Z else 1 # Z.to_pos (b ^ (- x)))%Q.
Proof.
  intros b x B. destruct (0 <=? x) eqn:X.
  - rewrite Zpower_Qpower by lia. reflexivity.
  - replace x with (- (- x)) at 1 by lia. rewrite Qpower_opp. rewrite <- Zpower_Qpower by lia.
    assert (P : 0 < b ^ (- x)) by (apply Z.pow_pos_nonneg; lia).
    set (w := b ^ (- x)) in *. clearbody w. destruct w as [|p|p]; try lia. reflexivity.
Qed.

Definition lit_base (l : literal) : Z := if l_hex l then 2 else 10.
Definition lit_shift (l : literal) : Z :=
  if l_hex l then lit_exp l - 4 * Z.of_nat (length (l_fp l)) else lit_exp l - Z.of_nat (length (l_fp l)).
Definition lit_num (l : literal) : Z := if 0 <=? lit_shift l then lit_digits l * lit_base l ^ lit_shift l else lit_digits l.
Definition lit_den (l : literal) : Z := if 0 <=? lit_shift l then 1 else lit_base l ^ (- lit_shift l).
Lemma lit_den_pos : forall l, 0 < lit_den l.
Proof.
  intro l. unfold lit_den, lit_base. destruct (0 <=? lit_shift l) eqn:E; [lia|].
  apply Z.pow_pos_nonneg; [destruct (l_hex l)|]; lia.
Qed.
Lemma lit_frac : forall l, (lit_value l == (if l_neg l then - lit_num l else lit_num l) # Z.to_pos (lit_den l))%Q.
Proof.
  intro l. unfold lit_value.
  assert (E : ((if l_hex l then Qpower 2 (lit_exp l - 4 * Z.of_nat (length (l_fp l))) else Qpower 10 (lit_exp l - Z.of_nat (length (l_fp l))))
    == Qpower (inject_Z (lit_base l)) (lit_shift l))%Q).
  { unfold lit_base, lit_shift. destruct (l_hex l); reflexivity. }
  rewrite E, qpower_frac by (unfold lit_base; destruct (l_hex l); lia).
  unfold lit_num, lit_den. destruct (0 <=? lit_shift l).
  - unfold Qeq, inject_Z, Qmult. cbn [Qnum Qden]. destruct (l_neg l); cbn [Z.to_pos Pos.mul]; ring.
  - unfold Qeq, inject_Z, Qmult. cbn [Qnum Qden]. rewrite Pos.mul_1_l. destruct (l_neg l); ring.
Qed.
Lemma lit_capped_exact : forall l, lit_ok l -> Z.abs (lit_exp l) < 100000 -> lit_capped l = lit_exp l.
Proof.
  intros l (_ & _ & _ & X) B. unfold lit_capped, lit_exp in *. destruct (l_exp l) as [[n ds]|]; [|reflexivity].
  destruct X as [_ F]. pose proof (digits_mono ds 0 F ltac:(lia)) as P. unfold digits_value in *.
  change (fold_left (fun a c => a * 10 + digit_value c) ds 0) with (digits_from 10 0 ds) in *.
  rewrite capped_exact; [destruct n; lia|exact F|lia|destruct n; lia].
Qed.
Lemma lit_digits_nonneg : forall l, lit_ok l -> 0 <= lit_digits l.
Proof.
  intros l (A & B & _). unfold lit_digits, digits_value. assert (F : Forall (base_digit (l_hex l)) (l_ip l ++ l_fp l)) by now apply Forall_app.
  revert F. generalize (l_ip l ++ l_fp l)%list. intros s F.
  assert (G : forall m, 0 <= m -> 0 <= fold_left (fun a c => a * (if l_hex l then 16 else 10) + digit_value c) s m); [|apply G; lia].
  induction F as [|c s H F IH]; intros m M; [exact M|]. cbn [fold_left]. apply IH.
  assert (0 <= digit_value c); [|destruct (l_hex l); lia].
  unfold digit_value. destruct H as [H|(_ & [H|H])]; destruct (bval c <=? 57) eqn:E1; try lia; destruct (bval c <=? 70) eqn:E2; lia.
Qed.
Lemma literal_value : forall l s, lit_ok l -> spelled l s -> Z.abs (lit_exp l) < 100000 ->
  parse_number s = signed (l_neg l) (f64_round (lit_num l) (lit_den l)).
Proof.
  intros l s K S B. rewrite (spelled_parse l s K S), (lit_capped_exact l K B). unfold float_value, lit_num, lit_den, lit_base, lit_shift.
  destruct (l_hex l).
  - destruct (0 <=? lit_exp l - 4 * Z.of_nat (length (l_fp l))); reflexivity.
  - destruct (0 <=? lit_exp l - Z.of_nat (length (l_fp l))); reflexivity.
Qed.

Lemma literal_near : forall l s, lit_ok l -> spelled l s -> Z.abs (lit_exp l) < 100000 ->
  ((Qabs (lit_value l) < inject_Z float_limit)%Q -> exists q, parse_number s = Some (FFin q)) /\
  (forall q, parse_number s = Some (FFin q) -> forall b, (Qabs (lit_value l) <= b)%Q -> (1 <= b * inject_Z (2 ^ 1022))%Q ->
     (Qabs (q - lit_value l) * inject_Z (2 ^ 53) <= b)%Q) /\
  ((inject_Z float_limit <= Qabs (lit_value l))%Q -> parse_number s = None).
Proof.
  intros l s K S B. rewrite (literal_value l s K S B).
  pose proof (lit_den_pos l) as D. pose proof (lit_frac l) as FR.
  assert (N : 0 <= lit_num l).
  { pose proof (lit_digits_nonneg l K). unfold lit_num. destruct (0 <=? lit_shift l) eqn:E; [|lia].
    assert (0 < lit_base l ^ lit_shift l) by (apply Z.pow_pos_nonneg; [unfold lit_base; destruct (l_hex l)|]; lia). nia. }
  set (n := lit_num l) in *. set (d := lit_den l) in *. clearbody n d.
  assert (DP : Zpos (Z.to_pos d) = d) by (rewrite Z2Pos.id; lia).
  assert (AV : (Qabs (lit_value l) == n # Z.to_pos d)%Q).
  { rewrite FR. unfold Qabs, Qeq. destruct (l_neg l); cbn [Qnum Qden]; [rewrite Z.abs_opp|]; rewrite Z.abs_eq by lia; reflexivity. }
  split; [|split].
  - intro H. rewrite AV in H. unfold Qlt, inject_Z in H. cbn [Qnum Qden] in H. rewrite DP in H.
    destruct (round_defined n d N D ltac:(lia)) as (q & ->). eexists. reflexivity.
  - intros q H b HB B1. rewrite AV in HB. destruct (f64_round n d) as [p|] eqn:R; [|discriminate]. cbn [signed] in H. injection H as H. subst q.
    assert (A : (Qabs (p - (n # Z.to_pos d)) * inject_Z (2 ^ 53) <= b)%Q).
    { destruct (Z.eq_dec n 0) as [->|NZ].
      - change (f64_round 0 d = Some p) in R. with_strategy transparent [f64_round] (unfold f64_round in R). cbn in R. injection R as <-.
        assert (E : (Qabs (inject_Z 0 - (0 # Z.to_pos d)) * inject_Z (2 ^ 53) == 0)%Q) by reflexivity.
        rewrite E. apply (Qle_trans _ (0 # Z.to_pos d)); [|exact HB]. unfold Qle. cbn. lia.
      - destruct (round_error n d p ltac:(lia) D R) as [_ [E|E]].
        + eapply Qle_trans; [|exact HB]. unfold Qle, Qabs, Qminus, Qplus, Qopp, Qmult, inject_Z. destruct p as [x y]. cbn [Qnum Qden] in *.
          rewrite !Pos2Z.inj_mul, DP. set (w := 2 ^ 53) in *. clearbody w.
          set (v := Z.abs (x * d + - n * Zpos y)).
          assert (VE : v = Z.abs (x * d - n * Zpos y)) by (unfold v; f_equal; lia). rewrite <- VE in E. clearbody v. nia.
        + assert (T : (Qabs (p - (n # Z.to_pos d)) * inject_Z (2 ^ 53) * inject_Z (2 ^ 1022) <= 1)%Q).
          { unfold Qle, Qabs, Qminus, Qplus, Qopp, Qmult, inject_Z. destruct p as [x y]. cbn [Qnum Qden] in *.
            rewrite !Pos2Z.inj_mul, DP.
            assert (P : 2 ^ 1075 = 2 ^ 53 * 2 ^ 1022) by reflexivity. rewrite P in E. clear P.
            set (w := 2 ^ 53) in *. set (w2 := 2 ^ 1022) in *. clearbody w w2.
            set (v := Z.abs (x * d + - n * Zpos y)).
            assert (VE : v = Z.abs (x * d - n * Zpos y)) by (unfold v; f_equal; lia). rewrite <- VE in E. clearbody v. nia. }
          apply (Qmult_le_r _ _ (inject_Z (2 ^ 1022))); [reflexivity|]. eapply Qle_trans; [exact T|exact B1]. }
    rewrite FR. destruct (l_neg l); [|exact A].
    assert (Y : (- p - (- n # Z.to_pos d) == - (p - (n # Z.to_pos d)))%Q).
    { unfold Qeq, Qminus, Qplus, Qopp. cbn [Qnum Qden]. ring. }
    rewrite Y, Qabs_opp. exact A.
  - intro H. rewrite AV in H. unfold Qle, inject_Z in H. cbn [Qnum Qden] in H. rewrite DP in H.
    assert (0 < float_limit) by reflexivity. 
    rewrite round_overflow; [reflexivity| |exact D|lia]. generalize dependent float_limit. intros. nia.
Qed.

(** ** Infinities and not-a-number *)
Lemma special_accepted : forall s x, parse_special s = Some x -> special_text s.
Proof.
  intros s x H. unfold parse_special in H. destruct (take_sign_spec s) as (sg & r & -> & SG & E).
  destruct (take_sign (sg ++ r)) as [neg r'] eqn:T. cbn [fst snd] in *. subst r'.
  destruct (beq (to_lower r) (bs "inf") || beq (to_lower r) (bs "infinity")) eqn:I.
  - left. exists neg, sg, r. split; [reflexivity|]. split; [exact SG|].
    apply orb_true_iff in I as [I|I]; apply beq_eq in I; auto.
  - destruct (beq (to_lower (sg ++ r)) (bs "nan")) eqn:N; [|discriminate]. right. now apply beq_eq in N.
Qed.
Lemma head_class : forall l s, lit_ok l -> spelled l s ->
  exists r, take_sign s = (l_neg l, r) /\ match r with [] => True | c :: _ => lower c <> "i"%char /\ lower c <> "n"%char end /\
  match s with [] => True | c :: _ => lower c <> "n"%char end.
Proof.
  intros l s K (sg & pre & body & -> & SG & PRE & PB & U). exists (pre ++ body)%list.
  assert (T : match (pre ++ body)%list with
              | [] => True
              | c :: _ => (c <> "-"%char /\ c <> "+"%char) /\ lower c <> "i"%char /\ lower c <> "n"%char
              end).
  { destruct (l_hex l) eqn:HX; [destruct PRE as [-> | ->]; repeat split; discriminate|].
    subst pre. cbn [app]. destruct K as (DI & DF & NE & X). destruct PB as (pt & et & E & PT & ET). rewrite HX in *.
    destruct body as [|c body]; [exact I|].
    destruct (Ascii.eqb_spec c "_") as [->|NU]; [repeat split; discriminate|].
    change without_underscores with strip in E. rewrite strip_cons in E by exact NU. destruct (l_ip l) as [|d ip] eqn:IP.
    - destruct PT as [[-> FP]| ->]; [rewrite FP in NE; now elim NE|]. injection E as -> _. repeat split; discriminate.
    - injection E as -> _. inversion DI as [|? ? B _]; subst. split; [split; (eapply no_digit; [exact B|cbn; tauto])|].
      assert (L : lower d = d). { destruct (lower_range d) as [[R _]|[_ R]]; [|exact R]. destruct B as [B|[B _]]; [lia|discriminate]. }
      rewrite L. split; intros ->; destruct B as [B|[B _]]; try discriminate; vm_compute in B; intuition congruence. }
  split; [|split].
  - apply take_sign_text; [exact SG|]. destruct (pre ++ body)%list; tauto.
  - destruct (pre ++ body)%list; tauto.
  - unfold sign_text in SG. destruct (l_neg l); [subst sg; discriminate|]. destruct SG as [-> | ->]; [|discriminate].
    cbn [app]. destruct (pre ++ body)%list; tauto.
Qed.
Lemma not_special : forall l s, lit_ok l -> spelled l s -> parse_special s = None.
Proof.
  intros l s K S. destruct (head_class l s K S) as (r & T & H & H'). unfold parse_special. rewrite T.
  replace (beq (to_lower r) (bs "inf")) with false.
  2:{ symmetry. apply not_true_is_false. intro E. apply beq_eq in E. destruct r as [|c r]; [discriminate|]. cbn in E. injection E as E _. tauto. }
  replace (beq (to_lower r) (bs "infinity")) with false.
  2:{ symmetry. apply not_true_is_false. intro E. apply beq_eq in E. destruct r as [|c r]; [discriminate|]. cbn in E. injection E as E _. tauto. }
  replace (beq (to_lower s) (bs "nan")) with false; [reflexivity|].
  symmetry. apply not_true_is_false. intro E. apply beq_eq in E. destruct s as [|c s]; [discriminate|]. cbn in E. injection E as E _. tauto.
Qed.
Lemma special_value : forall neg sg w, sign_text neg sg -> to_lower w = bs "inf" \/ to_lower w = bs "infinity" ->
  parse_special (sg ++ w) = Some (if neg then FNegInf else FPosInf).
Proof.
  intros neg sg w S W. unfold parse_special. rewrite (take_sign_text neg sg w S).
  - destruct W as [-> | ->]; reflexivity.
  - destruct w as [|c w]; [exact I|]. split; intros ->; destruct W as [W|W]; discriminate.
Qed.
Lemma special_nan : forall s, to_lower s = bs "nan" -> parse_special s = Some FNan.
Proof.
  intros s H. unfold parse_special. destruct s as [|c s]; [discriminate|].
  assert (N : c <> "-"%char /\ c <> "+"%char) by (split; intros ->; discriminate).
  pose proof (take_sign_text false [] (c :: s) (or_introl eq_refl) N) as T. cbn [app] in T. rewrite T, H. reflexivity.
Qed.

(** ** An exponent that is not read to its end *)
Lemma digits_zeros : forall k s, digits_from 10 0 (repeat "0"%char k ++ s) = digits_from 10 0 s.
Proof. induction k as [|k IH]; intro s; [reflexivity|]. cbn [repeat app digits_from fold_left] in *. apply IH. Qed.
Lemma pow10_large : forall x, (0 <? x) = true -> 4 <= 10 ^ x.
Proof. intros x X. assert (10 ^ 1 <= 10 ^ x) by (apply Z.pow_le_mono_r; lia). change (10 ^ 1) with 10 in *. lia. Qed.
Lemma one_misread : exists l s q, lit_ok l /\ spelled l s /\ (lit_value l == 1)%Q /\ parse_number s = Some (FFin q) /\ (q < 1 # 2)%Q.
Proof.
  destruct (Z_of_nat_complete 99999) as (k & KZ); [discriminate|]. symmetry in KZ.
  set (fp := (repeat "0"%char k ++ bs "1")%list).
  set (l := Lit false false (bs "0") fp (Some (false, bs "100000"))).
  set (s := (bs "0." ++ fp ++ bs "e100000")%list).
  assert (FP : Forall (base_digit false) fp).
  { apply Forall_app. split; [|constructor; [left; vm_compute; split; discriminate|constructor]].
    apply Forall_forall. intros c I. apply repeat_spec in I. subst c. left. vm_compute. split; discriminate. }
  assert (LEN : Z.of_nat (length fp) = 100000) by (unfold fp; rewrite app_length, repeat_length; change (length (bs "1")) with 1%nat; lia).
  assert (DG : lit_digits l = 1).
  { unfold lit_digits, digits_value. cbn [l l_hex l_ip l_fp].
    change (fold_left (fun a c => a * 10 + digit_value c) (bs "0" ++ fp) 0) with (digits_from 10 0 (bs "0" ++ fp)).
    change (bs "0" ++ fp)%list with (repeat "0"%char 1 ++ fp)%list. rewrite digits_zeros. unfold fp. rewrite digits_zeros. reflexivity. }
  assert (K : lit_ok l).
  { repeat split; try discriminate; [|exact FP|].
    - constructor; [left; vm_compute; split; discriminate|constructor].
    - repeat (apply Forall_cons || apply Forall_nil || (left; vm_compute; split; discriminate)). }
  assert (NU : forall c, In c s -> c <> "_"%char).
  { intros c I. unfold s in I. apply in_app_or in I as [I|I]; [cbn in I; intuition (subst; discriminate)|].
    apply in_app_or in I as [I|I]; [|cbn in I; intuition (subst; discriminate)].
    rewrite Forall_forall in FP. eapply no_digit; [apply (FP c I)|cbn; tauto]. }
  assert (S : spelled l s).
  { exists [], [], s. split; [reflexivity|]. split; [left; reflexivity|]. split; [reflexivity|]. split.
    - exists ("."%char :: fp), (bs "e100000"). split; [|split; [right; reflexivity|]].
      + transitivity s; [|unfold s; reflexivity]. unfold without_underscores. clear - NU. revert NU. generalize s. clear.
        induction s as [|c s IH]; intro N; [reflexivity|]. cbn [filter]. pose proof (N c (or_introl eq_refl)) as E. apply Ascii.eqb_neq in E.
        rewrite E. cbn [negb]. rewrite IH; [reflexivity|]. intros d I. apply N. now right.
      + exists "e"%char, []. split; [reflexivity|]. split; [left; reflexivity|left; reflexivity].
    - intros a b E. exfalso. apply (NU "_"%char); [|reflexivity]. rewrite E. apply in_or_app. right. now left. }
  assert (CP : lit_capped l = 10000) by reflexivity.
  pose proof (spelled_parse l s K S) as P. rewrite CP, DG in P. cbn [l l_hex l_neg l_fp] in P. rewrite LEN in P.
  unfold float_value in P. change (0 <=? 10000 - 100000) with false in P. cbv iota in P.
  change (- (10000 - 100000)) with 90000 in P.
  pose proof (pow10_large 90000 eq_refl) as D4. revert P D4. generalize (10 ^ 90000). intros d P D4.
  destruct (round_defined 1 d) as (q & Q); [lia|lia| |].
  { assert (B : 1 < float_limit) by reflexivity. generalize dependent float_limit. intros. nia. }
  rewrite Q in P. exists l, s, q. split; [exact K|]. split; [exact S|]. split.
  { assert (VV : (lit_value l == inject_Z 1 * Qpower 10 0)%Q).
    { unfold lit_value. rewrite DG. cbn [l l_neg l_hex l_fp]. rewrite LEN.
      change (lit_exp l) with 100000. reflexivity. }
    rewrite VV. reflexivity. }
  split; [exact P|].
  destruct (round_error 1 d q ltac:(lia) ltac:(lia) Q) as [NN [E|E]]; destruct q as [x y]; cbn [Qnum Qden] in *; unfold Qlt; cbn [Qnum Qden].
  - assert (B : 4 <= 2 ^ 53) by (vm_compute; discriminate). remember (2 ^ 53) as z. clear - E NN D4 B. nia.
  - assert (B : 8 <= 2 ^ 1075) by (vm_compute; discriminate). remember (2 ^ 1075) as z. clear - E NN D4 B.
    remember (Z.abs (x * d - 1 * Zpos y)) as w eqn:W. assert (8 * w <= d * Zpos y) by nia. assert (x * d <= Zpos y + w) by lia. nia.
Qed.
