(** Sample ranges of a rule: the loop of parseSampleRange. *)
From Coq Require Import String Ascii List ZArith QArith Bool Lia ZifyBool.
From Verif Require Import Base BaseProofs Utf8Model Utf8Proofs StrModel PopModel NumModel NumProofs F64Model
  ReModel ReProofs CldrModel CldrSpec CldrEvalProofs CldrOperandProofs CldrBuiltinProofs CldrParseProofs.
Import ListNotations.
Open Scope Z_scope.

Definition isdot (c : ascii) : bool := Ascii.eqb c ".".
Definition digs (t : bytes) : bytes := filter (fun c => negb (isdot c)) t.
Definition dd (c : ascii) : bool := is_digit c || isdot c.

Definition incr (t : bytes) : bytes * bool :=
  let (r, k) := incr_rev (rev t) in (rev r, k).

Lemma incr_snoc : forall t c, incr (t ++ [c]) =
  if isdot c then (fst (incr t) ++ [c], snd (incr t))
  else if Ascii.eqb c "9" then (fst (incr t) ++ ["0"%char], snd (incr t))
  else (t ++ [byte_of (bval c + 1)], false).
Proof.
  intros t c. unfold incr, isdot. rewrite rev_app_distr. cbn [rev app incr_rev].
  destruct (Ascii.eqb c ".").
  - destruct (incr_rev (rev t)) as [r k]. reflexivity.
  - destruct (Ascii.eqb c "9").
    + destruct (incr_rev (rev t)) as [r k]. reflexivity.
    + cbn [rev]. rewrite rev_involutive. reflexivity.
Qed.

Lemma digs_app : forall a b, digs (a ++ b) = digs a ++ digs b.
Proof. intros. unfold digs. apply filter_app. Qed.

Lemma incr_spec : forall t, forallb dd t = true ->
  map isdot (fst (incr t)) = map isdot t /\ forallb dd (fst (incr t)) = true /\
  dec_val (digs (fst (incr t))) + (if snd (incr t) then 10 ^ Z.of_nat (length (digs t)) else 0)
    = dec_val (digs t) + 1.
Proof.
  induction t as [|c t IH] using rev_ind; intro D.
  - repeat split; reflexivity.
  - rewrite forallb_app in D. apply andb_true_iff in D. destruct D as [D1 D2].
    specialize (IH D1). destruct IH as (I1 & I2 & I3).
    cbn [forallb] in D2. rewrite andb_true_r in D2.
    rewrite incr_snoc. destruct (isdot c) eqn:E.
    + cbn [fst snd]. rewrite !map_app, I1. split; [reflexivity|]. split.
      * rewrite forallb_app, I2. cbn [forallb andb]. rewrite D2. reflexivity.
      * rewrite !digs_app. unfold digs at 2 4 6. cbn [filter]. rewrite E. cbn [negb].
        rewrite !app_nil_r. exact I3.
    + unfold dd in D2. rewrite E, orb_false_r in D2.
      destruct (Ascii.eqb c "9") eqn:E9.
      * apply Ascii.eqb_eq in E9. subst c. cbn [fst snd]. rewrite !map_app, I1.
        split; [reflexivity|]. split; [rewrite forallb_app, I2; reflexivity|].
        rewrite !digs_app. change (digs ["0"%char]) with ["0"%char].
        change (digs ["9"%char]) with ["9"%char].
        rewrite !dec_val_snoc. change (digit_val "0") with 0. change (digit_val "9") with 9.
        rewrite app_length. cbn [length]. rewrite Nat2Z.inj_add. change (Z.of_nat 1) with 1.
        rewrite Z.pow_add_r by lia. change (10 ^ 1) with 10.
        destruct (snd (incr t)); lia.
      * cbn [fst snd]. rewrite !map_app. cbn [map].
        apply is_digit_val in D2.
        assert (N9 : bval c <> 57).
        { intro H. apply Ascii.eqb_neq in E9. apply E9. apply bval_inj. exact H. }
        assert (BV : bval (byte_of (bval c + 1)) = bval c + 1) by (apply byte_of_val; lia).
        assert (DG : is_digit (byte_of (bval c + 1)) = true) by (apply is_digit_val; lia).
        assert (ND : isdot (byte_of (bval c + 1)) = false) by (apply digit_neq; [exact DG|reflexivity]).
        rewrite E, ND. split; [reflexivity|]. split.
        { rewrite forallb_app, D1. cbn [forallb]. unfold dd. rewrite DG. reflexivity. }
        rewrite !digs_app. unfold digs at 2 4. cbn [filter]. rewrite E, ND. cbn [negb].
        rewrite !dec_val_snoc. unfold digit_val. rewrite BV. lia.
Qed.

Lemma increment_incr : forall t, increment t = if snd (incr t) then "1"%char :: fst (incr t) else fst (incr t).
Proof.
  intro t. unfold increment, incr. destruct (incr_rev (rev t)) as [r k]. reflexivity.
Qed.

Lemma dec_val_inj : forall a b, length a = length b -> forallb is_digit a = true ->
  forallb is_digit b = true -> dec_val a = dec_val b -> a = b.
Proof.
  induction a as [|c a IH] using rev_ind; intros b L DA DB V.
  - destruct b; [reflexivity|discriminate].
  - destruct b as [|d b _] using rev_ind; [rewrite app_length in L; simpl in L; lia|].
    rewrite !app_length in L. simpl in L. rewrite forallb_app in DA, DB.
    apply andb_true_iff in DA. apply andb_true_iff in DB. destruct DA as [DA1 DA2]. destruct DB as [DB1 DB2].
    cbn [forallb] in DA2, DB2. rewrite andb_true_r in DA2, DB2.
    rewrite !dec_val_snoc in V.
    pose proof (digit_val_range _ DA2). pose proof (digit_val_range _ DB2).
    assert (V1 : dec_val a = dec_val b) by lia. assert (V2 : digit_val c = digit_val d) by lia.
    rewrite (IH b) by (try assumption; lia). f_equal. f_equal.
    apply bval_inj. unfold digit_val in V2. lia.
Qed.

(** Text of a sample number: integer part and fraction. *)
Definition frac_text (fp : option bytes) : bytes :=
  match fp with Some f => "."%char :: f | None => [] end.
Definition sn (ip : bytes) (fp : option bytes) : numeral := Num false ip fp None.

Lemma sample_num_sn : forall x, sample_num x -> x = sn (nm_ip x) (nm_fp x) /\
  nm_text x = nm_ip x ++ frac_text (nm_fp x) /\
  forallb is_digit (nm_ip x) = true /\ forallb is_digit (nm_fdigits x) = true /\ nm_ip x <> [].
Proof.
  intros [neg ip fp ex] ((N & D & F) & E1 & E2 & C). cbn [nm_neg nm_ip nm_fp nm_exp] in *. subst.
  split; [reflexivity|]. unfold nm_text. cbn [nm_neg nm_ip nm_fp nm_exp]. rewrite app_nil_l, app_nil_r.
  split; [destruct fp; reflexivity|]. apply all_digits_b in D. split; [exact D|].
  split; [|exact N]. apply all_digits_b in F. exact F.
Qed.

Lemma digs_digits : forall s, forallb is_digit s = true -> digs s = s.
Proof.
  induction s as [|c s IH]; intro D; [reflexivity|]. cbn [forallb] in D. apply andb_true_iff in D.
  destruct D as [D1 D2]. unfold digs. cbn [filter]. unfold isdot.
  rewrite (digit_neq c "." D1 eq_refl). cbn [negb]. f_equal. apply IH. exact D2.
Qed.
Lemma digits_isdot : forall s, forallb is_digit s = true -> map isdot s = repeat false (length s).
Proof.
  induction s as [|c s IH]; intro D; [reflexivity|]. cbn [forallb] in D. apply andb_true_iff in D.
  destruct D as [D1 D2]. cbn [map length repeat]. unfold isdot at 1.
  rewrite (digit_neq c "." D1 eq_refl). f_equal. apply IH. exact D2.
Qed.
Lemma digits_dd : forall s, forallb is_digit s = true -> forallb dd s = true.
Proof.
  intros s D. rewrite forallb_forall in *. intros c I. unfold dd. rewrite (D c I). reflexivity.
Qed.
Lemma isdot_repeat : forall n t r, forallb dd t = true -> map isdot t = repeat false n ++ r ->
  exists a b, t = a ++ b /\ length a = n /\ forallb is_digit a = true /\ map isdot b = r /\ forallb dd b = true.
Proof.
  induction n as [|n IH]; intros t r D H.
  - exists [], t. repeat split; auto.
  - destruct t as [|c t]; [discriminate|]. cbn [map repeat app] in H.
    injection H as H1 H2.
    cbn [forallb] in D. apply andb_true_iff in D. destruct D as [D1 D2].
    destruct (IH t r D2 H2) as (a & b & E & L & DA & M & DB). subst t.
    exists (c :: a), b. repeat split; auto; cbn [length]; try lia.
    cbn [forallb]. rewrite DA. unfold dd in D1. rewrite H1, orb_false_r in D1. rewrite D1. reflexivity.
Qed.

Definition fsome (fp : option bytes) : list bool :=
  match fp with Some f => true :: repeat false (length f) | None => [] end.
Definition fd (fp : option bytes) : bytes := match fp with Some f => f | None => [] end.

(** Text with the dots of a sample number is the text of one. *)
Lemma shape : forall t n fp, forallb dd t = true -> map isdot t = repeat false n ++ fsome fp ->
  exists ip gp, t = ip ++ frac_text gp /\ length ip = n /\ forallb is_digit ip = true /\
    forallb is_digit (fd gp) = true /\
    match fp, gp with None, None => True | Some f, Some g => length f = length g | _, _ => False end /\
    digs t = ip ++ fd gp.
Proof.
  intros t n fp D H. destruct (isdot_repeat n t (fsome fp) D H) as (a & b & E & L & DA & M & DB).
  subst t. destruct fp as [f|]; cbn [fsome] in M.
  - destruct b as [|c b]; [discriminate|]. cbn [map] in M. injection M as M1 M2.
    unfold isdot in M1. apply Ascii.eqb_eq in M1. subst c.
    cbn [forallb] in DB. apply andb_true_iff in DB. destruct DB as [_ DB].
    destruct (isdot_repeat (length f) b [] DB) as (g & b2 & E2 & L2 & DG & M3 & _).
    { rewrite app_nil_r. exact M2. }
    destruct b2; [|discriminate]. rewrite app_nil_r in E2. subst b.
    exists a, (Some g). cbn [frac_text fd]. repeat split; auto.
    rewrite digs_app. rewrite digs_digits by exact DA. f_equal.
    change (digs ("."%char :: g)) with (digs g). apply digs_digits. exact DG.
  - destruct b; [|discriminate]. exists a, None. cbn [frac_text fd]. rewrite !app_nil_r.
    repeat split; auto. apply digs_digits. exact DA.
Qed.

Lemma text_dots : forall ip fp, forallb is_digit ip = true -> forallb is_digit (fd fp) = true ->
  map isdot (ip ++ frac_text fp) = repeat false (length ip) ++ fsome fp /\
  forallb dd (ip ++ frac_text fp) = true /\ digs (ip ++ frac_text fp) = ip ++ fd fp.
Proof.
  intros ip fp D F. rewrite map_app, digits_isdot by exact D. rewrite forallb_app, (digits_dd ip D).
  rewrite digs_app, digs_digits by exact D.
  destruct fp as [f|]; cbn [frac_text fsome fd] in *.
  - cbn [map]. rewrite digits_isdot by exact F. cbn [forallb]. rewrite (digits_dd f F).
    change (digs ("."%char :: f)) with (digs f). rewrite digs_digits by exact F. repeat split.
  - repeat split; reflexivity.
Qed.

(** First digit and size. *)
Lemma lead_size : forall s, forallb is_digit s = true -> no_leading_zero s ->
  10 ^ (Z.of_nat (length s) - 1) <= dec_val s.
Proof.
  intros [|c s] D N; [contradiction|]. cbn [forallb] in D. apply andb_true_iff in D. destruct D as [D1 D2].
  simpl in N. change (c :: s) with ([c] ++ s). rewrite dec_val_app by exact D2.
  pose proof (digit_val_range c D1). pose proof (dec_val_bound s D2).
  assert (digit_val c <> 0). { intro Z0. apply N. apply bval_inj. unfold digit_val in Z0. change (bval "0") with 48. lia. }
  change (dec_val [c]) with (0 * 10 + digit_val c).
  replace (Z.of_nat (length ([c] ++ s)) - 1) with (Z.of_nat (length s)) by (rewrite app_length; cbn [length]; lia).
  nia.
Qed.
Lemma lead_zero_small : forall c s, forallb is_digit (c :: s) = true -> c = "0"%char ->
  dec_val (c :: s) < 10 ^ Z.of_nat (length s).
Proof.
  intros c s D E. subst. cbn [forallb] in D. apply andb_true_iff in D. destruct D as [_ D].
  change ("0"%char :: s) with (["0"%char] ++ s). rewrite dec_val_app by exact D.
  change (dec_val ["0"%char]) with 0. pose proof (dec_val_bound s D). lia.
Qed.

Lemma nlz_app : forall a b, a <> [] -> (no_leading_zero (a ++ b) <-> no_leading_zero a).
Proof. intros [|c a] b N; [contradiction|]. reflexivity. Qed.

Lemma nm_digits_sn : forall ip fp, nm_digits (sn ip fp) = dec_val (ip ++ fd fp).
Proof. reflexivity. Qed.
Lemma nm_text_sn : forall ip fp, nm_text (sn ip fp) = ip ++ frac_text fp.
Proof. intros ip fp. unfold nm_text. cbn [sn nm_neg nm_ip nm_fp nm_exp]. rewrite app_nil_l, app_nil_r. reflexivity. Qed.

Lemma sample_num_intro : forall ip fp, ip <> [] -> forallb is_digit ip = true ->
  forallb is_digit (fd fp) = true ->
  ip = ["0"%char] \/ no_leading_zero ip -> sample_num (sn ip fp).
Proof.
  intros ip fp N D F C. unfold sample_num. cbn [sn nm_neg nm_ip nm_fp nm_exp].
  apply all_digits_b in D. repeat split; auto. apply all_digits_b in F. exact F.
Qed.

Lemma increment_num : forall x, sample_num x ->
  exists y, increment (nm_text x) = nm_text y /\ sample_num y /\ same_places x y /\
    nm_digits y = nm_digits x + 1.
Proof.
  intros [neg ip fp ex] SN. destruct (sample_num_sn _ SN) as (EX & _ & D & F & N).
  destruct SN as (_ & E1 & E2 & C). clear EX.
  unfold nm_fdigits in F. cbn [nm_neg nm_ip nm_fp nm_exp] in *. subst neg ex.
  change (match fp with Some f => f | None => [] end) with (fd fp) in F.
  change (Num false ip fp None) with (sn ip fp). rewrite nm_text_sn, nm_digits_sn.
  destruct (text_dots ip fp D F) as (T1 & T2 & T3).
  destruct (incr_spec (ip ++ frac_text fp) T2) as (I1 & I2 & I3).
  rewrite T1 in I1. rewrite T3 in I3. rewrite increment_incr.
  destruct (incr (ip ++ frac_text fp)) as [t k]. cbn [fst snd] in *.
  destruct (shape t (length ip) fp I2 I1) as (jp & gp & E & L & DJ & DG & SH & DT). subst t.
  rewrite DT in I3.
  assert (SP : same_places (sn ip fp) (sn jp gp)).
  { unfold same_places. cbn [sn nm_fp]. exact SH. }
  assert (LF : length (fd gp) = length (fd fp)).
  { destruct fp, gp; simpl in *; auto; contradiction. }
  assert (DJG : forallb is_digit (jp ++ fd gp) = true) by (rewrite forallb_app, DJ, DG; reflexivity).
  destruct k.
  - exists (sn ("1"%char :: jp) gp). rewrite nm_text_sn, nm_digits_sn. split; [reflexivity|]. split.
    { apply sample_num_intro; auto; try discriminate. right. discriminate. }
    split; [exact SP|].
    change (("1"%char :: jp) ++ fd gp) with (["1"%char] ++ (jp ++ fd gp)).
    rewrite dec_val_app by exact DJG. change (dec_val ["1"%char]) with 1.
    rewrite <- I3. rewrite Z.mul_1_l.
    replace (length (jp ++ fd gp)) with (length (ip ++ fd fp)) by (rewrite !app_length; lia). lia.
  - exists (sn jp gp). rewrite nm_text_sn, nm_digits_sn. split; [reflexivity|].
    split; [|split; [exact SP|lia]].
    apply sample_num_intro; auto.
    { intro; subst jp. destruct ip; [contradiction|discriminate]. }
    destruct C as [C|C].
    + rewrite C in L. destruct jp as [|c jp]; [discriminate|]. destruct jp; [|discriminate].
      destruct (Ascii.eqb c "0") eqn:E0; [apply Ascii.eqb_eq in E0; subst; left; reflexivity|].
      right. simpl. apply Ascii.eqb_neq. exact E0.
    + right. destruct jp as [|c jp]; [destruct ip; [contradiction|discriminate]|]. simpl. intro E0.
      assert (DIP : forallb is_digit (ip ++ fd fp) = true) by (rewrite forallb_app, D, F; reflexivity).
      pose proof (lead_size (ip ++ fd fp) DIP ltac:(apply nlz_app; assumption)) as LS.
      pose proof (lead_zero_small c (jp ++ fd gp) DJG E0) as LZ.
      replace (Z.of_nat (length (ip ++ fd fp)) - 1) with (Z.of_nat (length (jp ++ fd gp))) in LS
        by (rewrite !app_length; cbn [length] in L; lia).
      change ((c :: jp) ++ fd gp) with (c :: (jp ++ fd gp)) in I3. lia.
Qed.

Lemma same_places_refl : forall x, same_places x x.
Proof. intros [n i [f|] e]; unfold same_places; cbn [nm_fp]; auto. Qed.
Lemma same_places_trans : forall x y z, same_places x y -> same_places y z -> same_places x z.
Proof.
  intros [n i [f|] e] [n2 i2 [f2|] e2] [n3 i3 [f3|] e3]; unfold same_places; cbn [nm_fp]; auto;
    try contradiction; congruence.
Qed.
Lemma same_places_sym : forall x y, same_places x y -> same_places y x.
Proof. intros [n i [f|] e] [n2 i2 [f2|] e2]; unfold same_places; cbn [nm_fp]; auto. Qed.

Lemma canon_length : forall a b f g, forallb is_digit (a ++ f) = true -> forallb is_digit (b ++ g) = true ->
  length f = length g -> a = ["0"%char] \/ no_leading_zero a -> no_leading_zero b -> b <> [] ->
  dec_val (a ++ f) = dec_val (b ++ g) -> (length b <= length a)%nat.
Proof.
  intros a b f g DA DB L CA CB NB V.
  destruct (Nat.le_gt_cases (length b) (length a)) as [|G]; [assumption|exfalso].
  pose proof (lead_size (b ++ g) DB ltac:(apply nlz_app; assumption)) as LS.
  pose proof (dec_val_bound (a ++ f) DA) as LB.
  assert (10 ^ Z.of_nat (length (a ++ f)) <= 10 ^ (Z.of_nat (length (b ++ g)) - 1)).
  { apply Z.pow_le_mono_r; [lia|]. rewrite !app_length. lia. }
  lia.
Qed.

Lemma app_inj_len : forall (a c b d : bytes), length a = length c -> a ++ b = c ++ d -> a = c /\ b = d.
Proof.
  induction a as [|x a IH]; intros [|y c] b d L E; try discriminate; [auto|].
  cbn [app] in E. injection E as E1 E2. cbn [length] in L.
  destruct (IH c b d) as [A B]; [lia|exact E2|]. subst. auto.
Qed.

Lemma sample_num_inj : forall x y, sample_num x -> sample_num y -> same_places x y ->
  nm_digits x = nm_digits y -> x = y.
Proof.
  intros x y SX SY SP V.
  destruct (sample_num_sn x SX) as (EX & _ & DX & FX & NX).
  destruct (sample_num_sn y SY) as (EY & _ & DY & FY & NY).
  destruct SX as (_ & _ & _ & CX). destruct SY as (_ & _ & _ & CY).
  unfold same_places in SP. unfold nm_digits, nm_fdigits in *.
  set (fx := match nm_fp x with Some f => f | None => [] end) in *.
  set (fy := match nm_fp y with Some f => f | None => [] end) in *.
  assert (L : length fx = length fy).
  { unfold fx, fy. destruct (nm_fp x), (nm_fp y); auto; contradiction. }
  assert (AX : forallb is_digit (nm_ip x ++ fx) = true) by (rewrite forallb_app, DX, FX; reflexivity).
  assert (AY : forallb is_digit (nm_ip y ++ fy) = true) by (rewrite forallb_app, DY, FY; reflexivity).
  assert (LI : length (nm_ip x) = length (nm_ip y)).
  { destruct CX as [CX|CX]; destruct CY as [CY|CY].
    - rewrite CX, CY. reflexivity.
    - pose proof (canon_length _ _ _ _ AX AY L (or_introl CX) CY NY V).
      rewrite CX in *. destruct (nm_ip y); [contradiction|]. simpl in *. lia.
    - pose proof (canon_length _ _ _ _ AY AX (eq_sym L) (or_introl CY) CX NX (eq_sym V)).
      rewrite CY in *. destruct (nm_ip x); [contradiction|]. simpl in *. lia.
    - pose proof (canon_length _ _ _ _ AX AY L (or_intror CX) CY NY V).
      pose proof (canon_length _ _ _ _ AY AX (eq_sym L) (or_intror CY) CX NX (eq_sym V)). lia. }
  assert (E : nm_ip x ++ fx = nm_ip y ++ fy).
  { apply dec_val_inj; auto. rewrite !app_length. lia. }
  assert (E1 : nm_ip x = nm_ip y).
  { exact (proj1 (app_inj_len _ _ _ _ LI E)). }
  rewrite E1 in E. apply app_inv_head in E.
  rewrite EX, EY, E1. f_equal. unfold fx, fy in E. destruct (nm_fp x), (nm_fp y); auto; try contradiction.
  congruence.
Qed.

Lemma frac_split : forall fx fy ip iq, forallb is_digit ip = true -> forallb is_digit iq = true ->
  ip ++ frac_text fx = iq ++ frac_text fy -> ip = iq /\ fx = fy.
Proof.
  intros fx fy. induction ip as [|c ip IH]; intros iq D1 D2 E.
  - destruct iq as [|d iq].
    + split; [reflexivity|]. destruct fy, fx; simpl in E; try congruence.
    + exfalso. destruct fx; [|discriminate]. simpl in E. inversion E; subst. discriminate.
  - destruct iq as [|d iq].
    + exfalso. destruct fy; [|discriminate]. simpl in E. inversion E; subst. discriminate.
    + cbn [forallb] in D1, D2. apply andb_true_iff in D1. apply andb_true_iff in D2.
      cbn [app] in E. injection E as E1 E2. destruct (IH iq) as [A B]; try tauto. subst. auto.
Qed.

Lemma nm_text_inj : forall x y, sample_num x -> sample_num y -> nm_text x = nm_text y -> x = y.
Proof.
  intros x y SX SY E.
  destruct (sample_num_sn x SX) as (EX & TX & DX & FX & NX).
  destruct (sample_num_sn y SY) as (EY & TY & DY & FY & NY).
  rewrite TX, TY in E. destruct (frac_split _ _ _ _ DX DY E) as [A B].
  rewrite EX, EY, A, B. reflexivity.
Qed.

Lemma sample_loop_up : forall n x y fuel, sample_num x -> sample_num y -> same_places x y ->
  nm_digits y = nm_digits x + Z.of_nat n -> (n < fuel)%nat ->
  exists zs, sample_loop fuel (nm_text x) (nm_text y) = Ok (map nm_text zs) /\
    Forall (fun z => sample_num z /\ same_places x z) zs /\
    map nm_digits zs = map (fun i => nm_digits x + Z.of_nat i) (seq 0 (S n)).
Proof.
  induction n as [|n IH]; intros x y fuel SX SY SP V L; (destruct fuel as [|f]; [lia|]); cbn [sample_loop].
  - assert (x = y) by (apply sample_num_inj; auto; lia). subst y. rewrite beq_refl.
    exists [x]. split; [reflexivity|]. split; [constructor; [split; auto; apply same_places_refl|constructor]|].
    cbn [map seq]. f_equal. lia.
  - destruct (beq (nm_text x) (nm_text y)) eqn:B.
    { apply beq_eq in B. apply nm_text_inj in B; auto. subst. lia. }
    destruct (increment_num x SX) as (x' & E & SX' & SP' & V').
    rewrite E. destruct (IH x' y f SX' SY) as (zs & R & F & M).
    { eapply same_places_trans; [apply same_places_sym; exact SP'|exact SP]. }
    { lia. } { lia. }
    rewrite R. cbn [rbind]. exists (x :: zs). split; [reflexivity|]. split.
    + constructor; [split; auto; apply same_places_refl|].
      eapply Forall_impl; [|exact F]. intros z [Z1 Z2]. split; auto. eapply same_places_trans; eauto.
    + change (seq 0 (S (S n))) with (0%nat :: seq 1 (S n)). cbn [map].
      f_equal; [lia|]. rewrite M, <- (seq_shift (S n) 0), map_map. apply map_ext. intro i. lia.
Qed.

Lemma sample_loop_ok_inv : forall fuel x y l, sample_num x -> sample_num y ->
  sample_loop fuel (nm_text x) (nm_text y) = Ok l -> same_places x y /\ nm_digits x <= nm_digits y.
Proof.
  induction fuel as [|f IH]; intros x y l SX SY H; [discriminate|]. cbn [sample_loop] in H.
  destruct (beq (nm_text x) (nm_text y)) eqn:B.
  - apply beq_eq in B. apply nm_text_inj in B; auto. subst. split; [apply same_places_refl|lia].
  - destruct (increment_num x SX) as (x' & E & SX' & SP' & V'). rewrite E in H.
    destruct (sample_loop f (nm_text x') (nm_text y)) as [l2| | |] eqn:R; try discriminate.
    destruct (IH x' y l2 SX' SY R) as [A C]. split; [eapply same_places_trans; eauto|lia].
Qed.

Lemma sample_loop_never_err : forall fuel a b, sample_loop fuel a b <> Err /\ sample_loop fuel a b <> Panic.
Proof.
  induction fuel as [|f IH]; intros a b; [split; discriminate|]. cbn [sample_loop].
  destruct (beq a b); [split; discriminate|].
  destruct (IH (increment a) b) as [A B].
  destruct (sample_loop f (increment a) b); cbn [rbind]; split; congruence || discriminate.
Qed.

(** ** Scanning samples *)

(** Expressions none of whose sets contains [c] match no text with [c]. *)
Fixpoint avoids (c : ascii) (r : re) : bool :=
  match r with
  | RNone | REmpty => true
  | RSet p => negb (p c)
  | RSeq a b | RAlt a b => avoids c a && avoids c b
  | RStar a => avoids c a
  end.

Lemma avoids_spec : forall c r s, lang r s -> avoids c r = true -> ~ In c s.
Proof.
  intros c r s H. induction H; intros A I; cbn [avoids] in A.
  - inversion I.
  - destruct I as [I|[]]. subst. rewrite H in A. discriminate.
  - apply andb_true_iff in A. apply in_app_iff in I. tauto.
  - apply andb_true_iff in A. tauto.
  - apply andb_true_iff in A. tauto.
  - inversion I.
  - apply in_app_iff in I. tauto.
Qed.

Lemma avoids_no : forall c r s, avoids c r = true -> In c s -> rmatch r s = false.
Proof.
  intros c r s A I. destruct (rmatch r s) eqn:E; [|reflexivity].
  apply rmatch_lang in E. exfalso. exact (avoids_spec c r s E A I).
Qed.

Lemma lang_int : forall ip, forallb is_digit ip = true -> ip <> [] ->
  ip = ["0"%char] \/ no_leading_zero ip -> lang re_int ip.
Proof.
  intros ip D N C. unfold re_int. apply lang_alt. destruct C as [C|C].
  - left. subst. apply lang_set. exists "0"%char. split; reflexivity.
  - right. destruct ip as [|c ip]; [contradiction|]. cbn [forallb] in D. apply andb_true_iff in D.
    destruct D as [D1 D2]. apply is_digit_val in D1. simpl in C.
    apply (LSeq _ _ [c] ip).
    + constructor. assert (bval c <> 48) by (intro; apply C; apply bval_inj; assumption). lia.
    + apply lang_star_set. exact D2.
Qed.

Lemma lang_frac : forall fp, forallb is_digit (fd fp) = true ->
  lang (ropt (RSeq (rchar ".") (RStar rdigit))) (frac_text fp).
Proof.
  intros [f|] D; unfold ropt; apply lang_alt; cbn [frac_text fd] in *.
  - right. apply (LSeq _ _ ["."%char] f); [constructor; reflexivity|]. apply lang_star_set. exact D.
  - left. constructor.
Qed.

Lemma text_parts : forall x, sample_num x -> lang re_int (nm_ip x) /\
  lang (ropt (RSeq (rchar ".") (RStar rdigit))) (frac_text (nm_fp x)) /\
  nm_text x = nm_ip x ++ frac_text (nm_fp x).
Proof.
  intros x SX. destruct (sample_num_sn x SX) as (_ & TX & DX & FX & NX).
  destruct SX as (_ & _ & _ & C). split; [apply lang_int; assumption|].
  split; [apply lang_frac; exact FX|exact TX].
Qed.

Lemma num_head : forall x, sample_num x -> exists c t, nm_text x = c :: t /\ is_digit c = true.
Proof.
  intros x SX. destruct (sample_num_sn x SX) as (_ & TX & DX & _ & NX). rewrite TX.
  destruct (nm_ip x) as [|c ip]; [contradiction|]. cbn [forallb] in DX. apply andb_true_iff in DX.
  exists c; eexists. split; [reflexivity|tauto].
Qed.

Lemma classify_num : forall x, sample_num x -> classify (nm_text x) = KValue \/ classify (nm_text x) = KSampleValue.
Proof.
  intros x SX. unfold classify.
  destruct (rmatch re_value (nm_text x)); [left; reflexivity|].
  destruct (text_parts x SX) as (L1 & L2 & TX).
  replace (rmatch re_sample_value (nm_text x)) with true; [right; reflexivity|].
  symmetry. apply rmatch_lang. unfold re_sample_value. apply lang_alt. left. rewrite TX.
  apply LSeq; [|exact L2]. unfold re_int in L1. apply lang_alt in L1. apply lang_alt.
  destruct L1 as [L1|L1]; [left; exact L1|right].
  apply lang_seq in L1. destruct L1 as (a & b & E & A & B). rewrite E. cbn [rseq].
  apply LSeq; [exact A|]. apply lang_seq. exists b, []. split; [rewrite app_nil_r; reflexivity|].
  split; [exact B|]. apply lang_seq. exists [], []. split; [reflexivity|]. split.
  - apply lang_alt. left. constructor.
  - apply lang_seq. exists [], []. split; [reflexivity|]. split; [apply lang_star_set; reflexivity|constructor].
Qed.

Lemma classify_srange : forall x y, sample_num x -> sample_num y ->
  classify (nm_text x ++ "~"%char :: nm_text y) = KSampleRange.
Proof.
  intros x y SX SY. unfold classify.
  assert (I : In "~"%char (nm_text x ++ "~"%char :: nm_text y)) by (apply in_app_iff; right; left; reflexivity).
  rewrite (avoids_no "~"%char re_value _ eq_refl I), (avoids_no "~"%char re_sample_value _ eq_refl I),
    (avoids_no "~"%char re_range _ eq_refl I).
  destruct (text_parts x SX) as (L1 & L2 & TX). destruct (text_parts y SY) as (L3 & L4 & TY).
  replace (rmatch re_sample_range _) with true; [reflexivity|]. symmetry. apply rmatch_lang.
  unfold re_sample_range. cbn [rseq]. rewrite TX, TY, <- app_assoc.
  apply LSeq; [exact L1|]. apply LSeq; [exact L2|].
  apply (LSeq _ _ ["~"%char]); [constructor; reflexivity|].
  apply LSeq; [exact L3|]. apply lang_seq. eexists; exists []. split; [rewrite app_nil_r; reflexivity|].
  split; [exact L4|constructor].
Qed.

Lemma digit_no_join : forall c t r, is_digit c = true -> no_join ((c :: t) :: r).
Proof.
  intros c t r D. unfold no_join, mem_b. cbn [bs list_ascii_of_string existsb].
  rewrite !beq_head by (apply digit_neq; [exact D|reflexivity]). reflexivity.
Qed.

Lemma sample_no_join : forall ts, Forall sample_tok ts -> no_join ts.
Proof.
  intros ts F. destruct F as [|t ts H F]; [exact I|].
  destruct H as [s [H|H]|x SX|x y SX SY _ _|s [H|H]]; try (subst; reflexivity).
  - destruct (num_head x SX) as (c & u & E & D). rewrite E. apply digit_no_join. exact D.
  - destruct (num_head x SX) as (c & u & E & D). rewrite E. cbn [app]. apply digit_no_join. exact D.
Qed.

(** What the scanner gives at the start of a list of sample tokens. *)
Inductive sstate : list bytes -> pst -> Prop :=
| SS_end : forall ts, Forall (fun t => t = ellipsis \/ t = bs "...") ts -> sstate ts (PSt KEof [] [])
| SS_mark : forall d t r, Forall sample_tok r -> Forall (fun t => t = ellipsis \/ t = bs "...") d ->
    t = bs "@integer" \/ t = bs "@decimal" -> sstate (d ++ t :: r) (PSt KSample t r)
| SS_num : forall d x r k, Forall sample_tok r -> Forall (fun t => t = ellipsis \/ t = bs "...") d ->
    sample_num x -> k = KValue \/ k = KSampleValue -> sstate (d ++ nm_text x :: r) (PSt k (nm_text x) r)
| SS_range : forall d x y r, Forall sample_tok r -> Forall (fun t => t = ellipsis \/ t = bs "...") d ->
    sample_num x -> sample_num y -> same_places x y -> nm_digits x <= nm_digits y ->
    sstate (d ++ (nm_text x ++ "~"%char :: nm_text y) :: r)
      (PSt KSampleRange (nm_text x ++ "~"%char :: nm_text y) r).

Lemma enter_dots : forall t r, t = ellipsis \/ t = bs "..." -> enter (t :: r) = enter r.
Proof.
  intros t r [H|H]; subst; unfold enter, pnext; cbn [p_rest].
  - change (cscan (ellipsis :: r)) with (cscan r). reflexivity.
  - change (cscan (bs "..." :: r)) with (cscan r). reflexivity.
Qed.

Lemma enter_samples : forall ts, Forall sample_tok ts -> exists st, enter ts = Ok st /\ sstate ts st.
Proof.
  intros ts F. induction F as [|t ts H F IH].
  - eexists. split; [reflexivity|]. apply SS_end. constructor.
  - destruct H as [s H|x SX|x y SX SY SP L|s H].
    + exists (PSt KSample s ts). split; [destruct H; subst; reflexivity|]. apply (SS_mark [] s ts); auto.
    + destruct (num_head x SX) as (c & u & E & D).
      exists (PSt (classify (nm_text x)) (nm_text x) ts). split.
      * apply enter_kw; [|destruct (classify_num x SX) as [K|K]; rewrite K; discriminate].
        rewrite E. apply cscan_digit; [exact D|]. apply sample_no_join. exact F.
      * apply (SS_num [] x ts); auto. apply classify_num. exact SX.
    + destruct (num_head x SX) as (c & u & E & D).
      eexists. split.
      * apply enter_kw with (k := KSampleRange); [|discriminate].
        rewrite <- (classify_srange x y SX SY). rewrite E. cbn [app].
        apply cscan_digit; [exact D|]. apply sample_no_join. exact F.
      * rewrite E. cbn [app]. rewrite <- (app_nil_l ((_ :: _) :: ts)).
        pose proof (SS_range [] x y ts F (Forall_nil _) SX SY SP L) as Q. rewrite E in Q. exact Q.
    + destruct IH as (st & E & Q). exists st. split; [rewrite enter_dots; auto|].
      assert (HD : s = ellipsis \/ s = bs "...") by exact H.
      destruct Q as [ts D|d t r FR D T|d x r k FR D SX K|d x y r FR D SX SY SP L];
        rewrite ?app_comm_cons; constructor; auto.
Qed.

(** Length of the result, so that a bound on the fuel can be given. *)
Fixpoint range_len (ts : list (numeral * numeral)) : nat :=
  match ts with
  | [] => 0
  | (x, y) :: r => Nat.max (S (Z.to_nat (nm_digits y - nm_digits x))) (range_len r)
  end.

Lemma split_sample : forall x y, sample_num x -> sample_num y ->
  split_on "~" (nm_text x ++ "~"%char :: nm_text y) = [nm_text x; nm_text y].
Proof.
  intros x y SX SY.
  assert (NT : forall z, sample_num z -> forallb (fun c => negb (Ascii.eqb c "~")) (nm_text z) = true).
  { intros z SZ. destruct (sample_num_sn z SZ) as (_ & TZ & D & F & _). rewrite TZ, forallb_app.
    rewrite (digits_no "~") by (try reflexivity; exact D). cbn [andb].
    unfold nm_fdigits in F. destruct (nm_fp z) as [f|]; [|reflexivity]. cbn [frac_text forallb].
    rewrite (digits_no "~") by (try reflexivity; exact F). reflexivity. }
  assert (G : forall a b, forallb (fun c => negb (Ascii.eqb c "~")) a = true ->
    forallb (fun c => negb (Ascii.eqb c "~")) b = true -> split_on "~" (a ++ "~"%char :: b) = [a; b]).
  { induction a as [|c a IH]; intros b A B.
    - cbn [app split_on]. change (Ascii.eqb "~" "~") with true. cbv iota. f_equal.
      induction b as [|d b IHb]; [reflexivity|]. cbn [forallb] in B. apply andb_true_iff in B.
      destruct B as [B1 B2]. apply negb_true_iff in B1. cbn [split_on]. rewrite B1, IHb by exact B2. reflexivity.
    - cbn [forallb] in A. apply andb_true_iff in A. destruct A as [A1 A2]. apply negb_true_iff in A1.
      cbn [app split_on]. rewrite A1, IH by assumption. reflexivity. }
  apply G; apply NT; assumption.
Qed.

Lemma samples_loop_ok : forall n ts st, (length ts <= n)%nat -> sstate ts st ->
  exists F, forall fuel steps, (F <= fuel)%nat -> (n <= steps)%nat ->
    exists sm, samples_loop fuel steps st = Ok sm.
Proof.
  induction n as [|n IH]; intros ts st L Q.
  - destruct Q as [ts D|d t r FR D T|d x r k FR D SX K|d x y r FR D SX SY SP LE];
      try (rewrite app_length in L; simpl in L; lia).
    exists 0%nat. intros fuel steps _ _. exists []. destruct steps; reflexivity.
  - destruct Q as [ts D|d t r FR D T|d x r k FR D SX K|d x y r FR D SX SY SP LE].
    + exists 0%nat. intros fuel steps _ _. exists []. destruct steps; reflexivity.
    + rewrite app_length in L. simpl in L. destruct (enter_samples r FR) as (st' & E & Q).
      destruct (IH r st' ltac:(lia) Q) as (F & HF). exists F. intros fuel steps L1 L2.
      destruct steps as [|steps]; [lia|]. cbn [samples_loop p_tok]. rewrite pnext_enter, E. cbn [rbind].
      apply HF; lia.
    + rewrite app_length in L. simpl in L. destruct (enter_samples r FR) as (st' & E & Q).
      destruct (IH r st' ltac:(lia) Q) as (F & HF). exists F. intros fuel steps L1 L2.
      destruct steps as [|steps]; [lia|]. destruct (HF fuel steps L1 ltac:(lia)) as (sm & H).
      exists (nm_text x :: sm).
      destruct K; subst k; cbn [samples_loop p_tok p_lit]; rewrite pnext_enter, E; cbn [rbind];
        rewrite H; reflexivity.
    + rewrite app_length in L. simpl in L. destruct (enter_samples r FR) as (st' & E & Q).
      destruct (IH r st' ltac:(lia) Q) as (F & HF).
      exists (Nat.max F (S (Z.to_nat (nm_digits y - nm_digits x)))). intros fuel steps L1 L2.
      destruct steps as [|steps]; [lia|]. destruct (HF fuel steps ltac:(lia) ltac:(lia)) as (sm & H).
      destruct (sample_loop_up (Z.to_nat (nm_digits y - nm_digits x)) x y fuel SX SY SP ltac:(lia) ltac:(lia))
        as (zs & R & _).
      exists (map nm_text zs ++ sm).
      cbn [samples_loop p_tok p_lit]. unfold parse_sample_range. rewrite split_sample by assumption.
      rewrite R. cbn [rbind]. rewrite pnext_enter, E. cbn [rbind]. rewrite H. reflexivity.
Qed.

Lemma sample_tok_clean : forall t, sample_tok t -> tok_clean t.
Proof.
  assert (NUM : forall x, sample_num x -> tok_ok (nm_text x)).
  { intros x SX. destruct (sample_num_sn x SX) as (_ & TX & D & F & N). rewrite TX.
    destruct (digits_tok _ N D) as (_ & A & B). unfold nm_fdigits in F.
    split; [destruct (nm_ip x); [contradiction|discriminate]|]. rewrite !forallb_app, A, B. cbn [andb].
    destruct (nm_fp x) as [f|]; [|split; reflexivity]. cbn [frac_text forallb].
    destruct f as [|c f]; [split; reflexivity|].
    destruct (digits_tok (c :: f) ltac:(discriminate) F) as (_ & A2 & B2). rewrite A2, B2. split; reflexivity. }
  intros t H. destruct H as [s [H|H]|x SX|x y SX SY _ _|s [H|H]].
  - apply tok_ok_clean. subst. split; [discriminate|split; reflexivity].
  - apply tok_ok_clean. subst. split; [discriminate|split; reflexivity].
  - apply tok_ok_clean. apply NUM. exact SX.
  - apply tok_ok_clean. destruct (NUM x SX) as (N1 & A1 & B1). destruct (NUM y SY) as (N2 & A2 & B2).
    split; [destruct (nm_text x); [contradiction|discriminate]|].
    rewrite !forallb_app, A1, B1. cbn [forallb]. rewrite A2, B2. split; reflexivity.
  - subst. split; [discriminate|]. apply (clean_dots []). constructor.
  - apply tok_ok_clean. subst. split; [discriminate|split; reflexivity].
Qed.

Lemma parse_rule_full : forall c ts sts s, is_or c -> cond_toks c ts -> sample_toks sts ->
  spaced (ts ++ sts) s -> cond_int64 c ->
  exists F, forall fuel, (F <= fuel)%nat ->
    exists sm, parse_rule fuel s = Ok (CRule (Some (node_of c)) sm).
Proof.
  intros c ts sts s O T SM SP B.
  assert (FS : Forall sample_tok sts) by (destruct sts; [constructor|exact (proj2 SM)]).
  assert (KS : exists st0, enter sts = Ok st0 /\ sstate sts st0 /\ (p_tok st0 = KEof \/ p_tok st0 = KSample)).
  { destruct sts as [|t sts].
    - eexists. split; [reflexivity|]. split; [apply SS_end; constructor|left; reflexivity].
    - destruct SM as [M F]. inversion F as [|? ? _ F']; subst. exists (PSt KSample t sts).
      split; [destruct M; subst; reflexivity|]. split; [apply (SS_mark [] t sts); auto|right; reflexivity]. }
  destruct KS as (st0 & E & Q & K).
  destruct (samples_loop_ok (length sts) sts st0 (le_n _) Q) as (F & HF). exists F. intros fuel L.
  assert (PS : exists sm, p_samples fuel (S (length (ts ++ sts))) st0 = Ok sm).
  { unfold p_samples. destruct K as [K|K]; rewrite K; [eauto|].
    apply HF; [exact L|]. rewrite app_length. lia. }
  destruct PS as (sm & PS). exists sm.
  apply (parse_rule_samples c ts sts s fuel sm st0); auto.
  - eapply Forall_impl; [|exact FS]. apply sample_tok_clean.
  - apply sample_no_join. exact FS.
Qed.
