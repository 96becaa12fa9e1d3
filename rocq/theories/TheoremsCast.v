(** Property theorems C62 and C63: arguments of any type as numbers and times. *)
From Coq Require Import String Ascii List ZArith QArith Qround Bool Lia.
From Verif Require Import Base BaseProofs PopModel PopBuiltin NumModel NumProofs F64Model F64Proofs FltModel CalModel
  CldrModel CldrEvalProofs HumModel HumTextSpec HumNumProofs CastModel CastSpec CastProofs FloatTextSpec FloatTextProofs NearSpec NearTextProofs TheoremsPop TheoremsHum.
Import ListNotations.
Open Scope Z_scope.
Opaque f64_round.

Section Theorems.
  (** What fmt prints for addresses, times and durations. *)
  Variable addr_d addr_v : Z -> bytes.
  Variable time_d time_v : gotime -> bytes.
  Variable dur_v : Z -> bytes.
  Notation number heap := (cast_number heap addr_d addr_v time_d time_v dur_v).
  Notation evaluates heap := (pop_evaluate heap addr_d addr_v time_d time_v dur_v).

  Lemma number_reaches : forall heap v w, reaches heap v w -> exists k, forall fuel, (k <= fuel)%nat ->
    number heap fuel v =
    match w with
    | GNil => Err
    | GInt _ z => Ok (FFin (inject_Z (f64_of_int z)))
    | GFloat x => Ok x
    | GComplex re _ => Ok re
    | GString s => string_number s
    | v => match string_number (sprint_d addr_d time_d v) with
           | Ok x => Ok x
           | _ => string_number (sprint_v addr_v time_v dur_v v)
           end
    end.
  Proof.
    intros heap v w R. destruct (reaches_deref _ _ _ R) as (k & K). exists k. intros fuel F.
    unfold cast_number, indirect. rewrite (K fuel F). reflexivity.
  Qed.

  (** C62: through any chain of pointers a number of a numeric type is itself,
      of a complex type its real part; a string or a value of another type that
      is printed as an integer is that integer; nil is an error. *)
  Theorem C62_number : forall heap v w, reaches heap v w -> exists k, forall fuel, (k <= fuel)%nat ->
    (w = GNil -> number heap fuel v = Err) /\
    (forall kd z, w = GInt kd z -> Z.abs z <= 2 ^ 53 -> number heap fuel v = Ok (FFin (inject_Z z))) /\
    (forall x, w = GFloat x -> number heap fuel v = Ok x) /\
    (forall re im, w = GComplex re im -> number heap fuel v = Ok re) /\
    (forall z, Z.abs z < 2 ^ 1000 -> w = GString (itoa z) \/ (exists p, w = GOther (itoa z) p) \/ w = GDuration z ->
       exists x, number heap fuel v = Ok x /\ (forall kd fuel', exists y,
         number heap fuel' (GInt kd z) = Ok y /\ same_num x y) /\
         (Z.abs z <= 2 ^ 53 -> same_num x (FFin (inject_Z z)))).
  Proof.
    intros heap v w R. destruct (number_reaches heap v w R) as (k & K). exists k. intros fuel F. rewrite (K fuel F).
    assert (SM : forall z, Z.abs z <= 2 ^ 53 -> f64_of_int z = z).
    { intros z B. unfold f64_of_int. change (2 ^ 53) with 9007199254740992 in B.
      destruct (z <? 0) eqn:E; rewrite f64_of_nat_small by lia; lia. }
    split; [intros ->; reflexivity|]. split.
    { intros kd z -> B. rewrite (SM z B). reflexivity. }
    split; [intros x ->; reflexivity|]. split; [intros re im ->; reflexivity|].
    intros z B C. destruct (int_text z B) as (x & P & S). exists x. split.
    - destruct C as [->|[(p & ->)| ->]]; cbn [sprint_d]; unfold string_number; rewrite P; reflexivity.
    - split.
      + intros kd fuel'. eexists. split; [destruct fuel'; reflexivity|exact S].
      + intros B'. rewrite (SM z B') in S. exact S.
  Qed.

  (** A decimal numeral as a string is the nearest float64: exact for integers
      up to 2^53, else with a relative error of at most 2^-53. *)
  Theorem C62_numerals : forall heap v neg ip fp, numeral_ok ip fp ->
    reaches heap v (GString (numeral_text neg ip fp)) ->
    let n := dec_val (ip ++ frac_digits fp) in
    let d := 10 ^ Z.of_nat (length (frac_digits fp)) in
    n < d * 2 ^ 1000 -> 0 < n -> d < n * 2 ^ 1022 ->
    exists k q, (forall fuel, (k <= fuel)%nat -> number heap fuel v = Ok (FFin q)) /\
      (Qabs.Qabs (q - numeral_value neg ip fp) <= (1 # 9007199254740992) * Qabs.Qabs (numeral_value neg ip fp))%Q.
  Proof.
    intros heap v neg ip fp K R n d B N U. destruct (number_reaches heap v _ R) as (k & H).
    assert (D : 0 < d) by (apply Z.pow_pos_nonneg; lia).
    destruct (f64_round_defined n d ltac:(lia) D B) as (q & Q).
    exists k, (if neg then Qopp q else q). split.
    - intros fuel F. rewrite (H fuel F). unfold string_number. rewrite numeral_parse by exact K.
      fold n d. rewrite Q. reflexivity.
    - assert (L : -1022 <= floor_log2 n d).
      { apply (floor_log2_ge n d 1022); try assumption; lia. }
      destruct (f64_round_error n d q N D L Q) as [P E].
      assert (DP : Zpos (Z.to_pos d) = d) by (rewrite Z2Pos.id; lia).
      unfold numeral_value. fold n d.
      assert (A : (Qabs.Qabs (q - (n # Z.to_pos d)) <= (1 # 9007199254740992) * Qabs.Qabs (n # Z.to_pos d))%Q).
      { unfold Qle, Qabs.Qabs, Qminus, Qplus, Qopp, Qmult. destruct q as [a b]. cbn [Qnum Qden] in *.
        rewrite !Pos2Z.inj_mul, DP.
        replace (Z.abs n) with n by lia.
        assert (BP : 0 < Zpos b) by lia.
        set (x := Z.abs (a * d + - n * Zpos b)).
        assert (XE : x = Z.abs (a * d - n * Zpos b)) by (unfold x; f_equal; lia).
        rewrite <- XE in E. clearbody x. nia. }
      destruct neg; [|exact A].
      assert (Y : (- q - (- n # Z.to_pos d) == - (q - (n # Z.to_pos d)))%Q).
      { unfold Qeq, Qminus, Qplus, Qopp. cbn [Qnum Qden]. ring. }
      rewrite Y, Qabs.Qabs_opp.
      assert (W : (Qabs.Qabs (- n # Z.to_pos d) == Qabs.Qabs (n # Z.to_pos d))%Q).
      { unfold Qeq, Qabs.Qabs. cbn [Qnum Qden]. rewrite Z.abs_opp. reflexivity. }
      rewrite W. exact A.
  Qed.

  (** Only the texts of the Go specification are numbers: its literals, with an
      optional sign, and the names of infinity and of not-a-number. *)
  Theorem C62_syntax : forall heap fuel s x, number heap fuel (GString s) = Ok x ->
    special_text s \/ exists l, lit_ok l /\ spelled l s.
  Proof.
    intros heap fuel s x H. assert (E : string_number s = Ok x) by (destruct fuel; exact H).
    unfold string_number, parse_float_any in E. destruct (parse_special s) as [y|] eqn:P.
    - left. eapply special_accepted; eauto.
    - destruct (parse_number s) as [y|] eqn:N; [|discriminate]. right. eapply accepted; eauto.
  Qed.

  (** Every literal is the float64 nearest to the number it denotes, with its
      sign.  It is an error from half a unit above the largest float64 on. *)
  Theorem C62_text : forall heap v l s, lit_ok l -> spelled l s -> Z.abs (lit_exp l) < 100000 ->
    reaches heap v (GString s) -> exists k, forall fuel, (k <= fuel)%nat ->
    ((Qabs.Qabs (lit_value l) < inject_Z (2 ^ 1024 - 2 ^ 970))%Q -> exists q, number heap fuel v = Ok (FFin q)) /\
    (forall x, number heap fuel v = Ok x -> exists q, x = FFin q /\
       nearest_float (Qabs.Qabs (lit_value l)) (Qabs.Qabs q) /\ (0 <= q * lit_value l)%Q) /\
    ((inject_Z (2 ^ 1024 - 2 ^ 970) <= Qabs.Qabs (lit_value l))%Q -> number heap fuel v = Err).
  Proof.
    intros heap v l s K S B R. destruct (number_reaches heap v _ R) as (k & H). exists k. intros fuel F.
    rewrite (H fuel F). destruct (literal_near l s K S B) as (A1 & A2 & A3).
    unfold string_number, parse_float_any. rewrite (not_special l s K S).
    split; [|split].
    - intro L. destruct (A1 L) as (q & ->). exists q. reflexivity.
    - intros x E. destruct (parse_number s) as [y|] eqn:P; [|discriminate]. injection E as E. subst y.
      assert (X : exists q, x = FFin q).
      { rewrite (literal_value l s K S B) in P. destruct (f64_round (lit_num l) (lit_den l)) as [p|]; [|discriminate]. injection P as <-. eauto. }
      destruct X as (q & ->). exists q. split; [reflexivity|]. exact (literal_nearest l s q K S B P).
    - intro L. rewrite (A3 L). reflexivity.
  Qed.
  Theorem C62_special : forall heap v s, reaches heap v (GString s) -> exists k, forall fuel, (k <= fuel)%nat ->
    (forall neg sg w, s = (sg ++ w)%list -> sign_text neg sg -> to_lower w = bs "inf" \/ to_lower w = bs "infinity" ->
       number heap fuel v = Ok (if neg then FNegInf else FPosInf)) /\
    (to_lower s = bs "nan" -> number heap fuel v = Ok FNan).
  Proof.
    intros heap v s R. destruct (number_reaches heap v _ R) as (k & H). exists k. intros fuel F. rewrite (H fuel F).
    unfold string_number, parse_float_any. split.
    - intros neg sg w -> S W. rewrite (special_value neg sg w S W). reflexivity.
    - intro W. rewrite (special_nan s W). reflexivity.
  Qed.

  (** The bound on the exponent is needed: ParseFloat ignores the digits of an
      exponent after 10000, so this text of the number 1 becomes less than 1/2. *)
  Theorem C62_exponent_refuted : exists l s q, lit_ok l /\ spelled l s /\ (lit_value l == 1)%Q /\
    (forall heap fuel, number heap fuel (GString s) = Ok (FFin q)) /\ (q < 1 # 2)%Q.
  Proof.
    destruct one_misread as (l & s & q & K & S & V & P & L). exists l, s, q. split; [exact K|]. split; [exact S|]. split; [exact V|].
    split; [|exact L]. intros heap fuel.
    assert (E : string_number s = Ok (FFin q)).
    { unfold string_number, parse_float_any. rewrite (not_special l s K S), P. reflexivity. }
    destruct fuel; exact E.
  Qed.

  (** A text that does not begin like a number is refused. *)
  Theorem C62_refused : forall heap fuel s,
    match snd (take_sign s) with
    | [] => True
    | c :: _ => is_digit c = false /\ c <> "."%char /\ c <> "_"%char /\ ~ In c [ "i"; "I"; "n"; "N" ]%char
    end ->
    number heap fuel (GString s) = Err.
  Proof.
    intros heap fuel s H.
    assert (E : string_number s = Err).
    { unfold string_number, parse_float_any, parse_special, parse_number.
      destruct (take_sign s) as [neg s1] eqn:T. cbn [snd] in H.
      assert (LN : forall c, ~ In c ["i"; "I"; "n"; "N"]%char -> lower c <> "i"%char /\ lower c <> "n"%char).
      { intros c. destruct c as [[] [] [] [] [] [] [] []]; cbn [In]; intros N; split; intro X; vm_compute in X;
          try discriminate X; apply N; auto 6. }
      assert (NS : beq (to_lower s1) (bs "inf") = false /\ beq (to_lower s1) (bs "infinity") = false /\
                   beq (to_lower s) (bs "nan") = false).
      { assert (HD : forall l c r, beq (map lower l) (c :: r) = true -> exists d l', l = d :: l' /\ lower d = c).
        { intros l c r B. destruct l as [|d l']; [discriminate|]. exists d, l'. split; [reflexivity|].
          cbn [map beq] in B. apply andb_true_iff in B. destruct B as [B _]. now apply Ascii.eqb_eq in B. }
        assert (S1 : forall c r, In c ["i"; "n"]%char -> beq (map lower s1) (c :: r) = false).
        { intros c r I. apply not_true_is_false. intro B. apply HD in B. destruct B as (d & l' & -> & LD).
          destruct H as (_ & _ & _ & N). apply LN in N. destruct I as [<-|[<-|[]]]; tauto. }
        split; [apply S1; left; reflexivity|]. split; [apply S1; left; reflexivity|].
        apply not_true_is_false. intro B. apply HD in B. destruct B as (d & l' & -> & LD).
        cbn [take_sign] in T. destruct (d =? "-")%char eqn:E1.
        { apply Ascii.eqb_eq in E1. subst d. discriminate LD. }
        destruct (d =? "+")%char eqn:E2.
        { apply Ascii.eqb_eq in E2. subst d. discriminate LD. }
        injection T as <- <-. destruct H as (_ & _ & _ & N). apply LN in N. tauto. }
      destruct NS as (-> & -> & ->). cbn [orb].
      destruct s1 as [|c s1]; [reflexivity|]. destruct H as (D & P & U & _).
      assert (HX : has_hex (c :: s1) = false).
      { cbn [has_hex]. destruct s1; [reflexivity|]. apply andb_false_iff. left. apply Ascii.eqb_neq.
        intros ->. discriminate D. }
      rewrite HX. cbn [scan_mant]. apply Ascii.eqb_neq in P, U. rewrite P, U.
      unfold digit_of. rewrite D. reflexivity. }
    destruct fuel; exact E.
  Qed.

  (** The conversion ends iff the chain of pointers does; then it gives a number
      or an error. *)
  Theorem C62_ends : forall heap v,
    ((exists fuel, number heap fuel v <> OutOfFuel) <-> exists w, reaches heap v w) /\
    (forall w, reaches heap v w -> exists k r, (r = Err \/ exists x, r = Ok x) /\
       forall fuel, (k <= fuel)%nat -> number heap fuel v = r).
  Proof.
    intros heap v.
    assert (OUT : forall s, string_number s = Err \/ exists x, string_number s = Ok x).
    { intros s. unfold string_number. destruct (parse_float_any s); eauto. }
    assert (EN : forall w, reaches heap v w -> exists k r, (r = Err \/ exists x, r = Ok x) /\
       forall fuel, (k <= fuel)%nat -> number heap fuel v = r).
    { intros w R. destruct (number_reaches heap v w R) as (k & K). exists k. eexists. split; [|exact K].
      destruct w; eauto;
        match goal with |- context [string_number (sprint_d addr_d time_d ?u)] =>
          destruct (OUT (sprint_d addr_d time_d u)) as [->|(x & ->)]; eauto end. }
    split; [|exact EN]. split.
    - intros (fuel & H). destruct (deref_total heap fuel v) as [D|(w & D)].
      + exfalso. apply H. unfold cast_number, indirect. rewrite D. reflexivity.
      + exists w. exact (deref_reaches _ _ _ _ D).
    - intros (w & R). destruct (EN w R) as (k & r & C & K). exists k. rewrite (K k (le_n k)).
      destruct C as [->|(x & ->)]; discriminate.
  Qed.

  (** It does not end for a pointer to itself (type P *P; p = &p). *)
  Theorem C62_ends_refuted : exists heap v, forall fuel, number heap fuel v = OutOfFuel.
  Proof.
    exists (fun _ => CVal (GPtr (Some 1))), (GPtr (Some 1)). intros fuel.
    unfold cast_number, indirect. replace (deref _ fuel _) with (@OutOfFuel gval); [reflexivity|].
    symmetry. induction fuel as [|fuel IH]; [reflexivity|exact IH].
  Qed.

  (** A nil pointer is no error but the number 0. *)
  Theorem C62_nil_refuted : forall heap fuel,
    number heap fuel (GPtr None) = Ok (FFin (inject_Z 0)) /\ number heap fuel GNil = Err.
  Proof.
    intros heap fuel.
    assert (E : exists q, string_number (bs "0") = Ok (FFin q) /\ q = inject_Z 0)
      by (eexists; split; vm_compute; reflexivity).
    destruct E as (q & E & ->). unfold cast_number, indirect. destruct fuel; cbn [deref rbind sprint_d]; rewrite E; auto.
  Qed.

  (** Plural forms: integers of any kind, pointers to them, named types and
      numeric strings select the same form; a built-in rule gives a form that
      exists for every value whatsoever. *)
  Theorem C62_plural : forall heap r v w z, reaches heap v w -> Z.abs z < 2 ^ 1000 ->
    (exists k, w = GInt k z) \/ w = GString (itoa z) \/ (exists p, w = GOther (itoa z) p) ->
    exists k, forall fuel, (k <= fuel)%nat -> evaluates heap fuel r v = Ok (evaluate r (AInt Kint64 z)).
  Proof.
    intros heap r v w z R B C. destruct (number_reaches heap v w R) as (k & K). exists k. intros fuel F.
    unfold pop_evaluate. rewrite (K fuel F).
    assert (X : exists x, match w with
      | GNil => Err
      | GInt _ z => Ok (FFin (inject_Z (f64_of_int z)))
      | GFloat x => Ok x
      | GComplex re _ => Ok re
      | GString s => string_number s
      | v => match string_number (sprint_d addr_d time_d v) with
             | Ok x => Ok x
             | _ => string_number (sprint_v addr_v time_v dur_v v)
             end
      end = Ok x /\ same_num x (FFin (inject_Z (f64_of_int z)))).
    { destruct C as [(kd & ->)|[->|(p & ->)]].
      - eexists. split; [reflexivity|]. constructor. reflexivity.
      - destruct (int_text z B) as (x & P & S). exists x. unfold string_number. rewrite P. auto.
      - destruct (int_text z B) as (x & P & S). exists x. cbn [sprint_d]. unfold string_number. rewrite P. auto. }
    destruct X as (x & E & S). rewrite E. cbn [rbind]. f_equal. unfold evaluate, abs_round. f_equal.
    rewrite (round_abs_same _ _ S). cbn [num_abs round_to_even].
    rewrite int64_integral. f_equal. unfold Qabs.Qabs, inject_Z. cbn [Qnum Qden]. apply div_even_1.
  Qed.
  Theorem C62_builtin_total : forall heap r v i fuel,
    (exists k, built_in_raw k = Some r) \/ (exists l, built_in_lang l = Some r) ->
    evaluates heap fuel r v = Ok i -> 0 <= i < r_nplurals r.
  Proof.
    intros heap r v i fuel B H. unfold pop_evaluate in H. destruct (number heap fuel v); try discriminate.
    injection H as <-. now apply C02_builtin_index_in_range.
  Qed.

  (** CLDR operands: those of the number an argument stands for, in the way
      NewOperands treats its type.  [float_text] is what %v prints for a float64. *)
  Theorem C62_operands : forall heap float_text,
    (forall x y, same_num x y -> float_text x = float_text y) ->
    (forall z, Z.abs z <= 2 ^ 53 -> float_text (FFin (inject_Z z)) = fmt_v (z <? 0) (int_digits z) (int_dp z)) ->
    forall v w, reaches heap v w -> (forall a, w <> GPtr (Some a)) -> exists k, forall fuel, (k <= fuel)%nat ->
    let operands := operands_of heap addr_d addr_v time_d time_v dur_v float_text fuel v in
    (w = GNil -> operands = Err) /\
    (forall s, w = GString s -> operands = new_operands (CString s)) /\
    (forall x, w = GFloat x -> operands = new_operands (CString (float_text x)) /\
       forall neg digs dp, float_text x = fmt_v neg digs dp -> operands = new_operands (CFloat neg digs dp)) /\
    (forall kd z, w = GInt kd z -> Z.abs z <= 2 ^ 53 ->
       operands = new_operands (match kd with Kint | Kint64 => CInt z | _ => CKind kd z end)) /\
    (forall z, Z.abs z <= 2 ^ 53 ->
       (exists im, w = GComplex (FFin (inject_Z z)) im) \/ (exists p, w = GOther (itoa z) p) \/ w = GDuration z ->
       operands = new_operands (CKind Kuint8 z)).
  Proof.
    intros heap float_text FS FT v w R W. destruct (reaches_deref _ _ _ R) as (k & K). exists k. intros fuel F.
    cbv zeta. unfold operands_of, indirect. rewrite (K fuel F). cbn [rbind].
    assert (SM : forall z, Z.abs z <= 2 ^ 53 -> f64_of_int z = z).
    { intros z B. unfold f64_of_int. change (2 ^ 53) with 9007199254740992 in B.
      destruct (z <? 0) eqn:E; rewrite f64_of_nat_small by lia; lia. }
    split; [intros ->; reflexivity|]. split; [intros s ->; reflexivity|].
    split; [intros x ->; split; [reflexivity|intros neg digs dp E; cbn [new_operands]; now rewrite E]|]. split.
    { intros kd z -> B. pose proof (SM z B) as E. pose proof (FT z B) as T.
      assert (N : number heap fuel (GInt kd z) = Ok (FFin (inject_Z z))).
      { unfold cast_number, indirect. rewrite <- E at 2. destruct fuel; reflexivity. }
      destruct kd; try reflexivity; rewrite N; cbn [rbind new_operands]; cbv zeta; rewrite T, E; reflexivity. }
    intros z B C. pose proof (SM z B) as E. pose proof (FT z B) as T.
    assert (BB : Z.abs z < 2 ^ 1000).
    { apply (Z.le_lt_trans _ (2 ^ 53)); [exact B|]. apply Z.pow_lt_mono_r; lia. }
    assert (N : exists x, number heap fuel w = Ok x /\ float_text x = float_text (FFin (inject_Z z))).
    { unfold cast_number, indirect.
      replace (deref heap fuel w) with (Ok w)
        by (destruct w as [| | | | | | |[a|]|]; try (destruct fuel; reflexivity); destruct (W a eq_refl)).
      cbn [rbind]. destruct (int_text z BB) as (x & P & S). rewrite E in S.
      destruct C as [(im & ->)|[(p & ->)| ->]].
      - eexists. split; reflexivity.
      - exists x. cbn [sprint_d]. unfold string_number. rewrite P. auto.
      - exists x. cbn [sprint_d]. unfold string_number. rewrite P. auto. }
    destruct N as (x & N & X).
    cbn [new_operands]. cbv zeta. rewrite E, <- T, <- X.
    destruct C as [(im & ->)|[(p & ->)| ->]]; rewrite N; reflexivity.
  Qed.

  (** ** C63: times *)
  Variable clock : gotime.
  Variable local : Z -> Z * bytes.
  Notation time heap := (cast_time heap addr_d addr_v time_d time_v dur_v clock local).

  (** A time is itself, a duration counts from now, a number is Unix seconds. *)
  Theorem C63_time : forall heap v w, reaches heap v w -> 0 <= t_nsec clock < 1000000000 ->
    exists k, forall fuel, (k <= fuel)%nat ->
    (w = GNil -> time heap fuel v = Err) /\
    (forall t, w = GTime t -> time heap fuel v = Ok t) /\
    (forall d, w = GDuration d -> exists t, time heap fuel v = Ok t /\ nanos clock t = d /\ 0 <= t_nsec t < 1000000000) /\
    (forall z, Z.abs z <= 2 ^ 53 ->
       (exists kd, w = GInt kd z) \/ w = GString (itoa z) \/ (exists p, w = GOther (itoa z) p) ->
       time heap fuel v = Ok (GT z 0 local)) /\
    (forall q, w = GFloat (FFin q) -> (Qabs.Qabs q < inject_Z (2 ^ 63))%Q ->
       exists t, time heap fuel v = Ok t /\ t_nsec t = 0 /\
         (inject_Z (Z.abs (t_unix t)) <= Qabs.Qabs q)%Q /\ (Qabs.Qabs q < inject_Z (Z.abs (t_unix t) + 1))%Q /\
         0 <= t_unix t * Qnum q).
  Proof.
    intros heap v w R NS. destruct (reaches_deref _ _ _ R) as (k & K).
    exists k. intros fuel F. unfold cast_time, indirect. rewrite (K fuel F). cbn [rbind].
    split; [intros ->; reflexivity|]. split; [intros t ->; reflexivity|]. split.
    { intros d ->. eexists. split; [reflexivity|]. unfold add_dur, nanos, sec. cbn [t_unix t_nsec].
      pose proof (Z.div_mod (t_nsec clock + d) 1000000000 ltac:(lia)).
      pose proof (Z.mod_pos_bound (t_nsec clock + d) 1000000000 ltac:(lia)). lia. }
    split.
    { intros z B C.
      assert (SM : f64_of_int z = z).
      { unfold f64_of_int. change (2 ^ 53) with 9007199254740992 in B.
        destruct (z <? 0) eqn:E; rewrite f64_of_nat_small by lia; lia. }
      assert (I64 : f64_to_int64 z = z).
      { unfold f64_to_int64, minInt64, maxInt64. change (2 ^ 53) with 9007199254740992 in B.
        replace (_ && _) with true by lia. reflexivity. }
      assert (BB : Z.abs z < 2 ^ 1000).
      { apply (Z.le_lt_trans _ (2 ^ 53)); [exact B|]. apply Z.pow_lt_mono_r; lia. }
      assert (TR : forall x, same_num x (FFin (inject_Z z)) -> num_int64 x = z).
      { intros x S. inversion S as [p q Q E1 E2| | |]; subst. cbn [num_int64]. unfold fto_int64.
        transitivity (f64_to_int64 z); [|exact I64]. f_equal. unfold qtrunc.
        assert (Q' : (- p == inject_Z (- z))%Q) by (rewrite Q, inject_Z_opp; reflexivity).
        rewrite (Qfloor_comp _ _ Q), (Qfloor_comp _ _ Q'), !Qfloor_Z. destruct (Qnum p <? 0); lia. }
      assert (NUM : exists x, number heap fuel w = Ok x /\ same_num x (FFin (inject_Z z))).
      { unfold cast_number, indirect. destruct C as [(kd & ->)|[->|(p & ->)]].
        - eexists. split; [destruct fuel; reflexivity|]. rewrite SM. constructor. reflexivity.
        - destruct (int_text z BB) as (x & P & S). exists x. rewrite SM in S.
          replace (deref heap fuel (GString (itoa z))) with (Ok (GString (itoa z))) by (destruct fuel; reflexivity).
          cbn [rbind]. unfold string_number. rewrite P. auto.
        - destruct (int_text z BB) as (x & P & S). exists x. rewrite SM in S.
          replace (deref heap fuel (GOther (itoa z) p)) with (Ok (GOther (itoa z) p)) by (destruct fuel; reflexivity).
          cbn [rbind sprint_d]. unfold string_number. rewrite P. auto. }
      destruct NUM as (x & E & S).
      destruct C as [(kd & ->)|[->|(p & ->)]]; rewrite E, (TR x S); reflexivity. }
    intros q -> B. eexists. split.
    { unfold cast_number, indirect.
      replace (deref heap fuel (GFloat (FFin q))) with (Ok (GFloat (FFin q))) by (destruct fuel; reflexivity).
      cbn [rbind]. reflexivity. }
    cbn [t_nsec t_unix]. split; [reflexivity|].
    set (a := Qabs.Qabs q) in *.
    assert (A0 : (0 <= a)%Q) by apply Qabs.Qabs_nonneg.
    pose proof (Qfloor_le a) as FL. pose proof (Qlt_floor a) as FU.
    assert (F0 : 0 <= Qfloor a).
    { change 0 with (Qfloor (inject_Z 0)). apply Qfloor_resp_le. exact A0. }
    assert (F1 : Qfloor a < 2 ^ 63).
    { rewrite Zlt_Qlt. apply (Qle_lt_trans _ a); assumption. }
    assert (QT : qtrunc q = if Qnum q <? 0 then - Qfloor a else Qfloor a).
    { unfold qtrunc. destruct (Qnum q <? 0) eqn:S.
      - f_equal. apply Qfloor_comp. unfold a. symmetry. apply Qabs.Qabs_neg. unfold Qle. cbn. lia.
      - apply Qfloor_comp. unfold a. symmetry. apply Qabs.Qabs_pos. unfold Qle. cbn. lia. }
    cbn [num_int64]. unfold fto_int64. rewrite QT. unfold f64_to_int64, minInt64, maxInt64.
    change (2 ^ 63) with 9223372036854775808 in F1.
    set (u := if Qnum q <? 0 then - Qfloor a else Qfloor a).
    assert (UA : Z.abs u = Qfloor a) by (unfold u; destruct (Qnum q <? 0); lia).
    replace (_ && _) with true.
    2:{ symmetry. apply andb_true_iff. lia. }
    rewrite UA. split; [exact FL|]. split; [exact FU|].
    unfold u. destruct (Qnum q <? 0) eqn:S; nia.
  Qed.

  (** A nil pointer to a time is 1970-01-01, not an error. *)
  Theorem C63_nil_refuted : forall heap fuel,
    time heap fuel (GPtr None) = Ok (GT 0 0 local) /\ time heap fuel GNil = Err.
  Proof.
    intros heap fuel. unfold cast_time. destruct (C62_nil_refuted heap fuel) as [E _].
    split; [|destruct fuel; reflexivity].
    unfold indirect. replace (deref heap fuel (GPtr None)) with (Ok (GPtr None)) by (destruct fuel; reflexivity).
    cbn [rbind]. rewrite E. reflexivity.
  Qed.

  (** NaturalTime, TimeSince and TimeUntil take an argument for the time it
      stands for; for an argument that stands for none they print the error. *)
  Notation natural heap := (natural_time_of heap addr_d addr_v time_d time_v dur_v clock local).
  Notation since heap := (time_since_of heap addr_d addr_v time_d time_v dur_v clock local).
  Notation until heap := (time_until_of heap addr_d addr_v time_d time_v dur_v clock local).
  Theorem C63_callers : forall heap v w now1 now2 opts, reaches heap v w -> (forall a, w <> GPtr (Some a)) ->
    exists k, forall fuel, (k <= fuel)%nat ->
    (exists t, time heap fuel v = Ok t /\
       natural heap fuel now1 now2 v = Ok (Some (natural_time now1 now2 t)) /\
       since heap fuel now2 v opts = Ok (Some (time_since now2 t opts)) /\
       until heap fuel now2 v opts = Ok (Some (time_until now2 t opts))) \/
    (time heap fuel v = Err /\ natural heap fuel now1 now2 v = Ok None /\
       since heap fuel now2 v opts = Ok None /\ until heap fuel now2 v opts = Ok None).
  Proof.
    intros heap v w now1 now2 opts R W. destruct (reaches_deref _ _ _ R) as (k & K). exists k. intros fuel F.
    assert (T : time heap fuel v = Err \/ exists t, time heap fuel v = Ok t).
    { unfold cast_time, indirect. rewrite (K fuel F). cbn [rbind].
      assert (OUT : forall s, string_number s = Err \/ exists x, string_number s = Ok x).
      { intros s. unfold string_number. destruct (parse_float_any s); eauto. }
      assert (N : number heap fuel w = Err \/ exists x, number heap fuel w = Ok x).
      { unfold cast_number, indirect.
        replace (deref heap fuel w) with (Ok w)
          by (destruct w as [| | | | | | |[a|]|]; try (destruct fuel; reflexivity); destruct (W a eq_refl)).
        cbn [rbind]. destruct w; eauto;
          match goal with |- context [string_number (sprint_d addr_d time_d ?u)] =>
            destruct (OUT (sprint_d addr_d time_d u)) as [->|(x & ->)]; eauto end. }
      destruct w; eauto; destruct N as [->|(? & ->)]; eauto. }
    unfold natural_time_of, time_since_of, time_until_of.
    destruct T as [->|(t & ->)]; [right; auto|left; exists t; auto].
  Qed.

  (** A duration is measured from the moment ToTime reads the clock, so
      NaturalTime, which has read it before, is off by the time in between. *)
  Theorem C63_natural_partial : forall heap v d now1 now2, reaches heap v (GDuration d) ->
    0 <= t_nsec clock < 1000000000 -> nanos now1 clock = 0 -> 0 <= t_nsec now1 < 1000000000 ->
    exists k, forall fuel, (k <= fuel)%nat ->
    (1000000000 <= - d < 60000000000 ->
       natural heap fuel now1 now2 v =
       Ok (Some (count_text (bs "a second ago") (bs "%[1]v seconds ago") (- d / 1000000000)))) /\
    (60000000000 <= - d < 3599500000000 ->
       natural heap fuel now1 now2 v =
       Ok (Some (count_text (bs "a minute ago") (bs "%[1]v minutes ago") (- d / 60000000000)))) /\
    (1000000000 <= d < 59500000000 ->
       natural heap fuel now1 now2 v =
       Ok (Some (count_text (bs "a second from now") (bs "%[1]v seconds from now") ((d + 500000000) / 1000000000)))).
  Proof.
    intros heap v d now1 now2 R NC NN N1. destruct (C63_time heap v _ R NC) as (k & K). exists k. intros fuel F.
    destruct (K fuel F) as (_ & _ & D & _). destruct (D d eq_refl) as (t & T & N & TN).
    unfold natural_time_of. rewrite T. unfold nanos in *.
    split; [|split]; intro H; do 2 f_equal.
    - destruct (C46_past now1 now2 t TN N1) as (_ & P & _); unfold sec in *; [lia|].
      replace (- d) with ((t_unix now1 - t_unix t) * 1000000000 + (t_nsec now1 - t_nsec t)) by lia. apply P. lia.
    - destruct (C46_past now1 now2 t TN N1) as (_ & _ & P & _); unfold sec in *; [lia|].
      replace (- d) with ((t_unix now1 - t_unix t) * 1000000000 + (t_nsec now1 - t_nsec t)) by lia.
      change 60000000000 with (60 * 1000000000). apply P. lia.
    - destruct (C46_future now1 now2 t TN N1) as (_ & P & _); unfold sec in *; [lia|].
      replace (d + 500000000) with ((t_unix t - t_unix now1) * 1000000000 + (t_nsec t - t_nsec now1) + 500000000) by lia.
      apply P. Z.to_euclidean_division_equations. lia.
  Qed.

  (** TimeUntil and TimeSince count whole seconds of the clock: a duration of s
      seconds is s seconds if the second did not change in between. *)
  Theorem C63_seconds : forall heap v s now2, reaches heap v (GDuration (s * 1000000000)) ->
    0 <= t_nsec clock < 1000000000 -> t_unix now2 = t_unix clock ->
    exists k t, forall fuel, (k <= fuel)%nat ->
      time heap fuel v = Ok t /\ t_unix t - t_unix now2 = s /\ t_nsec t = t_nsec clock /\ t_loc t = t_loc clock.
  Proof.
    intros heap v s now2 R NC E. destruct (reaches_deref _ _ _ R) as (k & K). exists k. eexists. intros fuel F.
    split.
    { unfold cast_time, indirect. rewrite (K fuel F). reflexivity. }
    unfold add_dur, sec. cbn [t_unix t_nsec t_loc]. rewrite E.
    rewrite Z.div_add, Z.mod_add, (Z.div_small (t_nsec clock)), (Z.mod_small (t_nsec clock)) by lia.
    split; [lia|]. auto.
  Qed.
End Theorems.

(** Otherwise: a duration of 60 seconds ago is shown as 59 seconds ago if a
    nanosecond passes between the two readings of the clock, and the minute
    until a moment 60 seconds ahead as 0 minutes. *)
Definition no_text {A} : A -> bytes := fun _ => [].
Definition nil_heap : Z -> cell := fun _ => CVal GNil.
Theorem C63_natural_refuted : exists now1 clock now2, nanos now1 clock = 1 /\
  natural_time_of nil_heap no_text no_text no_text no_text no_text clock utc 0 now1 now2 (GDuration (-60000000000)) =
  Ok (Some (count_text (bs "a second ago") (bs "%[1]v seconds ago") 59)).
Proof.
  exists (GT 1700000000 0 utc), (GT 1700000000 1 utc), (GT 1700000000 2 utc). split; [reflexivity|].
  unfold natural_time_of. cbn [cast_time indirect deref rbind]. reflexivity.
Qed.
Theorem C63_until_refuted : exists clock now2, nanos clock now2 = 1 /\
  time_until_of nil_heap no_text no_text no_text no_text no_text clock utc 0 now2 (GDuration 60000000000) [] =
  Ok (Some (OJoin [ONGetf [] (bs "%[1]v minute") (bs "%[1]v minutes") 0 (AInt64 0)] (OGet [] (bs ", ")))).
Proof.
  exists (GT 1700000000 999999999 utc), (GT 1700000001 0 utc). split; [reflexivity|]. vm_compute. reflexivity.
Qed.

(** ** Examples *)
Section Examples.
  (** 1 -> 2 -> 42; 3 -> an interface with "1_000"; 4 -> a named integer; 5 -> a
      boolean; 6 -> a time. *)
  Let heap (a : Z) : cell :=
    if a =? 1 then CVal (GPtr (Some 2)) else if a =? 2 then CVal (GInt Kint32 42)
    else if a =? 3 then CIface (GString (bs "1_000")) else if a =? 4 then CVal (GOther (bs "7") (bs "seven"))
    else if a =? 5 then CVal (GOther (bs "%!d(bool=true)") (bs "true"))
    else CVal (GTime (GT 1700000000 5 utc)).
  Let number := cast_number heap no_text no_text no_text no_text no_text.
  Example C62_example :
    reaches heap (GPtr (Some 1)) (GInt Kint32 42) /\ number 2 (GPtr (Some 1)) = Ok (FFin (inject_Z 42)) /\
    reaches heap (GPtr (Some 3)) (GString (bs "1_000")) /\
    (exists x, number 1 (GPtr (Some 3)) = Ok x /\ same_num x (FFin (inject_Z 1000))) /\
    (exists x, number 1 (GPtr (Some 4)) = Ok x /\ same_num x (FFin (inject_Z 7))) /\
    number 1 (GPtr (Some 5)) = Err /\ number 0 (GString (bs "-Inf")) = Ok FNegInf /\
    (exists x, number 0 (GString (bs "0x1p-2")) = Ok x /\ same_num x (FFin (1 # 4))) /\
    number 0 (GString (bs "twelve")) = Err /\ number 0 (GString (bs "1__0")) = Err.
  Proof.
    assert (ONE : reaches heap (GPtr (Some 1)) (GInt Kint32 42)).
    { eapply re_step; [reflexivity|]. eapply re_step; [reflexivity|]. constructor. discriminate. }
    split; [exact ONE|]. split; [reflexivity|]. split; [eapply re_iface; reflexivity|].
    split; [exists (FFin (8796093022208000 # 8796093022208)); split; [vm_compute; reflexivity|constructor; reflexivity]|].
    split; [exists (FFin (7881299347898368 # 1125899906842624)); split; [vm_compute; reflexivity|constructor; reflexivity]|].
    split; [vm_compute; reflexivity|]. split; [vm_compute; reflexivity|].
    split; [exists (FFin (4503599627370496 # 18014398509481984)); split; [vm_compute; reflexivity|constructor; reflexivity]|].
    split; vm_compute; reflexivity.
  Qed.
  Example C62_numerals_example :
    numeral_ok (bs "3") (Some (bs "14")) /\ numeral_text true (bs "3") (Some (bs "14")) = bs "-3.14" /\
    (numeral_value true (bs "3") (Some (bs "14")) == - 314 # 100)%Q /\
    (let n := dec_val (bs "3" ++ frac_digits (Some (bs "14"))) in
     let d := 10 ^ Z.of_nat (length (frac_digits (Some (bs "14")))) in
     n < d * 2 ^ 1000 /\ 0 < n /\ d < n * 2 ^ 1022).
  Proof.
    split; [unfold numeral_ok; repeat split; [discriminate|repeat constructor|repeat constructor]|].
    split; [reflexivity|]. split; [reflexivity|]. vm_compute. repeat split.
  Qed.
  Example C62_text_example :
    let l := Lit true false (bs "123") (bs "50") (Some (false, bs "12")) in
    let h := Lit false true (bs "1") (bs "8") (Some (true, bs "2")) in
    lit_ok l /\ spelled l (bs "-1_23.5_0e+1_2") /\ Z.abs (lit_exp l) < 100000 /\ (lit_value l == - 123500000000000 # 1)%Q /\
    (Qabs.Qabs (lit_value l) < inject_Z (2 ^ 1024 - 2 ^ 970))%Q /\
    lit_ok h /\ spelled h (bs "0X_1.8P-2") /\ (lit_value h == 3 # 8)%Q /\
    special_text (bs "+InFinity") /\ number 0 (GString (bs "12abc")) = Err /\ number 0 (GString (bs "1e_2")) = Err.
  Proof.
    assert (UN : forall hex body t, underscores hex body (if hex then UDigit else UOther) = t -> t = true -> underscores_ok hex body).
    { intros hex body t E T. apply underscores_spec. congruence. }
    cbv zeta. split.
    { repeat split; try discriminate; repeat (apply Forall_cons || apply Forall_nil || (left; vm_compute; split; discriminate)). }
    split.
    { exists (bs "-"), [], (bs "1_23.5_0e+1_2"). split; [reflexivity|]. split; [reflexivity|]. split; [reflexivity|]. split.
      - exists (bs ".50"), (bs "e+12"). split; [reflexivity|]. split; [right; reflexivity|]. exists "e"%char, (bs "+"). cbn. auto.
      - eapply UN; reflexivity. }
    split; [reflexivity|]. split; [reflexivity|]. split; [reflexivity|]. split.
    { repeat split; try discriminate; repeat (apply Forall_cons || apply Forall_nil || (left; vm_compute; split; discriminate)). }
    split.
    { exists [], (bs "0X"), (bs "_1.8P-2"). split; [reflexivity|]. split; [left; reflexivity|]. split; [right; reflexivity|]. split.
      - exists (bs ".8"), (bs "P-2"). split; [reflexivity|]. split; [right; reflexivity|]. exists "P"%char, (bs "-"). cbn. auto.
      - eapply UN; reflexivity. }
    split; [reflexivity|]. split; [|split; vm_compute; reflexivity].
    left. exists false, (bs "+"), (bs "InFinity"). split; [reflexivity|]. split; [right; reflexivity|]. right. reflexivity.
  Qed.
  Example C62_plural_example :
    exists r, built_in_lang (bs "pl") = Some r /\
    (forall v w z, reaches heap v w -> Z.abs z < 2 ^ 1000 -> w = GString (itoa z) -> exists k, forall fuel, (k <= fuel)%nat ->
       pop_evaluate heap no_text no_text no_text no_text no_text fuel r v = Ok (evaluate r (AInt Kint64 z))) /\
    evaluate r (AInt Kint64 3) = 1 /\ pop_evaluate heap no_text no_text no_text no_text no_text 0 r (GString (bs "3")) = Ok 1 /\
    pop_evaluate heap no_text no_text no_text no_text no_text 0 r (GString (bs "inf")) = Ok 2.
  Proof.
    eexists. split; [reflexivity|]. split.
    { intros v w z R B W. apply (C62_plural no_text no_text no_text no_text no_text heap _ v w z R B). auto. }
    split; [vm_compute; reflexivity|]. split; vm_compute; reflexivity.
  Qed.
  (** A printer as C62_operands wants it. *)
  Example C62_operands_example : exists float_text : fnum -> bytes,
    (forall x y, same_num x y -> float_text x = float_text y) /\
    (forall z, Z.abs z <= 2 ^ 53 -> float_text (FFin (inject_Z z)) = fmt_v (z <? 0) (int_digits z) (int_dp z)) /\
    exists o, operands_of heap no_text no_text no_text no_text no_text float_text 2 (GPtr (Some 1)) = Ok o /\ oI o = 42.
  Proof.
    set (ft := fun x => match x with
                        | FFin q => let z := Qfloor q in fmt_v (z <? 0) (int_digits z) (int_dp z)
                        | _ => []
                        end).
    exists ft. split.
    { intros x y [p q H| | |]; try reflexivity. unfold ft. now rewrite (Qfloor_comp _ _ H). }
    split.
    { intros z _. unfold ft. rewrite Qfloor_Z. reflexivity. }
    exists (Ops (5910974510923776 # 140737488355328) 42 0 0 0 0 0). split; vm_compute; reflexivity.
  Qed.
  Example C63_example :
    reaches heap (GPtr (Some 6)) (GTime (GT 1700000000 5 utc)) /\
    cast_time heap no_text no_text no_text no_text no_text (GT 9 8 utc) utc 1 (GPtr (Some 6)) = Ok (GT 1700000000 5 utc) /\
    cast_time heap no_text no_text no_text no_text no_text (GT 9 8 utc) utc 0 (GDuration (-9)) = Ok (GT 8 999999999 utc) /\
    cast_time heap no_text no_text no_text no_text no_text (GT 9 8 utc) utc 0 (GFloat (FFin (-5 # 2))) = Ok (GT (-2) 0 utc) /\
    cast_time heap no_text no_text no_text no_text no_text (GT 9 8 utc) utc 1 (GPtr (Some 5)) = Err.
  Proof.
    split.
    { eapply re_step; [reflexivity|]. constructor. discriminate. }
    repeat split; vm_compute; reflexivity.
  Qed.
End Examples.

Print Assumptions C62_number.
Print Assumptions C62_numerals.
Print Assumptions C62_syntax.
Print Assumptions C62_text.
Print Assumptions C62_special.
Print Assumptions C62_exponent_refuted.
Print Assumptions C62_refused.
Print Assumptions C62_ends.
Print Assumptions C62_ends_refuted.
Print Assumptions C62_nil_refuted.
Print Assumptions C62_plural.
Print Assumptions C62_builtin_total.
Print Assumptions C62_operands.
Print Assumptions C63_time.
Print Assumptions C63_nil_refuted.
Print Assumptions C63_callers.
Print Assumptions C63_natural_partial.
Print Assumptions C63_seconds.
Print Assumptions C63_natural_refuted.
Print Assumptions C63_until_refuted.
