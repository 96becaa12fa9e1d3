(** Property theorems about date formats: C47 (letters), C54 (NaturalDay), C56 (format data).
    Get, PGet, unicode.ToUpper and the name of the local time zone are
    arbitrary functions everywhere. *)
From Coq Require Import String Ascii List ZArith QArith Bool Lia.
From Verif Require Import Base BaseProofs Utf8Model Utf8Proofs PopModel NumModel F64Model FltModel CalModel CalProofs CalSpec
  HumModel HumSpec HumLeapProofs DfmtModel DfmtSpec DfmtProofs DfmtLoopProofs DfmtFieldProofs DfmtDayProofs.
Import ListNotations.
Open Scope Z_scope.
Opaque abs_date.

(** 2026-11-17 00:41:27.000123 UTC, a Tuesday, and the same instant one hour
    east. *)
Definition utc : Z -> Z * bytes := fun _ => (0, bs "UTC").
Definition sample : gotime := GT 1794876087 123000 utc.
Definition no_translation (s : bytes) : bytes := s.
Definition no_context (c s : bytes) : bytes := s.
Definition same_rune (r : rune) : rune := r.
Example sample_civil : civil (t_unix sample + t_offset sample) 739936 2026 11 17 0 41 27.
Proof.
  split; [|cbn; lia]. apply ymd_days_after. vm_compute. reflexivity.
Qed.

(** ** C47: format letters *)

(** Days, months and times of the day. *)
Theorem C47_numbers : forall get pget upper local t n y m d h mi s,
  civil (t_unix t + t_offset t) n y m d h mi s ->
  let shows l x := format get pget upper local t (bs l) = Ok x in
  shows "d"%string (digits 2 d) /\ shows "j"%string (itoa d) /\ shows "m"%string (digits 2 m) /\ shows "n"%string (itoa m) /\
  shows "H"%string (digits 2 h) /\ shows "G"%string (itoa h) /\ shows "h"%string (digits 2 (clock12 h)) /\ shows "g"%string (itoa (clock12 h)) /\
  shows "i"%string (digits 2 mi) /\ shows "s"%string (digits 2 s).
Proof.
  intros get pget upper local t n y m d h mi s C shows. unfold shows.
  destruct (civil_fields _ _ _ _ _ _ _ _ C) as (_ & Y & M & D & H & MI & S & V). destruct C as (_ & _ & BH & BM & BS).
  destruct (hour12_eq t h H BH) as [T BT]. destruct V as [VM VD].
  assert (VD' : 1 <= d <= 31) by (pose proof (month_length_le y m); lia).
  rewrite form_d, form_j, form_m, form_n, form_H, form_G, form_h, form_g, form_i, form_s.
  unfold f_d, f_j, f_m, f_n, f_H, f_G, f_h, f_g, f_i, f_s. rewrite M, D, H, MI, S, T.
  rewrite !fmt2, app2, app0 by lia. repeat split.
Qed.
Example C47_numbers_case : format no_translation no_context same_rune [] sample (bs "d/n H:i:s g") = Ok (bs "17/11 00:41:27 12").
Proof. vm_compute. reflexivity. Qed.

(** Years and positions in the year: the year with four digits (up to 9999;
    all of them afterwards) and with two, leap years, length of the month, day
    of the year, day of the week from Sunday (0), English suffix of the day. *)
Theorem C47_calendar : forall get pget upper local t n y m d h mi s,
  civil (t_unix t + t_offset t) n y m d h mi s ->
  let shows l x := format get pget upper local t (bs l) = Ok x in
  (0 <= y < 10000 -> shows "Y"%string (digits 4 y)) /\ (10000 <= y -> shows "Y"%string (itoa y)) /\
  (0 <= y -> shows "y"%string (digits 2 (y mod 100))) /\
  (leap y -> shows "L"%string (bs "true")) /\ (~ leap y -> shows "L"%string (bs "false")) /\
  shows "t"%string (itoa (month_length y m)) /\
  (forall jan1, days_after jan1 (y, 1, 1) -> shows "z"%string (itoa (n - jan1 + 1))) /\
  shows "w"%string (itoa ((n + 1) mod 7)) /\ shows "S"%string (bs (english_suffix d)).
Proof.
  intros get pget upper local t n y m d h mi s C shows. unfold shows.
  destruct (civil_fields _ _ _ _ _ _ _ _ C) as (N & Y & M & D & _ & _ & _ & V). destruct V as [VM VD].
  assert (VD' : 1 <= d <= 31) by (pose proof (month_length_le y m); lia).
  rewrite form_Y, form_y, form_L, form_t, form_z, form_w, form_S.
  unfold f_Y, f_y, f_L, f_t, f_z, f_w, f_S. rewrite year_day_eq, N, Y, M, D. cbv zeta. rewrite (suffix_eq d VD').
  split; [intro B; rewrite fmt4 by lia; reflexivity|].
  split.
  { intro B. unfold fmt0, itoa. replace (y <? 0) with false by lia. rewrite zeros_wide by (cbn; lia). reflexivity. }
  split.
  { intro B. rewrite Z.rem_mod_nonneg by lia. pose proof (Z.mod_pos_bound y 100 ltac:(lia)). rewrite fmt2 by lia. reflexivity. }
  split; [intro L; apply is_leap_spec in L; rewrite L; reflexivity|].
  split.
  { intro L. destruct (is_leap y) eqn:E; [exfalso; apply L, is_leap_spec; assumption|reflexivity]. }
  split; [rewrite days_in_month_spec by assumption; reflexivity|].
  split; [intros j J; apply jan1_unique in J; subst j; reflexivity|].
  split; reflexivity.
Qed.
Example C47_calendar_case : format no_translation no_context same_rune [] sample (bs "Y y L t z w jS") = Ok (bs "2026 26 false 30 321 2 17th").
Proof. vm_compute. reflexivity. Qed.

(** The year letters are not "digits" before year 0: year -5 (a time.Time can
    hold it) shows "-5" for the two digit year, and three digits for the four
    digit one. *)
Theorem C47_years_refuted : forall get pget upper local, exists t n m d h mi s,
  civil (t_unix t + t_offset t) n (-5) m d h mi s /\
  format get pget upper local t (bs "y") = Ok (bs "-5") /\ format get pget upper local t (bs "Y") = Ok (bs "-005").
Proof.
  intros. exists (GT (86400 * (-2000 - 719162)) 0 utc), (-2000), 7, 12, 0, 0, 0.
  rewrite form_y, form_Y. split; [|split; vm_compute; reflexivity].
  split; [|cbn; lia]. apply ymd_days_after. vm_compute. reflexivity.
Qed.

(** The ISO 8601 week and its year. *)
Theorem C47_iso : forall get pget upper local t n y m d h mi s,
  civil (t_unix t + t_offset t) n y m d h mi s ->
  exists iy w, iso n iy w /\ (forall iy' w', iso n iy' w' -> iy' = iy /\ w' = w) /\
    format get pget upper local t (bs "o") = Ok (itoa iy) /\ format get pget upper local t (bs "W") = Ok (itoa w).
Proof.
  intros get pget upper local t n y m d h mi s C.
  destruct (civil_fields _ _ _ _ _ _ _ _ C) as (N & _).
  exists (fst (iso_week n)), (snd (iso_week n)). split; [apply iso_week_spec|]. split.
  { intros iy' w' H. apply (iso_unique n); [assumption|apply iso_week_spec]. }
  rewrite form_o, form_W. unfold f_o, f_W. rewrite N. split; reflexivity.
Qed.
(** 2027-01-01 belongs to the last week of 2026. *)
Example C47_iso_case : format no_translation no_context same_rune [] (GT 1798761600 0 utc) (bs "Y-m-d o W") = Ok (bs "2027-01-01 2026 53").
Proof. vm_compute. reflexivity. Qed.

(** Names: the message of the month or of the day of the week (day 0 of the
    calendar is a Monday) is looked up in the catalog. *)
Theorem C47_names : forall get pget upper local t n y m d h mi s,
  civil (t_unix t + t_offset t) n y m d h mi s ->
  let shows l x := format get pget upper local t (bs l) = Ok x in
  shows "F"%string (get (nth_name month_names (m - 1))) /\ shows "b"%string (get (nth_name month_names3 (m - 1))) /\
  shows "N"%string (pget (bs "abbrev. month") (nth_name month_names_ap (m - 1))) /\
  shows "E"%string (pget (bs "alt. month") (nth_name month_names (m - 1))) /\
  shows "l"%string (get (nth_name day_names (n mod 7))) /\ shows "D"%string (get (nth_name day_names3 (n mod 7))).
Proof.
  intros get pget upper local t n y m d h mi s C shows. unfold shows.
  destruct (civil_fields _ _ _ _ _ _ _ _ C) as (N & Y & M & D & _ & _ & _ & V). destruct V as [VM VD].
  destruct (months_at m VM) as (A1 & A2 & A3 & A4 & _). destruct (days_at t n N) as (B1 & B2 & _).
  rewrite form_F, form_b, form_N, form_E, form_l, form_D. unfold f_F, f_b, f_N, f_E, f_l, f_D.
  rewrite M, A1, A2, A3, A4, B1, B2. repeat split.
Qed.
Example C47_names_case : format no_translation no_context same_rune [] sample (bs "l, D, F, b, N, E") =
  Ok (bs "Tuesday, Tue, November, nov, Nov., November").
Proof. vm_compute. reflexivity. Qed.

(** The capitalised month: the first rune of the translation, if there is one.
    The letter panics exactly if the translation is empty. *)
Theorem C47_capital_month : forall get pget upper local t n y m d h mi s,
  civil (t_unix t + t_offset t) n y m d h mi s ->
  let translated := get (nth_name month_names3 (m - 1)) in
  (translated = [] -> format get pget upper local t (bs "M") = Panic) /\
  (forall r rs, Forall (fun r => scalar r = true) (r :: rs) -> translated = encode_all (r :: rs) ->
     format get pget upper local t (bs "M") = Ok (encode_all (upper r :: rs))).
Proof.
  intros get pget upper local t n y m d h mi s C tr.
  destruct (civil_fields _ _ _ _ _ _ _ _ C) as (N & Y & M & D & _ & _ & _ & V). destruct V as [VM VD].
  destruct (months_at m VM) as (_ & A2 & _). rewrite form_M. unfold f_M. rewrite M, A2. fold tr. split.
  - intro E. rewrite E. reflexivity.
  - intros r rs SC E. pose proof (runes_encode (r :: rs) [] SC) as R. change (runes []) with (@nil rune) in R.
    rewrite !app_nil_r in R. rewrite E, R. reflexivity.
Qed.
Example C47_capital_month_case : format no_translation no_context (fun r => r - 32) [] sample (bs "M") = Ok (bs "Nov").
Proof. vm_compute. reflexivity. Qed.
Example C47_capital_month_panics : format (fun _ => []) no_context same_rune [] sample (bs "M") = Panic.
Proof. vm_compute. reflexivity. Qed.

(** Half days: noon and later is p.m.; f leaves zero minutes out; P has names
    for midnight and noon. *)
Theorem C47_half_days : forall get pget upper local t n y m d h mi s,
  civil (t_unix t + t_offset t) n y m d h mi s ->
  let shows l x := format get pget upper local t (bs l) = Ok x in
  let half := get (if h <? 12 then bs "a.m." else bs "p.m.") in
  let short := itoa (clock12 h) ++ if mi =? 0 then [] else bs ":" ++ digits 2 mi in
  shows "a"%string half /\ shows "A"%string (get (if h <? 12 then bs "AM" else bs "PM")) /\ shows "f"%string short /\
  shows "P"%string (if mi =? 0 then if h =? 0 then get (bs "midnight") else if h =? 12 then get (bs "noon") else short ++ bs " " ++ half
             else short ++ bs " " ++ half).
Proof.
  intros get pget upper local t n y m d h mi s C shows half short. unfold shows.
  destruct (civil_fields _ _ _ _ _ _ _ _ C) as (_ & _ & _ & _ & H & MI & _ & _). destruct C as (_ & _ & BH & BM & _).
  destruct (hour12_eq t h H BH) as [T BT].
  assert (FA : f_a get t = half).
  { unfold f_a, half. rewrite H. destruct (11 <? h) eqn:A; destruct (h <? 12) eqn:B; try reflexivity; lia. }
  assert (FF : f_f t = short).
  { unfold f_f, short. rewrite MI, T, app0 by lia. destruct (0 <? mi) eqn:A; destruct (mi =? 0) eqn:B; try lia.
    - rewrite app2 by lia. reflexivity.
    - rewrite app_nil_r. reflexivity. }
  rewrite form_a, form_A, form_f, form_P. rewrite FA, FF.
  split; [reflexivity|]. split.
  { unfold f_A. rewrite H. destruct (11 <? h) eqn:A; destruct (h <? 12) eqn:B; try reflexivity; lia. }
  split; [reflexivity|]. unfold f_P. rewrite FA, FF, H, MI. f_equal.
  destruct (mi =? 0); [|reflexivity]. cbn [andb]. destruct (h =? 0); [reflexivity|]. destruct (h =? 12); reflexivity.
Qed.
Example C47_half_days_case :
  map (fun u => format no_translation no_context same_rune [] (GT u 0 utc) (bs "P, f A")) [0; 3600; 43200; 47100] =
  [Ok (bs "midnight, 12 AM"); Ok (bs "1 a.m., 1 AM"); Ok (bs "noon, 12 PM"); Ok (bs "1:05 p.m., 1:05 PM")].
Proof. vm_compute. reflexivity. Qed.

(** Zones, instants, microseconds; RFC 5322 dates. *)
Theorem C47_zones : forall get pget upper local t n y m d h mi s,
  civil (t_unix t + t_offset t) n y m d h mi s -> 0 <= t_nsec t < 1000000000 -> Z.abs (t_offset t) < 360000 ->
  let shows l x := format get pget upper local t (bs l) = Ok x in
  let zone := (if t_offset t <=? -60 then "-"%char else "+"%char) ::
    digits 2 (Z.abs (t_offset t) / 3600) ++ digits 2 (Z.abs (t_offset t) / 60 mod 60) in
  shows "e"%string (t_zone t) /\ shows "Z"%string (itoa (t_offset t)) /\ shows "T"%string local /\ shows "U"%string (itoa (t_unix t)) /\
  shows "u"%string (digits 6 (t_nsec t / 1000)) /\ shows "O"%string zone /\
  (0 <= y < 10000 -> shows "r"%string (nth_name day_names3 (n mod 7) ++ bs ", " ++ digits 2 d ++ bs " " ++
    nth_name month_names_en (m - 1) ++ bs " " ++ digits 4 y ++ bs " " ++ digits 2 h ++ bs ":" ++ digits 2 mi ++
    bs ":" ++ digits 2 s ++ bs " " ++ zone)).
Proof.
  intros get pget upper local t n y m d h mi s C NS O shows zone. unfold shows.
  destruct (civil_fields _ _ _ _ _ _ _ _ C) as (N & Y & M & D & H & MI & S & V). destruct C as (_ & _ & BH & BM & BS).
  destruct V as [VM VD].
  assert (VD' : 1 <= d <= 31) by (pose proof (month_length_le y m); lia).
  destruct (months_at m VM) as (_ & _ & _ & _ & A5). destruct (days_at t n N) as (_ & _ & B3 & _).
  rewrite form_e, form_Z, form_T, form_U, form_u, form_O, form_r. unfold f_O, f_r, f_u, f_e, f_Z, f_T, f_U.
  rewrite (zone_text_eq t O). fold zone. rewrite B3, M, A5, D, Y, H, MI, S.
  repeat (split; [reflexivity|]). split.
  { rewrite Z.quot_div_nonneg by lia. rewrite zeros_digits; [reflexivity|]. change (10 ^ Z.of_nat 6) with 1000000. Z.to_euclidean_division_equations; lia. }
  split; [reflexivity|]. intro YB. rewrite !app2, app4 by lia. reflexivity.
Qed.
Example C47_zones_case : format no_translation no_context same_rune (bs "Local")
  (GT 1794876087 123000 (fun _ => (-16200, bs "X"))) (bs "e Z T U u O | r") =
  Ok (bs "X -16200 Local 1794876087 000123 -0430 | Mon, 16 Nov 2026 20:11:27 -0430").
Proof. vm_compute. reflexivity. Qed.

(** The ISO 8601 letter is right when the nanoseconds have nine digits ... *)
Theorem C47_datetime_partial : forall get pget upper local t n y m d h mi s,
  civil (t_unix t + t_offset t) n y m d h mi s -> 0 <= y < 10000 -> 100000000 <= t_nsec t < 1000000000 ->
  format get pget upper local t (bs "c") =
  Ok (digits 4 y ++ bs "-" ++ digits 2 m ++ bs "-" ++ digits 2 d ++ bs "T" ++ digits 2 h ++ bs ":" ++ digits 2 mi ++
      bs ":" ++ digits 2 s ++ bs "." ++ digits 9 (t_nsec t)).
Proof.
  intros get pget upper local t n y m d h mi s C YB NS.
  destruct (civil_fields _ _ _ _ _ _ _ _ C) as (N & Y & M & D & H & MI & S & V). destruct C as (_ & _ & BH & BM & BS).
  destruct V as [VM VD].
  assert (VD' : 1 <= d <= 31) by (pose proof (month_length_le y m); lia).
  rewrite form_c. unfold f_c. rewrite M, D, Y, H, MI, S. rewrite !app2, app4 by lia.
  assert (E : itoa (t_nsec t) = digits 9 (t_nsec t)).
  { unfold itoa. replace (t_nsec t <? 0) with false by lia. rewrite <- (zeros_digits 8) by (cbn; lia).
    pose proof (utoa_length 8 (t_nsec t) ltac:(cbn; lia)) as W.
    unfold zeros. cbv zeta. replace (9 - length (utoa (t_nsec t)))%nat with 0%nat by lia. reflexivity. }
  rewrite E. reflexivity.
Qed.
Example C47_datetime_partial_case :
  format no_translation no_context same_rune [] (GT 1794876087 123456789 utc) (bs "c") = Ok (bs "2026-11-17T00:41:27.123456789").
Proof. vm_compute. reflexivity. Qed.

(** ... but not in general: the nanoseconds are not padded.  The code's own
    example, 123 microseconds after the second, shows as .123000 instead of
    .000123. *)
Theorem C47_datetime_refuted : forall get pget upper local, exists t,
  civil (t_unix t + t_offset t) 739936 2026 11 17 0 41 27 /\ t_nsec t = 123 * 1000 /\
  format get pget upper local t (bs "c") = Ok (bs "2026-11-17T00:41:27.123000").
Proof.
  intros. exists sample. split; [exact sample_civil|]. split; [reflexivity|]. rewrite form_c. vm_compute. reflexivity.
Qed.

(** Daylight saving time: "0" where the offset never changes; where it has two
    values which differ between 1 January and 1 July, "1" exactly for the
    larger offset. *)
Theorem C47_saving_time : forall get pget upper local t,
  let shown := format get pget upper local t (bs "I") in
  (forall o, (forall u, fst (t_loc t u) = o) -> shown = Ok (bs "0")) /\
  (forall lo hi, lo < hi -> (forall u, fst (t_loc t u) = lo \/ fst (t_loc t u) = hi) ->
     t_offset (date_in (year t) 1 1 (t_loc t)) <> t_offset (date_in (year t) 7 1 (t_loc t)) ->
     shown = Ok (bs (if t_offset t =? hi then "1" else "0"))).
Proof.
  intros get pget upper local t shown. unfold shown. rewrite form_I. split.
  - intros o F. unfold f_I. cbv zeta. assert (W : t_offset (date_in (year t) 1 1 (t_loc t)) = o) by apply F.
    assert (V : t_offset (date_in (year t) 7 1 (t_loc t)) = o) by apply F. rewrite W, V.
    replace (o <? o) with false by lia. rewrite Z.eqb_refl. reflexivity.
  - intros lo hi L F. unfold f_I. cbv zeta. set (w := t_offset (date_in (year t) 1 1 (t_loc t))). set (v := t_offset (date_in (year t) 7 1 (t_loc t))).
    intro N. assert (W : w = lo \/ w = hi) by apply F. assert (V : v = lo \/ v = hi) by apply F.
    assert (T : t_offset t = lo \/ t_offset t = hi) by apply F.
    assert (A : (if v <? w then (v, w) else (w, v)) = (lo, hi)).
    { destruct (v <? w) eqn:E; f_equal; lia. }
    rewrite A. replace (lo =? hi) with false by lia. cbn [negb andb].
    destruct (t_offset t =? lo) eqn:B; destruct (t_offset t =? hi) eqn:D; cbn [negb]; try reflexivity; lia.
Qed.
(** A zone one hour further east from April to October. *)
Definition summer_zone (u : Z) : Z * bytes :=
  if (1774746000 <=? u) && (u <? 1792890000) then (7200, bs "CEST") else (3600, bs "CET").
Example C47_saving_time_case :
  map (fun u => format no_translation no_context same_rune [] (GT u 0 summer_zone) (bs "I e")) [1782864000; 1794876087] =
  [Ok (bs "1 CEST"); Ok (bs "0 CET")].
Proof. vm_compute. reflexivity. Qed.

(** The whole format string: a format is read as one sequence of fields and
    literal runes, and the text is that of its parts one after the other.  It
    panics exactly if one of the fields does. *)
Theorem C47_tokens : forall get pget upper local t s,
  exists ts, tokens (runes s) ts /\ (forall ts', tokens (runes s) ts' -> ts' = ts) /\
    let text r := match letter get pget upper local r t with Some (Ok x) => Some x | _ => None end in
    (format get pget upper local t s = Panic <-> exists r, In (Field r) ts /\ text r = None) /\
    ((forall r, In (Field r) ts -> text r <> None) ->
      format get pget upper local t s =
      Ok (concat (map (fun k => match k with Literal r => encode_rune r
                                | Field r => match text r with Some x => x | None => [] end end) ts))).
Proof.
  intros get pget upper local t s. destruct (loop_tokens get pget upper local t (runes s)) as (ts & T & E).
  exists ts. split; [assumption|]. split; [intros ts' T'; apply (tokens_det get pget upper local (runes s)); assumption|].
  intro text.
  assert (ALL : forall r x, letter get pget upper local r t = Some x -> x = Panic \/ exists z, x = Ok z).
  { intros r x. rewrite letter_table. intro L.
    assert (I : In x (map snd (table get pget upper local t))).
    { revert L. generalize (table get pget upper local t) as l. induction l as [|[c z] l IH]; [discriminate|].
      cbn [lookup map snd]. destruct (r =? code c); [intro X; left; congruence|intro X; right; apply IH; assumption]. }
    assert (F : Forall (fun x => x = Panic \/ exists z, x = Ok z) (map snd (table get pget upper local t))).
    { unfold table. cbn [map snd]. repeat (constructor; [try (right; eexists; reflexivity)|]); [|constructor].
      unfold f_M. destruct (runes (get (map_at months3 (month t) []))); [left; reflexivity|right; eexists; reflexivity]. }
    rewrite Forall_forall in F. apply F. assumption. }
  assert (LE : forall r, In (Field r) ts -> is_letter r).
  { clear E. induction T; intros r' I.
    - contradiction.
    - destruct I as [I|I]; [discriminate|apply IHT; assumption].
    - destruct I as [I|[]]; discriminate.
    - destruct I as [I|I]; [congruence|apply IHT; assumption].
    - destruct I as [I|I]; [discriminate|apply IHT; assumption]. }
  unfold format. rewrite E.
  assert (OKS : (forall r, In (Field r) ts -> text r <> None) ->
    texts get pget upper local t ts = Ok (concat (map (fun k => match k with Literal r => encode_rune r
       | Field r => match text r with Some x => x | None => [] end end) ts))).
  { intro H. rewrite texts_ok.
    - f_equal. f_equal. apply map_ext. intros [r|r]; [|reflexivity]. unfold text_of, text.
      destruct (letter get pget upper local r t) as [[x| | |]|]; reflexivity.
    - intros r I. specialize (H r I). unfold text in H. destruct (letter get pget upper local r t) as [[x| | |]|]; try congruence.
      exists x. reflexivity. }
  split; [|exact OKS]. split.
  - intro P. destruct (existsb (fun k => match k with Field r => match text r with None => true | Some _ => false end | Literal _ => false end) ts) eqn:X.
    + apply existsb_exists in X. destruct X as ([r|r] & I & B); [|discriminate]. exists r. split; [assumption|]. destruct (text r); [discriminate|reflexivity].
    + rewrite OKS in P; [discriminate|]. intros r I N.
      assert (Y : existsb (fun k => match k with Field r => match text r with None => true | Some _ => false end | Literal _ => false end) ts = true); [|congruence].
      apply existsb_exists. exists (Field r). split; [assumption|]. rewrite N. reflexivity.
  - intros (r & I & N). apply (texts_panic get pget upper local t ts r I); [|exact ALL|exact LE].
    destruct (proj2 (letter_some get pget upper local r t) (LE r I)) as (x & L). unfold text in N. rewrite L in *.
    destruct (ALL r x L) as [->|(z & ->)]; [reflexivity|discriminate].
Qed.
Example C47_tokens_case : tokens (runes (bs "\d\e d\")) [Literal 100; Literal 101; Literal 32; Field 100; Literal 92] /\
  format no_translation no_context same_rune [] sample (bs "\d\e d\") = Ok (bs "de 17\").
Proof.
  split; [|vm_compute; reflexivity]. change (runes (bs "\d\e d\")) with [92; 100; 92; 101; 32; 100; 92].
  constructor. constructor. apply tk_other; [discriminate| |]; [|apply tk_letter; [exists "d"%char; split; [vm_compute; tauto|reflexivity]|apply tk_lone]].
  intros (c & I & E). revert E. assert (F : Forall (fun c => 32 <> Z.of_N (N_of_ascii c)) letters) by (vm_compute; repeat (constructor; [discriminate|]); constructor).
  rewrite Forall_forall in F. apply F. assumption.
Qed.

(** Formats can be put together, if no escape is left open in between; escaped
    runes and runes which are no letters are copied. *)
Theorem C47_concat : forall get pget upper local t a s,
  Forall (fun r => scalar r = true) a -> closed a ->
  format get pget upper local t (encode_all a ++ s) =
  (do x <- format get pget upper local t (encode_all a) ; do y <- format get pget upper local t s ; Ok (x ++ y)).
Proof. intros. apply format_app; assumption. Qed.
Example C47_concat_case : closed (runes (bs "d\\ ")) /\ ~ closed (runes (bs "d\")).
Proof.
  change (runes (bs "d\\ ")) with [100; 92; 92; 32]. change (runes (bs "d\")) with [100; 92]. split.
  - apply cl_plain; [discriminate|]. apply cl_escape. apply cl_plain; [discriminate|constructor].
  - intro H. inversion H as [|r rs N C|]; subst; inversion C; congruence.
Qed.

Theorem C47_literal : forall get pget upper local t r, scalar r = true ->
  format get pget upper local t ("\"%char :: encode_rune r) = Ok (encode_rune r) /\
  (~ is_letter r -> r <> 92 -> format get pget upper local t (encode_rune r) = Ok (encode_rune r)) /\
  format get pget upper local t (bs "\") = Ok (bs "\").
Proof.
  intros get pget upper local t r SC.
  assert (R : forall l, Forall (fun r => scalar r = true) l -> runes (encode_all l) = l).
  { intros l F. pose proof (runes_encode l [] F) as R. change (runes []) with (@nil rune) in R. rewrite !app_nil_r in R. exact R. }
  split; [|split; [|reflexivity]].
  - unfold format. assert (E : "\"%char :: encode_rune r = encode_all [92; r]) by (unfold encode_all; cbn [map concat]; rewrite app_nil_r; reflexivity).
    rewrite E, R by (repeat constructor; assumption). rewrite loop_escape. cbn [format_loop]. unfold app_res. cbn [rbind]. rewrite app_nil_r. reflexivity.
  - intros N B. unfold format. assert (E : encode_rune r = encode_all [r]) by (unfold encode_all; cbn [map concat]; rewrite app_nil_r; reflexivity).
    rewrite E at 1. rewrite R by (repeat constructor; assumption). rewrite loop_cons by assumption.
    rewrite (proj2 (letter_none get pget upper local r t) N). cbn [format_loop]. unfold app_res. cbn [rbind]. rewrite app_nil_r. reflexivity.
Qed.
Example C47_literal_case : scalar 8364 = true /\ 8364 <> 92 /\ ~ is_letter 8364.
Proof.
  split; [reflexivity|]. split; [discriminate|]. intros (c & I & E). revert E.
  assert (F : Forall (fun c => 8364 <> Z.of_N (N_of_ascii c)) letters) by (vm_compute; repeat (constructor; [discriminate|]); constructor).
  rewrite Forall_forall in F. apply F. assumption.
Qed.

(** ** C54: NaturalDay *)

(** The same date in the location of the time is always "today" ... *)
Theorem C54_today : forall get pget upper local fd now t,
  (forall n y m d h mi s, civil (t_unix t + t_offset t) n y m d h mi s ->
     exists h' mi' s', civil (t_unix now + fst (t_loc t (t_unix now))) n y m d h' mi' s') ->
  natural_day get pget upper local fd now t = Ok (get (bs "today")).
Proof.
  intros get pget upper local fd now t H.
  assert (C : civil (t_unix t + t_offset t) (t_day t) (year t) (month t) (mday t) (hour t) (minute t) (second t)).
  { destruct (t_day_number t) as [E V]. split.
    - rewrite E. apply ymd_days_after. apply ymd_unique; [assumption|reflexivity].
    - pose proof (local_day t). unfold hour, minute, second, t_secs, t_day, t_local in *. Z.to_euclidean_division_equations; lia. }
  destruct (H _ _ _ _ _ _ _ C) as (h' & mi' & s' & C').
  destruct (civil_fields (at_loc now t) _ _ _ _ _ _ _ C') as (_ & Y & M & D & _).
  rewrite natural_day_eq. cbv zeta. unfold midnight_of. rewrite Y, M, D. change (t_loc (at_loc now t)) with (t_loc t).
  rewrite Z.sub_diag. reflexivity.
Qed.
Example C54_today_case : forall get, natural_day get no_context same_rune [] fallback (GT 1794900000 0 utc) sample = Ok (get (bs "today")).
Proof. intro get. rewrite natural_day_eq. vm_compute. reflexivity. Qed.

(** ... and where the offset does not change, the three texts are for exactly
    the three days, and every other day is formatted. *)
Theorem C54_days : forall get pget upper local fd now t o n n' y m d h mi s y' m' d' h' mi' s',
  (forall u, fst (t_loc t u) = o) ->
  civil (t_unix t + o) n y m d h mi s -> civil (t_unix now + o) n' y' m' d' h' mi' s' ->
  natural_day get pget upper local fd now t =
  if n =? n' then Ok (get (bs "today"))
  else if n =? n' + 1 then Ok (get (bs "tomorrow"))
  else if n =? n' - 1 then Ok (get (bs "yesterday"))
  else format get pget upper local t (fd_date fd).
Proof.
  intros get pget upper local fd now t o n n' y m d h mi s y' m' d' h' mi' s' F C C'.
  assert (C0 : civil (t_unix t + t_offset t) n y m d h mi s) by (unfold t_offset; rewrite F; exact C).
  assert (C1 : civil (t_unix (at_loc now t) + t_offset (at_loc now t)) n' y' m' d' h' mi' s') by (unfold t_offset; cbn [at_loc t_loc t_unix]; rewrite F; exact C').
  destruct (civil_fields _ _ _ _ _ _ _ _ C0) as (N & _). destruct (civil_fields _ _ _ _ _ _ _ _ C1) as (N' & _).
  rewrite natural_day_eq. cbv zeta. rewrite (midnight_fixed t o F), (midnight_fixed (at_loc now t) o F), N, N'.
  set (e := 86400 * (n - 719162) - o - (86400 * (n' - 719162) - o)).
  assert (E : e = 86400 * (n - n')) by (unfold e; lia). clearbody e.
  destruct (n =? n') eqn:E0; destruct (e =? 0) eqn:E1; try lia; [reflexivity|].
  destruct (n =? n' + 1) eqn:E2; destruct (e =? 86400) eqn:E3; try lia; [reflexivity|].
  destruct (n =? n' - 1) eqn:E4; destruct (e =? -86400) eqn:E5; try lia; reflexivity.
Qed.
Example C54_days_case :
  map (fun u => natural_day no_translation no_context same_rune [] fallback sample (GT u 0 utc))
    [1794876087 - 86400; 1794876087; 1794876087 + 86400; 1794876087 + 172800] =
  [Ok (bs "yesterday"); Ok (bs "today"); Ok (bs "tomorrow"); Ok (bs "Nov. 19, 2026")].
Proof. vm_compute. reflexivity. Qed.

(** With summer time the next day is missed after a day of 23 (or 25) hours: on
    29 March 2026 the 30th is not called "tomorrow" but formatted as a date. *)
Theorem C54_tomorrow_refuted : forall get pget upper local fd, exists now t n y m d y' m' d' h mi s h' mi' s',
  (forall u, fst (t_loc t u) = 3600 \/ fst (t_loc t u) = 7200) /\
  civil (t_unix now + fst (t_loc t (t_unix now))) n y m d h mi s /\
  civil (t_unix t + t_offset t) (n + 1) y' m' d' h' mi' s' /\
  natural_day get pget upper local fd now t = format get pget upper local t (fd_date fd).
Proof.
  intros get pget upper local fd. exists (GT 1774778400 0 summer_zone), (GT 1774864800 0 summer_zone), 739703, 2026, 3, 29, 2026, 3, 30, 12, 0, 0, 12, 0, 0.
  split.
  { intro u. cbn [t_loc]. unfold summer_zone. destruct (_ && _); [right|left]; reflexivity. }
  split; [split; [apply ymd_days_after; vm_compute; reflexivity|vm_compute; intuition congruence]|].
  split; [split; [apply ymd_days_after; vm_compute; reflexivity|vm_compute; intuition congruence]|].
  rewrite natural_day_eq.
  assert (S : t_unix (midnight_of (GT 1774864800 0 summer_zone)) - t_unix (midnight_of (at_loc (GT 1774778400 0 summer_zone) (GT 1774864800 0 summer_zone))) = 82800) by (vm_compute; reflexivity).
  cbv zeta. rewrite S. reflexivity.
Qed.

(** In every location the text depends on the seconds between the two
    midnights only, and nothing is shown for other differences: no far day is
    ever called today, tomorrow or yesterday. *)
Theorem C54_elapsed : forall get pget upper local fd now t,
  let midnight u := date_in (year u) (month u) (mday u) (t_loc t) in
  let elapsed := t_unix (midnight t) - t_unix (midnight (GT (t_unix now) (t_nsec now) (t_loc t))) in
  natural_day get pget upper local fd now t =
  if elapsed =? 0 then Ok (get (bs "today"))
  else if elapsed =? 24 * 60 * 60 then Ok (get (bs "tomorrow"))
  else if elapsed =? - (24 * 60 * 60) then Ok (get (bs "yesterday"))
  else format get pget upper local t (fd_date fd).
Proof. intros. rewrite natural_day_eq. reflexivity. Qed.

(** ** C56: predefined formats *)

(** After setDefaults no format is empty; formats that were given are kept. *)
Theorem C56_defaults : forall f,
  let g := set_defaults f in
  Forall (fun p => p g <> [] /\ (p f <> [] -> p g = p f) /\ (p f = [] -> p g = p fallback))
    [fd_date; fd_time; fd_datetime; fd_year_month; fd_month_day; fd_short_date; fd_short_datetime].
Proof.
  intros f g. unfold g.
  assert (D : forall x y : bytes, y <> [] -> (if beq x [] then y else x) <> [] /\ (x <> [] -> (if beq x [] then y else x) = x) /\ (x = [] -> (if beq x [] then y else x) = y)).
  { intros x y Y. destruct x as [|c x]; [split; [assumption|split; [congruence|reflexivity]]|].
    assert (E : beq (c :: x) [] = false) by reflexivity. rewrite E. split; [discriminate|]. split; [reflexivity|discriminate]. }
  unfold set_defaults. repeat constructor; cbn [fd_date fd_time fd_datetime fd_year_month fd_month_day fd_short_date fd_short_datetime];
    apply D; unfold fallback; discriminate.
Qed.

(** Each keyword selects its own format, everything else is a format itself. *)
Theorem C56_keywords : forall get pget upper local fd t,
  let shows s f := format_time get pget upper local fd t s = format get pget upper local t f in
  let keywords := ["DATE_FORMAT"; "TIME_FORMAT"; "DATETIME_FORMAT"; "YEAR_MONTH_FORMAT"; "MONTH_DAY_FORMAT";
                   "SHORT_DATE_FORMAT"; "SHORT_DATETIME_FORMAT"]%string in
  Forall2 (fun k f => shows (bs k) f) keywords
    [fd_date fd; fd_time fd; fd_datetime fd; fd_year_month fd; fd_month_day fd; fd_short_date fd; fd_short_datetime fd] /\
  (forall s, ~ In s (map bs keywords) -> shows s s).
Proof.
  intros get pget upper local fd t shows keywords. split.
  - unfold shows, keywords, format_time. repeat constructor.
  - intros s N. unfold shows, format_time, select_format.
    assert (X : forall k, In k keywords -> beq s (bs k) = false).
    { intros k I. destruct (beq s (bs k)) eqn:E; [|reflexivity]. exfalso. apply N. apply beq_eq in E. rewrite E. apply in_map. assumption. }
    rewrite !X by (unfold keywords; cbn [In]; tauto). reflexivity.
Qed.
Example C56_keywords_case : format_time no_translation no_context same_rune [] fallback sample (bs "SHORT_DATETIME_FORMAT") = Ok (bs "11/17/2026 12:41 a.m.").
Proof. vm_compute. reflexivity. Qed.

(** A humanizer uses the formats of the last locale registered for the
    language its localizer chose, completed from the fallback; without such a
    locale it uses the fallback. *)
Theorem C56_humanizer : forall (tag : Type) (tag_eqb : tag -> tag -> bool),
  (forall a b, tag_eqb a b = true <-> a = b) ->
  forall locales lang,
  (forall before f after, locales = before ++ (lang, Some f) :: after -> ~ In lang (map fst after) ->
     humanizer_format tag tag_eqb locales lang = set_defaults f) /\
  (forall before after, locales = before ++ (lang, None) :: after -> ~ In lang (map fst after) ->
     humanizer_format tag tag_eqb locales lang = fallback) /\
  (~ In lang (map fst locales) -> humanizer_format tag tag_eqb locales lang = fallback).
Proof.
  intros tag tag_eqb EQ locales lang.
  assert (NONE : forall l, ~ In lang (map fst l) -> last_entry tag tag_eqb (collect tag l) lang = None).
  { induction l as [|[t f] l IH]; intro N; [reflexivity|]. cbn [collect map fst snd last_entry]. change (map _ l) with (collect tag l).
    rewrite IH by (intro I; apply N; right; assumption). destruct (tag_eqb t lang) eqn:E; [|reflexivity].
    exfalso. apply EQ in E. apply N. left. assumption. }
  assert (LAST : forall before x after, ~ In lang (map fst after) ->
    last_entry tag tag_eqb (collect tag (before ++ (lang, x) :: after)) lang = Some (set_defaults (match x with Some f => f | None => fallback end))).
  { intros before x after N. unfold collect. rewrite map_app. cbn [map fst snd]. fold (collect tag after).
    induction before as [|[t f] before IH]; cbn [map app last_entry].
    - rewrite NONE by assumption. assert (E : tag_eqb lang lang = true) by (apply EQ; reflexivity). rewrite E. reflexivity.
    - rewrite IH. reflexivity. }
  unfold humanizer_format. split; [|split].
  - intros before f after -> N. rewrite LAST by assumption. reflexivity.
  - intros before after -> N. rewrite LAST by assumption. reflexivity.
  - intro N. rewrite NONE by assumption. reflexivity.
Qed.
Example C56_humanizer_case :
  fd_time (humanizer_format Z Z.eqb [(1, Some (FD [] (bs "H:i") [] [] [] [] [])); (2, None)] 1) = bs "H:i" /\
  fd_date (humanizer_format Z Z.eqb [(1, Some (FD [] (bs "H:i") [] [] [] [] [])); (2, None)] 1) = bs "N j, Y".
Proof. split; reflexivity. Qed.

Print Assumptions C47_numbers.
Print Assumptions C47_calendar.
Print Assumptions C47_years_refuted.
Print Assumptions C47_iso.
Print Assumptions C47_names.
Print Assumptions C47_capital_month.
Print Assumptions C47_half_days.
Print Assumptions C47_zones.
Print Assumptions C47_datetime_partial.
Print Assumptions C47_datetime_refuted.
Print Assumptions C47_saving_time.
Print Assumptions C47_tokens.
Print Assumptions C47_concat.
Print Assumptions C47_literal.
Print Assumptions C54_today.
Print Assumptions C54_days.
Print Assumptions C54_tomorrow_refuted.
Print Assumptions C54_elapsed.
Print Assumptions C56_defaults.
Print Assumptions C56_keywords.
Print Assumptions C56_humanizer.
