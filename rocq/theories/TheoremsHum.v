(** Property theorems about the humanize functions: C44, C45, C46, C53. *)
From Coq Require Import String Ascii List ZArith QArith Qround Bool Lia.
From Verif Require Import Base PopModel NumModel F64Model FltModel FltProofs CalModel CalSpec CalProofs
  CalLeapProofs CldrEvalProofs HumModel HumSpec HumTextSpec HumFdProofs HumTimeProofs HumTotalProofs HumLeapProofs
  HumNumProofs HumNatProofs HumExactProofs.
Import ListNotations.
Open Scope Z_scope.
Opaque count_in abs_date.

(** ** C44: TimeSince *)

(** From a minute on: at least one unit, every count positive, the units in
    descending order, none left out in between if adjacency is asked for, at
    most [depth] of them. *)
Theorem C44_shape : forall depth adj delta, 60 <= delta < 2 ^ 63 -> 1 <= depth ->
  units_of depth adj delta <> [] /\
  Forall (fun u => 1 <= snd u) (units_of depth adj delta) /\
  subsequence (map fst (units_of depth adj delta)) (map (fun u => bs (fst u)) time_units) /\
  (adj = true -> contiguous (map fst (units_of depth adj delta)) (map (fun u => bs (fst u)) time_units)) /\
  Z.of_nat (length (units_of depth adj delta)) <= depth.
Proof. exact units_shape. Qed.

(** Zero minutes are shown for less than a minute, and only then. *)
Theorem C44_zero : forall depth adj delta, delta < 2 ^ 63 -> 1 <= depth ->
  (units_of depth adj delta = [(bs "minute", 0)] <-> delta < 60).
Proof.
  intros depth adj delta D DP. split.
  - intro E. destruct (Z_lt_le_dec delta 60) as [H|H]; [assumption|]. exfalso.
    destruct (units_shape depth adj delta ltac:(lia) DP) as (_ & F & _). rewrite E in F. inversion F as [|x l H1 H2]. cbn [snd] in H1. lia.
  - apply units_zero.
Qed.

(** The total against the interval.  It is over by at most 1/2000 of the last
    unit and short of less than one last unit; if there was room for more units
    the rest is less than the next unit (adjacent) or than a minute.  Missing:
    intervals over 2^41 seconds, and that it is never over. *)
Theorem C44_total_partial : forall adj depth delta, 1 <= depth -> 60 <= delta <= 2 ^ 41 ->
  exists L, units_of depth adj delta = map (fun u => (bs (fst u), snd u)) L /\ L <> [] /\
    let last_unit := fst (last L (EmptyString, 0)) in
    2000 * (total L - delta) <= secs_of last_unit /\
    delta - total L < secs_of last_unit /\
    (Z.of_nat (length L) < depth ->
       if adj then forall n' u', unit_after last_unit time_units = Some (n', u') -> delta - total L < u'
       else delta - total L < 60).
Proof.
  intros adj depth delta DP D. destruct (units_total adj depth delta DP D) as (L & U & NE & S & A & B & C).
  exists L. split; [exact U|]. split; [assumption|]. cbv zeta. change (fst (last L (EmptyString, 0))) with (lastname L).
  split; [assumption|]. split; [|assumption]. lia.
Qed.
Example C44_total_example :
  exists L, units_of 3 true 100000 = map (fun u => (bs (fst u), snd u)) L /\
    L = [("day", 1); ("hour", 3); ("minute", 46)]%string /\ total L = 99960.
Proof. eexists. split; [|split]; [|reflexivity|reflexivity]. vm_compute. reflexivity. Qed.

(** It is over: 59 minutes and 59 seconds are shown as an hour. *)
Theorem C44_total_refuted : exists delta L,
  units_of 2 true delta = map (fun u => (bs (fst u), snd u)) L /\ delta < total L /\ L = [("hour", 1)]%string.
Proof. exists 3599, [("hour", 1)]%string. split; [vm_compute; reflexivity|]. split; [vm_compute; reflexivity|reflexivity]. Qed.

(** If no rest of the greedy decomposition lies within 1/2000 unit below a
    multiple of its unit, the units shown are those of the greedy
    decomposition.  Missing: the other intervals, and those over 2^41 seconds. *)
Theorem C44_greedy_partial : forall adj depth delta, 1 <= depth -> 0 <= delta <= 2 ^ 41 ->
  (forall r u, In (r, u) (rests time_units delta) -> clear_of r u) ->
  units_of depth adj delta = map (fun u => (bs (fst u), snd u)) (decomposition adj (Z.to_nat depth) delta).
Proof. exact units_exact. Qed.
Example C44_greedy_example :
  (forall r u, In (r, u) (rests time_units 100000) -> clear_of r u) /\
  decomposition true 3 100000 = [("day", 1); ("hour", 3); ("minute", 46)]%string /\
  decomposition true 3 86520 = [("day", 1)]%string /\ decomposition false 3 86520 = [("day", 1); ("minute", 2)]%string.
Proof.
  split; [|vm_compute; repeat split; reflexivity].
  intros r u I. assert (F : forallb clearb (rests time_units 100000) = true) by (vm_compute; reflexivity).
  rewrite forallb_forall in F. specialize (F _ I). unfold clearb in F. cbn [fst snd] in F. unfold clear_of. lia.
Qed.

(** What is shown exactly: the greedy decomposition in which a count goes up if
    at most 1/2000 of its unit is missing.  Missing: intervals over 2^41 seconds
    and, over 1024 years, those that lack exactly 1/2000 year. *)
Theorem C44_rounded_partial : forall adj depth delta, 1 <= depth -> 0 <= delta <= 2 ^ 41 ->
  delta <= 1024 * 31536000 \/ (2000 * delta + 31536000) mod (2000 * 31536000) <> 0 ->
  units_of depth adj delta = map (fun u => (bs (fst u), snd u)) (decomposition_near adj (Z.to_nat depth) delta).
Proof. exact units_near. Qed.
(** At such an interval the count may stay lower. *)
Theorem C44_rounded_refuted : exists delta, 0 <= delta <= 2 ^ 41 /\
  units_of 1 true delta = [(bs "year", 1024)] /\ decomposition_near true 1 delta = [("year", 1025)]%string.
Proof.
  exists (15768 * (2000 * 1025 - 1)). split; [vm_compute; split; discriminate|].
  split; vm_compute; reflexivity.
Qed.
Example C44_rounded_example :
  decomposition_near true 3 3599 = [("hour", 1)]%string /\ decomposition true 3 3599 = [("minute", 59)]%string /\
  decomposition_near true 3 100000 = [("day", 1); ("hour", 3); ("minute", 46)]%string /\
  decomposition_near false 2 2590704 = [("month", 1)]%string /\ decomposition_near false 2 2590703 = [("week", 4); ("day", 1)]%string.
Proof. vm_compute. repeat split; reflexivity. Qed.

(** The last option of each kind counts; the default depth 2 also replaces a
    depth that is not positive; a zero time given as now means the clock. *)
Theorem C44_options : forall clock t opts,
  let depth := last_of opt_depth opts (-1) in
  let now := match last_of opt_now opts None with Some n => n | None => clock end in
  let '(from, to) := if last_of opt_reverse opts false then (now, t) else (t, now) in
  time_since clock t opts =
  OJoin (map (fun u => unit_text (last_of opt_ctx opts []) (fst u) (snd u))
             (units_of (if depth <=? 0 then 2 else depth) (last_of opt_adjacent opts true) (interval from to)))
        (OGet [] (bs ", ")).
Proof.
  intros clock t opts. cbv zeta. unfold time_since, new_ts_opts. cbv zeta. rewrite opts_fold.
  cbn [o_now o_reverse o_ctx o_depth o_adjacent]. destruct (last_of opt_reverse opts false); reflexivity.
Qed.

(** Every unit is a plural message of its own, with the count. *)
Theorem C44_messages : forall ctx depth adj delta, delta < 2 ^ 63 -> 1 <= depth ->
  Forall (fun u => exists name singular plural, In (name, singular, plural) unit_messages /\ fst u = bs name /\
            unit_text ctx (fst u) (snd u) = ONGetf ctx (bs singular) (bs plural) (snd u) (AInt64 (snd u)))
         (units_of depth adj delta).
Proof.
  intros ctx depth adj delta D DP. apply Forall_forall. intros u U.
  assert (I : In (fst u) (map (fun u => bs (fst u)) time_units)).
  { destruct (Z_lt_le_dec delta 60) as [L|L].
    - rewrite (proj2 (C44_zero depth adj delta D DP) L) in U. destruct U as [<-|[]].
      cbn [fst]. do 5 right. left. reflexivity.
    - destruct (C44_shape depth adj delta ltac:(lia) DP) as (_ & _ & S & _).
      pose proof (in_map fst _ _ U) as M. revert M S.
      generalize (map fst (units_of depth adj delta)), (map (fun u => bs (fst u)) time_units).
      intros a b M S. induction S as [|x a b S IH|x a b S IH]; [destruct M| |right; auto].
      destruct M as [<-|M]; [left; reflexivity|right; auto]. }
  destruct u as [name n]. cbn [fst snd] in *. clear U.
  assert (M : exists name' singular plural, In (name', singular, plural) unit_messages /\ name = bs name' /\
            bs singular = (bs "%[1]v " ++ name)%list /\ bs plural = (bs "%[1]v " ++ name ++ bs "s")%list).
  { clear D DP. unfold time_units in I. cbn [map fst] in I.
    destruct I as [<-|[<-|[<-|[<-|[<-|[<-|[]]]]]]];
      [exists "year"%string, "%[1]v year"%string, "%[1]v years"%string|exists "month"%string, "%[1]v month"%string, "%[1]v months"%string
      |exists "week"%string, "%[1]v week"%string, "%[1]v weeks"%string|exists "day"%string, "%[1]v day"%string, "%[1]v days"%string
      |exists "hour"%string, "%[1]v hour"%string, "%[1]v hours"%string|exists "minute"%string, "%[1]v minute"%string, "%[1]v minutes"%string];
      (split; [unfold unit_messages; cbn [In]; tauto|]); repeat split; reflexivity. }
  destruct M as (name' & sg & pl & M & -> & S & P). exists name', sg, pl. split; [exact M|]. split; [reflexivity|].
  unfold unit_text, time_string. rewrite S, P. reflexivity.
Qed.
(** TimeUntil measures from now to the time, whatever the options say about the
    direction; the now of TimeSinceFrom and TimeUntilFrom wins over that of an
    option, and the zero time means the clock. *)
Theorem C44_until : forall clock t n opts,
  let depth := let d := last_of opt_depth opts (-1) in if d <=? 0 then 2 else d in
  let now := match last_of opt_now opts None with Some n => n | None => clock end in
  let n' := if is_zero n then clock else n in
  let shown := fun from to =>
    OJoin (map (fun u => unit_text (last_of opt_ctx opts []) (fst u) (snd u))
               (units_of depth (last_of opt_adjacent opts true) (interval from to)))
          (OGet [] (bs ", ")) in
  time_until clock t opts = shown now t /\
  time_until_from clock t n opts = shown n' t /\
  time_since_from clock t n opts = (if last_of opt_reverse opts false then shown n' t else shown t n').
Proof.
  intros clock t n opts. cbv zeta. unfold time_until, time_until_from, time_since_from.
  split; [|split].
  - pose proof (C44_options clock t (opts ++ [OWithReverse true])) as H. cbv zeta in H.
    unfold last_of in *. rewrite !fold_left_app in H. exact H.
  - pose proof (C44_options clock t (opts ++ [OWithNow n; OWithReverse true])) as H. cbv zeta in H.
    unfold last_of in *. rewrite !fold_left_app in H. cbn [fold_left opt_now opt_reverse] in H.
    destruct (is_zero n); exact H.
  - pose proof (C44_options clock t (opts ++ [OWithNow n])) as H. cbv zeta in H.
    unfold last_of in *. rewrite !fold_left_app in H. cbn [fold_left opt_now opt_reverse] in H.
    destruct (is_zero n); destruct (fold_left _ opts false); exact H.
Qed.
Example C44_until_example :
  let now := GT 1700000000 0 (fun _ => (0, bs "UTC")) in
  let t := GT 1700259200 0 (fun _ => (0, bs "UTC")) in
  time_until now t [OWithReverse false] =
    OJoin [ONGetf [] (bs "%[1]v day") (bs "%[1]v days") 3 (AInt64 3)] (OGet [] (bs ", ")).
Proof. vm_compute. reflexivity. Qed.

(** Between two instants: a minute or more apart something positive is shown,
    and the interval measured is at most the real one; else 0 minutes are
    shown. *)
Theorem C44_instants : forall depth adj from to, 1 <= depth ->
  Z.abs (t_offset from) <= 86400 -> Z.abs (t_offset to) <= 86400 ->
  Z.abs (year from - 1) <= 2 ^ 52 -> Z.abs (year to - 1) <= 2 ^ 52 -> t_unix to - t_unix from < 2 ^ 63 ->
  (60 <= t_unix to - t_unix from ->
     60 <= interval from to <= t_unix to - t_unix from /\
     Forall (fun u => 1 <= snd u) (units_of depth adj (interval from to))) /\
  (t_unix to - t_unix from < 60 -> units_of depth adj (interval from to) = [(bs "minute", 0)]).
Proof.
  intros depth adj from to DP ZF ZT YF YT B. split; intro D.
  - pose proof (interval_bounds from to ZF ZT YF YT D) as I. split; [assumption|].
    apply units_shape; [lia|assumption].
  - apply units_zero. apply interval_small; assumption.
Qed.

(** ** C53: the leap-day correction *)

(** Exactly k years later (same date, same time of the day, same offset) the
    interval is k times 365 days, possibly one day too long; only if the later
    year is a leap year, the earlier is not, another leap year lies in between
    and the day is before March, it is one day too short. *)
Theorem C53_interval : forall from to k, 1 <= k -> anniversary from to k ->
  Z.abs (year from - 1) <= 2 ^ 52 -> Z.abs (year to - 1) <= 2 ^ 52 ->
  exists e, interval from to = 86400 * (365 * k + e) /\ -1 <= e <= 1 /\
    (e = -1 <-> ~ leap (year from) /\ leap (year to) /\ 1 <= leap_years (year from) (Z.to_nat k) /\ month from <= 2).
Proof.
  intros from to k K A YF YT. exists (left_over (year from) (month from) k).
  split; [apply anniversary_interval; assumption|].
  pose proof A as (_ & _ & _ & _ & Y).
  rewrite leap_years_lcount, Z2Nat.id by lia. rewrite <- !is_leap_spec, Y.
  pose proof (lcount_bounds (year from) k ltac:(lia)) as LB.
  unfold left_over. destruct (_ =? 0) eqn:E.
  - apply Z.eqb_eq in E. split; [destruct (_ && _); lia|]. split; [destruct (_ && _); lia|lia].
  - apply Z.eqb_neq in E.
    destruct (is_leap (year from)), (is_leap (year from + k)), (3 <=? month from) eqn:M; split; try lia; split; intro H;
      try lia; try (destruct H as (H1 & H2 & H3 & H4); congruence || lia); repeat split; try congruence; lia.
Qed.

(** Hence with the default options k years are shown as k years, or, in that
    case, as k - 1 years and 12 months. *)
Theorem C53_shown : forall from to k, 1 <= k <= 69000 -> anniversary from to k ->
  Z.abs (year from - 1) <= 2 ^ 52 -> Z.abs (year to - 1) <= 2 ^ 52 ->
  (~ (~ leap (year from) /\ leap (year to) /\ 1 <= leap_years (year from) (Z.to_nat k) /\ month from <= 2) ->
     units_of 2 true (interval from to) = [(bs "year", k)]) /\
  (~ leap (year from) /\ leap (year to) /\ 1 <= leap_years (year from) (Z.to_nat k) /\ month from <= 2 ->
     units_of 2 true (interval from to) = [(bs "year", k - 1); (bs "month", 12)]).
Proof.
  intros from to k K A YF YT.
  rewrite (anniversary_shown from to k true 2 K A ltac:(lia) YF YT).
  pose proof A as (_ & _ & _ & _ & Y).
  rewrite leap_years_lcount, Z2Nat.id by lia. rewrite <- !is_leap_spec, Y.
  change (Z.to_nat (2 - 1)) with 1%nat.
  destruct (left_cases (year from) (month from) k) as [E|[E|(E & L1 & L2 & M & LC)]].
  - rewrite E. cbn [Z.eqb]. split; [reflexivity|]. intros (H1 & H2 & H3 & H4). exfalso.
    unfold left_over in E. rewrite H2 in E. destruct (is_leap (year from)); [congruence|].
    replace (3 <=? month from) with false in E by lia. destruct (_ =? 0) eqn:Q; [apply Z.eqb_eq in Q; lia|lia].
  - rewrite E. cbn [Z.eqb]. split; [reflexivity|]. intros (H1 & H2 & H3 & H4). exfalso.
    unfold left_over in E. rewrite H2 in E. destruct (is_leap (year from)); [congruence|].
    replace (3 <=? month from) with false in E by lia. destruct (_ =? 0) eqn:Q; [apply Z.eqb_eq in Q; lia|lia].
  - rewrite E, Z.eqb_refl. split; [|reflexivity]. intro N. exfalso. apply N.
    pose proof (lcount_bounds (year from) k ltac:(lia)). repeat split; try assumption; [congruence|lia].
Qed.

(** The six years from 2018-01-01 to 2024-01-01 are shown as 5 years and 12
    months. *)
Definition utc : Z -> Z * bytes := fun _ => (0, bs "UTC").
Theorem C53_anniversary_refuted : exists from to,
  anniversary from to 6 /\ units_of 2 true (interval from to) = [(bs "year", 5); (bs "month", 12)].
Proof.
  exists (date_in 2018 1 1 utc), (date_in 2024 1 1 utc). split; [vm_compute; repeat split; reflexivity|vm_compute; reflexivity].
Qed.
Example C53_example :
  anniversary (date_in 2018 3 1 utc) (date_in 2024 3 1 utc) 6 /\
  units_of 2 true (interval (date_in 2018 3 1 utc) (date_in 2024 3 1 utc)) = [(bs "year", 6)] /\
  ~ leap 2018 /\ leap 2024 /\ 1 <= leap_years 2018 6.
Proof.
  split; [vm_compute; repeat split; reflexivity|]. split; [vm_compute; reflexivity|].
  rewrite <- !is_leap_spec. split; [vm_compute; discriminate|]. split; [reflexivity|vm_compute; discriminate].
Qed.

(** ** C45: Ordinal, Apnumber, FilesizeFormat *)

(** Ordinal of a number from 0 to below 2^63, truncated: its English suffix. *)
Theorem C45_ordinal : forall q, (0 <= q)%Q -> (q < inject_Z (2 ^ 63))%Q ->
  let n := Qfloor q in
  ordinal (FFin q) = Ok (OGetf (ordinal_context n) (bs "%v" ++ bs (english_suffix n)) (AInt64 n)).
Proof.
  intros q A B. cbv zeta. apply ordinal_nonneg.
  - apply num_neg_fin. assumption.
  - apply fto_in; assumption.
  - apply floor_ge0. assumption.
Qed.
Example C45_ordinal_example :
  map (fun n => english_suffix n) [0; 1; 2; 3; 4; 11; 12; 13; 21; 101; 111; 112; 1013; 1022] =
  ["th"; "st"; "nd"; "rd"; "th"; "th"; "th"; "th"; "st"; "st"; "th"; "th"; "th"; "nd"]%string /\
  ordinal_context 113 = bs "ordinal 11, 12, 13" /\ ordinal_context 127 = bs "ordinal 7" /\
  ordinal (to_number (AInt Kint 22)) = Ok (OGetf (bs "ordinal 2") (bs "%vnd") (AInt64 22)).
Proof. vm_compute. repeat split; reflexivity. Qed.

(** Every integer up to 2^53 is shown as itself.  Missing: larger integers. *)
Theorem C45_ordinal_integers_partial : forall k z, 0 <= z <= 2 ^ 53 ->
  ordinal (to_number (AInt k z)) = Ok (OGetf (ordinal_context z) (bs "%v" ++ bs (english_suffix z)) (AInt64 z)).
Proof.
  intros k z Z. cbn [to_number].
  assert (E : (inject_Z (f64_of_int z) == inject_Z z)%Q) by (rewrite f64_of_int_small by (unfold two53; lia); reflexivity).
  pose proof (C45_ordinal (inject_Z (f64_of_int z))) as O. cbv zeta in O.
  rewrite O.
  - replace (Qfloor (inject_Z (f64_of_int z))) with z; [reflexivity|]. rewrite (Qfloor_comp _ _ E), Qfloor_Z. reflexivity.
  - rewrite E. apply (inj_le 0). lia.
  - rewrite E. rewrite <- Zlt_Qlt. lia.
Qed.
(** Not larger ones: 2^53 + 1 is shown as 2^53. *)
Theorem C45_ordinal_integers_refuted : exists z,
  0 <= z < 2 ^ 63 /\ exists ctx id m, ordinal (to_number (AInt Kint64 z)) = Ok (OGetf ctx id (AInt64 m)) /\ m <> z.
Proof.
  exists (2 ^ 53 + 1). split; [vm_compute; split; [discriminate|reflexivity]|].
  exists (bs "ordinal 2"), (bs "%vnd"), (2 ^ 53). split; [vm_compute; reflexivity|vm_compute; discriminate].
Qed.

(** Ordinal panics exactly for 2^63 and above, infinity and NaN. *)
Theorem C45_ordinal_panics : forall x,
  ordinal x = Panic <-> x = FPosInf \/ x = FNan \/ exists q, x = FFin q /\ (inject_Z (2 ^ 63) <= q)%Q.
Proof.
  intro x. split.
  - intro H. destruct x as [q| | |]; [|tauto| |tauto].
    + right. right. exists q. split; [reflexivity|].
      destruct (Qlt_le_dec q 0) as [N|N].
      * exfalso. unfold ordinal in H. cbn [num_neg] in H. unfold Qlt in N. simpl in N.
        replace (Qnum q <? 0) with true in H by lia. discriminate.
      * destruct (Qlt_le_dec q (inject_Z (2 ^ 63))) as [L|L]; [|assumption]. exfalso.
        pose proof (C45_ordinal q N L) as O. cbv zeta in O. congruence.
    + exfalso. discriminate.
  - intros [->|[->|(q & -> & L)]]; [reflexivity|reflexivity|].
    apply ordinal_min; [|apply fto_big; assumption].
    apply num_neg_fin. apply (Qle_trans _ (inject_Z (2 ^ 63))); [apply (inj_le 0); vm_compute; discriminate|assumption].
Qed.
(** The largest int64 is such a number. *)
Theorem C45_total_refuted : exists z, - 2 ^ 63 <= z < 2 ^ 63 /\ ordinal (to_number (AInt Kint64 z)) = Panic.
Proof. exists (2 ^ 63 - 1). split; [vm_compute; split; [discriminate|reflexivity]|vm_compute; reflexivity]. Qed.
(** A negative number is printed without suffix. *)
Theorem C45_ordinal_negative : forall x, num_neg x = true -> ordinal x = Ok (OLit (itoa (num_int64 x))).
Proof. intros x H. unfold ordinal. rewrite H. reflexivity. Qed.

(** Apnumber spells exactly 1 to 9, prints any other number, and never fails. *)
Theorem C45_apnumber : forall x,
  apnumber x = Ok (match digit_word (num_int64 x) with
                   | Some w => OGet [] (bs w)
                   | None => OPrint (bs "%d") (AInt64 (num_int64 x))
                   end).
Proof. exact apnumber_spec. Qed.
Example C45_apnumber_example :
  apnumber (to_number (AInt Kuint8 7)) = Ok (OGet [] (bs "seven")) /\
  apnumber (to_number (AInt Kint 10)) = Ok (OPrint (bs "%d") (AInt64 10)) /\
  apnumber FNan = Ok (OPrint (bs "%d") (AInt64 (- 2 ^ 63))).
Proof. vm_compute. repeat split; reflexivity. Qed.

(** FilesizeFormat: bytes below 1024, else the largest unit not larger than the
    size with the quotient, which is exact up to 2^53; a negative size is the
    positive one with a minus sign. *)
Theorem C45_filesize : forall n, 0 <= n < 2 ^ 63 ->
  (n < 1024 -> filesize n = ONGetf [] (bs "%[1]d byte") (bs "%[1]d bytes") n (AInt64 n)) /\
  (1024 <= n -> exists u name q, largest_unit n u name /\ (n <= 2 ^ 53 -> (q == n # Z.to_pos u)%Q) /\
     filesize n = OGetf [] (bs "%s " ++ bs name) (AText (OPrint (bs "%v") (ADecimal q 1)))) /\
  (0 < n -> filesize (- n) = OCat (OLit (bs "-")) (filesize n)).
Proof.
  intros n N.
  assert (F : filesize n = size_text n) by (unfold filesize; replace (n <? 0) with false by lia; reflexivity).
  rewrite F. split; [|split].
  - intro L. apply size_small. lia.
  - intro L. destruct (size_big n L) as (u & name & V & E). exists u, name, (fdiv (fint n) (fint u)).
    split; [apply five_largest; assumption|]. split; [|assumption].
    intro B. apply (size_exact n u name); [change P53 with (2 ^ 53); lia|assumption].
  - intro P. rewrite <- F. apply filesize_neg. lia.
Qed.
Example C45_filesize_example :
  largest_unit 1536 1024 "KB" /\
  (exists q, filesize 1536 = OGetf [] (bs "%s KB") (AText (OPrint (bs "%v") (ADecimal q 1))) /\ (q == 3 # 2)%Q).
Proof.
  split.
  - apply five_largest; [lia|]. left. repeat split.
  - eexists. split; [reflexivity|]. vm_compute. reflexivity.
Qed.
(** Except for the smallest int64, which has no positive counterpart: two minus
    signs. *)
Theorem C45_filesize_refuted : exists n, - 2 ^ 63 <= n < 0 /\
  filesize n = OCat (OLit (bs "-")) (ONGetf [] (bs "%[1]d byte") (bs "%[1]d bytes") n (AInt64 n)).
Proof. exists (- 2 ^ 63). split; [vm_compute; split; [discriminate|reflexivity]|vm_compute; reflexivity]. Qed.

(** ** C46: NaturalTime *)

(** A past instant, d nanoseconds ago. *)
Theorem C46_past : forall now1 now2 t, 0 <= t_nsec t < sec -> 0 <= t_nsec now1 < sec ->
  let d := (t_unix now1 - t_unix t) * sec + (t_nsec now1 - t_nsec t) in
  0 < d ->
  (d < sec -> natural_time now1 now2 t = OGet [] (bs "now")) /\
  (sec <= d < 60 * sec -> natural_time now1 now2 t = count_text (bs "a second ago") (bs "%[1]v seconds ago") (d / sec)) /\
  (60 * sec <= d < 3599500000000 ->
     natural_time now1 now2 t = count_text (bs "a minute ago") (bs "%[1]v minutes ago") (d / (60 * sec))) /\
  (3599500000000 <= d < 86399500000000 ->
     natural_time now1 now2 t = count_text (bs "an hour ago") (bs "%[1]v hours ago") (d / (3600 * sec))) /\
  (86399500000000 <= d ->
     natural_time now1 now2 t =
     OGetf [] (bs "%[1]v ago") (AText (time_since now2 t [OWithTimeStrings (bs "naturaltime-past")]))).
Proof.
  intros now1 now2 t T N d D. change d with (dist t now1) in *. clear d.
  rewrite (natural_past now1 now2 t T N D). cbv zeta. set (d := dist t now1) in *. clearbody d.
  unfold sec in *. repeat split; intro H;
    destruct (86399500000000 <=? d) eqn:A; try lia; try reflexivity;
    destruct (d <? 1000000000) eqn:B; try lia; try reflexivity;
    destruct (d <? 60 * 1000000000) eqn:C; try lia; try reflexivity;
    destruct (d <? 3599500000000) eqn:F; try lia; reflexivity.
Qed.

(** A future instant, in d nanoseconds, by the nearest second s. *)
Theorem C46_future : forall now1 now2 t, 0 <= t_nsec t < sec -> 0 <= t_nsec now1 < sec ->
  let d := (t_unix t - t_unix now1) * sec + (t_nsec t - t_nsec now1) in
  let s := (d + 500000000) / sec in
  0 <= d ->
  (s = 0 -> natural_time now1 now2 t = OGet [] (bs "now")) /\
  (1 <= s < 60 -> natural_time now1 now2 t = count_text (bs "a second from now") (bs "%[1]v seconds from now") s) /\
  (60 <= s < 3600 ->
     natural_time now1 now2 t = count_text (bs "a minute from now") (bs "%[1]v minutes from now") (s / 60)) /\
  (3600 <= s < 86400 ->
     natural_time now1 now2 t = count_text (bs "an hour from now") (bs "%[1]v hours from now") (s / 3600)) /\
  (86400 <= s ->
     natural_time now1 now2 t =
     OGetf [] (bs "%[1]v from now") (AText (time_until now2 t [OWithTimeStrings (bs "naturaltime-future")]))).
Proof.
  intros now1 now2 t T N d s D. change d with (dist now1 t) in *. change s with (near_sec (dist now1 t)) in *. clear s d.
  rewrite (natural_future now1 now2 t T N D). cbv zeta. set (d := dist now1 t) in *. clearbody d.
  assert (S : (86399500000000 <=? d) = (86400 <=? near_sec d)).
  { unfold near_sec, sec. destruct (86399500000000 <=? d) eqn:X; symmetry; [apply Z.leb_le|apply Z.leb_gt];
      Z.to_euclidean_division_equations; lia. }
  rewrite S. set (s := near_sec d) in *. clearbody s.
  repeat split; intro H;
    destruct (86400 <=? s) eqn:A; try lia; try reflexivity;
    destruct (s =? 0) eqn:B; try lia; try reflexivity;
    destruct (s <? 60) eqn:C; try lia; try reflexivity;
    destruct (s <? 3600) eqn:F; try lia; reflexivity.
Qed.

(** Nothing but [now] and positive counts is shown, except in the past between
    59:59.5 and an hour.  In the day range TimeSince and TimeUntil read the
    clock again ([now2]); it is assumed that a minute or more is still left. *)
Theorem C46_no_zero_partial : forall now1 now2 t,
  0 <= t_nsec t < sec -> 0 <= t_nsec now1 < sec ->
  Z.abs (t_offset t) <= 86400 -> Z.abs (t_offset now2) <= 86400 ->
  Z.abs (year t - 1) <= 2 ^ 52 -> Z.abs (year now2 - 1) <= 2 ^ 52 ->
  let d := (t_unix now1 - t_unix t) * sec + (t_nsec now1 - t_nsec t) in
  (0 < d -> t_unix now1 <= t_unix now2 < t_unix t + 2 ^ 63) ->
  (d <= - 86399 * sec -> t_unix now2 + 60 <= t_unix t < t_unix now2 + 2 ^ 63) ->
  ~ 3599500000000 <= d < 3600 * sec ->
  no_zero (natural_time now1 now2 t).
Proof.
  intros now1 now2 t T N ZT ZN YT YN d PA FU EX.
  assert (DAYS : forall from to ctx, zone_ok from -> zone_ok to -> Z.abs (year from - 1) <= P52 -> Z.abs (year to - 1) <= P52 ->
     60 <= t_unix to - t_unix from < 2 ^ 63 ->
     Forall counted (map (fun u => unit_text ctx (fst u) (snd u)) (units_of 2 true (interval from to))) /\
     map (fun u => unit_text ctx (fst u) (snd u)) (units_of 2 true (interval from to)) <> []).
  { intros from to ctx A B C E F. pose proof (interval_bounds from to A B C E ltac:(lia)) as I.
    destruct (units_shape 2 true (interval from to) ltac:(lia) ltac:(lia)) as (NE & FA & _). split.
    - apply Forall_forall. intros x X. apply in_map_iff in X. destruct X as (u & <- & U).
      rewrite Forall_forall in FA. specialize (FA u U). constructor. assumption.
    - intro X. apply NE. destruct (units_of 2 true (interval from to)); [reflexivity|discriminate]. }
  destruct (Z_lt_le_dec 0 d) as [D|D].
  - destruct (C46_past now1 now2 t T N D) as (P1 & P2 & P3 & P4 & P5). fold d in P1, P2, P3, P4, P5.
    destruct (Z_lt_le_dec d sec) as [L1|L1]; [rewrite (P1 L1); constructor|].
    destruct (Z_lt_le_dec d (60 * sec)) as [L2|L2].
    { rewrite P2 by lia. constructor 2. constructor. apply Z.div_le_lower_bound; unfold sec in *; lia. }
    destruct (Z_lt_le_dec d 3599500000000) as [L3|L3].
    { rewrite P3 by lia. constructor 2. constructor. apply Z.div_le_lower_bound; unfold sec in *; lia. }
    destruct (Z_lt_le_dec d 86399500000000) as [L4|L4].
    { rewrite P4 by lia. constructor 2. constructor. apply Z.div_le_lower_bound; unfold sec in *; lia. }
    rewrite (P5 L4).
    assert (O : time_since now2 t [OWithTimeStrings (bs "naturaltime-past")] =
      OJoin (map (fun u => unit_text (bs "naturaltime-past") (fst u) (snd u)) (units_of 2 true (interval t now2))) (OGet [] (bs ", ")))
      by exact (C44_options now2 t [OWithTimeStrings (bs "naturaltime-past")]).
    rewrite O.
    destruct (DAYS t now2 (bs "naturaltime-past")) as [F NE]; try assumption.
    { specialize (PA D). unfold d, sec in *. lia. }
    constructor; assumption.
  - assert (DE : (t_unix t - t_unix now1) * sec + (t_nsec t - t_nsec now1) = - d) by (unfold d; lia).
    destruct (C46_future now1 now2 t T N ltac:(lia)) as (P1 & P2 & P3 & P4 & P5). rewrite DE in *.
    set (s := (- d + 500000000) / sec) in *.
    destruct (Z_lt_le_dec s 1) as [L1|L1].
    { assert (0 <= s) by (apply Z.div_pos; unfold sec; lia). rewrite P1 by lia. constructor. }
    destruct (Z_lt_le_dec s 60) as [L2|L2].
    { rewrite P2 by lia. constructor 2. constructor. assumption. }
    destruct (Z_lt_le_dec s 3600) as [L3|L3].
    { rewrite P3 by lia. constructor 2. constructor. apply Z.div_le_lower_bound; lia. }
    destruct (Z_lt_le_dec s 86400) as [L4|L4].
    { rewrite P4 by lia. constructor 2. constructor. apply Z.div_le_lower_bound; lia. }
    rewrite (P5 L4).
    assert (O : time_until now2 t [OWithTimeStrings (bs "naturaltime-future")] =
      OJoin (map (fun u => unit_text (bs "naturaltime-future") (fst u) (snd u)) (units_of 2 true (interval now2 t))) (OGet [] (bs ", ")))
      by exact (C44_options now2 t [OWithTimeStrings (bs "naturaltime-future"); OWithReverse true]).
    rewrite O.
    assert (LD : d <= - 86399 * sec).
    { unfold s, sec in *. clear - L4. Z.to_euclidean_division_equations; lia. }
    destruct (DAYS now2 t (bs "naturaltime-future")) as [F NE]; try assumption.
    { specialize (FU LD). lia. }
    constructor; assumption.
Qed.

(** In that half second 0 hours are shown. *)
Theorem C46_no_zero_refuted : exists now t,
  natural_time now now t = count_text (bs "an hour ago") (bs "%[1]v hours ago") 0.
Proof.
  exists (GT 1700003599 500000000 utc), (GT 1700000000 0 utc).
  apply (C46_past (GT 1700003599 500000000 utc)); vm_compute; try (split; congruence); congruence.
Qed.
(** In the future the number is not the elapsed time divided by the unit: 59.5
    seconds are a minute. *)
Theorem C46_quotient_refuted : exists now t,
  t_unix t - t_unix now = 59 /\ t_nsec t - t_nsec now = 500000000 /\
  natural_time now now t = count_text (bs "a minute from now") (bs "%[1]v minutes from now") 1.
Proof.
  exists (GT 1700000000 0 utc), (GT 1700000059 500000000 utc). split; [reflexivity|]. split; [reflexivity|].
  apply (C46_future (GT 1700000000 0 utc)); vm_compute; try (split; congruence); congruence.
Qed.
Example C46_example :
  natural_time (GT 1700000000 0 utc) (GT 1700000000 0 utc) (GT 1699999877 3 utc) =
    count_text (bs "a minute ago") (bs "%[1]v minutes ago") 2 /\
  natural_time (GT 1700000000 0 utc) (GT 1700000000 0 utc) (GT 1700259200 3 utc) =
    OGetf [] (bs "%[1]v from now") (AText (OJoin [ONGetf (bs "naturaltime-future") (bs "%[1]v day") (bs "%[1]v days") 3 (AInt64 3)] (OGet [] (bs ", ")))).
Proof. vm_compute. split; reflexivity. Qed.

Print Assumptions C44_shape.
Print Assumptions C44_zero.
Print Assumptions C44_total_partial.
Print Assumptions C44_total_refuted.
Print Assumptions C44_greedy_partial.
Print Assumptions C44_rounded_partial.
Print Assumptions C44_rounded_refuted.
Print Assumptions C44_options.
Print Assumptions C44_messages.
Print Assumptions C44_until.
Print Assumptions C44_instants.
Print Assumptions C53_interval.
Print Assumptions C53_shown.
Print Assumptions C53_anniversary_refuted.
Print Assumptions C45_ordinal.
Print Assumptions C45_ordinal_integers_partial.
Print Assumptions C45_ordinal_integers_refuted.
Print Assumptions C45_ordinal_panics.
Print Assumptions C45_total_refuted.
Print Assumptions C45_ordinal_negative.
Print Assumptions C45_apnumber.
Print Assumptions C45_filesize.
Print Assumptions C45_filesize_refuted.
Print Assumptions C46_past.
Print Assumptions C46_future.
Print Assumptions C46_no_zero_partial.
Print Assumptions C46_no_zero_refuted.
Print Assumptions C46_quotient_refuted.
