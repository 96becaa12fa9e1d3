(** humanize/helper.go, numbers.go and date.go.  The calls of the localizer are
    kept as a term ([out]); what the localizer makes of them is the subject of
    LocaleModel. *)
From Coq Require Import String Ascii List ZArith QArith Qround Qabs Bool.
From Verif Require Import Base PopModel NumModel F64Model FltModel CalModel.
Import ListNotations.
Open Scope Z_scope.

(** A text under construction. *)
Inductive out : Type :=
| OLit (s : bytes)                                        (* a Go string *)
| OGet (ctx id : bytes)                                   (* loc.Get, loc.PGet *)
| OGetf (ctx id : bytes) (a : oarg)                       (* loc.Getf, loc.PGetf *)
| ONGetf (ctx singular plural : bytes) (n : Z) (a : oarg) (* loc.NGetf, loc.NPGetf *)
| OPrint (format : bytes) (a : oarg)                      (* loc.Print *)
| OCat (x y : out)                                        (* x + y *)
| OJoin (l : list out) (sep : out)                        (* strings.Join *)
with oarg : Type :=
| AInt64 (z : Z)                                          (* an int64 or int *)
| AFloat64 (q : Q)                                        (* a float64 *)
| ADecimal (q : Q) (maxfrac : Z)                          (* number.Decimal(q, MaxFractionDigits) *)
| AText (o : out).                                        (* a string *)

(** The float64 that cast.ToNumber (internal/cast/number.go:10-58) returns:
    finite, infinite, or not a number; None is its error.  Integers of any kind
    and finite floats arrive as FFin. *)
Inductive fnum : Type := FFin (q : Q) | FPosInf | FNegInf | FNan.

(** cast.ToNumber on integer kinds and finite floats (NumModel.arg). *)
Definition to_number (a : arg) : fnum :=
  match a with
  | AInt _ z => FFin (inject_Z (f64_of_int z))
  | AFloat n d => FFin (n # Z.to_pos d)
  end.

(** int64(f): out of range, and for NaN, as on amd64. *)
Definition num_int64 (x : fnum) : Z :=
  match x with FFin q => fto_int64 q | _ => minInt64 end.

(** ** helper.go *)

(** Two's complement int64. *)
Definition wrap64 (z : Z) : Z := (z + 9223372036854775808) mod 18446744073709551616 - 9223372036854775808.

Definition kb : Z := 1024.
Definition mb : Z := 1048576.
Definition gb : Z := 1073741824.
Definition tb : Z := 1099511627776.
Definition pb : Z := 1125899906842624.

(** helper.go:72-90: the text of a non-negative count *)
Definition size_text (count : Z) : out :=
  let formatted u := OPrint (bs "%v") (ADecimal (fdiv (fint count) (fint u)) 1) in
  if count <? kb then ONGetf [] (bs "%[1]d byte") (bs "%[1]d bytes") count (AInt64 count)
  else if count <? mb then OGetf [] (bs "%s KB") (AText (formatted kb))
  else if count <? gb then OGetf [] (bs "%s MB") (AText (formatted mb))
  else if count <? tb then OGetf [] (bs "%s GB") (AText (formatted gb))
  else if count <? pb then OGetf [] (bs "%s TB") (AText (formatted tb))
  else OGetf [] (bs "%s PB") (AText (formatted pb)).

(** helper.go:54-96 (FilesizeFormat) once the count is known; -count wraps *)
Definition filesize (count : Z) : out :=
  let neg := count <? 0 in
  let count := if neg then wrap64 (- count) else count in
  let result := size_text count in
  if neg then OCat (OLit (bs "-")) result else result.
(** helper.go:55-65: a byte slice counts its length, anything else its number *)
Definition filesize_bytes (val : bytes) : out := filesize (Z.of_nat (length val)).
Definition filesize_num (x : fnum) : out := filesize (num_int64 x).

(** helper.go:102-105 (toFixed with precision 3; math.Pow(10, 3) is 1000) *)
Definition to_fixed3 (num : Q) : Q :=
  fdiv (fround (fmul num (inject_Z 1000))) (inject_Z 1000).
(** helper.go:98-100 (floorDivision) *)
Definition floor_division (a b : Q) : Z := fto_int64 (ffloor (to_fixed3 (fdiv a b))).

(** ** numbers.go *)

(** numbers.go:12-22 *)
Definition apnumbers : list bytes :=
  [bs "one"; bs "two"; bs "three"; bs "four"; bs "five"; bs "six"; bs "seven"; bs "eight"; bs "nine"].

(** l[i]: a panic outside *)
Definition at_index {A : Type} (l : list A) (i : Z) : res A :=
  if i <? 0 then Panic else match nth_error l (Z.to_nat i) with Some x => Ok x | None => Panic end.

(** numbers.go:36-48 (Apnumber) *)
Definition apnumber (x : fnum) : res out :=
  let num := num_int64 x in
  if (num <=? 0) || (10 <=? num) then Ok (OPrint (bs "%d") (AInt64 num))
  else do s <- at_index apnumbers (num - 1) ; Ok (OGet [] s).

(** numbers.go:117-141 *)
Definition ordinal_templates : list (bytes * bytes) :=
  [(bs "ordinal 0", bs "%vth"); (bs "ordinal 1", bs "%vst"); (bs "ordinal 2", bs "%vnd");
   (bs "ordinal 3", bs "%vrd"); (bs "ordinal 4", bs "%vth"); (bs "ordinal 5", bs "%vth");
   (bs "ordinal 6", bs "%vth"); (bs "ordinal 7", bs "%vth"); (bs "ordinal 8", bs "%vth");
   (bs "ordinal 9", bs "%vth")].

(** floatValue < 0; false for NaN *)
Definition num_neg (x : fnum) : bool :=
  match x with FFin q => Qnum q <? 0 | FNegInf => true | _ => false end.

(** numbers.go:147-165 (Ordinal); strconv.FormatInt is Base.itoa *)
Definition ordinal (x : fnum) : res out :=
  if num_neg x then Ok (OLit (itoa (num_int64 x)))
  else
    let value := num_int64 x in
    let r := Z.rem value 100 in
    if (r =? 11) || (r =? 12) || (r =? 13)
    then Ok (OGetf (bs "ordinal 11, 12, 13") (bs "%vth") (AInt64 value))
    else do t <- at_index ordinal_templates (Z.rem value 10) ;
         Ok (OGetf (fst t) (snd t) (AInt64 value)).

(** ** date.go *)

(** The tables naturalPastSubstrings, naturalFutureSubstrings and
    timeSinceStrings (date.go:99-117 and 180-187) differ in the context only. *)
Definition time_string (ctx name : bytes) : bytes * bytes * bytes :=
  (ctx, bs "%[1]v " ++ name, bs "%[1]v " ++ name ++ bs "s").

(** date.go:189-199 *)
Definition chunks : list (bytes * Z) :=
  [(bs "year", 60 * 60 * 24 * 365); (bs "month", 60 * 60 * 24 * 30); (bs "week", 60 * 60 * 24 * 7);
   (bs "day", 60 * 60 * 24); (bs "hour", 60 * 60); (bs "minute", 60)].

(** date.go:201-207; the table of strings is given by its context *)
Record ts_opts : Type := TSO {
  o_now : option gotime;   (* None: the zero time *)
  o_reverse : bool; o_ctx : bytes; o_depth : Z; o_adjacent : bool }.

(** TimeOption values (date.go:235-276). *)
Inductive time_opt : Type :=
| OWithDepth (d : Z) | OWithTimeStrings (ctx : bytes) | OWithReverse (b : bool)
| OWithoutAdjacentCheck | OWithNow (t : gotime).
Definition apply_time_opt (o : ts_opts) (x : time_opt) : ts_opts :=
  match x with
  | OWithDepth d => TSO (o_now o) (o_reverse o) (o_ctx o) d (o_adjacent o)
  | OWithTimeStrings c => TSO (o_now o) (o_reverse o) c (o_depth o) (o_adjacent o)
  | OWithReverse b => TSO (o_now o) b (o_ctx o) (o_depth o) (o_adjacent o)
  | OWithoutAdjacentCheck => TSO (o_now o) (o_reverse o) (o_ctx o) (o_depth o) false
  | OWithNow t => TSO (if is_zero t then None else Some t) (o_reverse o) (o_ctx o) (o_depth o) (o_adjacent o)
  end.

(** date.go:209-232 (newTimeSinceOptions); [clock] is what time.Now returns *)
Definition new_ts_opts (clock : gotime) (opts : list time_opt) : ts_opts :=
  let o := fold_left apply_time_opt opts (TSO None false [] (-1) true) in
  TSO (Some (match o_now o with Some t => t | None => clock end))
      (o_reverse o) (o_ctx o) (if o_depth o <=? 0 then 2 else o_depth o) (o_adjacent o).

(** The entry of a unit with its count: loc.NPGetf(..., count, count). *)
Definition unit_text (ctx name : bytes) (count : Z) : out :=
  match time_string ctx name with (c, s, p) => ONGetf c s p count (AInt64 count) end.

(** date.go:330 and 343: floorDivision(float64(since), float64(seconds)) *)
Definition count_in (since secs : Z) : Z := floor_division (fint since) (fint secs).

(** sort.Search (standard library), with fuel. *)
Fixpoint search (fuel : nat) (f : nat -> bool) (i j : nat) : nat :=
  match fuel with
  | O => i
  | S fuel' =>
      if Nat.ltb i j then
        let h := Nat.div2 (i + j) in
        if f h then search fuel' f i h else search fuel' f (S h) j
      else i
  end.

(** date.go:339-356: the loop over the units *)
Fixpoint unit_loop (adjacent : bool) (depth : Z) (l : list (bytes * Z)) (cur since : Z) : list (bytes * Z) :=
  match l with
  | [] => []
  | (name, secs) :: l' =>
      if cur <? depth then
        let count := count_in since secs in
        if count <=? 0 then
          if adjacent then [] else unit_loop adjacent depth l' cur since
        else (name, count) :: unit_loop adjacent depth l' (cur + 1) (since - secs * count)
      else []
  end.

(** date.go:320-356: the units shown for an interval of so many seconds *)
Definition units_of (depth : Z) (adjacent : bool) (delta : Z) : list (bytes * Z) :=
  if delta <=? 0 then [(bs "minute", 0)]
  else
    let i := search (S (length chunks)) (fun i =>
               match nth_error chunks i with
               | Some c => negb (count_in delta (snd c) =? 0)
               | None => false
               end) 0 (length chunks) in
    if Nat.eqb i (length chunks) then [(bs "minute", 0)]
    else unit_loop adjacent depth (skipn i chunks) 0 delta.

(** date.go:306-318: seconds between the two times, corrected by leap days;
    the differences do not wrap here *)
Definition interval (d now : gotime) : Z :=
  let delta := t_unix now - t_unix d in
  let l := leap_days (year d) (year now) in
  let l := if l =? 0 then l
           else if is_leap (year d) then l - 1
           else if is_leap (year now) then l + 1 else l in
  delta - 60 * 60 * 24 * l.

(** date.go:289-359 (TimeSince) for a time; the early returns for 0 minutes do
    not go through Join, which for one element is the same *)
Definition time_since (clock : gotime) (input : gotime) (opts : list time_opt) : out :=
  let o := new_ts_opts clock opts in
  let now := match o_now o with Some t => t | None => clock end in
  let (d, now) := if o_reverse o then (now, input) else (input, now) in
  OJoin (map (fun u => unit_text (o_ctx o) (fst u) (snd u)) (units_of (o_depth o) (o_adjacent o) (interval d now)))
        (OGet [] (bs ", ")).

(** date.go:363-386 (TimeSinceFrom, TimeUntil, TimeUntilFrom) *)
Definition time_since_from clock d now opts := time_since clock d (opts ++ [OWithNow now]).
Definition time_until clock d opts := time_since clock d (opts ++ [OWithReverse true]).
Definition time_until_from clock d now opts := time_since clock d (opts ++ [OWithNow now; OWithReverse true]).

(** ** Durations (package time), in nanoseconds *)
Definition sec : Z := 1000000000.
Definition max_dur : Z := 9223372036854775807.
Definition min_dur : Z := -9223372036854775808.
(** Time.Sub: saturating *)
Definition sub (t u : gotime) : Z :=
  let d := (t_unix t - t_unix u) * sec + (t_nsec t - t_nsec u) in
  Z.max min_dur (Z.min max_dur d).
(** Time.Before *)
Definition before (t u : gotime) : bool :=
  (t_unix t <? t_unix u) || ((t_unix t =? t_unix u) && (t_nsec t <? t_nsec u)).
(** Duration.Truncate and Duration.Round to seconds, for d >= 0 *)
Definition trunc_sec (d : Z) : Z := d - Z.rem d sec.
Definition round_sec (d : Z) : Z :=
  let r := Z.rem d sec in
  if r + r <? sec then d - r
  else let d1 := d + sec - r in if d1 <=? max_dur then d1 else max_dur.
(** Duration.Seconds and Duration.Hours *)
Definition seconds (d : Z) : Q :=
  fadd (fint (Z.quot d sec)) (fdiv (fint (Z.rem d sec)) (inject_Z 1000000000)).
Definition hours (d : Z) : Q :=
  fadd (fint (Z.quot d (3600 * sec))) (fdiv (fint (Z.rem d (3600 * sec))) (inject_Z 3600000000000)).

(** date.go:124-178 (NaturalTime) for a time t; [now1] is the clock at its
    start, [now2] the clock when TimeSince or TimeUntil reads it again *)
Definition count_text (singular plural : bytes) (n : Z) : out := ONGetf [] singular plural n (AInt64 n).
Definition min_count (ds : Z) : Z := fto_int64 (ffloor (fdiv (fint ds) (inject_Z 60))).
Definition hour_count (ds : Z) : Z :=
  fto_int64 (ffloor (fdiv (ffloor (fdiv (fint ds) (inject_Z 60))) (inject_Z 60))).
Definition natural_time (now1 now2 t : gotime) : out :=
  if before t now1 then
    let delta := sub now1 t in
    let ds := fto_int64 (seconds (trunc_sec delta)) in
    if 24 <=? fto_int64 (hours (round_sec delta)) then
      OGetf [] (bs "%[1]v ago") (AText (time_since now2 t [OWithTimeStrings (bs "naturaltime-past")]))
    else if ds =? 0 then OGet [] (bs "now")
    else if ds <? 60 then count_text (bs "a second ago") (bs "%[1]v seconds ago") ds
    else if floor_division (seconds (round_sec delta)) (inject_Z 60) <? 60 then
      count_text (bs "a minute ago") (bs "%[1]v minutes ago") (min_count ds)
    else count_text (bs "an hour ago") (bs "%[1]v hours ago") (hour_count ds)
  else
    let delta := sub t now1 in
    let ds := fto_int64 (seconds (round_sec delta)) in
    if 24 <=? fto_int64 (hours (round_sec delta)) then
      OGetf [] (bs "%[1]v from now") (AText (time_until now2 t [OWithTimeStrings (bs "naturaltime-future")]))
    else if ds =? 0 then OGet [] (bs "now")
    else if ds <? 60 then count_text (bs "a second from now") (bs "%[1]v seconds from now") ds
    else if floor_division (fint ds) (inject_Z 60) <? 60 then
      count_text (bs "a minute from now") (bs "%[1]v minutes from now") (min_count ds)
    else count_text (bs "an hour from now") (bs "%[1]v hours from now") (hour_count ds).
