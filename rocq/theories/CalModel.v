(** internal/calendar/calendar.go, and the parts of Go's time package that the
    humanize package uses.  The time package is not part of /repo; it is
    modelled after its documentation and source (time.Date, Time.Date,
    Time.Weekday, Time.ISOWeek), with unbounded integers instead of 64-bit
    ones. *)
From Coq Require Import String Ascii List ZArith QArith Bool.
From Verif Require Import Base PopModel NumModel F64Model FltModel.
Import ListNotations.
Open Scope Z_scope.

(** calendar.go:11-13 (IsLeap); % is the truncated remainder *)
Definition is_leap (year : Z) : bool :=
  (Z.rem year 4 =? 0) && (negb (Z.rem year 100 =? 0) || (Z.rem year 400 =? 0)).

(** calendar.go:18-25 (LeapDays), in float64 arithmetic.  year - 1 does not
    wrap here (it does for the smallest int only). *)
Definition leap_days (year1 year2 : Z) : Z :=
  let y1 := fint (year1 - 1) in
  let y2 := fint (year2 - 1) in
  let tmp := fsub (ffloor (fdiv y2 (inject_Z 4))) (ffloor (fdiv y1 (inject_Z 4))) in
  let tmp := fsub tmp (fsub (ffloor (fdiv y2 (inject_Z 100))) (ffloor (fdiv y1 (inject_Z 100)))) in
  let tmp := fadd tmp (fsub (ffloor (fdiv y2 (inject_Z 400))) (ffloor (fdiv y1 (inject_Z 400)))) in
  fto_int64 tmp.

(** ** package time *)

(** Days of a common year before the month with this number from 0. *)
Definition days_before (m : Z) : Z :=
  if m <=? 0 then 0 else if m =? 1 then 31 else if m =? 2 then 59 else if m =? 3 then 90
  else if m =? 4 then 120 else if m =? 5 then 151 else if m =? 6 then 181
  else if m =? 7 then 212 else if m =? 8 then 243 else if m =? 9 then 273
  else if m =? 10 then 304 else if m =? 11 then 334 else 365.

(** Days from 0001-01-01 to the first of January of a year: whole 400-, 100-,
    4- and 1-year cycles (time.daysSinceEpoch). *)
Definition days_since_epoch (year : Z) : Z :=
  let y := year - 1 in
  let n4 := y / 400 in let y := y - 400 * n4 in
  let n1 := y / 100 in let y := y - 100 * n1 in
  let n := y / 4 in let y := y - 4 * n in
  146097 * n4 + 36524 * n1 + 1461 * n + 365 * y.

(** time.Date without the clock: the day number (0001-01-01 is 0) of a date
    whose month and day may be out of range. *)
Definition day_number (year month day : Z) : Z :=
  let m := month - 1 in
  let year := year + m / 12 in
  let m := m mod 12 in
  days_since_epoch year + days_before m
  + (if is_leap year && (2 <=? m) then 1 else 0) + (day - 1).

(** Time.Date and Time.YearDay (time.absDate): year, month, day and day of the
    year counted from 0. *)
Definition abs_date (d : Z) : Z * Z * Z * Z :=
  let n := d / 146097 in let y := 400 * n in let d := d - 146097 * n in
  let n := d / 36524 in let n := n - n / 4 in
  let y := y + 100 * n in let d := d - 36524 * n in
  let n := d / 1461 in let y := y + 4 * n in let d := d - 1461 * n in
  let n := d / 365 in let n := n - n / 4 in
  let y := y + n in let d := d - 365 * n in
  let year := y + 1 in
  let yday := d in
  if is_leap year && (yday =? 59) then (year, 2, 29, yday)
  else
    let day := if is_leap year && (59 <? yday) then yday - 1 else yday in
    let month := day / 31 in
    let e := days_before (month + 1) in
    if e <=? day then (year, month + 2, day - e + 1, yday)
    else (year, month + 1, day - days_before month + 1, yday).

(** Time.Weekday: Sunday is 0; 0001-01-01 was a Monday. *)
Definition weekday (d : Z) : Z := (d + 1) mod 7.

(** Time.ISOWeek: the Thursday of the same week gives year and week. *)
Definition iso_week (d : Z) : Z * Z :=
  let k := 4 - weekday d in
  let k := if k =? 4 then -3 else k in
  match abs_date (d + k) with (year, _, _, yday) => (year, yday / 7 + 1) end.

(** calendar.go:27-29 (DaysInMonth): time.Date(year, month, 1, ...) and
    AddDate(0, 1, -1), which is time.Date of the changed fields *)
Definition days_in_month (year month : Z) : Z :=
  match abs_date (day_number year month 1) with
  | (y, m, d, _) =>
      match abs_date (day_number (y + 0) (m + 1) (d - 1)) with (_, _, d', _) => d' end
  end.

(** A time.Time: seconds since the Unix epoch, nanoseconds within the second
    (0 to 999999999) and the location, which gives for an instant the offset
    from UTC in seconds and the name of the zone.  No monotonic clock. *)
Record gotime : Type := GT { t_unix : Z; t_nsec : Z; t_loc : Z -> Z * bytes }.

Definition t_offset (t : gotime) : Z := fst (t_loc t (t_unix t)).
Definition t_zone (t : gotime) : bytes := snd (t_loc t (t_unix t)).
Definition t_local (t : gotime) : Z := t_unix t + t_offset t.
(** 1970-01-01 is day 719162. *)
Definition t_day (t : gotime) : Z := t_local t / 86400 + 719162.
Definition t_secs (t : gotime) : Z := t_local t mod 86400.
Definition year (t : gotime) : Z := match abs_date (t_day t) with (y, _, _, _) => y end.
Definition month (t : gotime) : Z := match abs_date (t_day t) with (_, m, _, _) => m end.
Definition mday (t : gotime) : Z := match abs_date (t_day t) with (_, _, d, _) => d end.
Definition year_day (t : gotime) : Z := match abs_date (t_day t) with (_, _, _, yd) => yd + 1 end.
Definition hour (t : gotime) : Z := t_secs t / 3600.
Definition minute (t : gotime) : Z := t_secs t mod 3600 / 60.
Definition second (t : gotime) : Z := t_secs t mod 60.

(** time.Date(year, month, day, 0, 0, 0, 0, loc): the offset is looked up
    at the local time read as UTC and then once more at the resulting
    instant. *)
Definition date_in (y m d : Z) (loc : Z -> Z * bytes) : gotime :=
  let u := (day_number y m d - 719162) * 86400 in
  let u1 := u - fst (loc u) in
  GT (u - fst (loc u1)) 0 loc.

(** Time.IsZero: 0001-01-01 00:00:00 UTC *)
Definition is_zero (t : gotime) : bool := (t_unix t =? -62135596800) && (t_nsec t =? 0).
