(** humanize/dateformat.go, dates.go, and NaturalDay, FormatTime and the format
    data of date.go and humanizer.go. *)
From Coq Require Import String Ascii List ZArith QArith Bool.
From Verif Require Import Base Utf8Model PopModel NumModel F64Model FltModel CalModel HumModel.
Import ListNotations.
Open Scope Z_scope.

(** ** Numbers in texts *)

(** At least [width] digits, for n >= 0. *)
Definition zeros (width : nat) (n : Z) : bytes :=
  let s := utoa n in repeat "0"%char (width - length s) ++ s.
(** fmt.Sprintf("%0<width>d", n): the sign counts for the width *)
Definition fmt0 (width : nat) (n : Z) : bytes :=
  if n <? 0 then "-"%char :: zeros (width - 1) (- n) else zeros width n.
(** time.appendInt, used by Time.Format: the sign does not count *)
Definition append_int (n : Z) (width : nat) : bytes :=
  if n <? 0 then "-"%char :: zeros width (- n) else zeros width n.

(** m[k] on a map: the empty value if there is no entry *)
Fixpoint map_at {A : Type} (l : list (Z * A)) (k : Z) (zero : A) : A :=
  match l with
  | [] => zero
  | (k', x) :: l' => if k' =? k then x else map_at l' k zero
  end.
Fixpoint from_index (i : Z) {A : Type} (l : list A) : list (Z * A) :=
  match l with [] => [] | x :: l' => (i, x) :: from_index (i + 1) l' end.

(** dates.go:4-12 *)
Definition weekdays : list (Z * bytes) := from_index 0
  [bs "Monday"; bs "Tuesday"; bs "Wednesday"; bs "Thursday"; bs "Friday"; bs "Saturday"; bs "Sunday"].
(** dates.go:14-22 *)
Definition weekdays_abbr : list (Z * bytes) := from_index 0
  [bs "Mon"; bs "Tue"; bs "Wed"; bs "Thu"; bs "Fri"; bs "Sat"; bs "Sun"].
(** dates.go:24-37 *)
Definition months : list (Z * bytes) := from_index 1
  [bs "January"; bs "February"; bs "March"; bs "April"; bs "May"; bs "June"; bs "July"; bs "August";
   bs "September"; bs "October"; bs "November"; bs "December"].
(** dates.go:39-52 *)
Definition months3 : list (Z * bytes) := from_index 1
  [bs "jan"; bs "feb"; bs "mar"; bs "apr"; bs "may"; bs "jun"; bs "jul"; bs "aug"; bs "sep"; bs "oct";
   bs "nov"; bs "dec"].
(** dates.go:54-67 (monthsAp) and 69-82 (monthsAlt): context and text *)
Definition months_ap : list (Z * (bytes * bytes)) := from_index 1
  (map (fun s => (bs "abbrev. month", s))
  [bs "Jan."; bs "Feb."; bs "March"; bs "April"; bs "May"; bs "June"; bs "July"; bs "Aug."; bs "Sept.";
   bs "Oct."; bs "Nov."; bs "Dec."]).
Definition months_alt : list (Z * (bytes * bytes)) := from_index 1
  (map (fun s => (bs "alt. month", s))
  [bs "January"; bs "February"; bs "March"; bs "April"; bs "May"; bs "June"; bs "July"; bs "August";
   bs "September"; bs "October"; bs "November"; bs "December"]).

(** The names in Time.Format("Jan") and Time.Format("Mon") (package time):
    English. *)
Definition go_month (m : Z) : bytes := map_at (from_index 1
  [bs "Jan"; bs "Feb"; bs "Mar"; bs "Apr"; bs "May"; bs "Jun"; bs "Jul"; bs "Aug"; bs "Sep"; bs "Oct";
   bs "Nov"; bs "Dec"]) m [].
Definition go_weekday (w : Z) : bytes := map_at (from_index 0
  [bs "Sun"; bs "Mon"; bs "Tue"; bs "Wed"; bs "Thu"; bs "Fri"; bs "Sat"]) w [].

(** Time.Format for the elements used: "3" and "03", "04", "-0700" *)
Definition hour12 (t : gotime) : Z := let h := hour t mod 12 in if h =? 0 then 12 else h.
Definition zone_text (t : gotime) : bytes :=
  let zone := Z.quot (t_offset t) 60 in
  let (sign, zone) := if zone <? 0 then ("-"%char, - zone) else ("+"%char, zone) in
  sign :: append_int (Z.quot zone 60) 2 ++ append_int (Z.rem zone 60) 2.

Section Dateformat.

(** The localizer's Get and PGet; unicode.ToUpper; time.Local.String(). *)
Variable get : bytes -> bytes.
Variable pget : bytes -> bytes -> bytes.
Variable upper : rune -> rune.
Variable local_name : bytes.

(** (6 + int(Weekday())) % 7 *)
Definition weekday_index (t : gotime) : Z := Z.rem (6 + weekday (t_day t)) 7.

(** dateformat.go:124-387, letter by letter *)
Definition f_a (t : gotime) : bytes := if 11 <? hour t then get (bs "p.m.") else get (bs "a.m.").
Definition f_A (t : gotime) : bytes := if 11 <? hour t then get (bs "PM") else get (bs "AM").
Definition f_e (t : gotime) : bytes := t_zone t.
Definition f_f (t : gotime) : bytes :=
  if 0 <? minute t then append_int (hour12 t) 0 ++ bs ":" ++ append_int (minute t) 2 else append_int (hour12 t) 0.
Definition f_g (t : gotime) : bytes := append_int (hour12 t) 0.
Definition f_G (t : gotime) : bytes := itoa (hour t).
Definition f_h (t : gotime) : bytes := append_int (hour12 t) 2.
Definition f_H (t : gotime) : bytes := fmt0 2 (hour t).
Definition f_i (t : gotime) : bytes := fmt0 2 (minute t).
Definition f_O (t : gotime) : bytes := zone_text t.
Definition f_P (t : gotime) : bytes :=
  if (minute t =? 0) && (hour t =? 0) then get (bs "midnight")
  else if (minute t =? 0) && (hour t =? 12) then get (bs "noon")
  else f_f t ++ bs " " ++ f_a t.
Definition f_s (t : gotime) : bytes := fmt0 2 (second t).
Definition f_T (t : gotime) : bytes := local_name.
Definition f_u (t : gotime) : bytes := zeros 6 (Z.quot (t_nsec t) 1000).
Definition f_Z (t : gotime) : bytes := itoa (t_offset t).
Definition f_b (t : gotime) : bytes := get (map_at months3 (month t) []).
Definition f_c (t : gotime) : bytes :=
  append_int (year t) 4 ++ bs "-" ++ append_int (month t) 2 ++ bs "-" ++ append_int (mday t) 2 ++ bs "T" ++
  append_int (hour t) 2 ++ bs ":" ++ append_int (minute t) 2 ++ bs ":" ++ append_int (second t) 2 ++ bs "." ++
  itoa (t_nsec t).
Definition f_d (t : gotime) : bytes := fmt0 2 (mday t).
Definition f_D (t : gotime) : bytes := get (map_at weekdays_abbr (weekday_index t) []).
Definition f_E (t : gotime) : bytes := let e := map_at months_alt (month t) ([], []) in pget (fst e) (snd e).
Definition f_F (t : gotime) : bytes := get (map_at months (month t) []).
Definition f_I (t : gotime) : bytes :=
  let winter := t_offset (date_in (year t) 1 1 (t_loc t)) in
  let summer := t_offset (date_in (year t) 7 1 (t_loc t)) in
  let (winter, summer) := if summer <? winter then (summer, winter) else (winter, summer) in
  if negb (winter =? summer) && negb (t_offset t =? winter) then bs "1" else bs "0".
Definition f_j (t : gotime) : bytes := itoa (mday t).
Definition f_l (t : gotime) : bytes := get (map_at weekdays (weekday_index t) []).
Definition f_L (t : gotime) : bytes := if is_leap (year t) then bs "true" else bs "false".
Definition f_m (t : gotime) : bytes := fmt0 2 (month t).
(** r[0] of an empty translation panics *)
Definition f_M (t : gotime) : res bytes :=
  match runes (get (map_at months3 (month t) [])) with
  | [] => Panic
  | r :: rs => Ok (encode_all (upper r :: rs))
  end.
Definition f_n (t : gotime) : bytes := itoa (month t).
Definition f_N (t : gotime) : bytes := let e := map_at months_ap (month t) ([], []) in pget (fst e) (snd e).
Definition f_o (t : gotime) : bytes := itoa (fst (iso_week (t_day t))).
Definition f_r (t : gotime) : bytes :=
  go_weekday (weekday (t_day t)) ++ bs ", " ++ append_int (mday t) 2 ++ bs " " ++ go_month (month t) ++ bs " " ++
  append_int (year t) 4 ++ bs " " ++ append_int (hour t) 2 ++ bs ":" ++ append_int (minute t) 2 ++ bs ":" ++
  append_int (second t) 2 ++ bs " " ++ zone_text t.
Definition f_S (t : gotime) : bytes :=
  let d := mday t in
  if (d =? 11) || (d =? 12) || (d =? 13) then bs "th"
  else let r := Z.rem d 10 in
       if r =? 1 then bs "st" else if r =? 2 then bs "nd" else if r =? 3 then bs "rd" else bs "th".
Definition f_t (t : gotime) : bytes := itoa (days_in_month (year t) (month t)).
Definition f_U (t : gotime) : bytes := itoa (t_unix t).
Definition f_w (t : gotime) : bytes := itoa (weekday (t_day t)).
Definition f_W (t : gotime) : bytes := itoa (snd (iso_week (t_day t))).
Definition f_y (t : gotime) : bytes := fmt0 2 (Z.rem (year t) 100).
Definition f_Y (t : gotime) : bytes := fmt0 4 (year t).
Definition f_z (t : gotime) : bytes := itoa (year_day t).

(** dateformat.go:31-118: the switch on one rune; None is the default case *)
Definition letter (r : rune) (t : gotime) : option (res bytes) :=
  let is (c : ascii) := r =? Z.of_N (N_of_ascii c) in
  if is "a"%char then Some (Ok (f_a t)) else if is "A"%char then Some (Ok (f_A t))
  else if is "e"%char then Some (Ok (f_e t)) else if is "f"%char then Some (Ok (f_f t))
  else if is "g"%char then Some (Ok (f_g t)) else if is "G"%char then Some (Ok (f_G t))
  else if is "h"%char then Some (Ok (f_h t)) else if is "H"%char then Some (Ok (f_H t))
  else if is "i"%char then Some (Ok (f_i t)) else if is "O"%char then Some (Ok (f_O t))
  else if is "P"%char then Some (Ok (f_P t)) else if is "s"%char then Some (Ok (f_s t))
  else if is "T"%char then Some (Ok (f_T t)) else if is "u"%char then Some (Ok (f_u t))
  else if is "Z"%char then Some (Ok (f_Z t)) else if is "b"%char then Some (Ok (f_b t))
  else if is "c"%char then Some (Ok (f_c t)) else if is "d"%char then Some (Ok (f_d t))
  else if is "D"%char then Some (Ok (f_D t)) else if is "E"%char then Some (Ok (f_E t))
  else if is "F"%char then Some (Ok (f_F t)) else if is "I"%char then Some (Ok (f_I t))
  else if is "j"%char then Some (Ok (f_j t)) else if is "l"%char then Some (Ok (f_l t))
  else if is "L"%char then Some (Ok (f_L t)) else if is "m"%char then Some (Ok (f_m t))
  else if is "M"%char then Some (f_M t) else if is "n"%char then Some (Ok (f_n t))
  else if is "N"%char then Some (Ok (f_N t)) else if is "o"%char then Some (Ok (f_o t))
  else if is "r"%char then Some (Ok (f_r t)) else if is "S"%char then Some (Ok (f_S t))
  else if is "t"%char then Some (Ok (f_t t)) else if is "U"%char then Some (Ok (f_U t))
  else if is "w"%char then Some (Ok (f_w t)) else if is "W"%char then Some (Ok (f_W t))
  else if is "y"%char then Some (Ok (f_y t)) else if is "Y"%char then Some (Ok (f_Y t))
  else if is "z"%char then Some (Ok (f_z t))
  else None.

(** dateformat.go:27-122 (format): the loop over the runes; [acc] is the buffer *)
Fixpoint format_loop (t : gotime) (rs : list rune) (acc : bytes) : res bytes :=
  match rs with
  | [] => Ok acc
  | r :: rs' =>
      if r =? 92 then
        match rs' with
        | c :: rs'' => format_loop t rs'' (acc ++ encode_rune c)
        | [] => Ok (acc ++ encode_rune 92)
        end
      else match letter r t with
           | Some x => do s <- x ; format_loop t rs' (acc ++ s)
           | None => format_loop t rs' (acc ++ encode_rune r)
           end
  end.
Definition format (t : gotime) (s : bytes) : res bytes := format_loop t (runes s) [].

(** ** FormatTime *)

(** humanizer.go:47-70 (FormatData, without FirstDayOfWeek) *)
Record format_data : Type := FD {
  fd_date : bytes; fd_time : bytes; fd_datetime : bytes; fd_year_month : bytes; fd_month_day : bytes;
  fd_short_date : bytes; fd_short_datetime : bytes }.
(** humanizer.go:72-81 *)
Definition fallback : format_data :=
  FD (bs "N j, Y") (bs "P") (bs "N j, Y, P") (bs "F Y") (bs "F j") (bs "m/d/Y") (bs "m/d/Y P").
(** humanizer.go:176-198 (setDefaults) *)
Definition set_defaults (f : format_data) : format_data :=
  let dflt x y := if beq x [] then y else x in
  FD (dflt (fd_date f) (fd_date fallback)) (dflt (fd_time f) (fd_time fallback))
     (dflt (fd_datetime f) (fd_datetime fallback)) (dflt (fd_year_month f) (fd_year_month fallback))
     (dflt (fd_month_day f) (fd_month_day fallback)) (dflt (fd_short_date f) (fd_short_date fallback))
     (dflt (fd_short_datetime f) (fd_short_datetime fallback)).

(** date.go:396-416 (FormatTime): the keywords of date.go:14-36 *)
Definition select_format (fd : format_data) (f : bytes) : bytes :=
  if beq f (bs "DATE_FORMAT") then fd_date fd
  else if beq f (bs "TIME_FORMAT") then fd_time fd
  else if beq f (bs "DATETIME_FORMAT") then fd_datetime fd
  else if beq f (bs "YEAR_MONTH_FORMAT") then fd_year_month fd
  else if beq f (bs "MONTH_DAY_FORMAT") then fd_month_day fd
  else if beq f (bs "SHORT_DATE_FORMAT") then fd_short_date fd
  else if beq f (bs "SHORT_DATETIME_FORMAT") then fd_short_datetime fd
  else f.
Definition format_time (fd : format_data) (t : gotime) (f : bytes) : res bytes := format t (select_format fd f).

(** ** NaturalDay *)

(** date.go:50-71 (NaturalDay) for a time; [now] is the clock.  t.In(loc) changes the
    location only; float64 comparison with 0, 1 and -1. *)
Definition natural_day (fd : format_data) (now t : gotime) : res bytes :=
  let value := date_in (year t) (month t) (mday t) (t_loc t) in
  let now := GT (t_unix now) (t_nsec now) (t_loc value) in
  let today := date_in (year now) (month now) (mday now) (t_loc now) in
  let delta := fdiv (hours (sub value today)) (inject_Z 24) in
  if Qeq_bool delta 0 then Ok (get (bs "today"))
  else if Qeq_bool delta (inject_Z 1) then Ok (get (bs "tomorrow"))
  else if Qeq_bool delta (inject_Z (-1)) then Ok (get (bs "yesterday"))
  else format_time fd t (bs "DATE_FORMAT").

End Dateformat.

(** ** Collections of locales (humanizer.go:105-174) *)
Section Collection.
Variable tag : Type.
Variable tag_eqb : tag -> tag -> bool.

(** New: missing format data is the fallback; empty formats get their default;
    in the map a later locale of the same language replaces an earlier one
    (humanizer.go:121-137 and locale.go:16-24) *)
Definition collect (locales : list (tag * option format_data)) : list (tag * format_data) :=
  map (fun d => (fst d, set_defaults (match snd d with Some f => f | None => fallback end))) locales.
Fixpoint last_entry (l : list (tag * format_data)) (t : tag) : option format_data :=
  match l with
  | [] => None
  | (t', f) :: l' => match last_entry l' t with Some g => Some g | None => if tag_eqb t' t then Some f else None end
  end.
(** CreateHumanizer: the format data of the language the localizer chose *)
Definition humanizer_format (locales : list (tag * option format_data)) (lang : tag) : format_data :=
  match last_entry (collect locales) lang with Some f => f | None => fallback end.
End Collection.
