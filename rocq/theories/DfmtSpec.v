(** What the letters of a date format stand for: fields of the civil date and
    time, written with digits. *)
From Coq Require Import String Ascii List ZArith Bool.
From Verif Require Import Base CalSpec.
Import ListNotations.
Open Scope Z_scope.

(** ** Civil time *)

(** The n-th day of the calendar (day 719162 is 1970-01-01) and the time of the
    day that belong to a local number of seconds. *)
Definition civil (local n y m d h mi s : Z) : Prop :=
  days_after n (y, m, d) /\ local = 86400 * (n - 719162) + 3600 * h + 60 * mi + s /\
  0 <= h < 24 /\ 0 <= mi < 60 /\ 0 <= s < 60.

(** Hours on a clock of twelve. *)
Definition clock12 (h : Z) : Z := if h =? 0 then 12 else if h <=? 12 then h else h - 12.

(** ISO 8601: the week from Monday to Sunday belongs to the year of its
    Thursday and is counted by Thursdays.  Day 0 is a Monday. *)
Definition iso (n y w : Z) : Prop :=
  exists th jan1 next, th mod 7 = 3 /\ th - 3 <= n <= th + 3 /\
    days_after jan1 (y, 1, 1) /\ days_after next (y + 1, 1, 1) /\ jan1 <= th < next /\
    7 * (w - 1) <= th - jan1 < 7 * w.

(** ** Digits *)
Definition digit (k : Z) : ascii := ascii_of_N (Z.to_N (48 + k)).
(** The last w digits of a number. *)
Fixpoint digits (w : nat) (n : Z) : bytes :=
  match w with O => [] | S w' => digits w' (n / 10) ++ [digit (n mod 10)] end.

(** ** Names *)
Definition nth_name (l : list string) (i : Z) : bytes := bs (nth (Z.to_nat i) l EmptyString).
Definition month_names : list string :=
  ["January"; "February"; "March"; "April"; "May"; "June"; "July"; "August"; "September"; "October"; "November"; "December"]%string.
Definition month_names3 : list string :=
  ["jan"; "feb"; "mar"; "apr"; "may"; "jun"; "jul"; "aug"; "sep"; "oct"; "nov"; "dec"]%string.
Definition month_names_ap : list string :=
  ["Jan."; "Feb."; "March"; "April"; "May"; "June"; "July"; "Aug."; "Sept."; "Oct."; "Nov."; "Dec."]%string.
Definition month_names_en : list string :=
  ["Jan"; "Feb"; "Mar"; "Apr"; "May"; "Jun"; "Jul"; "Aug"; "Sep"; "Oct"; "Nov"; "Dec"]%string.
(** From Monday. *)
Definition day_names : list string :=
  ["Monday"; "Tuesday"; "Wednesday"; "Thursday"; "Friday"; "Saturday"; "Sunday"]%string.
Definition day_names3 : list string := ["Mon"; "Tue"; "Wed"; "Thu"; "Fri"; "Sat"; "Sun"]%string.

(** ** Format strings *)
Definition letters : bytes := bs "aAefgGhHiOPsTuZbcdDEFIjlLmMnNorStUwWyYz".
Definition is_letter (r : Z) : Prop := exists c, In c letters /\ r = Z.of_N (N_of_ascii c).

Inductive token : Type := Field (r : Z) | Literal (r : Z).
(** A backslash (92) makes the next rune literal; at the end it is literal
    itself. *)
Inductive tokens : list Z -> list token -> Prop :=
| tk_nil : tokens [] []
| tk_escape : forall c rs ts, tokens rs ts -> tokens (92 :: c :: rs) (Literal c :: ts)
| tk_lone : tokens [92] [Literal 92]
| tk_letter : forall r rs ts, is_letter r -> tokens rs ts -> tokens (r :: rs) (Field r :: ts)
| tk_other : forall r rs ts, r <> 92 -> ~ is_letter r -> tokens rs ts -> tokens (r :: rs) (Literal r :: ts).

(** No escape is left open at the end. *)
Inductive closed : list Z -> Prop :=
| cl_nil : closed []
| cl_plain : forall r rs, r <> 92 -> closed rs -> closed (r :: rs)
| cl_escape : forall c rs, closed rs -> closed (92 :: c :: rs).
