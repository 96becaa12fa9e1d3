(** What the humanize functions are supposed to show, without reference to how
    they compute it. *)
From Coq Require Import String Ascii List ZArith QArith Bool.
From Verif Require Import Base.
Import ListNotations.
Open Scope Z_scope.

(** ** English ordinals and number words *)

(** 11th, 12th, 13th; else by the last digit: 1st, 2nd, 3rd, 4th ... *)
Definition english_suffix (n : Z) : string :=
  if (11 <=? n mod 100) && (n mod 100 <=? 13) then "th"
  else if n mod 10 =? 1 then "st"
  else if n mod 10 =? 2 then "nd"
  else if n mod 10 =? 3 then "rd" else "th".

(** The message context: one for 11, 12 and 13, else one for each last digit. *)
Definition ordinal_context (n : Z) : bytes :=
  if (11 <=? n mod 100) && (n mod 100 <=? 13) then bs "ordinal 11, 12, 13" else bs "ordinal " ++ itoa (n mod 10).

Definition digit_word (n : Z) : option string :=
  match n with
  | 1 => Some "one"%string | 2 => Some "two"%string | 3 => Some "three"%string
  | 4 => Some "four"%string | 5 => Some "five"%string | 6 => Some "six"%string
  | 7 => Some "seven"%string | 8 => Some "eight"%string | 9 => Some "nine"%string
  | _ => None
  end.

(** ** Binary units *)
Definition binary_units : list (Z * string) :=
  [(2 ^ 10, "KB"); (2 ^ 20, "MB"); (2 ^ 30, "GB"); (2 ^ 40, "TB"); (2 ^ 50, "PB")]%string.

(** The largest unit that is not larger than n. *)
Definition largest_unit (n : Z) (u : Z) (name : string) : Prop :=
  In (u, name) binary_units /\ u <= n /\
  forall u' name', In (u', name') binary_units -> u' <= n -> u' <= u.

(** ** Units of time *)

(** Units in seconds: 365-day years, 30-day months. *)
Definition time_units : list (string * Z) :=
  [("year", 31536000); ("month", 2592000); ("week", 604800);
   ("day", 86400); ("hour", 3600); ("minute", 60)]%string.

(** The messages of the units, singular and plural. *)
Definition unit_messages : list (string * string * string) :=
  [("year", "%[1]v year", "%[1]v years"); ("month", "%[1]v month", "%[1]v months");
   ("week", "%[1]v week", "%[1]v weeks"); ("day", "%[1]v day", "%[1]v days");
   ("hour", "%[1]v hour", "%[1]v hours"); ("minute", "%[1]v minute", "%[1]v minutes")]%string.

(** Greedy decomposition: as many of each unit as fit, the rest goes on. *)
Fixpoint greedy (units : list (string * Z)) (r : Z) : list (string * Z * Z) :=
  match units with
  | [] => []
  | (name, u) :: l => (name, u, r / u) :: greedy l (r mod u)
  end.

(** What is shown of it: units from the first non-zero count on, zero counts
    stop the list (adjacent) or are left out, at most [depth] units. *)
Fixpoint shown (adjacent : bool) (depth : nat) (l : list (string * Z * Z)) : list (string * Z) :=
  match depth, l with
  | S depth', (name, _, n) :: l' =>
      if n =? 0 then (if adjacent then [] else shown adjacent depth l')
      else (name, n) :: shown adjacent depth' l'
  | _, _ => []
  end.
Fixpoint drop_zeros (l : list (string * Z * Z)) : list (string * Z * Z) :=
  match l with
  | (name, u, n) :: l' => if n =? 0 then drop_zeros l' else l
  | [] => []
  end.
Definition decomposition (adjacent : bool) (depth : nat) (r : Z) : list (string * Z) :=
  match shown adjacent depth (drop_zeros (greedy time_units r)) with
  | [] => [("minute"%string, 0)]
  | l => l
  end.

(** The rests of the greedy decomposition before each unit. *)
Fixpoint rests (units : list (string * Z)) (r : Z) : list (Z * Z) :=
  match units with
  | [] => []
  | (_, u) :: l => (r, u) :: rests l (r mod u)
  end.
(** Not within 1/2000 unit below a multiple of the unit. *)
Definition clear_of (r u : Z) : Prop := 2000 * (r mod u) < 1999 * u.

(** Rounded decomposition: a count goes up if at most 1/2000 of the unit is
    missing; nothing is left then. *)
Definition nearest_count (r u : Z) : Z := Z.max 0 ((2000 * r + u) / (2000 * u)).
Fixpoint greedy_near (units : list (string * Z)) (r : Z) : list (string * Z * Z) :=
  match units with
  | [] => []
  | (name, u) :: l => (name, u, nearest_count r u) :: greedy_near l (r - u * nearest_count r u)
  end.
Definition decomposition_near (adjacent : bool) (depth : nat) (r : Z) : list (string * Z) :=
  match shown adjacent depth (drop_zeros (greedy_near time_units r)) with
  | [] => [("minute"%string, 0)]
  | l => l
  end.

(** Total number of seconds of a list of units. *)
Definition secs_of (name : string) : Z :=
  fold_right (fun x acc => if String.eqb (fst x) name then snd x else acc) 0 time_units.
Definition total (l : list (string * Z)) : Z :=
  fold_right (fun x acc => secs_of (fst x) * snd x + acc) 0 l.

(** A subsequence: the elements of l1 occur in l2 in this order. *)
Inductive subsequence {A : Type} : list A -> list A -> Prop :=
| sq_nil : forall l, subsequence [] l
| sq_take : forall x l1 l2, subsequence l1 l2 -> subsequence (x :: l1) (x :: l2)
| sq_skip : forall x l1 l2, subsequence l1 l2 -> subsequence l1 (x :: l2).
(** Contiguous: nothing in between is left out. *)
Definition contiguous {A : Type} (l1 l2 : list A) : Prop := exists a b, l2 = a ++ l1 ++ b.

(** The unit after a given one; none after minutes. *)
Fixpoint unit_after (name : string) (l : list (string * Z)) : option (string * Z) :=
  match l with
  | (n, _) :: ((x :: _) as l') => if String.eqb n name then Some x else unit_after name l'
  | _ => None
  end.
