(** The proleptic Gregorian calendar, by its rules: which years are leap years,
    how long months are, which date follows a date. *)
From Coq Require Import ZArith Znumtheory List Bool.
Import ListNotations.
Open Scope Z_scope.

(** Divisible by 4 but not by 100, or divisible by 400. *)
Definition leap (y : Z) : Prop := (4 | y) /\ (~ (100 | y) \/ (400 | y)).

Lemma leap_dec : forall y, {leap y} + {~ leap y}.
Proof.
  intro y. unfold leap.
  destruct (Zdivide_dec 4 y), (Zdivide_dec 100 y), (Zdivide_dec 400 y); tauto.
Defined.

(** The leap years among the k years from y on. *)
Fixpoint leap_years (y : Z) (k : nat) : Z :=
  match k with
  | O => 0
  | S k' => (if leap_dec y then 1 else 0) + leap_years (y + 1) k'
  end.

Definition month_length (y m : Z) : Z :=
  if (m =? 4) || (m =? 6) || (m =? 9) || (m =? 11) then 30
  else if m =? 2 then (if leap_dec y then 29 else 28)
  else 31.

Definition date : Type := (Z * Z * Z)%type.
Definition valid_date (x : date) : Prop :=
  match x with (y, m, d) => 1 <= m <= 12 /\ 1 <= d <= month_length y m end.

(** The day after. *)
Definition next_day (x : date) : date :=
  match x with
  | (y, m, d) =>
      if d <? month_length y m then (y, m, d + 1)
      else if m <? 12 then (y, m + 1, 1)
      else (y + 1, 1, 1)
  end.

(** The date n days after the first of January of year 1, or before it when n
    is negative: x is connected to that date by n steps. *)
Inductive days_after : Z -> date -> Prop :=
| da_origin : days_after 0 (1, 1, 1)
| da_next : forall n x, days_after n x -> days_after (n + 1) (next_day x)
| da_prev : forall n x, valid_date x -> days_after (n + 1) (next_day x) -> days_after n x.
