(** What a text of NaturalTime or TimeSince may look like (on the texts of
    HumModel). *)
From Coq Require Import String Ascii List ZArith QArith Bool.
From Verif Require Import Base CalModel HumModel.
Import ListNotations.
Open Scope Z_scope.

(** A text with a positive count of something: the number that selects the
    plural form is the number printed. *)
Inductive counted : out -> Prop :=
| counted_intro : forall ctx s p n, 1 <= n -> counted (ONGetf ctx s p n (AInt64 n)).

(** [now], a positive count, or a non-empty list of positive counts with
    something around it. *)
Inductive no_zero : out -> Prop :=
| nz_now : no_zero (OGet [] (bs "now"))
| nz_count : forall o, counted o -> no_zero o
| nz_list : forall ctx id l sep, l <> [] -> Forall counted l -> no_zero (OGetf ctx id (AText (OJoin l sep))).

(** The value of the last option of a kind, or the default. *)
Definition last_of {O A : Type} (f : O -> option A) (opts : list O) (d : A) : A :=
  fold_left (fun acc o => match f o with Some a => a | None => acc end) opts d.

(** The options by kind. *)
Definition opt_depth (o : time_opt) : option Z := match o with OWithDepth d => Some d | _ => None end.
Definition opt_reverse (o : time_opt) : option bool := match o with OWithReverse b => Some b | _ => None end.
Definition opt_ctx (o : time_opt) : option bytes := match o with OWithTimeStrings c => Some c | _ => None end.
Definition opt_adjacent (o : time_opt) : option bool := match o with OWithoutAdjacentCheck => Some false | _ => None end.
Definition opt_now (o : time_opt) : option (option gotime) :=
  match o with OWithNow t => Some (if is_zero t then None else Some t) | _ => None end.

(** Same day and time of the day, k years later. *)
Definition anniversary (d now : gotime) (k : Z) : Prop :=
  t_offset now = t_offset d /\ t_secs now = t_secs d /\ month now = month d /\ mday now = mday d /\ year now = year d + k.
