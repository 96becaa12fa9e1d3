(** Which rule a language should get: the nearest one along the parent chain. *)
From Coq Require Import List Ascii.
From Verif Require Import Base.
Import ListNotations.

Section Spec.
  Variable tag : Type.
  Variable is_root : tag -> bool.
  Variable tag_string : tag -> bytes.
  Variable base : tag -> bytes * bool.
  Variable parent : tag -> tag.
  Variable R : Type.
  Variable table : bytes -> option R.

  (** the k-th ancestor *)
  Fixpoint anc (k : nat) (t : tag) : tag :=
    match k with O => t | S k' => anc k' (parent t) end.

  (** [t] is above the root chain up to depth [d]: its first root ancestor is
      the d-th *)
  Definition depth (t : tag) (d : nat) : Prop :=
    is_root (anc d t) = true /\ forall k, k < d -> is_root (anc k t) = false.

  (** the rule a tag has by itself: by its name, else by a reliable base *)
  Definition own (t : tag) : option R :=
    match table (tag_string t) with
    | Some r => Some r
    | None => if snd (base t) then table (fst (base t)) else None
    end.

  (** nearest ancestor below the root having an own rule *)
  Definition nearest (t : tag) (d : nat) (r : R) : Prop :=
    exists k, k < d /\ own (anc k t) = Some r /\ forall j, j < k -> own (anc j t) = None.
  Definition nothing (t : tag) (d : nat) : Prop :=
    forall k, k < d -> own (anc k t) = None.
End Spec.
