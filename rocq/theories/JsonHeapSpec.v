(** Reading messages from memory, and which cells may change. *)
From Coq Require Import String Ascii List ZArith Bool.
From Verif Require Import Base CldrModel GettextModel JsonModel JsonHeapModel.
Import ListNotations.

(** the message at an address *)
Definition view (h : heap) (a : nat) : option jmsg :=
  match nth_error (h_msgs h) a with
  | None => None
  | Some m =>
      match mc_tr m with
      | None => Some (JMsg (mc_comment m) (mc_context m) None)
      | Some p => match nth_error (h_maps h) p with
                  | Some t => Some (JMsg (mc_comment m) (mc_context m) (Some t))
                  | None => None
                  end
      end
  end.
Definition views (h : heap) (x : bytes * nat) (y : bytes * jmsg) : Prop := fst x = fst y /\ view h (snd x) = Some (snd y).
(** the input map of messages: nil pointers are None *)
Definition input_views (h : heap) (x : bytes * option nat) (y : bytes * option jmsg) : Prop :=
  fst x = fst y /\ match snd x, snd y with
                   | None, None => True
                   | Some a, Some m => view h a = Some m
                   | _, _ => False
                   end.

(** memory with further cells *)
Definition extends (h h' : heap) : Prop :=
  (exists x, h_msgs h' = h_msgs h ++ x) /\ (exists y, h_maps h' = h_maps h ++ y).
(** the cells allocated between [h] and [h'] are the same in [h1] and [h2];
    all others may differ *)
Definition same_between (h h' h1 h2 : heap) : Prop :=
  (forall a, (length (h_msgs h) <= a < length (h_msgs h'))%nat -> nth_error (h_msgs h2) a = nth_error (h_msgs h1) a) /\
  (forall p, (length (h_maps h) <= p < length (h_maps h'))%nat -> nth_error (h_maps h2) p = nth_error (h_maps h1) p).
(** everything reachable from the address was allocated after [h] *)
Definition fresh_in (h h' : heap) (a : nat) : Prop :=
  (length (h_msgs h) <= a)%nat /\
  forall m p, nth_error (h_msgs h') a = Some m -> mc_tr m = Some p -> (length (h_maps h) <= p)%nat.
