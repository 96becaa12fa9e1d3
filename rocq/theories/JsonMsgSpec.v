(** What messages in memory show after one of them was changed. *)
From Coq Require Import String Ascii List ZArith Bool.
From Verif Require Import Base StrModel CldrModel GettextModel JsonModel JsonSpec JsonHeapModel JsonHeapSpec.
Import ListNotations.

(** the map a message points to *)
Definition map_of (h : heap) (a : nat) : option nat :=
  match nth_error (h_msgs h) a with Some m => mc_tr m | None => None end.
(** [b] is another message with translations of its own (or none) *)
Definition apart (h : heap) (a b : nat) : Prop := a <> b /\ (map_of h b = None \/ map_of h b <> map_of h a).

(** members of an object whose names differ even in small letters *)
Definition distinct_names (l : list (bytes * json)) : Prop := NoDup (map (fun e => to_lower (fst e)) l).
(** a string, or null for the empty string *)
Definition text_value (v : json) (s : bytes) : Prop := v = JStr s \/ (v = JNull /\ s = []).
Definition texts (l : list (bytes * json)) : Prop := forall k v, In (k, v) l -> exists s, text_value v s.
(** the member called [n], in any letter case, has the text [s] *)
Definition names (l : list (bytes * json)) (n s : bytes) : Prop := exists k v, In (k, v) l /\ to_lower k = n /\ text_value v s.
Definition silent (l : list (bytes * json)) (n : bytes) : Prop := forall k v, In (k, v) l -> to_lower k <> n.
(** [x] is what the object says about [n], else what was there before *)
Definition said {A} (l : list (bytes * json)) (n : bytes) (old : A) (in_text : bytes -> A) (x : A) : Prop :=
  (forall s, names l n s -> x = in_text s) /\ (silent l n -> x = old).
