(** Header fields set with several spellings, for property C25. *)
From Coq Require Import String Ascii List ZArith Bool Lia Permutation.
From Verif Require Import Base BaseProofs Utf8Model PoStrModel PoFileModel PoFileSpec.
Import ListNotations.
Open Scope Z_scope.

(** [v] is the last value set under exactly the spelling [s] *)
Definition last_spelled (kvs : list (bytes * bytes)) (s v : bytes) : Prop :=
  exists a rest, kvs = a ++ (s, v) :: rest /\ Forall (fun e => fst e <> s) rest.
Definition set_fields (kvs : list (bytes * bytes)) : header := fold_left (fun h e => header_set h (fst e) (snd e)) kvs new_header.
(** [v] is what Get returns for some order of iteration over the map *)
Definition readable (fold : rune -> rune) (h : header) (k v : bytes) : Prop :=
  exists p, Permutation (h_unknown h) p /\ header_get fold (Hdr (h_com h) (h_known h) p) k = v.
