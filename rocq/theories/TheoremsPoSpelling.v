(** C25: header fields that are set with several spellings. *)
From Coq Require Import String Ascii List ZArith Bool Lia Permutation.
From Verif Require Import Base BaseProofs Utf8Model PoStrModel PoFileModel PoFileSpec PoHeaderProofs PoSpellSpec PoSpellProofs PoExamples.
Import ListNotations.
Open Scope Z_scope.

(** For a field without a place of its own, Get returns the last value set
    under one of the spellings, and each of these for some order of the map;
    nothing if the field was not set. *)
Theorem C25_spellings : forall fold kvs k v, ascii_fold fold -> ascii_text k -> Forall (fun e => ascii_text (fst e)) kvs -> ~ known_name k ->
  (readable fold (set_fields kvs) k v <->
   (exists s, ci_eq s k /\ last_spelled kvs s v) \/ (v = [] /\ Forall (fun e => ~ ci_eq (fst e) k) kvs)).
Proof. exact readable_spellings. Qed.

Example C25_spellings_example :
  let kvs := [(bs "X-Foo", bs "1"); (bs "x-foo", bs "2"); (bs "X-Foo", bs "3")] in
  ~ known_name (bs "X-FOO") /\ readable fold_ascii (set_fields kvs) (bs "X-FOO") (bs "3") /\
  readable fold_ascii (set_fields kvs) (bs "X-FOO") (bs "2").
Proof.
  cbv zeta. assert (NK : ~ known_name (bs "X-FOO")).
  { apply unknown_index; [repeat constructor|vm_compute; reflexivity]. }
  split; [exact NK|]. split; (apply C25_spellings; [apply fold_ascii_ok|repeat constructor|repeat constructor|exact NK|left]).
  - exists (bs "X-Foo"). split; [vm_compute; reflexivity|]. exists [(bs "X-Foo", bs "1"); (bs "x-foo", bs "2")], []. split; [reflexivity|constructor].
  - exists (bs "x-foo"). split; [vm_compute; reflexivity|]. exists [(bs "X-Foo", bs "1")], [(bs "X-Foo", bs "3")].
    split; [reflexivity|]. constructor; [discriminate|constructor].
Qed.

Print Assumptions C25_spellings.
