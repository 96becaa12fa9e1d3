(** What a JSON catalog file may be read as when names of a message differ in
    letter case only: one of the members of such names counts. *)
From Coq Require Import String Ascii List ZArith Bool.
From Verif Require Import Base PoStrSpec CldrModel JsonModel JsonSpec JFileSpec.
Import ListNotations.
Open Scope Z_scope.

(** the text of one of the members with this name, letter case ignored *)
Definition one_of (l : list (bytes * json)) (name : bytes) (o : option bytes) : Prop :=
  match o with Some s => field l name s | None => forall s, ~ field l name s end.
Definition or_empty (o : option bytes) : bytes := match o with Some s => s | None => [] end.
Inductive may_read : json -> jmsg -> Prop :=
| mr_text : forall s m, j_comment m = [] -> j_context m = [] -> (forall c x, cat_get (tr_of m) c = Some x <-> c = Other /\ x = s) ->
    may_read (JStr s) m
| mr_object : forall l m o o', (forall k v, In (k, v) l -> exists s, text_value v s) ->
    one_of l (bs "comment") o -> j_comment m = or_empty o ->
    one_of l (bs "context") o' -> j_context m = or_empty o' ->
    (forall c, one_of l (cat_name c) (cat_get (tr_of m) c)) ->
    may_read (JObj l) m.
Definition may_entry (v : json) (o : option jmsg) : Prop :=
  match o with None => v = JNull | Some m => may_read v m end.
Definition may_messages (l : list (bytes * json)) (ms : list (bytes * option jmsg)) : Prop :=
  wf_messages ms /\
  (forall k v, last_member l k v -> exists o, In (k, o) ms /\ may_entry v o) /\
  (forall k o, In (k, o) ms -> exists v, last_member l k v /\ may_entry v o).
(** a member that no message can be read from *)
Definition unreadable (l : list (bytes * json)) : Prop :=
  exists k v, In (k, v) l /\ forall o, ~ may_entry v o.
(** the same texts *)
Definition same_message (m m' : jmsg) : Prop :=
  j_comment m = j_comment m' /\ j_context m = j_context m' /\ forall c, cat_get (tr_of m) c = cat_get (tr_of m') c.
