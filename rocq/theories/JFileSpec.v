(** What a JSON catalog file says: the messages of its members. *)
From Coq Require Import String Ascii List ZArith Bool.
From Verif Require Import Base PoStrSpec CldrModel JsonModel JsonSpec.
Import ListNotations.
Open Scope Z_scope.

(** the last member of a name *)
Definition last_member {V : Type} (l : list (bytes * V)) (k : bytes) (v : V) : Prop :=
  exists a b, l = a ++ (k, v) :: b /\ ~ In k (map fst b).
(** null is the empty text *)
Definition text_value (v : json) (s : bytes) : Prop := v = JStr s \/ v = JNull /\ s = [].
(** the text of a member, letter case of its name ignored *)
Definition field (l : list (bytes * json)) (name s : bytes) : Prop :=
  exists k v, last_member l k v /\ to_lower k = name /\ text_value v s.
Definition field_or_empty (l : list (bytes * json)) (name s : bytes) : Prop :=
  field l name s \/ s = [] /\ forall x, ~ field l name x.
(** a member of the file and its message *)
Inductive message_of : json -> jmsg -> Prop :=
| mo_text : forall s m, j_comment m = [] -> j_context m = [] -> (forall c x, cat_get (tr_of m) c = Some x <-> c = Other /\ x = s) ->
    message_of (JStr s) m
| mo_object : forall l m, (forall k v, In (k, v) l -> exists s, text_value v s) ->
    field_or_empty l (bs "comment") (j_comment m) -> field_or_empty l (bs "context") (j_context m) ->
    (forall c x, cat_get (tr_of m) c = Some x <-> field l (cat_name c) x) ->
    message_of (JObj l) m.
Definition entry_of (v : json) (o : option jmsg) : Prop :=
  match o with None => v = JNull | Some m => message_of v m end.
(** [ms]: the message map the members [l] of a file stand for *)
Definition file_messages (l : list (bytes * json)) (ms : list (bytes * option jmsg)) : Prop :=
  wf_messages ms /\
  (forall k v, In (k, v) l -> exists o, entry_of v o) /\
  (forall k v, last_member l k v -> exists o, In (k, o) ms /\ entry_of v o) /\
  (forall k o, In (k, o) ms -> exists v, last_member l k v /\ entry_of v o).
(** no two names of a message differ only in letter case *)
Definition plain_names (v : json) : Prop :=
  match v with
  | JObj l => forall k k', In k (map fst l) -> In k' (map fst l) -> to_lower k = to_lower k' -> k = k'
  | _ => True
  end.
(** all texts of a message map *)
Definition utf8_messages (l : list (bytes * option jmsg)) : Prop :=
  forall k o, In (k, o) l -> valid_utf8 k /\ forall m, o = Some m ->
    valid_utf8 (j_comment m) /\ valid_utf8 (j_context m) /\ forall c v, In (c, v) (tr_of m) -> valid_utf8 v.
