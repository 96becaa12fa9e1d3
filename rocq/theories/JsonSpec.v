(** What the lookups of a JSON catalog should answer, given the messages. *)
From Coq Require Import String Ascii List ZArith Bool.
From Verif Require Import Base CldrModel GettextModel JsonModel.
Import ListNotations.
Open Scope Z_scope.

(** the translations of a message *)
Definition tr_of (m : jmsg) : catmap := match j_tr m with Some t => t | None => [] end.
Definition has_cat (t : catmap) (c : category) : Prop := exists v, cat_get t c = Some v.
(** without plural forms *)
Definition singular (t : catmap) : Prop := forall c, has_cat t c <-> c = Other.
(** [t'] is [t] fitted to the categories of a language *)
Definition fitted (cats : list category) (t t' : catmap) : Prop :=
  (singular t -> forall c, cat_get t' c = cat_get t c) /\
  (~ singular t -> forall c,
     (In c cats -> cat_get t' c = Some (match cat_get t c with Some v => v | None => [] end)) /\
     (~ In c cats -> cat_get t' c = None)).
Definition every_category (l : list category) : Prop := forall c, In c l.

(** Go maps: no key twice *)
Definition wf_entry (e : bytes * option jmsg) : Prop :=
  forall m, snd e = Some m -> NoDup (map fst (tr_of m)).
Definition wf_messages (l : list (bytes * option jmsg)) : Prop :=
  NoDup (map fst l) /\ Forall wf_entry l.

(** an acceptable member of the message map *)
Definition valid (e : bytes * option jmsg) : Prop :=
  fst e <> [] /\ exists m, snd e = Some m /\ has_cat (tr_of m) Other /\
    (j_context m = [] \/ exists p, fst e = p ++ bs "_" ++ j_context m).

(** the key of a message in the map *)
Definition full_key (ctx id : bytes) : bytes := match ctx with [] => id | _ => id ++ bs "_" ++ ctx end.
Definition j_has_context (l : list (bytes * option jmsg)) (ctx : bytes) : Prop :=
  exists k m, In (k, Some m) l /\ j_context m = ctx.
Definition j_entry (l : list (bytes * option jmsg)) (ctx id : bytes) (m : jmsg) : Prop :=
  In (full_key ctx id, Some m) l /\ j_context m = ctx.
(** [v] is the text of category [c] of the message in a language with
    categories [cats] *)
Definition text_for (cats : list category) (m : jmsg) (c : category) (v : bytes) : Prop :=
  v <> [] /\ cat_get (tr_of m) c = Some v /\ (singular (tr_of m) \/ In c cats).

Inductive j_answer {tag : Type} (l : list (bytes * option jmsg)) (cats : list category) (lang : tag) (domain ctx id : bytes)
  (c : category) : bytes * option (lookup_error tag) -> Prop :=
| ja_found : forall m t, j_entry l ctx id m -> text_for cats m c t -> j_answer l cats lang domain ctx id c (t, None)
| ja_context : ~ j_has_context l ctx ->
    j_answer l cats lang domain ctx id c (id, Some (MissingContext lang domain ctx))
| ja_message : j_has_context l ctx -> (forall m, ~ j_entry l ctx id m) ->
    j_answer l cats lang domain ctx id c (id, Some (MissingMessage lang domain ctx (full_key ctx id)))
| ja_translation : forall m, j_entry l ctx id m -> (forall t, ~ text_for cats m c t) ->
    j_answer l cats lang domain ctx id c (id, Some (MissingTranslation lang domain ctx (full_key ctx id) (cat_num c))).
