(** What the lookups of a gettext catalog should answer, given the messages of
    the file. *)
From Coq Require Import String Ascii List ZArith Bool.
From Verif Require Import Base PoFileModel PoFileSpec NumModel GettextModel.
Import ListNotations.
Open Scope Z_scope.

Definition fuzzy (m : message) : Prop :=
  exists c, m_com m = Some c /\ In (bs "fuzzy") (cm_flags c).
(** messages that are offered to lookups *)
Definition live (m : message) : Prop := m_id m <> [] /\ ~ fuzzy m.

Definition has_context (ms : list message) (ctx : bytes) : Prop :=
  exists m, In m ms /\ m_ctx m = ctx.
Definition has_message (ms : list message) (ctx id : bytes) : Prop :=
  exists m, In m ms /\ live m /\ key m = (ctx, id).
(** [t] is a usable translation of form [idx] *)
Definition translation (ms : list message) (ctx id : bytes) (idx : Z) (t : bytes) : Prop :=
  exists m, In m ms /\ live m /\ key m = (ctx, id) /\ str_get (m_str m) idx = Some t /\ t <> [].

(** The answer to a lookup of form [idx]: text and error. *)
Inductive answer {tag : Type} (ms : list message) (lang : tag) (domain ctx id : bytes) (idx : Z) :
  bytes * option (lookup_error tag) -> Prop :=
| an_found : forall t, translation ms ctx id idx t -> answer ms lang domain ctx id idx (t, None)
| an_context : ~ has_context ms ctx ->
    answer ms lang domain ctx id idx (id, Some (MissingContext lang domain ctx))
| an_message : has_context ms ctx -> ~ has_message ms ctx id ->
    answer ms lang domain ctx id idx (id, Some (MissingMessage lang domain ctx id))
| an_translation : has_message ms ctx id -> (forall t, ~ translation ms ctx id idx t) ->
    answer ms lang domain ctx id idx (id, Some (MissingTranslation lang domain ctx id idx)).

(** When the CLDR rule is to be used: on request of the decoder, without a
    Plural-Forms header, or if the file says so. *)
Definition wants_cldr (use_cldr : bool) (forms flag : bytes) : Prop :=
  use_cldr = true \/ forms = [] \/ ci_eq flag (bs "true").
