(** What the messages of a JSON file say for a request. *)
From Coq Require Import String Ascii List ZArith Bool.
From Verif Require Import Base CldrModel GettextModel JsonModel JsonSpec JTextSpec JFileSpec.
Import ListNotations.

(** a file with an object as its catalog, no two names of a message differing
    in letter case only *)
Definition json_file (s : bytes) (l : list (bytes * json)) : Prop :=
  document lenient (JObj l) s /\ Forall (fun kv => plain_names (snd kv)) l.
(** its messages are well formed, and there is one *)
Definition acceptable (l : list (bytes * json)) : Prop :=
  l <> [] /\ exists ms, file_messages l ms /\ Forall valid ms.
(** the text of category [c] of the message [id] in context [ctx] *)
Definition says (ms : list (bytes * option jmsg)) (ctx id : bytes) (c : category) (txt : bytes) : Prop :=
  txt <> [] /\ exists m, j_entry ms ctx id m /\ cat_get (tr_of m) c = Some txt.
(** there is none, for this reason *)
Inductive silent {tag : Type} (ms : list (bytes * option jmsg)) (t : tag) (d ctx id : bytes) (c : category) : lookup_error tag -> Prop :=
| si_context : (forall k m, In (k, Some m) ms -> j_context m <> ctx) -> silent ms t d ctx id c (MissingContext t d ctx)
| si_message : forall k m, In (k, Some m) ms -> j_context m = ctx -> (forall m', ~ j_entry ms ctx id m') ->
    silent ms t d ctx id c (MissingMessage t d ctx (full_key ctx id))
| si_text : forall m, j_entry ms ctx id m -> (forall txt, cat_get (tr_of m) c = Some txt -> txt = []) ->
    silent ms t d ctx id c (MissingTranslation t d ctx (full_key ctx id) (cat_num c)).
