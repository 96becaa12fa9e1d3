(** * C32: catalogs without messages; C60: the rules that are recognised *)
From Coq Require Import String Ascii List ZArith Bool Lia.
From Verif Require Import Base BaseProofs PoStrModel PoFileModel PoFileSpec Utf8Model GettextModel GettextSpec GettextProofs PopBuiltin PopBuiltinProofs GoSpec PopSource
  GoSourceProofs GenModel GenSpec GenFileProofs MoreProofs.
Import ListNotations.
Open Scope Z_scope.

(** Messages() only works for a catalog without messages: it then has the
    contexts of the file. *)
Theorem C32_gettext_empty : forall tag is_root tag_string base parent fold fuel f u (lang : tag) dom c,
  build_catalog tag is_root tag_string base parent fold fuel f lang dom u = Ok c ->
  (forall ctx id, ~ has_message (f_messages f) ctx id) ->
  exists r, messages tag c = Ok r /\
    forall ctx, (has_context (f_messages f) ctx -> map_get r ctx = Some []) /\ (~ has_context (f_messages f) ctx -> map_get r ctx = None).
Proof.
  intros tag is_root tag_string base parent fold fuel f u lang dom c H N. destruct (build_ok _ _ _ _ _ _ _ _ _ _ _ _ H) as (p & ->). now apply messages_empty.
Qed.
(** A file whose only message is fuzzy *)
Definition fuzzy_file : pofile :=
  PoFile new_header [set_str (set_ctx (set_id (set_com new_message (Com [] [] [] [bs "fuzzy"] [] [])) (bs "a")) (bs "x")) [(0, bs "b")]].
Example C32_empty_example : (forall ctx id, ~ has_message (f_messages fuzzy_file) ctx id) /\ has_context (f_messages fuzzy_file) (bs "x").
Proof.
  split; [|eexists; split; [now left|reflexivity]]. intros ctx id (m & [<-|[]] & (_ & L) & _). apply L. eexists. split; [reflexivity|]. now left.
Qed.

(** The header of each language and each additional rule, written as the key
    that is looked up, is recognised, with its number of forms. *)
Theorem C60_sources_recognised : exists fs, go_file (text_of_lines pop_source) = Some fs /\
  forall t, In t (map (fun p => bs (fst p)) doc_table) \/ In t extra_rules ->
  exists body k np b, gen_rule t = Ok (body, k, np) /\ call_string fs (bs "getBuiltInForRawRule") k = Some (RPop np b).
Proof. exists pop_file. split; [exact pop_file_read|]. exact source_recognised. Qed.
Example C60_sources_example : In (bs "nplurals=2; plural=(n <= 1 || n >= 11 && n <= 99);") extra_rules.
Proof. cbv [extra_rules]. do 6 right. now left. Qed.

Print Assumptions C32_gettext_empty.
Print Assumptions C60_sources_recognised.
