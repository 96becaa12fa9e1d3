(** JSON files as the file loader and the locales see them. *)
From Coq Require Import String Ascii List ZArith Bool.
From Verif Require Import Base LangModel CldrModel CldrBuiltin GettextModel JsonModel JTextModel LocaleModel LoaderModel.
Import ListNotations.

Section App.
  (** golang.org/x/text/language.Tag, see GettextModel *)
  Variable tag : Type.
  Variable is_root : tag -> bool.
  Variable tag_string : tag -> bytes.
  Variable base : tag -> bytes * bool.
  Variable parent : tag -> tag.
  Variable depth : nat.
  (** the orders in which Go visits its maps, for each file anew, see JsonModel *)
  Variable order : tag -> bytes -> bytes -> list category.
  Variable perm : tag -> bytes -> bytes -> list (bytes * bytes) -> list (bytes * bytes).
  Variable fperm : tag -> bytes -> bytes -> list (bytes * option jmsg) -> list (bytes * option jmsg).
  (** errors: those of a lookup, those of a decoder; [crash] stands for a
      panic *)
  Variable E : Type.
  Variable of_lookup : lookup_error tag -> E.
  Variable decode_failed crash : E.

  (** catalog/json.go:89-109 (Lookup, LookupPlural) as the interface Catalog *)
  Definition jcatalog_of (c : jcat tag) : catalog number E :=
    {| cat_lookup := fun ctx id =>
         match j_lookup tag c ctx id with
         | (t, None) => inl t
         | (_, Some e) => inr (of_lookup e)
         end;
       cat_lookup_plural := fun ctx id n =>
         match j_lookup_plural tag c ctx id n with
         | Ok (t, None) => inl t
         | Ok (_, Some e) => inr (of_lookup e)
         | _ => inr crash
         end |}.
  (** The nil interface: calling it panics (locale.go:58, 84).  The locale
      model takes [crash] for an error of the lookup; nothing is stated about
      what follows it. *)
  Definition no_catalog : catalog number E :=
    {| cat_lookup := fun _ _ => inr crash; cat_lookup_plural := fun _ _ _ => inr crash |}.

  (** catalog/json.go:53-63 (NewJSONCatalog), catalog/json_decoder.go:17-24
      (Decode).  [None]: the variable cat was set to nil by null.  A nil rule
      set (no rule for "en") would panic in setMessage. *)
  Definition json_decode (t : tag) (dom s : bytes) : res (option (jcat tag)) :=
    do r <- for_language tag is_root tag_string base parent rule_set cldr_built_in depth t ;
    match fst r with
    | None => Panic
    | Some rs => decode_json_text tag (order t dom s) (perm t dom s) (fperm t dom s) t dom rs s
    end.
  Definition json_decoder : decoder tag number E :=
    DData _ _ _ (fun t dom s =>
      match json_decode t dom s with
      | Ok (Some c) => inl (jcatalog_of c)
      | Ok None => inl no_catalog
      | _ => inr decode_failed
      end).
End App.
