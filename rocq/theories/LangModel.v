(** Lookup of a plural rule for a language tag. *)
From Coq Require Import String Ascii List ZArith Bool.
From Verif Require Import Base.
Import ListNotations.

(** golang.org/x/text/language.Tag is external: an arbitrary type of tags with
    the four methods the code calls.  [base] gives the base string and whether
    its confidence is at least High. *)
Section Lang.
  Variable tag : Type.
  Variable is_root : tag -> bool.
  Variable tag_string : tag -> bytes.
  Variable base : tag -> bytes * bool.
  Variable parent : tag -> tag.
  (** a built-in rule or rule set *)
  Variable R : Type.
  Variable get_built_in : bytes -> option R.

  (** catalog/poplural/builtin.go:21-39 (pluralRuleForLanguage) and
      catalog/cldrplural/builtin.go:10-28 (ForLanguage), the same text up to
      names.  Fuel: one unit per step to the parent. *)
  Fixpoint for_language (fuel : nat) (n : tag) : res (option R * bool) :=
    if is_root n then Ok (get_built_in (bs "en"), false)
    else match fuel with
    | O => OutOfFuel
    | S f =>
        match get_built_in (tag_string n) with
        | Some r => Ok (Some r, true)
        | None =>
            let (b, high) := base n in
            match (if high then get_built_in b else None) with
            | Some r => Ok (Some r, true)
            | None => for_language f (parent n)
            end
        end
    end.
End Lang.
