(** From files to texts: the decoders of gettext files as the file loader
    sees them, the catalogs they give as locales see them. *)
From Coq Require Import String Ascii List ZArith Bool.
From Verif Require Import Base StrModel Utf8Model PoFileModel MoModel GettextModel LocaleModel LoaderModel.
Import ListNotations.

Section App.
  (** golang.org/x/text/language.Tag and the folding of strings.EqualFold, see
      GettextModel *)
  Variable tag : Type.
  Variable is_root : tag -> bool.
  Variable tag_string : tag -> bytes.
  Variable base : tag -> bytes * bool.
  Variable parent : tag -> tag.
  Variable fold : rune -> rune.
  Variable depth : nat.
  (** errors: those of a lookup, those of a decoder *)
  Variable E : Type.
  Variable of_lookup : lookup_error tag -> E.
  Variable decode_failed : E.

  (** catalog/po.go:32-52 (Lookup, LookupPlural) as the interface Catalog.  A
      call that does not return is an error here; it is never taken for an
      answer. *)
  Definition catalog_of (c : gcat tag) : catalog number E :=
    {| cat_lookup := fun ctx id =>
         match GettextModel.lookup tag c ctx id with
         | (t, None) => inl t
         | (_, Some e) => inr (of_lookup e)
         end;
       cat_lookup_plural := fun ctx id n =>
         match GettextModel.lookup_plural tag c ctx id n with
         | Ok (t, None) => inl t
         | Ok (_, Some e) => inr (of_lookup e)
         | _ => inr decode_failed
         end |}.

  (** An error of the parser.  A parser that runs forever or panics is taken
      for one that fails; no theorem is about such files. *)
  Definition decoded (r : res (gcat tag)) : catalog number E + E :=
    match r with Ok c => inl (catalog_of c) | _ => inr decode_failed end.

  (** The lines of a text that end with a line feed. *)
  Definition whole_lines (s : bytes) : bytes :=
    match last_index_byte LF s with Some i => firstn (S i) s | None => [] end.
  (** catalog/po_decoder.go:64-76 (DecodeReader).  The data are the bytes that
      were read without an error.  If reading the file fails, bufio.Scanner has
      given the lines complete by then; for the rest its method Err is not nil,
      which scanner.go:53-55, 208-213 takes for the end of the file.  The PO
      text ends there. *)
  Definition po_decoder (use_cldr : bool) : decoder tag number E :=
    DReader _ _ _ (fun t dom data err =>
      decoded (decode_po tag is_root tag_string base parent fold depth use_cldr t dom
                 (match err with None => data | Some _ => whole_lines data end))).
  (** catalog/po_decoder.go:82-97, 174-185 (DecodeReader).  A file that can be
      sought is read piece by piece; an error in a part that is never read
      is not modelled. *)
  Definition mo_decoder (use_cldr : bool) : decoder tag number E :=
    DReader _ _ _ (fun t dom data err =>
      match err with
      | Some e => inr e
      | None => decoded (decode_mo tag is_root tag_string base parent fold depth use_cldr t dom data)
      end).
  Definition gettext_decoder (mo use_cldr : bool) : decoder tag number E :=
    if mo then mo_decoder use_cldr else po_decoder use_cldr.
End App.
