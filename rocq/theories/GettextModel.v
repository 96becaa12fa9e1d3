(** Gettext catalogs: building one from a PO or MO file, lookups, export. *)
From Coq Require Import String Ascii List ZArith QArith Bool.
From Verif Require Import Base StrModel F64Model NumModel PoStrModel PoFileModel MoModel CldrModel CldrBuiltin PopBuiltin LangModel Utf8Model.
Import ListNotations.
Open Scope Z_scope.

(** catalog/catalog.go:39-134: the errors of a lookup.  The plural function's
    own error is not looked into. *)
Inductive lookup_error (tag : Type) : Type :=
| MissingContext (lang : tag) (domain ctx : bytes)
| MissingMessage (lang : tag) (domain ctx id : bytes)
| MissingTranslation (lang : tag) (domain ctx id : bytes) (idx : Z)
| PluralError.
Arguments MissingContext {tag}. Arguments MissingMessage {tag}.
Arguments MissingTranslation {tag}. Arguments PluralError {tag}.

(** An argument of a plural lookup: an integer of some kind, a finite float
    given by its shortest decimal digits (value 0.digs * 10^dp), or nil. *)
Inductive number : Type :=
| NInt (k : ikind) (z : Z)
| NFloat (neg : bool) (digs : bytes) (dp : Z)
| NNil.
(** As argument of poplural's Evaluate.  The float is the one nearest to its
    shortest decimal; digits beyond the largest float stand for no float, the
    value of that case is arbitrary. *)
Definition to_arg (n : number) : option arg :=
  match n with
  | NInt k z => Some (AInt k z)
  | NFloat neg digs dp =>
      let e := dp - Z.of_nat (length digs) in
      let v := if e <? 0 then f64_round (dec_val digs) (10 ^ (- e)) else f64_round (dec_val digs * 10 ^ e) 1 in
      Some match v with
           | Some q => AFloat (if neg then - Qnum q else Qnum q) (Zpos (Qden q))
           | None => AFloat (2 ^ 1024) 1
           end
  | NNil => None
  end.
(** As argument of cldrplural's Evaluate: int and int64 are handled apart. *)
Definition to_carg (n : number) : carg :=
  match n with
  | NInt Kint z | NInt Kint64 z => CInt z
  | NInt k z => CKind k z
  | NFloat neg digs dp => CFloat neg digs dp
  | NNil => CNil
  end.

(** A map from strings; the iteration order is the order of the list. *)
Fixpoint map_get {V} (m : list (bytes * V)) (k : bytes) : option V :=
  match m with
  | [] => None
  | (j, v) :: m' => if beq j k then Some v else map_get m' k
  end.
Fixpoint map_set {V} (m : list (bytes * V)) (k : bytes) (v : V) : list (bytes * V) :=
  match m with
  | [] => [(k, v)]
  | (j, w) :: m' => if beq j k then (k, v) :: m' else (j, w) :: map_set m' k v
  end.

(** catalog/po.go:13 (PoLookupMap) with po.go:97-99 (GettextMessage) *)
Definition lookup_map := list (bytes * list (bytes * strmap)).

(** catalog/po.go:19-28 (GettextCatalog) *)
Record gcat (tag : Type) : Type := GCat {
  g_lang : tag; g_domain : bytes; g_plural : number -> res Z; g_map : lookup_map }.
Arguments GCat {tag}. Arguments g_lang {tag}. Arguments g_domain {tag}.
Arguments g_plural {tag}. Arguments g_map {tag}.

Section Gettext.
  (** golang.org/x/text/language.Tag and its methods, see LangModel *)
  Variable tag : Type.
  Variable is_root : tag -> bool.
  Variable tag_string : tag -> bytes.
  Variable base : tag -> bytes * bool.
  Variable parent : tag -> tag.
  (** folding of strings.EqualFold, see Utf8Model *)
  Variable fold : rune -> rune.
  (** steps to the root tag *)
  Variable depth : nat.

  (** catalog/po.go:77-92 (getMessage) *)
  Definition get_translations (c : gcat tag) (ctx id : bytes) (idx : Z) : strmap + lookup_error tag :=
    match map_get (g_map c) ctx with
    | None => inr (MissingContext (g_lang c) (g_domain c) ctx)
    | Some ms =>
        match map_get ms id with
        | None => inr (MissingMessage (g_lang c) (g_domain c) ctx id)
        | Some trs =>
            match str_get trs idx with
            | None => inr (MissingTranslation (g_lang c) (g_domain c) ctx id idx)
            | Some t =>
                if is_nil t then inr (MissingTranslation (g_lang c) (g_domain c) ctx id idx)
                else inl trs
            end
        end
    end.

  (** catalog/po.go:32-39 (Lookup) *)
  Definition lookup (c : gcat tag) (ctx id : bytes) : bytes * option (lookup_error tag) :=
    match get_translations c ctx id 0 with
    | inr e => (id, Some e)
    | inl trs => (str_at trs 0, None)
    end.

  (** catalog/po.go:41-52 (LookupPlural) *)
  Definition lookup_plural (c : gcat tag) (ctx id : bytes) (n : number) : res (bytes * option (lookup_error tag)) :=
    match g_plural c n with
    | Ok idx =>
        match get_translations c ctx id idx with
        | inr e => Ok (id, Some e)
        | inl trs => Ok (str_at trs idx, None)
        end
    | Err => Ok (id, Some PluralError)
    | Panic => Panic
    | OutOfFuel => OutOfFuel
    end.

  (** catalog/po.go:97-109: a message pointer, nil or not; Clone has a value
      receiver, so calling it on nil panics.  maps.Clone gives an equal map. *)
  Definition clone (p : option strmap) : res strmap :=
    match p with
    | None => Panic
    | Some m => Ok m
    end.
  (** catalog/po.go:68-71: the inner loop of Messages, [cpy] being cpy[ctx] *)
  Fixpoint copy_messages (cpy : list (bytes * strmap)) (ms : list (bytes * strmap)) : res (list (bytes * strmap)) :=
    match ms with
    | [] => Ok cpy
    | (id, _) :: ms' =>
        do m <- clone (map_get cpy id) ;
        copy_messages (map_set cpy id m) ms'
    end.
  (** catalog/po.go:64-75 (Messages) *)
  Fixpoint copy_contexts (cpy : lookup_map) (m : lookup_map) : res lookup_map :=
    match m with
    | [] => Ok cpy
    | (ctx, ms) :: m' =>
        do c <- copy_messages [] ms ;
        copy_contexts (map_set cpy ctx c) m'
    end.
  Definition messages (c : gcat tag) : res lookup_map := copy_contexts [] (g_map c).

  (** catalog/po/comment.go:54-56 (HasFlag) on a comment that may be nil *)
  Definition is_fuzzy (m : message) : bool :=
    match m_com m with
    | None => false
    | Some c => existsb (beq (bs "fuzzy")) (cm_flags c)
    end.

  (** catalog/po_decoder.go:99-125: the maps.  The file's messages are a flat
      list here, each stored under its own context and id; a context without
      messages does not occur. *)
  Definition add_entry (lm : lookup_map) (m : message) : lookup_map :=
    let lm := match map_get lm (m_ctx m) with
              | None => map_set lm (m_ctx m) []
              | Some _ => lm
              end in
    if is_nil (m_id m) then lm
    else if is_fuzzy m then lm
    else match map_get lm (m_ctx m) with
         | Some ms => map_set lm (m_ctx m) (map_set ms (m_id m) (m_str m))
         | None => lm
         end.
  Definition build_map (ms : list message) : lookup_map := fold_left add_entry ms [].

  (** catalog/po_decoder.go:152-172 (getCLDRPluralFunction).  A nil rule set
      (no rule for "en") would panic here. *)
  Definition cldr_function (lang : tag) : res (number -> res Z) :=
    do r <- for_language tag is_root tag_string base parent rule_set cldr_built_in depth lang ;
    match fst r with
    | None => Panic
    | Some rs => Ok (fun n => do i <- cldr_plural_index rs (to_carg n) ; Ok (Z.of_nat i))
    end.

  (** catalog/poplural/rule.go:23-31 (Evaluate) on any argument *)
  Definition rule_function (r : PopModel.rule) (n : number) : res Z :=
    match to_arg n with
    | None => Err
    | Some a => Ok (evaluate r a)
    end.

  (** catalog/po_decoder.go:99-150 (buildGettextCatalog).  The domain is not
      stored (lines 127-130).  The header of a parsed file is never nil. *)
  Definition build_catalog (f : pofile) (lang : tag) (domain : bytes) (use_cldr : bool) : res (gcat tag) :=
    let lm := build_map (f_messages f) in
    let forms := header_get fold (f_header f) (bs "Plural-Forms") in
    if use_cldr || is_nil forms then
      do p <- cldr_function lang ; Ok (GCat lang [] p lm)
    else if equal_fold fold (header_get fold (f_header f) (bs "X-spreak-use-CLDR")) (bs "true") then
      do p <- cldr_function lang ; Ok (GCat lang [] p lm)
    else
      do r <- parse_rule forms ; Ok (GCat lang [] (rule_function r) lm).

  (** catalog/po_decoder.go:60-76 (poDecoder): comments are ignored. *)
  Definition decode_po (use_cldr : bool) (lang : tag) (domain data : bytes) : res (gcat tag) :=
    do f <- parse_po_fuel (S (length data)) true data ; build_catalog f lang domain use_cldr.
  (** catalog/po_decoder.go:78-96 (moDecoder) *)
  Definition decode_mo (use_cldr : bool) (lang : tag) (domain data : bytes) : res (gcat tag) :=
    do f <- parse_mo data ; build_catalog f lang domain use_cldr.
End Gettext.
