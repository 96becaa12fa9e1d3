(** JSON catalogs: messages, building, lookups, reading and writing.
    encoding/json (standard library) is modelled here on parsed JSON values; its
    text level (lexing, escapes, writing) is in JTextModel.v. *)
From Coq Require Import String Ascii List ZArith Bool.
From Verif Require Import Base StrModel PoStrModel CldrModel CldrBuiltin LangModel GettextModel.
Import ListNotations.
Open Scope Z_scope.

(** A JSON value; object members in the order of the text. *)
Inductive json : Type :=
| JNull
| JBool (b : bool)
| JNum (raw : bytes)
| JStr (s : bytes)
| JArr (l : list json)
| JObj (l : list (bytes * json)).

(** map[cldrplural.Category]string.  Only the six named categories are
    modelled as keys. *)
Definition catmap := list (category * bytes).
Fixpoint cat_get (m : catmap) (c : category) : option bytes :=
  match m with
  | [] => None
  | (d, v) :: m' => if cat_eqb d c then Some v else cat_get m' c
  end.
Fixpoint cat_set (m : catmap) (c : category) (v : bytes) : catmap :=
  match m with
  | [] => [(c, v)]
  | (d, w) :: m' => if cat_eqb d c then (c, v) :: m' else (d, w) :: cat_set m' c v
  end.
Fixpoint cat_del (m : catmap) (c : category) : catmap :=
  match m with
  | [] => []
  | (d, w) :: m' => if cat_eqb d c then cat_del m' c else (d, w) :: cat_del m' c
  end.

(** catalog/json.go:289-297 (JSONMessage); Translations may be nil. *)
Record jmsg : Type := JMsg { j_comment : bytes; j_context : bytes; j_tr : option catmap }.

(** catalog/json.go:266-287 (applyCategoriesToJSONMessage); [order] is the
    iteration order over CategoryNames (cldrplural/cldr.go:24-31). *)
Definition apply_category (cats : list category) (m : catmap) (c : category) : catmap :=
  if existsb (cat_eqb c) cats then
    match cat_get m c with
    | None => cat_set m c []
    | Some _ => m
    end
  else cat_del m c.
Definition apply_categories (order cats : list category) (m : catmap) : catmap :=
  match length m, cat_get m Other with
  | 1%nat, Some _ => m
  | _, _ => fold_left (apply_category cats) order m
  end.

(** A stored message: context, comment and non-nil translations. *)
Definition jlookup := list (bytes * list (bytes * jmsg)).
(** catalog/json.go:36-46 (jsonCatalog) *)
Record jcat (tag : Type) : Type := JCat {
  jc_lang : tag; jc_domain : bytes; jc_rules : rule_set; jc_map : jlookup }.
Arguments JCat {tag}. Arguments jc_lang {tag}. Arguments jc_domain {tag}.
Arguments jc_rules {tag}. Arguments jc_map {tag}.

(** int(cat), the value in errors *)
Definition cat_num (c : category) : Z :=
  match c with Zero => 0 | One => 1 | Two => 2 | Few => 3 | Many => 4 | Other => 5 end.

Section Json.
  Variable tag : Type.
  (** iteration order over CategoryNames *)
  Variable order : list category.

  (** catalog/json.go:153-184 (setMessage); nil message = None *)
  Definition set_message (c : jcat tag) (key : bytes) (src : option jmsg) : res (jcat tag) :=
    if is_nil key then Err
    else match src with
    | None => Err
    | Some m =>
        if negb (is_nil (j_context m)) && negb (has_suffix key (bs "_" ++ j_context m)) then Err
        else
          let tr := match j_tr m with None => [] | Some t => t end in
          match cat_get tr Other with
          | None => Err
          | Some _ =>
              let msg := JMsg (j_comment m) (j_context m)
                              (Some (apply_categories order (rs_categories (jc_rules c)) tr)) in
              let ctx := j_context m in
              let inner := match map_get (jc_map c) ctx with Some l => l | None => [] end in
              Ok (JCat (jc_lang c) (jc_domain c) (jc_rules c)
                       (map_set (jc_map c) ctx (map_set inner key msg)))
          end
    end.
  Fixpoint set_messages (c : jcat tag) (l : list (bytes * option jmsg)) : res (jcat tag) :=
    match l with
    | [] => Ok c
    | (k, m) :: l' => do c' <- set_message c k m ; set_messages c' l'
    end.

  (** catalog/json.go:53-63 (NewJSONCatalog), 70-87 (NewJSONCatalogWithMessages)
      with the rule set of the language given; [l] is the map of the messages
      in its iteration order. *)
  Definition new_json (lang : tag) (domain : bytes) (rs : rule_set) : jcat tag := JCat lang domain rs [].
  Definition new_json_with (lang : tag) (domain : bytes) (rs : rule_set) (l : list (bytes * option jmsg)) : res (jcat tag) :=
    set_messages (new_json lang domain rs) l.

  (** catalog/json.go:130-149 (getTranslation) *)
  Definition j_translation (c : jcat tag) (ctx key : bytes) (cat : category) : bytes + lookup_error tag :=
    let key := if is_nil ctx then key else key ++ bs "_" ++ ctx in
    match map_get (jc_map c) ctx with
    | None => inr (MissingContext (jc_lang c) (jc_domain c) ctx)
    | Some ms =>
        match map_get ms key with
        | None => inr (MissingMessage (jc_lang c) (jc_domain c) ctx key)
        | Some m =>
            match cat_get (match j_tr m with Some t => t | None => [] end) cat with
            | Some (x :: t) => inl (x :: t)
            | _ => inr (MissingTranslation (jc_lang c) (jc_domain c) ctx key (cat_num cat))
            end
        end
    end.
  (** catalog/json.go:89-96 (Lookup) *)
  Definition j_lookup (c : jcat tag) (ctx id : bytes) : bytes * option (lookup_error tag) :=
    match j_translation c ctx id Other with
    | inr e => (id, Some e)
    | inl t => (t, None)
    end.
  (** catalog/json.go:98-109 (LookupPlural) *)
  Definition j_lookup_plural (c : jcat tag) (ctx id : bytes) (n : number) : res (bytes * option (lookup_error tag)) :=
    match rs_evaluate (jc_rules c) (to_carg n) with
    | Ok cat =>
        match j_translation c ctx id cat with
        | inr e => Ok (id, Some e)
        | inl t => Ok (t, None)
        end
    | Err => Ok (id, Some PluralError)
    | Panic => Panic
    | OutOfFuel => OutOfFuel
    end.

  (** catalog/json.go:118-128 (Messages), the contents; a later context
      replaces an equal key. *)
  Definition j_messages (c : jcat tag) : list (bytes * jmsg) :=
    fold_left (fun acc ctx => fold_left (fun a km => map_set a (fst km) (snd km)) (snd ctx) acc) (jc_map c) [].

  (** catalog/json.go:308-348 (JSONMessage.UnmarshalJSON) on the value; [perm]
      is the iteration order of the map of the members, given as a function
      on its entries.  A null member is the empty string. *)
  Fixpoint str_members (l : list (bytes * json)) : res (list (bytes * bytes)) :=
    match l with
    | [] => Ok []
    | (k, v) :: l' =>
        do r <- str_members l' ;
        match v with
        | JStr s => Ok ((k, s) :: r)
        | JNull => Ok ((k, []) :: r)
        | _ => Err
        end
    end.
  (** the map of members: a later equal key replaces the value *)
  Definition to_map {V} (l : list (bytes * V)) : list (bytes * V) :=
    fold_left (fun m kv => map_set m (fst kv) (snd kv)) l [].
  Definition cat_name (c : category) : bytes :=
    match c with
    | Zero => bs "zero" | One => bs "one" | Two => bs "two"
    | Few => bs "few" | Many => bs "many" | Other => bs "other"
    end.
  Definition all_categories : list category := [Zero; One; Two; Few; Many; Other].
  Definition set_member (m : jmsg) (kv : bytes * bytes) : jmsg :=
    let k := to_lower (fst kv) in
    let tr := match j_tr m with Some t => t | None => [] end in
    if beq k (bs "comment") then JMsg (snd kv) (j_context m) (j_tr m)
    else if beq k (bs "context") then JMsg (j_comment m) (snd kv) (j_tr m)
    else match find (fun c => beq k (cat_name c)) all_categories with
         | Some c => JMsg (j_comment m) (j_context m) (Some (cat_set tr c (snd kv)))
         | None => m
         end.
  Definition unmarshal_message (perm : list (bytes * bytes) -> list (bytes * bytes)) (v : json) : res jmsg :=
    match v with
    | JStr s => Ok (JMsg [] [] (Some [(Other, s)]))
    | JObj l =>
        do mm <- str_members l ;
        Ok (fold_left set_member (perm (to_map mm)) (JMsg [] [] (Some [])))
    | _ => Err
    end.

  (** encoding/json decoding an object into map[string]*JSONMessage: null
      gives a nil pointer, every other value goes to UnmarshalJSON. *)
  Fixpoint unmarshal_members (perm : list (bytes * bytes) -> list (bytes * bytes)) (l : list (bytes * json))
    : res (list (bytes * option jmsg)) :=
    match l with
    | [] => Ok []
    | (k, v) :: l' =>
        do m <- (match v with JNull => Ok None | _ => do m <- unmarshal_message perm v ; Ok (Some m) end) ;
        do r <- unmarshal_members perm l' ;
        Ok ((k, m) :: r)
    end.
  (** catalog/json.go:196-213 (jsonCatalog.UnmarshalJSON); [fperm] is the
      iteration order of the map of the messages. *)
  Definition unmarshal_catalog (perm : list (bytes * bytes) -> list (bytes * bytes))
    (fperm : list (bytes * option jmsg) -> list (bytes * option jmsg)) (c : jcat tag) (v : json) : res (jcat tag) :=
    match v with
    | JObj l =>
        do ms <- unmarshal_members perm l ;
        match to_map ms with
        | [] => Err
        | m => set_messages c (fperm m)
        end
    | _ => Err
    end.
  (** catalog/json_decoder.go:17-24 (Decode).  The target is an interface
      variable: encoding/json sets it to nil for the value null, so that a nil
      catalog is returned without error (None). *)
  Definition decode_json (perm : list (bytes * bytes) -> list (bytes * bytes))
    (fperm : list (bytes * option jmsg) -> list (bytes * option jmsg))
    (lang : tag) (domain : bytes) (rs : rule_set) (v : json) : res (option (jcat tag)) :=
    match v with
    | JNull => Ok None
    | _ => do c <- unmarshal_catalog perm fperm (new_json lang domain rs) v ; Ok (Some c)
    end.

  (** catalog/json.go:360-422 (JSONMessage.MarshalJSON) as a value *)
  Definition marshal_message (m : jmsg) : json :=
    let tr := match j_tr m with None => [] | Some t => t end in
    let tr := if Nat.eqb (length tr) 0 then cat_set tr Other [] else tr in
    if is_nil (j_comment m) && is_nil (j_context m) && Nat.eqb (length tr) 1 then
      JStr (match cat_get tr Other with Some s => s | None => [] end)
    else JObj ((if is_nil (j_comment m) then [] else [(bs "comment", JStr (j_comment m))]) ++
               (if is_nil (j_context m) then [] else [(bs "context", JStr (j_context m))]) ++
               flat_map (fun c => match cat_get tr c with Some s => [(cat_name c, JStr s)] | None => [] end) all_categories).
  (** catalog/json.go:215-250 (jsonCatalog.MarshalJSON): members sorted by key *)
  Definition sorted_keys (l : list (bytes * jmsg)) : list (bytes * jmsg) :=
    PoFileModel.sort (fun a b => PoFileModel.bcmp (fst a) (fst b)) l.
  Definition marshal_catalog (c : jcat tag) : json :=
    JObj (map (fun km => (fst km, marshal_message (snd km))) (sorted_keys (j_messages c))).
End Json.
