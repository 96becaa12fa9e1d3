(** What the file loader should do, said without its search functions. *)
From Coq Require Import String Ascii List ZArith Bool.
From Verif Require Import Base PoFileSpec LocaleModel BundleModel LoaderModel.
Import ListNotations.
Open Scope nat_scope.

(** The names of a language. *)
Inductive expansion (p : tag_parts) : bytes -> Prop :=
| e_tag : expansion p (p_string p)
| e_base b iso3 : p_base p = Some (b, iso3) -> expansion p b
| e_iso3 b iso3 : p_base p = Some (b, iso3) -> expansion p iso3
| e_pair b iso3 x sep :
    p_base p = Some (b, iso3) -> p_region p = Some x \/ p_script p = Some x ->
    sep = bs "-" \/ sep = bs "_" -> expansion p (b ++ sep ++ x).

(** longer names first, names of the same length in alphabetical order *)
Definition more_specific (a b : bytes) : Prop :=
  length b < length a \/ length a = length b /\ bytes_lt a b.

(** the spelling with underscores *)
Definition underscores (s : bytes) : bytes :=
  map (fun c => if Ascii.eqb c "-" then "_"%char else c) s.
Definition hyphen_free (s : bytes) : Prop := ~ In "-"%char s.

Section Spec.
  Variable tag any E : Type.
  Variable parts : tag -> tag_parts.
  Variable clean : bytes -> bytes.
  Variable is_not_exist : E -> bool.
  Notation fsys := (fsys E).
  Notation file := (file E).
  Notation decoder := (decoder tag any E).
  Notation path := (path_join clean).

  (** The list in the documentation of NewDefaultResolver (loader.go:228-239);
      lines with an empty category or domain do not apply. *)
  Definition documented (cat dom loc ext : bytes) : list (list bytes) :=
    let dm := dom ++ ext in
    let lm := loc ++ ext in
    let when s l := match s : bytes with [] => [] | _ => l : list (list bytes) end in
    when cat (when dom [[loc; cat; dm]]) ++
    when dom [[loc; LC_MESSAGES; dm]; [loc; dm]; [dom; lm]] ++
    [[lm]] ++ when cat [[cat; lm]] ++ [[LC_MESSAGES; lm]].

  (** The paths for a name.  Without search only the first pattern is used;
      without a category it is loc/dom.ext, tried before the documented
      list. *)
  Definition patterns (r : resolver_config) (dom ext loc : bytes) : list (list bytes) :=
    match dom with [] => [] | _ => [[loc; r_category r; dom ++ ext]] end ++
    if r_search r then documented (r_category r) dom loc ext else [].
  Definition candidates (r : resolver_config) (t : tag) (dom ext : bytes) : list bytes :=
    map path (flat_map (patterns r dom ext) (expand_language (parts t))).

  (** [x] is the first of the list that has the property *)
  Definition first_of {A} (P : A -> Prop) (l : list A) (x : A) : Prop :=
    exists l1 l2, l = l1 ++ x :: l2 /\ P x /\ Forall (fun y => ~ P y) l1.
  Definition exists_in (f : fsys) (p : bytes) : Prop := fs_stat E f p = true.

  (** candidates for all decoders *)
  Definition all_candidates (r : resolver_config) (ds : list (bytes * decoder)) (t : tag) (dom : bytes)
      : list (bytes * decoder) :=
    flat_map (fun ed => map (fun p => (p, snd ed)) (candidates r t dom (fst ed))) ds.

  (** decoding the open file gives a catalog *)
  Inductive decodes (t : tag) (dom : bytes) (fl : file) : decoder -> catalog any E -> Prop :=
  | dec_data f c :
      f_err E fl = None -> f t dom (f_data E fl) = inl c -> decodes t dom fl (DData _ _ _ f) c
  | dec_reader f c : f t dom (f_data E fl) (f_err E fl) = inl c -> decodes t dom fl (DReader _ _ _ f) c.

  (** A file that Stat sees can be opened; "does not exist" is said by Stat
      and Open only. *)
  Definition sound_fs (f : fsys) : Prop :=
    forall p, exists_in f p -> exists fl, fs_open E f p = inl fl /\
      (forall e, f_err E fl = Some e -> is_not_exist e = false) /\
      (forall e, f_close E fl = Some e -> is_not_exist e = false).
  Definition sound_decoder (d : decoder) : Prop :=
    match d with
    | DData _ _ _ f => forall t dom s e, f t dom s = inr e -> is_not_exist e = false
    | DReader _ _ _ f => forall t dom s r e, f t dom s r = inr e ->
        is_not_exist e = false \/ exists e', r = Some e' /\ is_not_exist e' = true
    end.

  Section Options.
    Variable dir_fs : bytes -> fsys.
    Notation fs_opt := (fs_opt tag any E).
    Definition fs_args (os : list fs_opt) : list (option fsys) :=
      flat_map (fun o => match o with
                         | FFs _ _ _ f => [f] | FPath _ _ _ p => [Some (dir_fs p)] | _ => [] end) os.
    Definition resolver_args (os : list fs_opt) : list (option (resolver tag E)) :=
      flat_map (fun o => match o with FResolver _ _ _ r => [r] | _ => [] end) os.
    Definition decoder_args (os : list fs_opt) : list (bytes * decoder) :=
      flat_map (fun o => match o with FDecoder _ _ _ e d => [(e, d)] | _ => [] end) os.
    (** nils, then possibly one value *)
    Definition set_at_most_once {A} (l : list (option A)) (v : option A) : Prop :=
      exists k, l = repeat None k ++ match v with Some _ => [v] | None => [] end.
  End Options.
End Spec.
