(** What a bundle should be, read off the list of options: which options are
    valid, which languages are requested, which of them must be there. *)
From Coq Require Import String Ascii List ZArith Bool.
From Verif Require Import Base LocaleModel BundleModel.
Import ListNotations.

Section Spec.
  Variable tag : Type.
  Variable tag_eq_dec : forall a b : tag, {a = b} + {a <> b}.
  Variable und : tag.
  Variable any E C : Type.
  (** the tag a language argument names *)
  Variable name : langarg tag -> tag + E.

  Notation opt := (opt tag any E C).
  Notation loader := (loader tag any E).
  Notation langarg := (langarg tag).
  Notation event := (event tag E).
  Notation locale := (locale tag any E).
  Notation l_lang := (l_lang tag any E).
  Notation l_cats := (l_cats tag any E).
  Notation l_source := (l_source tag any E).

  (** the last value an option list sets, if any *)
  Fixpoint last_set {A} (f : opt -> option A) (os : list opt) : option A :=
    match os with
    | [] => None
    | o :: os' =>
        match last_set f os' with Some a => Some a | None => f o end
    end.
  Definition setting {A} (f : opt -> option A) (d : A) (os : list opt) : A :=
    match last_set f os with Some a => a | None => d end.

  Definition sets_source (o : opt) : option tag :=
    match o with OSource _ _ _ _ t => Some t | _ => None end.
  Definition sets_fallback (o : opt) : option tag :=
    match o with
    | OFallback _ _ _ _ a => match name a with inl t => Some t | inr _ => None end
    | _ => None
    end.
  Definition sets_callback (o : opt) : option (option C) :=
    match o with OCallback _ _ _ _ c => Some c | _ => None end.
  Definition sets_domain (o : opt) : option bytes :=
    match o with ODefaultDomain _ _ _ _ d => Some d | _ => None end.
  Definition sets_printer (o : opt) : option (printer tag any) :=
    match o with OPrinter _ _ _ _ p => p | _ => None end.
  Definition sets_matcher (o : opt) : option (matcher_builder tag) :=
    match o with OMatcher _ _ _ _ p => p | _ => None end.
  Definition sets_err_ctx (o : opt) : option bytes :=
    match o with OErrCtx _ _ _ _ c => Some c | _ => None end.

  Definition source_of (os : list opt) : tag := setting sets_source und os.
  Definition fallback_of (os : list opt) : tag := setting sets_fallback und os.

  Definition loader_of (o : opt) : list (bytes * loader) :=
    match o with
    | OLoader _ _ _ _ d (Some l) => [(d, l)]
    | OFsLoader _ _ _ _ d (inl l) => [(d, l)]
    | _ => []
    end.
  Definition loaders_of (os : list opt) : list (bytes * loader) := flat_map loader_of os.

  (** requested languages, in order; true: optional *)
  Definition request_of (o : opt) : list (bool * langarg) :=
    match o with
    | OSource _ _ _ _ t => [(false, LTag _ t)]
    | OFallback _ _ _ _ a =>
        match name a with inl t => [(false, LTag _ t)] | inr _ => [] end
    | OLanguages _ _ _ _ l => map (pair true) l
    | ORequired _ _ _ _ l => map (pair false) l
    | _ => []
    end.
  Definition requests_of (os : list opt) : list (bool * langarg) := flat_map request_of os.

  Definition valid_opt (o : opt) : Prop :=
    match o with
    | ONil _ _ _ _ => False
    | OFallback _ _ _ _ a => exists t, name a = inl t
    | OLoader _ _ _ _ _ l => l <> None
    | OFsLoader _ _ _ _ _ l => exists l', l = inl l'
    | OPrinter _ _ _ _ p => p <> None
    | OMatcher _ _ _ _ m => m <> None
    | _ => True
    end.
  (** every option is valid and no domain has two loaders *)
  Definition valid (os : list opt) : Prop :=
    Forall valid_opt os /\ NoDup (map fst (loaders_of os)).

  (** the requests with their languages *)
  Definition named (a : bool * langarg) (b : bool * tag) : Prop :=
    fst a = fst b /\ name (snd a) = inl (snd b).

  Section Requests.
    Variable s : tag.
    Variable L : list (bytes * loader).

    Definition loads (t : tag) (p : bytes * loader) : Prop := exists c, snd p t (fst p) = inl c.
    Definition not_found (t : tag) (p : bytes * loader) : Prop :=
      exists e, snd p t (fst p) = inr (ENotFound _ _ e).
    (** some catalog of the language exists *)
    Definition available (t : tag) : Prop := exists p, In p L /\ loads t p.

    (** A request that comes after the requests [before] can be met. *)
    Definition can_meet (before : list (bool * tag)) (r : bool * tag) : Prop :=
      let (optional, t) := r in
      (t = und -> optional = true) /\
      (t <> und -> t <> s ->
       if optional
       then forall p, In p L -> loads t p \/ not_found t p
       else (L <> [] /\ forall p, In p L -> loads t p)
            \/ (In t (map snd before) /\ available t)).
    Definition all_met (rs : list (bool * tag)) : Prop :=
      forall before r after, rs = before ++ r :: after -> can_meet before r.

    (** the languages a bundle has after the requests: each available language
        once, at its first request; the source language at each request *)
    Inductive languages : list (bool * tag) -> list tag -> Prop :=
    | g_nil : languages [] []
    | g_source rs o ts :
        s <> und -> languages rs ts -> languages (rs ++ [(o, s)]) (ts ++ [s])
    | g_new rs o t ts :
        t <> und -> t <> s -> available t -> ~ In t (map snd rs) ->
        languages rs ts -> languages (rs ++ [(o, t)]) (ts ++ [t])
    | g_old rs o t ts :
        t <> s -> In t (map snd rs) ->
        languages rs ts -> languages (rs ++ [(o, t)]) ts
    | g_none rs o t ts :
        t = und \/ (t <> s /\ ~ available t) ->
        languages rs ts -> languages (rs ++ [(o, t)]) ts.

    (** the catalogs of a locale are those its loaders give *)
    Definition backed (t : tag) (l : locale) : Prop :=
      forall d c, In (d, c) (l_cats l) <-> exists ld, In (d, ld) L /\ ld t d = inl c.
  End Requests.

  (** Loaders say "not found" with ErrNotFound (loader.go:20-21), not with
      ErrMissingLanguage. *)
  Definition contract (L : list (bytes * loader)) : Prop :=
    forall d ld t t', In (d, ld) L -> ld t d <> inr (ELanguage _ _ t').

  (** how often a domain was loaded for a language *)
  Fixpoint load_count (t : tag) (d : bytes) (log : list event) : nat :=
    match log with
    | [] => 0
    | EvLoad _ _ t' d' :: log' =>
        (if tag_eq_dec t t' then if beq d d' then 1 else 0 else 0) + load_count t d log'
    | EvMissing _ _ _ :: log' => load_count t d log'
    end.
End Spec.
