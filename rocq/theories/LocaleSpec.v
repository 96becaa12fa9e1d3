(** What a translation request should answer, said without the lookup
    functions: languages are asked one after the other, the first that has
    the message answers. *)
From Coq Require Import String Ascii List ZArith Bool.
From Verif Require Import Base LocaleModel.
Import ListNotations.

Section Spec.
  Variable tag any E C : Type.
  Notation error := (error tag E).
  Notation event := (event tag E).
  Notation locale := (locale tag any E).
  Notation localizer := (localizer tag any E C).
  Notation l_lang := (l_lang tag any E).
  Notation l_cats := (l_cats tag any E).
  Notation l_print := (l_print tag any E).
  Notation l_plural := (l_plural tag any E).
  Notation l_source := (l_source tag any E).
  Notation cat_lookup := (cat_lookup any E).
  Notation cat_lookup_plural := (cat_lookup_plural any E).

  (** A request: singular or plural. *)
  Inductive request : Type :=
  | Sing (d ctx id : bytes) (vars : list any)
  | Plur (d ctx sg pl : bytes) (n : any) (vars : list any).

  (** The language [l] has the answer [t]. *)
  Inductive answers (l : locale) : request -> bytes -> Prop :=
  | a_source d ctx id vars :
      l_source l = true -> answers l (Sing d ctx id vars) (l_print l id vars)
  | a_source_one d ctx sg pl n vars :
      l_source l = true -> fst (l_plural l n) = 0%Z \/ pl = [] ->
      answers l (Plur d ctx sg pl n vars) (l_print l sg vars)
  | a_source_many d ctx sg pl n vars :
      l_source l = true -> fst (l_plural l n) <> 0%Z -> pl <> [] ->
      answers l (Plur d ctx sg pl n vars) (l_print l pl vars)
  | a_catalog d ctx id vars c t :
      l_source l = false -> In (d, c) (l_cats l) -> cat_lookup c ctx id = inl t ->
      answers l (Sing d ctx id vars) (l_print l t vars)
  | a_catalog_plural d ctx sg pl n vars c t :
      l_source l = false -> In (d, c) (l_cats l) -> cat_lookup_plural c ctx sg n = inl t ->
      answers l (Plur d ctx sg pl n vars) (l_print l t vars).

  Definition domain (q : request) : bytes :=
    match q with Sing d _ _ _ => d | Plur d _ _ _ _ _ => d end.

  (** The language [l] has no answer, for the reason [e]. *)
  Inductive lacks (l : locale) : request -> error -> Prop :=
  | k_domain q :
      l_source l = false -> (forall c, ~ In (domain q, c) (l_cats l)) ->
      lacks l q (EDomain _ _ (l_lang l) (domain q))
  | k_message d ctx id vars c e :
      l_source l = false -> In (d, c) (l_cats l) -> cat_lookup c ctx id = inr e ->
      lacks l (Sing d ctx id vars) (EOther _ _ e)
  | k_plural d ctx sg pl n vars c e :
      l_source l = false -> In (d, c) (l_cats l) -> cat_lookup_plural c ctx sg n = inr e ->
      lacks l (Plur d ctx sg pl n vars) (EOther _ _ e).

  (** Asking a list of languages: [es] are the reasons of those that lack the
      message, [w] is the first one that has it, [t] its answer. *)
  Inductive asked (q : request) : list locale -> list error -> locale -> bytes -> Prop :=
  | hit l ls t : answers l q t -> asked q (l :: ls) [] l t
  | miss l ls e es w t : lacks l q e -> asked q ls es w t -> asked q (l :: ls) (e :: es) w t.

  (** The error of a request: that of the first language asked, or "no
      matching locale" for a localizer without a language of its own. *)
  Definition reported (found : bool) (es : list error) : option error :=
    match es with
    | e :: _ => Some e
    | [] => if found then None else Some (ELocale _ _)
    end.

  (** The languages of a localizer. *)
  Definition chain (z : localizer) : list locale :=
    [z_locale _ _ _ _ z; b_fallback _ _ _ _ (z_bundle _ _ _ _ z);
     b_source _ _ _ _ (z_bundle _ _ _ _ z)].

  (** Calls of the callback for the reasons [es]. *)
  Definition calls (cb : option C) (es : list error) : list event :=
    match cb with Some _ => map (EvMissing _ _) es | None => [] end.

  (** The complaint of the source language's plural rule about the number. *)
  Definition bad_number (q : request) (w : locale) : list error :=
    match q with
    | Plur _ _ _ _ n _ =>
        if l_source w then match snd (l_plural w n) with Some e => [EOther _ _ e] | None => [] end
        else []
    | Sing _ _ _ _ => []
    end.

  (** Localizers as bundles make them: the source text is always there, a
      language has one locale, a domain of a locale one catalog. *)
  Definition wf (z : localizer) : Prop :=
    l_source (b_source _ _ _ _ (z_bundle _ _ _ _ z)) = true /\
    (l_lang (z_locale _ _ _ _ z) = l_lang (b_fallback _ _ _ _ (z_bundle _ _ _ _ z)) ->
     z_locale _ _ _ _ z = b_fallback _ _ _ _ (z_bundle _ _ _ _ z)) /\
    (forall l, In l (chain z) -> NoDup (map fst (l_cats l))).
End Spec.
