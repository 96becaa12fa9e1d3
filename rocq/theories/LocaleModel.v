(** Locales and localizers: how a translation request walks through the
    localizer's language, the fallback language and the source text. *)
From Coq Require Import String Ascii List ZArith Bool.
From Verif Require Import Base PoStrModel.
Import ListNotations.

(** External types and functions:
    - [tag]: golang.org/x/text/language.Tag, comparable with ==;
    - [any]: Go's any, used for the arguments of format strings and for the
      number of a plural lookup;
    - [E]: errors made by catalogs, loaders and plural rules;
    - [C]: values of type MissingTranslationCallback. *)
Section Locale.
  Variable tag : Type.
  Variable tag_eq_dec : forall a b : tag, {a = b} + {a <> b}.
  Variable any : Type.
  Variable of_int : Z -> any.
  Variable E : Type.
  Variable C : Type.

  (** The errors the package distinguishes: utils.go:164-217
      (ErrNotFound, ErrMissingLanguage, ErrMissingDomain), utils.go:17
      (errMissingLocale); every other error is external.  [ENil] stands for
      the error of LocalizeWithError on nil (localizer.go:235). *)
  Inductive error : Type :=
  | EDomain (t : tag) (d : bytes)
  | ELanguage (t : tag)
  | ENotFound (e : E)
  | ELocale
  | ENil
  | EOther (e : E).

  (** What a run does besides returning: calls of the missing callback, and
      calls of a loader (bundle.go:204), in order. *)
  Inductive event : Type :=
  | EvMissing (e : error)
  | EvLoad (t : tag) (d : bytes).
  Definition W (A : Type) : Type := (list event * A)%type.
  Definition wret {A} (a : A) : W A := ([], a).
  Definition wbind {A B} (m : W A) (k : A -> W B) : W B :=
    let (l, a) := m in let (l', b) := k a in (l ++ l', b).
  Notation "'let+' x := r 'in' k" := (wbind r (fun x => k))
    (at level 200, x pattern, r at level 100, k at level 200).

  (** catalog/catalog.go (interface Catalog): only the two lookups matter
      here.  The catalogs of this project are modelled in GettextModel and
      JsonModel.  A nil Catalog is not modelled. *)
  Record catalog : Type := {
    cat_lookup : bytes -> bytes -> bytes + E;
    cat_lookup_plural : bytes -> bytes -> any -> bytes + E
  }.

  (** utils.go:22 (PrintFunc); nil is not modelled *)
  Definition print_func := bytes -> list any -> bytes.
  (** catalog/poplural: a plural function gives an index and an error *)
  Definition plural_func := any -> Z * option E.

  (** locale.go:11-18.  The field bundle is not stored: the one thing read
      through it is the callback, passed as [cb]. *)
  Record locale : Type := {
    l_lang : tag;
    l_cats : list (bytes * catalog);
    l_print : print_func;
    l_plural : plural_func;
    l_source : bool
  }.

  (** Calling the callback if there is one (locale.go:51, 60, 77, 86, 98). *)
  Definition missing (cb : option C) (e : error) : list event :=
    match cb with Some _ => [EvMissing e] | None => [] end.

  Fixpoint cat_get (m : list (bytes * catalog)) (d : bytes) : option catalog :=
    match m with
    | [] => None
    | (k, c) :: m' => if beq k d then Some c else cat_get m' d
    end.

  (** locale.go:109-119 (getCatalog) *)
  Definition get_catalog (l : locale) (d : bytes) : catalog + error :=
    match cat_get (l_cats l) d with
    | None => inr (EDomain (l_lang l) d)
    | Some c => inl c
    end.

  (** locale.go:44-68 (lookupSingularTranslation).  On an error the returned
      string is "". *)
  Definition locale_singular (cb : option C) (l : locale)
      (d ctx id : bytes) (vars : list any) : W (bytes + error) :=
    if l_source l then wret (inl (l_print l id vars))
    else match get_catalog l d with
    | inr e => (missing cb e, inr e)
    | inl c =>
        match cat_lookup c ctx id with
        | inr e => (missing cb (EOther e), inr (EOther e))
        | inl t => wret (inl (l_print l t vars))
        end
    end.

  (** locale.go:96-107 (printSourceMessage) *)
  Definition print_source (cb : option C) (l : locale)
      (sg pl : bytes) (n : any) (vars : list any) : W bytes :=
    let (idx, e) := l_plural l n in
    let ev := match e with Some e' => missing cb (EOther e') | None => [] end in
    if (idx =? 0)%Z || is_nil pl then (ev, l_print l sg vars)
    else (ev, l_print l pl vars).

  (** locale.go:70-94 (lookupPluralTranslation) *)
  Definition locale_plural (cb : option C) (l : locale)
      (d ctx sg pl : bytes) (n : any) (vars : list any) : W (bytes + error) :=
    if l_source l then
      let+ t := print_source cb l sg pl n vars in wret (inl t)
    else match get_catalog l d with
    | inr e => (missing cb e, inr e)
    | inl c =>
        match cat_lookup_plural c ctx sg n with
        | inr e => (missing cb (EOther e), inr (EOther e))
        | inl t => wret (inl (l_print l t vars))
        end
    end.

  (** What a localizer reads of its bundle (bundle.go:56-69). *)
  Record bundle : Type := {
    b_callback : option C;
    b_default_domain : bytes;
    b_err_ctx : bytes;
    b_fallback : locale;
    b_source : locale;
    b_match : list tag -> option nat;
    b_languages : list tag;
    b_locales : list (tag * locale);
    b_domains : list bytes
  }.

  (** localizer.go:22-27 *)
  Record localizer : Type := {
    z_bundle : bundle;
    z_locale : locale;
    z_domain : bytes;
    z_found : bool
  }.

  (** text and error of a locale's answer, as Go returns them *)
  Definition text_of (r : bytes + error) : bytes :=
    match r with inl t => t | inr _ => [] end.

  (** localizer.go:295-315 (lookupSingularTranslation).  The localizer's and
      the fallback's language are compared before the second attempt. *)
  Definition lookup_singular (z : localizer) (d ctx id : bytes) (vars : list any)
      : W (bytes * option error) :=
    let b := z_bundle z in
    let cb := b_callback b in
    let+ r := locale_singular cb (z_locale z) d ctx id vars in
    match r with
    | inl t => wret (t, if z_found z then None else Some ELocale)
    | inr ea =>
        let src :=
          let+ r3 := locale_singular cb (b_source b) d ctx id vars in
          wret (text_of r3, Some ea) in
        if tag_eq_dec (l_lang (z_locale z)) (l_lang (b_fallback b)) then src
        else
          let+ r2 := locale_singular cb (b_fallback b) d ctx id vars in
          match r2 with
          | inl t => wret (t, Some ea)
          | inr _ => src
          end
    end.

  (** localizer.go:317-334 (lookupPluralTranslation): no comparison here. *)
  Definition lookup_plural (z : localizer) (d ctx sg pl : bytes) (n : any)
      (vars : list any) : W (bytes * option error) :=
    let b := z_bundle z in
    let cb := b_callback b in
    let+ r := locale_plural cb (z_locale z) d ctx sg pl n vars in
    match r with
    | inl t => wret (t, if z_found z then None else Some ELocale)
    | inr ea =>
        let+ r2 := locale_plural cb (b_fallback b) d ctx sg pl n vars in
        match r2 with
        | inl t => wret (t, Some ea)
        | inr _ =>
            let+ r3 := locale_plural cb (b_source b) d ctx sg pl n vars in
            wret (text_of r3, Some ea)
        end
    end.

  (** t, _ := ...; return t *)
  Definition drop_err (m : W (bytes * option error)) : W bytes :=
    let+ r := m in wret (fst r).

  (** bundle.go:20 *)
  Definition NoCtx : bytes := [].

  (** localizer.go:132-228, one definition per method *)
  Definition Get z m := drop_err (lookup_singular z (z_domain z) NoCtx m []).
  Definition Getf z m vars := drop_err (lookup_singular z (z_domain z) NoCtx m vars).
  Definition DGet z d m := drop_err (lookup_singular z d NoCtx m []).
  Definition DGetf z d m vars := drop_err (lookup_singular z d NoCtx m vars).
  Definition NGet z sg pl n := drop_err (lookup_plural z (z_domain z) NoCtx sg pl n []).
  Definition NGetf z sg pl n vars := drop_err (lookup_plural z (z_domain z) NoCtx sg pl n vars).
  Definition DNGet z d sg pl n := drop_err (lookup_plural z d NoCtx sg pl n []).
  Definition DNGetf z d sg pl n vars := drop_err (lookup_plural z d NoCtx sg pl n vars).
  Definition PGet z c m := drop_err (lookup_singular z (z_domain z) c m []).
  Definition PGetf z c m vars := drop_err (lookup_singular z (z_domain z) c m vars).
  Definition DPGet z d c m := drop_err (lookup_singular z d c m []).
  Definition DPGetf z d c m vars := drop_err (lookup_singular z d c m vars).
  Definition NPGet z c sg pl n := drop_err (lookup_plural z (z_domain z) c sg pl n []).
  Definition NPGetf z c sg pl n vars := drop_err (lookup_plural z (z_domain z) c sg pl n vars).
  Definition DNPGet z d c sg pl n := drop_err (lookup_plural z d c sg pl n []).
  Definition DNPGetf z d c sg pl n vars := drop_err (lookup_plural z d c sg pl n vars).

  (** localizer.go:336-431 (KeyLocalizer), one definition per method *)
  Definition KGet z k := drop_err (lookup_singular z (z_domain z) NoCtx k []).
  Definition KGetf z k vars := drop_err (lookup_singular z (z_domain z) NoCtx k vars).
  Definition KDGet z d k := drop_err (lookup_singular z d NoCtx k []).
  Definition KDGetf z d k vars := drop_err (lookup_singular z d NoCtx k vars).
  Definition KNGet z k n := drop_err (lookup_plural z (z_domain z) NoCtx k k n []).
  Definition KNGetf z k n vars := drop_err (lookup_plural z (z_domain z) NoCtx k k n vars).
  Definition KDNGet z d k n := drop_err (lookup_plural z d NoCtx k k n []).
  Definition KDNGetf z d k n vars := drop_err (lookup_plural z d NoCtx k k n vars).
  Definition KPGet z c k := drop_err (lookup_singular z (z_domain z) c k []).
  Definition KPGetf z c k vars := drop_err (lookup_singular z (z_domain z) c k vars).
  Definition KDPGet z d c k := drop_err (lookup_singular z d c k []).
  Definition KDPGetf z d c k vars := drop_err (lookup_singular z d c k vars).
  Definition KNPGet z c k n := drop_err (lookup_plural z (z_domain z) c k k n []).
  Definition KNPGetf z c k n vars := drop_err (lookup_plural z (z_domain z) c k k n vars).
  Definition KDNPGet z d c k n := drop_err (lookup_plural z d c k k n []).
  Definition KDNPGetf z d c k n vars := drop_err (lookup_plural z d c k k n vars).

  (** localize/types.go:35-52 (Localizable): the answers of its methods *)
  Record localizable : Type := {
    m_id : bytes;
    m_plural : bytes;
    m_ctx : bytes;
    m_vars : list any;
    m_count : Z;
    m_has_domain : bool;
    m_domain : bytes
  }.

  (** localize/types.go:54-76 (Message): a message without a domain *)
  Definition message (sg pl ctx : bytes) (vars : list any) (count : Z) : localizable :=
    {| m_id := sg; m_plural := pl; m_ctx := ctx; m_vars := vars; m_count := count;
       m_has_domain := false; m_domain := [] |}.

  (** localizer.go:233-253 (LocalizeWithError); None is the nil interface *)
  Definition localize_with_error (z : localizer) (t : option localizable)
      : W (bytes * option error) :=
    match t with
    | None => wret (bs "<nil>", Some ENil)
    | Some m =>
        let d := if m_has_domain m then m_domain m else z_domain z in
        if is_nil (m_plural m)
        then lookup_singular z d (m_ctx m) (m_id m) (m_vars m)
        else lookup_plural z d (m_ctx m) (m_id m) (m_plural m) (of_int (m_count m)) (m_vars m)
    end.

  (** localizer.go:256-259 (Localize) *)
  Definition localize (z : localizer) (t : option localizable) : W bytes :=
    drop_err (localize_with_error z t).

  (** An argument of LocalizeError: nil, an error that is a Localizable, or
      one with just a text; [gerror] is its identity.  The result keeps the
      error or wraps it (localize/error.go). *)
  Inductive goerr (G : Type) : Type :=
  | GNil
  | GLocalizable (g : G) (m : localizable)
  | GText (g : G) (msg : bytes).
  Arguments GNil {G}.
  Arguments GLocalizable {G} _ _.
  Arguments GText {G} _ _.
  Inductive lerr (G : Type) : Type :=
  | RNil
  | RSame (g : G)
  | RWrapped (t : bytes) (g : G).
  Arguments RNil {G}.
  Arguments RSame {G} _.
  Arguments RWrapped {G} _ _.

  (** localizer.go:268-289 (LocalizeError) *)
  Definition localize_error {G} (z : localizer) (e : goerr G) : W (lerr G) :=
    match e with
    | GNil => wret RNil
    | GLocalizable g m =>
        let+ r := localize_with_error z (Some m) in
        match snd r with
        | Some _ => wret (RSame g)
        | None => wret (RWrapped (fst r) g)
        end
    | GText g msg =>
        let+ r := lookup_singular z (z_domain z) (b_err_ctx (z_bundle z)) msg [] in
        match snd r with
        | Some _ => wret (RSame g)
        | None => wret (RWrapped (fst r) g)
        end
    end.

  (** localizer.go:291-293 (Print) *)
  Definition print (z : localizer) (format : bytes) (vars : list any) : bytes :=
    l_print (z_locale z) format vars.

  Fixpoint loc_get (m : list (tag * locale)) (t : tag) : option locale :=
    match m with
    | [] => None
    | (k, l) :: m' => if tag_eq_dec k t then Some l else loc_get m' t
    end.

  (** localizer.go:82-101 (newLocalizerFromTag) with at most one tag, as it is
      called *)
  Definition new_localizer_from_tag (b : bundle) (d : bytes) (t : option tag) : localizer :=
    match t with
    | Some t' =>
        match loc_get (b_locales b) t' with
        | Some l => {| z_bundle := b; z_locale := l; z_domain := d; z_found := true |}
        | None => {| z_bundle := b; z_locale := b_fallback b; z_domain := d; z_found := false |}
        end
    | None => {| z_bundle := b; z_locale := b_fallback b; z_domain := d; z_found := false |}
    end.

  (** An argument naming languages: a tag, a string or something else. *)
  Inductive langarg : Type :=
  | LTag (t : tag)
  | LString (s : bytes)
  | LOther.

  (** language.ParseAcceptLanguage, external: None on an error *)
  Variable parse_accept : bytes -> option (list tag).

  Definition tags_of (a : langarg) : list tag :=
    match a with
    | LTag t => [t]
    | LString s => match parse_accept s with Some ts => ts | None => [] end
    | LOther => []
    end.

  (** localizer.go:41-65 (NewLocalizerForDomain).  [b_match] is the bundle's
      matcher: the index of the match when its confidence is above No.  An
      index outside of the language list panics (line 60). *)
  Definition new_localizer_for_domain (b : bundle) (d : bytes) (lang : list langarg)
      : res localizer :=
    match b_match b (flat_map tags_of lang) with
    | Some i =>
        match nth_error (b_languages b) i with
        | Some t => Ok (new_localizer_from_tag b d (Some t))
        | None => Panic
        end
    | None => Ok (new_localizer_from_tag b d None)
    end.

  (** localizer.go:68-70 (NewLocalizer) *)
  Definition new_localizer (b : bundle) (lang : list langarg) : res localizer :=
    new_localizer_for_domain b (b_default_domain b) lang.
End Locale.
