(** Bundle creation: options, setup actions, loading of languages. *)
From Coq Require Import String Ascii List ZArith Bool.
From Verif Require Import Base PoFileModel LocaleModel.
Import ListNotations.

(** strings.Index(s, c) followed by s[:idx] if found *)
Fixpoint cut_at (c : ascii) (s : bytes) : bytes :=
  match s with
  | [] => []
  | a :: s' => if Ascii.eqb a c then [] else a :: cut_at c s'
  end.

Section Bundle.
  Variable tag : Type.
  Variable tag_eq_dec : forall a b : tag, {a = b} + {a <> b}.
  Variable und : tag.                         (* language.Und *)
  Variable any E C : Type.
  (** language.Parse and strings.TrimSpace, external *)
  Variable parse : bytes -> tag + E.
  Variable trim_space : bytes -> bytes.
  (** poplural.ForLanguage; modelled in LangModel and PopBuiltin *)
  Variable plural_for : tag -> plural_func any E.
  (** The order in which Go visits the map of loaders.  It may be another one
      on each visit; here it may depend on everything that happened before. *)
  Variable iter : forall A, list (event tag E) -> list A -> list A.

  Notation error := (error tag E).
  Notation event := (event tag E).
  Notation catalog := (catalog any E).
  Notation locale := (locale tag any E).
  Notation bundle := (bundle tag any E C).
  Notation langarg := (langarg tag).
  Notation print_func := (print_func any).
  Notation W := (W tag E).
  Notation "'let+' x := r 'in' k" := (wbind _ _ r (fun x => k))
    (at level 200, x pattern, r at level 100, k at level 200).

  (** utils.go:122-134 (parseLanguageName) *)
  Definition parse_language_name (s : bytes) : tag + E :=
    parse (trim_space (cut_at "." (cut_at "@" (cut_at ":" s)))).

  (** utils.go:136-149 (languageInterfaceToTag); [no_string] is
      ErrRequireStringTag *)
  Variable no_string : E.
  Definition lang_tag (a : langarg) : tag + E :=
    match a with
    | LString _ s => parse_language_name s
    | LTag _ t => inl t
    | LOther _ => inr no_string
    end.

  (** loader.go:22-24 (Loader).  A loader is a function: it answers the same
      call the same way.  A nil catalog together with a nil error is not
      modelled. *)
  Definition loader := tag -> bytes -> catalog + error.
  (** utils.go:26-29 (Printer).  Init is not modelled: for the two printers of
      the package it does not change what GetPrintFunc answers
      (utils.go:41-66, 74). *)
  Definition printer := tag -> print_func.
  (** bundle.go:34 with Match: see [b_match] *)
  Definition matcher_builder := list tag -> list tag -> option nat.

  (** bundle.go:41-49 (bundleBuilder) with the Bundle under construction.
      setupActions are the calls of preloadLanguages they make. *)
  Record builder : Type := {
    u_callback : option C;
    u_printer : printer;
    u_default_domain : bytes;
    u_err_ctx : bytes;
    u_languages : list tag;
    u_locales : list (tag * locale);
    u_domains : list bytes;
    u_source : tag;
    u_fallback : tag;
    u_matcher : matcher_builder;
    u_loaders : list (bytes * loader);
    u_actions : list (bool * list langarg)
  }.

  Definition set_locales (u : builder) (langs : list tag) (locs : list (tag * locale))
      (doms : list bytes) : builder :=
    {| u_callback := u_callback u; u_printer := u_printer u;
       u_default_domain := u_default_domain u; u_err_ctx := u_err_ctx u;
       u_languages := langs; u_locales := locs; u_domains := doms;
       u_source := u_source u; u_fallback := u_fallback u; u_matcher := u_matcher u;
       u_loaders := u_loaders u; u_actions := u_actions u |}.

  (** The exported options.  [None] is a nil argument. *)
  Inductive opt : Type :=
  | ONil
  | OSource (t : tag)
  | OFallback (a : langarg)
  | OCallback (cb : option C)
  | ODefaultDomain (d : bytes)
  | OLoader (d : bytes) (l : option loader)
  | OFsLoader (d : bytes) (l : loader + E)     (* NewFilesystemLoader's result *)
  | OLanguages (l : list langarg)
  | ORequired (l : list langarg)
  | OPrinter (p : option printer)
  | OMatcher (m : option matcher_builder)
  | OErrCtx (c : bytes).

  (** errors made by the options themselves (bundle.go:97, 290, 293, 377...) *)
  Variable opt_error : E.

  Fixpoint has_loader (m : list (bytes * loader)) (d : bytes) : bool :=
    match m with [] => false | (k, _) :: m' => beq k d || has_loader m' d end.

  Definition upd_action (u : builder) (a : bool * list langarg) : builder :=
    {| u_callback := u_callback u; u_printer := u_printer u;
       u_default_domain := u_default_domain u; u_err_ctx := u_err_ctx u;
       u_languages := u_languages u; u_locales := u_locales u; u_domains := u_domains u;
       u_source := u_source u; u_fallback := u_fallback u; u_matcher := u_matcher u;
       u_loaders := u_loaders u; u_actions := u_actions u ++ [a] |}.
  Definition upd_source (u : builder) (t : tag) : builder :=
    {| u_callback := u_callback u; u_printer := u_printer u;
       u_default_domain := u_default_domain u; u_err_ctx := u_err_ctx u;
       u_languages := u_languages u; u_locales := u_locales u; u_domains := u_domains u;
       u_source := t; u_fallback := u_fallback u; u_matcher := u_matcher u;
       u_loaders := u_loaders u; u_actions := u_actions u |}.
  Definition upd_fallback (u : builder) (t : tag) : builder :=
    {| u_callback := u_callback u; u_printer := u_printer u;
       u_default_domain := u_default_domain u; u_err_ctx := u_err_ctx u;
       u_languages := u_languages u; u_locales := u_locales u; u_domains := u_domains u;
       u_source := u_source u; u_fallback := t; u_matcher := u_matcher u;
       u_loaders := u_loaders u; u_actions := u_actions u |}.
  Definition upd_callback (u : builder) (cb : option C) : builder :=
    {| u_callback := cb; u_printer := u_printer u;
       u_default_domain := u_default_domain u; u_err_ctx := u_err_ctx u;
       u_languages := u_languages u; u_locales := u_locales u; u_domains := u_domains u;
       u_source := u_source u; u_fallback := u_fallback u; u_matcher := u_matcher u;
       u_loaders := u_loaders u; u_actions := u_actions u |}.
  Definition upd_default_domain (u : builder) (d : bytes) : builder :=
    {| u_callback := u_callback u; u_printer := u_printer u;
       u_default_domain := d; u_err_ctx := u_err_ctx u;
       u_languages := u_languages u; u_locales := u_locales u; u_domains := u_domains u;
       u_source := u_source u; u_fallback := u_fallback u; u_matcher := u_matcher u;
       u_loaders := u_loaders u; u_actions := u_actions u |}.
  Definition upd_loader (u : builder) (d : bytes) (l : loader) : builder :=
    {| u_callback := u_callback u; u_printer := u_printer u;
       u_default_domain := u_default_domain u; u_err_ctx := u_err_ctx u;
       u_languages := u_languages u; u_locales := u_locales u; u_domains := u_domains u;
       u_source := u_source u; u_fallback := u_fallback u; u_matcher := u_matcher u;
       u_loaders := u_loaders u ++ [(d, l)]; u_actions := u_actions u |}.
  Definition upd_printer (u : builder) (p : printer) : builder :=
    {| u_callback := u_callback u; u_printer := p;
       u_default_domain := u_default_domain u; u_err_ctx := u_err_ctx u;
       u_languages := u_languages u; u_locales := u_locales u; u_domains := u_domains u;
       u_source := u_source u; u_fallback := u_fallback u; u_matcher := u_matcher u;
       u_loaders := u_loaders u; u_actions := u_actions u |}.
  Definition upd_matcher (u : builder) (m : matcher_builder) : builder :=
    {| u_callback := u_callback u; u_printer := u_printer u;
       u_default_domain := u_default_domain u; u_err_ctx := u_err_ctx u;
       u_languages := u_languages u; u_locales := u_locales u; u_domains := u_domains u;
       u_source := u_source u; u_fallback := u_fallback u; u_matcher := m;
       u_loaders := u_loaders u; u_actions := u_actions u |}.
  Definition upd_err_ctx (u : builder) (c : bytes) : builder :=
    {| u_callback := u_callback u; u_printer := u_printer u;
       u_default_domain := u_default_domain u; u_err_ctx := c;
       u_languages := u_languages u; u_locales := u_locales u; u_domains := u_domains u;
       u_source := u_source u; u_fallback := u_fallback u; u_matcher := u_matcher u;
       u_loaders := u_loaders u; u_actions := u_actions u |}.

  (** bundle.go:238-414: what the function an option returns does to the
      builder.  WithDomainPath and WithDomainFs are WithFilesystemLoader with
      special arguments, WithPrintFunction is WithPrinter. *)
  Definition apply_opt (o : opt) (u : builder) : builder + error :=
    match o with
    | ONil => inr (EOther _ _ opt_error)
    | OSource t => inl (upd_action (upd_source u t) (false, [LTag _ t]))
    | OFallback a =>
        match lang_tag a with
        | inr e => inr (EOther _ _ e)
        | inl t => inl (upd_action (upd_fallback u t) (false, [LTag _ t]))
        end
    | OCallback cb => inl (upd_callback u cb)
    | ODefaultDomain d => inl (upd_default_domain u d)
    | OLoader d l =>
        if has_loader (u_loaders u) d then inr (EOther _ _ opt_error)
        else match l with
        | None => inr (EOther _ _ opt_error)
        | Some l' => inl (upd_loader u d l')
        end
    | OFsLoader d l =>
        match l with
        | inr e => inr (EOther _ _ e)
        | inl l' =>
            if has_loader (u_loaders u) d then inr (EOther _ _ opt_error)
            else inl (upd_loader u d l')
        end
    | OLanguages l => inl (upd_action u (true, l))
    | ORequired l => inl (upd_action u (false, l))
    | OPrinter None => inr (EOther _ _ opt_error)
    | OPrinter (Some p) => inl (upd_printer u p)
    | OMatcher None => inr (EOther _ _ opt_error)
    | OMatcher (Some m) => inl (upd_matcher u m)
    | OErrCtx c => inl (upd_err_ctx u c)
    end.

  (** bundle.go:94-101 *)
  Fixpoint apply_opts (os : list opt) (u : builder) : builder + error :=
    match os with
    | [] => inl u
    | o :: os' =>
        match apply_opt o u with
        | inr e => inr e
        | inl u' => apply_opts os' u'
        end
    end.

  (** locale.go:33-42 (buildSourceLocale) *)
  Definition build_source_locale (u : builder) (t : tag) : locale :=
    {| l_lang := t; l_cats := []; l_print := u_printer u t; l_plural := plural_for t;
       l_source := true |}.
  (** locale.go:20-31 (buildLocale) *)
  Definition build_locale (u : builder) (t : tag) (cats : list (bytes * catalog)) : locale :=
    {| l_lang := t; l_cats := cats; l_print := u_printer u t; l_plural := plural_for t;
       l_source := false |}.

  (** m[t] = l on a map of locales *)
  Fixpoint loc_set (m : list (tag * locale)) (t : tag) (l : locale) : list (tag * locale) :=
    match m with
    | [] => [(t, l)]
    | (k, v) :: m' => if tag_eq_dec k t then (k, l) :: m' else (k, v) :: loc_set m' t l
    end.

  Definition add_domain (ds : list bytes) (d : bytes) : list bytes :=
    if existsb (beq d) ds then ds else ds ++ [d].

  (** bundle.go:203-222, the loop over the loaders: catalogs found so far and
      the list of domains, which keeps its growth also when an error stops the
      loop.  catalogs[domain] = cat appends because the keys of a map are
      distinct. *)
  Fixpoint load_domains (cb : option C) (optional : bool) (t : tag)
      (ls : list (bytes * loader)) (cats : list (bytes * catalog)) (doms : list bytes)
      : W (list bytes * (list (bytes * catalog) + error)) :=
    match ls with
    | [] => wret _ _ (doms, inl cats)
    | (d, ld) :: ls' =>
        let+ _ := ([EvLoad _ _ t d], tt) in
        match ld t d with
        | inl c => load_domains cb optional t ls' (cats ++ [(d, c)]) (add_domain doms d)
        | inr e =>
            match e with
            | ENotFound _ _ _ =>
                let+ _ := (missing _ _ _ cb e, tt) in
                if optional then load_domains cb optional t ls' cats doms
                else wret _ _ (doms, inr e)
            | _ => wret _ _ (doms, inr e)
            end
        end
    end.

  (** bundle.go:185-233 (createLocale).  [past] is what happened before; only
      the iteration order looks at it. *)
  Definition create_locale (past : list event) (optional : bool) (t : tag) (u : builder)
      : W (builder * option error) :=
    if tag_eq_dec t und then wret _ _ (u, Some (ELanguage _ _ t))
    else if tag_eq_dec t (u_source u) then
      wret _ _ (set_locales u (u_languages u ++ [t])
                  (loc_set (u_locales u) t (build_source_locale u (u_source u))) (u_domains u),
                None)
    else match loc_get _ tag_eq_dec _ _ (u_locales u) t with
    | Some _ => wret _ _ (u, None)
    | None =>
        let+ (doms, r) := load_domains (u_callback u) optional t
                            (iter _ past (u_loaders u)) [] (u_domains u) in
        match r with
        | inr e => wret _ _ (set_locales u (u_languages u) (u_locales u) doms, Some e)
        | inl [] => wret _ _ (set_locales u (u_languages u) (u_locales u) doms,
                              Some (ELanguage _ _ t))
        | inl cats =>
            wret _ _ (set_locales u (u_languages u ++ [t])
                        (loc_set (u_locales u) t (build_locale u t cats)) doms, None)
        end
    end.

  (** bundle.go:153-183 (preloadLanguages) *)
  Fixpoint preload (past : list event) (optional : bool) (langs : list langarg) (u : builder)
      : W (builder * option error) :=
    match langs with
    | [] => wret _ _ (u, None)
    | a :: langs' =>
        match lang_tag a with
        | inr e => wret _ _ (u, Some (EOther _ _ e))
        | inl t =>
            let (l1, p) := create_locale past optional t u in
            let (u1, r) := p in
            match r with
            | None =>
                let (l2, q) := preload (past ++ l1) optional langs' u1 in (l1 ++ l2, q)
            | Some e =>
                if optional then
                  match e with
                  | ELanguage _ _ _ =>
                      let l1' := l1 ++ missing _ _ _ (u_callback u) e in
                      let (l2, q) := preload (past ++ l1') optional langs' u1 in
                      (l1' ++ l2, q)
                  | _ => (l1, (u1, Some e))
                  end
                else (l1, (u1, Some e))
            end
        end
    end.

  (** bundle.go:105-112 *)
  Fixpoint run_actions (past : list event) (acts : list (bool * list langarg)) (u : builder)
      : W (builder * option error) :=
    match acts with
    | [] => wret _ _ (u, None)
    | (optional, langs) :: acts' =>
        let (l1, p) := preload past optional langs u in
        let (u1, r) := p in
        match r with
        | Some e => (l1, (u1, Some e))
        | None =>
            let (l2, q) := run_actions (past ++ l1) acts' u1 in (l1 ++ l2, q)
        end
    end.

  (** bundle.go:77-92: NewDefaultPrinter and language.NewMatcher are external *)
  Variable default_printer : printer.
  Variable default_matcher : matcher_builder.
  Definition start : builder :=
    {| u_callback := None; u_printer := default_printer;
       u_default_domain := []; u_err_ctx := bs "errors";
       u_languages := []; u_locales := []; u_domains := [];
       u_source := und; u_fallback := und; u_matcher := default_matcher;
       u_loaders := []; u_actions := [] |}.

  (** bundle.go:114-130 *)
  Definition finish (u : builder) : bundle :=
    let src := match loc_get _ tag_eq_dec _ _ (u_locales u) (u_source u) with
               | Some l => l
               | None => build_source_locale u (u_source u)
               end in
    let fb := match loc_get _ tag_eq_dec _ _ (u_locales u) (u_fallback u) with
              | Some l => l
              | None => src
              end in
    {| b_callback := u_callback u;
       b_default_domain := u_default_domain u;
       b_err_ctx := u_err_ctx u;
       b_fallback := fb;
       b_source := src;
       b_match := u_matcher u (u_languages u);
       b_languages := u_languages u;
       b_locales := u_locales u;
       b_domains := u_domains u |}.

  (** bundle.go:76-131 (NewBundle) *)
  Definition new_bundle (os : list opt) : W (bundle + error) :=
    match apply_opts os start with
    | inr e => wret _ _ (inr e)
    | inl u =>
        let (l, p) := run_actions [] (u_actions u) u in
        let (u', r) := p in
        match r with
        | Some e => (l, inr e)
        | None => (l, inl (finish u'))
        end
    end.

  (** bundle.go:138 (CanLocalize) *)
  Definition can_localize (b : bundle) : bool :=
    negb (PoStrModel.is_nil (b_locales _ _ _ _ b)) && negb (PoStrModel.is_nil (b_domains _ _ _ _ b)).
  (** bundle.go:141-143 (SupportedLanguages): the keys, in some order *)
  Definition supported_languages (b : bundle) : list tag := map fst (b_locales _ _ _ _ b).
  (** bundle.go:148-151 (IsLanguageSupported) *)
  Definition is_language_supported (b : bundle) (t : tag) : bool :=
    match b_match _ _ _ _ b [t] with Some _ => true | None => false end.
End Bundle.
