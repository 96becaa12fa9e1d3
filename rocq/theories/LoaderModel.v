(** The file loader: language expansion, file resolution, decoding. *)
From Coq Require Import String Ascii List ZArith Bool.
From Verif Require Import Base PoFileModel LocaleModel BundleModel.
Import ListNotations.
Open Scope nat_scope.

(** What ExpandLanguage reads of a language.Tag (golang.org/x/text): String,
    Base (with ISO3), Region and Script; None if the confidence is
    language.No. *)
Record tag_parts : Type := {
  p_string : bytes;
  p_base : option (bytes * bytes);        (* base.String(), base.ISO3() *)
  p_region : option bytes;
  p_script : option bytes
}.

(** utils.go:84-90 (addEntry); [seen] holds the entries of the list *)
Definition add_entry (l : list bytes) (s : bytes) : list bytes :=
  if existsb (beq s) l then l else l ++ [s].

(** utils.go:151-160 (sortLongestFirst).  slices.SortStableFunc is external:
    the entries are distinct, so every sorting algorithm gives this result. *)
Definition longest_cmp (a b : bytes) : Z :=
  or_cmp (zcmp (Z.of_nat (length b)) (Z.of_nat (length a))) (bcmp a b).

(** utils.go:80-120 (ExpandLanguage) *)
Definition expand_language (p : tag_parts) : list bytes :=
  let l := add_entry [] (p_string p) in
  let l := match p_base p with
           | Some (b, iso3) => add_entry (add_entry l iso3) b
           | None => l
           end in
  let l := match p_region p, p_base p with
           | Some r, Some (b, _) => add_entry (add_entry l (b ++ bs "_" ++ r)) (b ++ bs "-" ++ r)
           | _, _ => l
           end in
  let l := match p_script p, p_base p with
           | Some s, Some (b, _) => add_entry (add_entry l (b ++ bs "_" ++ s)) (b ++ bs "-" ++ s)
           | _, _ => l
           end in
  sort longest_cmp l.

Section Loader.
  Variable tag : Type.
  Variable any E : Type.
  Variable parts : tag -> tag_parts.
  (** path.Clean, external *)
  Variable clean : bytes -> bytes.
  (** errors.Is(err, os.ErrNotExist) *)
  Variable is_not_exist : E -> bool.
  (** os.ErrNotExist, the ErrNotFound of Load, the error wrapping of
      loader.go:142, errors.Join, the errors made by options *)
  Variable not_exist : E.
  Variable not_found : tag -> bytes -> E.
  Variable decode_error : bytes -> E -> E.
  Variable join_errors : E -> E -> E.
  Variable option_error : E.

  Notation catalog := (catalog any E).
  Notation error := (error tag E).

  (** An open file: the bytes that can be read, the error that ends reading if
      it is not the end of the file, what Close gives. *)
  Record file : Type := { f_data : bytes; f_err : option E; f_close : option E }.
  (** A file system (io/fs.FS): whether Stat succeeds, and Open.  It does not
      change while it is used. *)
  Record fsys : Type := { fs_stat : bytes -> bool; fs_open : bytes -> file + E }.

  (** catalog.Decoder: Decode on the data, or DecodeReader (DecoderV2) on the
      file.  nil is not modelled. *)
  Inductive decoder : Type :=
  | DData (f : tag -> bytes -> bytes -> catalog + E)
  | DReader (f : tag -> bytes -> bytes -> option E -> catalog + E).
  (** Resolver *)
  Definition resolver := fsys -> bytes -> tag -> bytes -> bytes + E.

  (** path.Join (standard library): empty elements are ignored *)
  Fixpoint join_elems (l : list bytes) : bytes :=
    match l with
    | [] => []
    | [a] => a
    | a :: l' => a ++ bs "/" ++ join_elems l'
    end.
  Definition path_join (l : list bytes) : bytes :=
    match filter (fun e => negb (PoStrModel.is_nil e)) l with
    | [] => []
    | l' => clean (join_elems l')
    end.

  (** loader.go:223-226 (defaultResolver) *)
  Record resolver_config : Type := { r_search : bool; r_category : bytes }.

  (** loader.go:276-282 (tryPath), continued with [k] if there is no file *)
  Definition try_path (f : fsys) (els : list bytes) (k : bytes + E) : bytes + E :=
    if fs_stat f (path_join els) then inl (path_join els) else k.

  Definition LC_MESSAGES : bytes := bs "LC_MESSAGES".

  (** loader.go:274-331 (searchFileForLanguageName) *)
  Definition search_file (r : resolver_config) (f : fsys) (locale domain ext : bytes) : bytes + E :=
    let when (c : bool) els k := if c then try_path f els k else k in
    let d := negb (PoStrModel.is_nil domain) in
    when d [locale; r_category r; domain ++ ext]
    (if negb (r_search r) then inr not_exist
     else
       when d [locale; LC_MESSAGES; domain ++ ext]
       (when d [locale; domain ++ ext]
       (when d [domain; locale ++ ext]
       (try_path f [locale ++ ext]
       (when (negb (PoStrModel.is_nil (r_category r))) [r_category r; locale ++ ext]
       (when (negb (beq (r_category r) LC_MESSAGES)) [LC_MESSAGES; locale ++ ext]
       (inr not_exist))))))).

  (** loader.go:261-272 (Resolve) *)
  Fixpoint resolve_names (r : resolver_config) (f : fsys) (ext domain : bytes) (names : list bytes)
      : bytes + E :=
    match names with
    | [] => inr not_exist
    | n :: names' =>
        match search_file r f n domain ext with
        | inr e => if is_not_exist e then resolve_names r f ext domain names' else inl []
        | inl p => inl p
        end
    end.
  Definition default_resolver (r : resolver_config) : resolver :=
    fun f ext t domain => resolve_names r f ext domain (expand_language (parts t)).

  (** loader.go:45-50 (FilesystemLoader): [l_decoders] are the fields
      extensions and decoder, which grow together (loader.go:149-152) *)
  Record fs_loader : Type := {
    l_fsys : fsys;
    l_resolver : resolver;
    l_decoders : list (bytes * decoder)
  }.

  (** loader.go:110-147 (loadFromFile) *)
  Definition load_from_file (l : fs_loader) (t : tag) (domain ext : bytes) (d : decoder)
      : catalog + E :=
    match l_resolver l (l_fsys l) ext t domain with
    | inr e => inr e
    | inl p =>
        match fs_open (l_fsys l) p with
        | inr e => inr e
        | inl file =>
            let r := match d with
                     | DReader f => f t domain (f_data file) (f_err file)
                     | DData f =>
                         match f_err file with
                         | Some e => inr e
                         | None =>
                             match f t domain (f_data file) with
                             | inr e => inr (decode_error p e)
                             | inl c => inl c
                             end
                         end
                     end in
            match f_close file with
            | None => r
            | Some ce => match r with inl _ => inr ce | inr e => inr (join_errors e ce) end
            end
        end
    end.

  (** loader.go:94-108 (Load) *)
  Fixpoint load_with (l : fs_loader) (t : tag) (domain : bytes) (ds : list (bytes * decoder))
      : catalog + error :=
    match ds with
    | [] => inr (ENotFound _ _ (not_found t domain))
    | (ext, d) :: ds' =>
        match load_from_file l t domain ext d with
        | inr e => if is_not_exist e then load_with l t domain ds' else inr (EOther _ _ e)
        | inl c => inl c
        end
    end.
  Definition load (l : fs_loader) : loader tag any E :=
    fun t domain => load_with l t domain (l_decoders l).

  (** ** Creating a loader *)
  Variable dir_fs : bytes -> fsys.                 (* os.DirFS *)
  Variable po_decoder mo_decoder json_decoder : decoder.

  (** loader.go:154-221; [None] is a nil argument *)
  Inductive fs_opt : Type :=
  | FNil
  | FFs (f : option fsys)
  | FPath (p : bytes)
  | FResolver (r : option resolver)
  | FDecoder (ext : bytes) (d : decoder).

  Record fs_builder : Type := {
    v_fsys : option fsys;
    v_resolver : option resolver;
    v_decoders : list (bytes * decoder)
  }.

  Definition apply_fs_opt (o : fs_opt) (v : fs_builder) : option fs_builder :=
    match o with
    | FNil => None
    | FFs f =>
        match v_fsys v with
        | Some _ => None
        | None => Some {| v_fsys := f; v_resolver := v_resolver v; v_decoders := v_decoders v |}
        end
    | FPath p =>
        match v_fsys v with
        | Some _ => None
        | None => Some {| v_fsys := Some (dir_fs p); v_resolver := v_resolver v;
                          v_decoders := v_decoders v |}
        end
    | FResolver r =>
        match v_resolver v with
        | Some _ => None
        | None => Some {| v_fsys := v_fsys v; v_resolver := r; v_decoders := v_decoders v |}
        end
    | FDecoder ext d =>
        Some {| v_fsys := v_fsys v; v_resolver := v_resolver v;
                v_decoders := v_decoders v ++ [(ext, d)] |}
    end.

  Fixpoint apply_fs_opts (os : list fs_opt) (v : fs_builder) : option fs_builder :=
    match os with
    | [] => Some v
    | o :: os' =>
        match apply_fs_opt o v with None => None | Some v' => apply_fs_opts os' v' end
    end.

  (** loader.go:240-251 (NewDefaultResolver) without options *)
  Definition default_config : resolver_config := {| r_search := true; r_category := [] |}.
  (** loader.go:253-259, the options of the resolver, the last one wins *)
  Inductive resolver_opt : Type := RNoSearch | RCategory (c : bytes).
  Definition apply_resolver_opt (r : resolver_config) (o : resolver_opt) : resolver_config :=
    match o with
    | RNoSearch => {| r_search := false; r_category := r_category r |}
    | RCategory c => {| r_search := r_search r; r_category := c |}
    end.
  Definition new_resolver (os : list resolver_opt) : resolver :=
    default_resolver (fold_left apply_resolver_opt os default_config).

  (** loader.go:58-92 (NewFilesystemLoader) *)
  Definition new_fs_loader (os : list fs_opt) : fs_loader + E :=
    match apply_fs_opts os {| v_fsys := None; v_resolver := None; v_decoders := [] |} with
    | None => inr option_error
    | Some v =>
        let ds := match v_decoders v with
                  | [] => [(bs ".po", po_decoder); (bs ".mo", mo_decoder); (bs ".json", json_decoder)]
                  | ds => ds
                  end in
        match v_fsys v with
        | None => inr option_error
        | Some f =>
            inl {| l_fsys := f;
                   l_resolver := match v_resolver v with Some r => r | None => new_resolver [] end;
                   l_decoders := ds |}
        end
    end.
End Loader.
