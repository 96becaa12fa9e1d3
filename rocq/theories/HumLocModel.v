(** The translations that come with humanize: how they are loaded and how a
    collection is made from them. *)
From Coq Require Import String Ascii List ZArith Bool.
From Verif Require Import Base Utf8Model LocaleModel BundleModel GettextModel AppModel DfmtModel.
Import ListNotations.

(** humanize/humanizer.go:36-41 (LocaleData): the text of the language, from
    which the package makes the tag with language.MustParse, the files of Fs,
    and Format, which may be nil. *)
Record locale_data : Type := LD {
  ld_lang : bytes; ld_fs : list (bytes * bytes); ld_format : option format_data }.

(** fs.ReadFile of an embedded file system without directories *)
Fixpoint read_embedded (fs : list (bytes * bytes)) (name : bytes) : option bytes :=
  match fs with
  | [] => None
  | (k, v) :: fs' => if beq k name then Some v else read_embedded fs' name
  end.

Section Humanize.
  (** external parts, see GettextModel, BundleModel, AppModel *)
  Variable tag : Type.
  Variable tag_eq_dec : forall a b : tag, {a = b} + {a <> b}.
  Variable is_root : tag -> bool.
  Variable tag_string : tag -> bytes.
  Variable base : tag -> bytes * bool.
  Variable parent : tag -> tag.
  Variable fold : rune -> rune.
  Variable depth : nat.
  Variable E C : Type.
  Variable of_lookup : lookup_error tag -> E.
  Variable decode_failed : E.
  Variable not_found : tag -> bytes -> E.
  (** language.MustParse; language.English *)
  Variable must_parse : bytes -> tag.

  (** humanize/locale.go:12-24 (localeLoader, newLoader): a map from tags, a
      later locale of the same language replaces an earlier one. *)
  Fixpoint find_locale (ls : list locale_data) (t : tag) : option locale_data :=
    match ls with
    | [] => None
    | d :: ls' =>
        match find_locale ls' t with
        | Some d' => Some d'
        | None => if tag_eq_dec (must_parse (ld_lang d)) t then Some d else None
        end
    end.

  (** humanize/locale.go:26-45 (Load) *)
  Definition hum_load (ls : list locale_data) : loader tag number E :=
    fun t domain =>
      match find_locale ls t with
      | None => inr (ENotFound _ _ (not_found t domain))
      | Some d =>
          match read_embedded (ld_fs d) (domain ++ bs ".po") with
          | None => inr (ENotFound _ _ (not_found t domain))
          | Some content =>
              match decode_po tag is_root tag_string base parent fold depth false t domain content with
              | Ok c => inl (catalog_of tag E of_lookup decode_failed c)
              | _ => inr (EOther _ _ decode_failed)
              end
          end
      end.

  (** humanize/humanizer.go:86-100 (WithLocale, WithBundleOption), 105-151 (New): the options given to
      spreak.NewBundle.  [own] are those of WithBundleOption; [langs] are the
      keys of the loader's map, in the order in which Go visits them. *)
  Definition hum_options (own : list (opt tag number E C)) (ls : list locale_data) (langs : list tag)
      : list (opt tag number E C) :=
    own ++
    [OSource _ _ _ _ (must_parse (bs "en")); ODefaultDomain _ _ _ _ (bs "django");
     OLoader _ _ _ _ (bs "django") (Some (hum_load ls));
     OLanguages _ _ _ _ (map (LTag tag) langs)].
End Humanize.
