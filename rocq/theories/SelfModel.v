(** What bundles and localizers tell about themselves. *)
From Coq Require Import String Ascii List ZArith Bool.
From Verif Require Import Base LocaleModel.
Import ListNotations.

Section Self.
  Variable tag : Type.
  Variable tag_eq_dec : forall a b : tag, {a = b} + {a <> b}.
  Variable any E C : Type.
  Variable parse_accept : bytes -> option (list tag).
  Notation localizer := (localizer tag any E C).
  Notation bundle := (bundle tag any E C).

  (** bundle.go:135 (Bundle.Domains).  CanLocalize, SupportedLanguages and
      IsLanguageSupported are at the end of BundleModel. *)
  Definition bundle_domains (b : bundle) : list bytes := b_domains _ _ _ _ b.

  (** localizer.go:104-107 (HasDomain) *)
  Definition has_domain (z : localizer) (d : bytes) : bool :=
    match cat_get _ _ (l_cats _ _ _ (z_locale _ _ _ _ z)) d with Some _ => true | None => false end.
  (** localizer.go:110-113 (Domains): the keys, in some order *)
  Definition domains (z : localizer) : list bytes := map fst (l_cats _ _ _ (z_locale _ _ _ _ z)).
  (** localizer.go:116 (HasLocale) *)
  Definition has_locale (z : localizer) : bool := z_found _ _ _ _ z.
  (** localizer.go:121 (DefaultDomain) *)
  Definition default_domain (z : localizer) : bytes := z_domain _ _ _ _ z.
  (** localizer.go:125 (Language) *)
  Definition language (z : localizer) : tag := l_lang _ _ _ (z_locale _ _ _ _ z).

  (** localizer.go:73-75 (NewKeyLocalizerForDomain): a KeyLocalizer is its
      Localizer *)
  Definition new_key_localizer_for_domain (b : bundle) (d : bytes) (lang : list (langarg tag)) : res localizer :=
    new_localizer_for_domain tag tag_eq_dec any E C parse_accept b d lang.
  (** localizer.go:78-80 (NewKeyLocalizer) *)
  Definition new_key_localizer (b : bundle) (lang : list (langarg tag)) : res localizer :=
    new_localizer tag tag_eq_dec any E C parse_accept b lang.
End Self.
