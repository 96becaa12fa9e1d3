(** The table of languages that humanize knows. *)
From Coq Require Import String Ascii List.
From Verif Require Import Base LocaleModel.
Import ListNotations.

(** humanize/helper_table.go:3-7 (LocaleInfo) *)
Record locale_info : Type := Info { li_code : bytes; li_name : bytes; li_local : bytes }.

(** humanize/helper_table.go:9-510 (LocaleInfos): a map, as a list of its entries. *)
Definition locale_infos : list (bytes * locale_info) :=
  map (fun e => match e with (k, c, n, l) => (bs k, Info (bs c) (bs n) (bs l)) end) [
    ("af", "af", "Afrikaans", "Afrikaans");
    ("ar", "ar", "Arabic", "العربيّة");
    ("ar-dz", "ar-dz", "Algerian Arabic", "العربية الجزائرية");
    ("ast", "ast", "Asturian", "asturianu");
    ("az", "az", "Azerbaijani", "Azərbaycanca");
    ("be", "be", "Belarusian", "беларуская");
    ("bg", "bg", "Bulgarian", "български");
    ("bn", "bn", "Bengali", "বাংলা");
    ("br", "br", "Breton", "brezhoneg");
    ("bs", "bs", "Bosnian", "bosanski");
    ("ca", "ca", "Catalan", "català");
    ("ckb", "ckb", "Central Kurdish (Sorani)", "کوردی");
    ("cs", "cs", "Czech", "česky");
    ("cy", "cy", "Welsh", "Cymraeg");
    ("da", "da", "Danish", "dansk");
    ("de", "de", "German", "Deutsch");
    ("dsb", "dsb", "Lower Sorbian", "dolnoserbski");
    ("el", "el", "Greek", "Ελληνικά");
    ("en", "en", "English", "English");
    ("en-au", "en-au", "Australian English", "Australian English");
    ("en-gb", "en-gb", "British English", "British English");
    ("eo", "eo", "Esperanto", "Esperanto");
    ("es", "es", "Spanish", "español");
    ("es-ar", "es-ar", "Argentinian Spanish", "español de Argentina");
    ("es-co", "es-co", "Colombian Spanish", "español de Colombia");
    ("es-mx", "es-mx", "Mexican Spanish", "español de Mexico");
    ("es-ni", "es-ni", "Nicaraguan Spanish", "español de Nicaragua");
    ("es-ve", "es-ve", "Venezuelan Spanish", "español de Venezuela");
    ("et", "et", "Estonian", "eesti");
    ("eu", "eu", "Basque", "Basque");
    ("fa", "fa", "Persian", "فارسی");
    ("fi", "fi", "Finnish", "suomi");
    ("fr", "fr", "French", "français");
    ("fy", "fy", "Frisian", "frysk");
    ("ga", "ga", "Irish", "Gaeilge");
    ("gd", "gd", "Scottish Gaelic", "Gàidhlig");
    ("gl", "gl", "Galician", "galego");
    ("he", "he", "Hebrew", "עברית");
    ("hi", "hi", "Hindi", "हिंदी");
    ("hr", "hr", "Croatian", "Hrvatski");
    ("hsb", "hsb", "Upper Sorbian", "hornjoserbsce");
    ("hu", "hu", "Hungarian", "Magyar");
    ("hy", "hy", "Armenian", "հայերեն");
    ("ia", "ia", "Interlingua", "Interlingua");
    ("io", "io", "Ido", "ido");
    ("id", "id", "Indonesian", "Bahasa Indonesia");
    ("ig", "ig", "Igbo", "Asụsụ Ìgbò");
    ("is", "is", "Icelandic", "Íslenska");
    ("it", "it", "Italian", "italiano");
    ("ja", "ja", "Japanese", "日本語");
    ("ka", "ka", "Georgian", "ქართული");
    ("kab", "kab", "Kabyle", "taqbaylit");
    ("kk", "kk", "Kazakh", "Қазақ");
    ("km", "km", "Khmer", "Khmer");
    ("kn", "kn", "Kannada", "Kannada");
    ("ko", "ko", "Korean", "한국어");
    ("ky", "ky", "Kyrgyz", "Кыргызча");
    ("lb", "lb", "Luxembourgish", "Lëtzebuergesch");
    ("lt", "lt", "Lithuanian", "Lietuviškai");
    ("lv", "lv", "Latvian", "latviešu");
    ("mk", "mk", "Macedonian", "Македонски");
    ("ml", "ml", "Malayalam", "മലയാളം");
    ("mn", "mn", "Mongolian", "Mongolian");
    ("mr", "mr", "Marathi", "मराठी");
    ("ms", "ms", "Malay", "Bahasa Melayu");
    ("my", "my", "Burmese", "မြန်မာဘာသာ");
    ("nb", "nb", "Norwegian Bokmal", "norsk (bokmål)");
    ("ne", "ne", "Nepali", "नेपाली");
    ("nl", "nl", "Dutch", "Nederlands");
    ("nn", "nn", "Norwegian Nynorsk", "norsk (nynorsk)");
    ("no", "no", "Norwegian", "norsk");
    ("os", "os", "Ossetic", "Ирон");
    ("pa", "pa", "Punjabi", "Punjabi");
    ("pl", "pl", "Polish", "polski");
    ("pt", "pt", "Portuguese", "Português");
    ("pt-br", "pt-br", "Brazilian Portuguese", "Português Brasileiro");
    ("ro", "ro", "Romanian", "Română");
    ("ru", "ru", "Russian", "Русский");
    ("sk", "sk", "Slovak", "Slovensky");
    ("sl", "sl", "Slovenian", "Slovenščina");
    ("sq", "sq", "Albanian", "shqip");
    ("sr", "sr", "Serbian", "српски");
    ("sr-latn", "sr-latn", "Serbian Latin", "srpski (latinica)");
    ("sv", "sv", "Swedish", "svenska");
    ("sw", "sw", "Swahili", "Kiswahili");
    ("ta", "ta", "Tamil", "தமிழ்");
    ("te", "te", "Telugu", "తెలుగు");
    ("tg", "tg", "Tajik", "тоҷикӣ");
    ("th", "th", "Thai", "ภาษาไทย");
    ("tk", "tk", "Turkmen", "Türkmençe");
    ("tr", "tr", "Turkish", "Türkçe");
    ("tt", "tt", "Tatar", "Татарча");
    ("udm", "udm", "Udmurt", "Удмурт");
    ("ug", "ug", "Uyghur", "ئۇيغۇرچە");
    ("uk", "uk", "Ukrainian", "Українська");
    ("ur", "ur", "Urdu", "اردو");
    ("uz", "uz", "Uzbek", "oʻzbek tili");
    ("vi", "vi", "Vietnamese", "Tiếng Việt");
    ("zh-hans", "zh-hans", "Simplified Chinese", "简体中文");
    ("zh-hant", "zh-hant", "Traditional Chinese", "繁體中文")
  ]%string.

Fixpoint info_of (l : list (bytes * locale_info)) (code : bytes) : option locale_info :=
  match l with
  | [] => None
  | (k, i) :: l' => if beq k code then Some i else info_of l' code
  end.

Section Names.
  (** external parts, see LocaleModel *)
  Variable tag : Type.
  Variable tag_eq_dec : forall a b : tag, {a = b} + {a <> b}.
  Variable any E C : Type.

  (** humanize/helper.go:17-19 (LanguageName) *)
  Definition language_name (z : localizer tag any E C) (lang : bytes) : W tag E bytes :=
    Get tag tag_eq_dec any E C z lang.
  (** humanize/helper.go:29-35 (LanguageNameByCode) *)
  Definition language_name_by_code (z : localizer tag any E C) (code : bytes) : W tag E bytes :=
    match info_of locale_infos code with
    | None => wret tag E []
    | Some i => Get tag tag_eq_dec any E C z (li_name i)
    end.
End Names.
