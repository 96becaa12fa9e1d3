(** Model of catalog/cldrplural/builtin_gen.go (generated Go, translated
    mechanically: one definition per rule set constructor, one table row per
    switch case).  Go's [%] on int64 is [Z.rem]; [neq_const x k] is the float64
    comparison [x == k]. *)
From Coq Require Import String Ascii List ZArith QArith Bool.
From Verif Require Import Base F64Model CldrModel.
Import ListNotations.
Open Scope Z_scope.

(** catalog/cldrplural/builtin_gen.go:95-103 *)
Definition rs_bm : rule_set := RuleSet [Other] (fun o => Other).

(** catalog/cldrplural/builtin_gen.go:106-118 *)
Definition rs_af : rule_set := RuleSet [One; Other] (fun o =>
    if (neq_const (oN o) 1) then One else Other).

(** catalog/cldrplural/builtin_gen.go:121-133 *)
Definition rs_ak : rule_set := RuleSet [One; Other] (fun o =>
    if (is_float_in_range (oN o) [(0, 1)]) then One else Other).

(** catalog/cldrplural/builtin_gen.go:136-148 *)
Definition rs_am : rule_set := RuleSet [One; Other] (fun o =>
    if (((oI o) =? 0) || (neq_const (oN o) 1)) then One else Other).

(** catalog/cldrplural/builtin_gen.go:151-163 *)
Definition rs_ast : rule_set := RuleSet [One; Other] (fun o =>
    if (((oI o) =? 1) && ((oV o) =? 0)) then One else Other).

(** catalog/cldrplural/builtin_gen.go:166-178 *)
Definition rs_ceb : rule_set := RuleSet [One; Other] (fun o =>
    if (((((oV o) =? 0) && ((((oI o) =? 1) || ((oI o) =? 2)) || ((oI o) =? 3))) || (((oV o) =? 0) && (negb (contains [4; 6; 9] (Z.rem (oI o) 10))))) || ((negb ((oV o) =? 0)) && (negb (contains [4; 6; 9] (Z.rem (oF o) 10))))) then One else Other).

(** catalog/cldrplural/builtin_gen.go:181-193 *)
Definition rs_da : rule_set := RuleSet [One; Other] (fun o =>
    if ((neq_const (oN o) 1) || ((negb ((oT o) =? 0)) && (((oI o) =? 0) || ((oI o) =? 1)))) then One else Other).

(** catalog/cldrplural/builtin_gen.go:196-208 *)
Definition rs_ff : rule_set := RuleSet [One; Other] (fun o =>
    if (((oI o) =? 0) || ((oI o) =? 1)) then One else Other).

(** catalog/cldrplural/builtin_gen.go:211-223 *)
Definition rs_is : rule_set := RuleSet [One; Other] (fun o =>
    if (((((oT o) =? 0) && ((Z.rem (oI o) 10) =? 1)) && (negb ((Z.rem (oI o) 100) =? 11))) || (((Z.rem (oT o) 10) =? 1) && (negb ((Z.rem (oT o) 100) =? 11)))) then One else Other).

(** catalog/cldrplural/builtin_gen.go:226-238 *)
Definition rs_mk : rule_set := RuleSet [One; Other] (fun o =>
    if (((((oV o) =? 0) && ((Z.rem (oI o) 10) =? 1)) && (negb ((Z.rem (oI o) 100) =? 11))) || (((Z.rem (oF o) 10) =? 1) && (negb ((Z.rem (oF o) 100) =? 11)))) then One else Other).

(** catalog/cldrplural/builtin_gen.go:241-253 *)
Definition rs_si : rule_set := RuleSet [One; Other] (fun o =>
    if ((is_float_one_of (oN o) [0; 1]) || (((oI o) =? 0) && ((oF o) =? 1))) then One else Other).

(** catalog/cldrplural/builtin_gen.go:256-268 *)
Definition rs_tzm : rule_set := RuleSet [One; Other] (fun o =>
    if ((is_float_in_range (oN o) [(0, 1)]) || (is_float_in_range (oN o) [(11, 99)])) then One else Other).

(** catalog/cldrplural/builtin_gen.go:271-288 *)
Definition rs_blo : rule_set := RuleSet [Zero; One; Other] (fun o =>
    if (neq_const (oN o) 0) then Zero else
    if (neq_const (oN o) 1) then One else Other).

(** catalog/cldrplural/builtin_gen.go:291-308 *)
Definition rs_bs : rule_set := RuleSet [One; Few; Other] (fun o =>
    if (((((oV o) =? 0) && ((Z.rem (oI o) 10) =? 1)) && (negb ((Z.rem (oI o) 100) =? 11))) || (((Z.rem (oF o) 10) =? 1) && (negb ((Z.rem (oF o) 100) =? 11)))) then One else
    if (((((oV o) =? 0) && (((Z.rem (oI o) 10) >=? 2) && ((Z.rem (oI o) 10) <=? 4))) && (negb (((Z.rem (oI o) 100) >=? 12) && ((Z.rem (oI o) 100) <=? 14)))) || ((((Z.rem (oF o) 10) >=? 2) && ((Z.rem (oF o) 10) <=? 4)) && (negb (((Z.rem (oF o) 100) >=? 12) && ((Z.rem (oF o) 100) <=? 14))))) then Few else Other).

(** catalog/cldrplural/builtin_gen.go:311-328 *)
Definition rs_ca : rule_set := RuleSet [One; Many; Other] (fun o =>
    if (((oI o) =? 1) && ((oV o) =? 0)) then One else
    if ((((((oC o) =? 0) && (negb ((oI o) =? 0))) && ((Z.rem (oI o) 1000000) =? 0)) && ((oV o) =? 0)) || (negb (((oC o) >=? 0) && ((oC o) <=? 5)))) then Many else Other).

(** catalog/cldrplural/builtin_gen.go:331-348 *)
Definition rs_es : rule_set := RuleSet [One; Many; Other] (fun o =>
    if (neq_const (oN o) 1) then One else
    if ((((((oC o) =? 0) && (negb ((oI o) =? 0))) && ((Z.rem (oI o) 1000000) =? 0)) && ((oV o) =? 0)) || (negb (((oC o) >=? 0) && ((oC o) <=? 5)))) then Many else Other).

(** catalog/cldrplural/builtin_gen.go:351-368 *)
Definition rs_fr : rule_set := RuleSet [One; Many; Other] (fun o =>
    if (((oI o) =? 0) || ((oI o) =? 1)) then One else
    if ((((((oC o) =? 0) && (negb ((oI o) =? 0))) && ((Z.rem (oI o) 1000000) =? 0)) && ((oV o) =? 0)) || (negb (((oC o) >=? 0) && ((oC o) <=? 5)))) then Many else Other).

(** catalog/cldrplural/builtin_gen.go:371-388 *)
Definition rs_he : rule_set := RuleSet [One; Two; Other] (fun o =>
    if ((((oI o) =? 1) && ((oV o) =? 0)) || (((oI o) =? 0) && (negb ((oV o) =? 0)))) then One else
    if (((oI o) =? 2) && ((oV o) =? 0)) then Two else Other).

(** catalog/cldrplural/builtin_gen.go:391-408 *)
Definition rs_iu : rule_set := RuleSet [One; Two; Other] (fun o =>
    if (neq_const (oN o) 1) then One else
    if (neq_const (oN o) 2) then Two else Other).

(** catalog/cldrplural/builtin_gen.go:411-428 *)
Definition rs_lag : rule_set := RuleSet [Zero; One; Other] (fun o =>
    if (neq_const (oN o) 0) then Zero else
    if ((((oI o) =? 0) || ((oI o) =? 1)) && (negb (neq_const (oN o) 0))) then One else Other).

(** catalog/cldrplural/builtin_gen.go:431-448 *)
Definition rs_lv : rule_set := RuleSet [Zero; One; Other] (fun o =>
    if (((neq_const (fmod (oN o) 10) 0) || (is_float_in_range (fmod (oN o) 100) [(11, 19)])) || (((oV o) =? 2) && (((Z.rem (oF o) 100) >=? 11) && ((Z.rem (oF o) 100) <=? 19)))) then Zero else
    if ((((neq_const (fmod (oN o) 10) 1) && (negb (neq_const (fmod (oN o) 100) 11))) || ((((oV o) =? 2) && ((Z.rem (oF o) 10) =? 1)) && (negb ((Z.rem (oF o) 100) =? 11)))) || ((negb ((oV o) =? 2)) && ((Z.rem (oF o) 10) =? 1))) then One else Other).

(** catalog/cldrplural/builtin_gen.go:451-468 *)
Definition rs_mo : rule_set := RuleSet [One; Few; Other] (fun o =>
    if (((oI o) =? 1) && ((oV o) =? 0)) then One else
    if (((negb ((oV o) =? 0)) || (neq_const (oN o) 0)) || ((negb (neq_const (oN o) 1)) && (is_float_in_range (fmod (oN o) 100) [(1, 19)]))) then Few else Other).

(** catalog/cldrplural/builtin_gen.go:471-488 *)
Definition rs_pt : rule_set := RuleSet [One; Many; Other] (fun o =>
    if (((oI o) >=? 0) && ((oI o) <=? 1)) then One else
    if ((((((oC o) =? 0) && (negb ((oI o) =? 0))) && ((Z.rem (oI o) 1000000) =? 0)) && ((oV o) =? 0)) || (negb (((oC o) >=? 0) && ((oC o) <=? 5)))) then Many else Other).

(** catalog/cldrplural/builtin_gen.go:491-508 *)
Definition rs_shi : rule_set := RuleSet [One; Few; Other] (fun o =>
    if (((oI o) =? 0) || (neq_const (oN o) 1)) then One else
    if (is_float_in_range (oN o) [(2, 10)]) then Few else Other).

(** catalog/cldrplural/builtin_gen.go:511-533 *)
Definition rs_be : rule_set := RuleSet [One; Few; Many; Other] (fun o =>
    if ((neq_const (fmod (oN o) 10) 1) && (negb (neq_const (fmod (oN o) 100) 11))) then One else
    if ((is_float_in_range (fmod (oN o) 10) [(2, 4)]) && (negb (is_float_in_range (fmod (oN o) 100) [(12, 14)]))) then Few else
    if (((neq_const (fmod (oN o) 10) 0) || (is_float_in_range (fmod (oN o) 10) [(5, 9)])) || (is_float_in_range (fmod (oN o) 100) [(11, 14)])) then Many else Other).

(** catalog/cldrplural/builtin_gen.go:536-558 *)
Definition rs_cs : rule_set := RuleSet [One; Few; Many; Other] (fun o =>
    if (((oI o) =? 1) && ((oV o) =? 0)) then One else
    if ((((oI o) >=? 2) && ((oI o) <=? 4)) && ((oV o) =? 0)) then Few else
    if (negb ((oV o) =? 0)) then Many else Other).

(** catalog/cldrplural/builtin_gen.go:561-583 *)
Definition rs_dsb : rule_set := RuleSet [One; Two; Few; Other] (fun o =>
    if ((((oV o) =? 0) && ((Z.rem (oI o) 100) =? 1)) || ((Z.rem (oF o) 100) =? 1)) then One else
    if ((((oV o) =? 0) && ((Z.rem (oI o) 100) =? 2)) || ((Z.rem (oF o) 100) =? 2)) then Two else
    if ((((oV o) =? 0) && (((Z.rem (oI o) 100) >=? 3) && ((Z.rem (oI o) 100) <=? 4))) || (((Z.rem (oF o) 100) >=? 3) && ((Z.rem (oF o) 100) <=? 4))) then Few else Other).

(** catalog/cldrplural/builtin_gen.go:586-608 *)
Definition rs_gd : rule_set := RuleSet [One; Two; Few; Other] (fun o =>
    if (is_float_one_of (oN o) [1; 11]) then One else
    if (is_float_one_of (oN o) [2; 12]) then Two else
    if (is_float_in_range (oN o) [(3, 10); (13, 19)]) then Few else Other).

(** catalog/cldrplural/builtin_gen.go:611-633 *)
Definition rs_lt : rule_set := RuleSet [One; Few; Many; Other] (fun o =>
    if ((neq_const (fmod (oN o) 10) 1) && (negb (is_float_in_range (fmod (oN o) 100) [(11, 19)]))) then One else
    if ((is_float_in_range (fmod (oN o) 10) [(2, 9)]) && (negb (is_float_in_range (fmod (oN o) 100) [(11, 19)]))) then Few else
    if (negb ((oF o) =? 0)) then Many else Other).

(** catalog/cldrplural/builtin_gen.go:636-658 *)
Definition rs_pl : rule_set := RuleSet [One; Few; Many; Other] (fun o =>
    if (((oI o) =? 1) && ((oV o) =? 0)) then One else
    if ((((oV o) =? 0) && (((Z.rem (oI o) 10) >=? 2) && ((Z.rem (oI o) 10) <=? 4))) && (negb (((Z.rem (oI o) 100) >=? 12) && ((Z.rem (oI o) 100) <=? 14)))) then Few else
    if ((((((oV o) =? 0) && (negb ((oI o) =? 1))) && (((Z.rem (oI o) 10) >=? 0) && ((Z.rem (oI o) 10) <=? 1))) || (((oV o) =? 0) && (((Z.rem (oI o) 10) >=? 5) && ((Z.rem (oI o) 10) <=? 9)))) || (((oV o) =? 0) && (((Z.rem (oI o) 100) >=? 12) && ((Z.rem (oI o) 100) <=? 14)))) then Many else Other).

(** catalog/cldrplural/builtin_gen.go:661-683 *)
Definition rs_ru : rule_set := RuleSet [One; Few; Many; Other] (fun o =>
    if ((((oV o) =? 0) && ((Z.rem (oI o) 10) =? 1)) && (negb ((Z.rem (oI o) 100) =? 11))) then One else
    if ((((oV o) =? 0) && (((Z.rem (oI o) 10) >=? 2) && ((Z.rem (oI o) 10) <=? 4))) && (negb (((Z.rem (oI o) 100) >=? 12) && ((Z.rem (oI o) 100) <=? 14)))) then Few else
    if (((((oV o) =? 0) && ((Z.rem (oI o) 10) =? 0)) || (((oV o) =? 0) && (((Z.rem (oI o) 10) >=? 5) && ((Z.rem (oI o) 10) <=? 9)))) || (((oV o) =? 0) && (((Z.rem (oI o) 100) >=? 11) && ((Z.rem (oI o) 100) <=? 14)))) then Many else Other).

(** catalog/cldrplural/builtin_gen.go:686-708 *)
Definition rs_sl : rule_set := RuleSet [One; Two; Few; Other] (fun o =>
    if (((oV o) =? 0) && ((Z.rem (oI o) 100) =? 1)) then One else
    if (((oV o) =? 0) && ((Z.rem (oI o) 100) =? 2)) then Two else
    if ((((oV o) =? 0) && (((Z.rem (oI o) 100) >=? 3) && ((Z.rem (oI o) 100) <=? 4))) || (negb ((oV o) =? 0))) then Few else Other).

(** catalog/cldrplural/builtin_gen.go:711-738 *)
Definition rs_br : rule_set := RuleSet [One; Two; Few; Many; Other] (fun o =>
    if ((neq_const (fmod (oN o) 10) 1) && (negb (is_float_one_of (fmod (oN o) 100) [11; 71; 91]))) then One else
    if ((neq_const (fmod (oN o) 10) 2) && (negb (is_float_one_of (fmod (oN o) 100) [12; 72; 92]))) then Two else
    if (((is_float_in_range (fmod (oN o) 10) [(3, 4)]) || (neq_const (fmod (oN o) 10) 9)) && (negb (is_float_in_range (fmod (oN o) 100) [(10, 19); (70, 79); (90, 99)]))) then Few else
    if ((negb (neq_const (oN o) 0)) && (neq_const (fmod (oN o) 1000000) 0)) then Many else Other).

(** catalog/cldrplural/builtin_gen.go:741-768 *)
Definition rs_ga : rule_set := RuleSet [One; Two; Few; Many; Other] (fun o =>
    if (neq_const (oN o) 1) then One else
    if (neq_const (oN o) 2) then Two else
    if (is_float_in_range (oN o) [(3, 6)]) then Few else
    if (is_float_in_range (oN o) [(7, 10)]) then Many else Other).

(** catalog/cldrplural/builtin_gen.go:771-798 *)
Definition rs_gv : rule_set := RuleSet [One; Two; Few; Many; Other] (fun o =>
    if (((oV o) =? 0) && ((Z.rem (oI o) 10) =? 1)) then One else
    if (((oV o) =? 0) && ((Z.rem (oI o) 10) =? 2)) then Two else
    if (((oV o) =? 0) && (contains [0; 20; 40; 60; 80] (Z.rem (oI o) 100))) then Few else
    if (negb ((oV o) =? 0)) then Many else Other).

(** catalog/cldrplural/builtin_gen.go:801-828 *)
Definition rs_mt : rule_set := RuleSet [One; Two; Few; Many; Other] (fun o =>
    if (neq_const (oN o) 1) then One else
    if (neq_const (oN o) 2) then Two else
    if ((neq_const (oN o) 0) || (is_float_in_range (fmod (oN o) 100) [(3, 10)])) then Few else
    if (is_float_in_range (fmod (oN o) 100) [(11, 19)]) then Many else Other).

(** catalog/cldrplural/builtin_gen.go:831-863 *)
Definition rs_ar : rule_set := RuleSet [Zero; One; Two; Few; Many; Other] (fun o =>
    if (neq_const (oN o) 0) then Zero else
    if (neq_const (oN o) 1) then One else
    if (neq_const (oN o) 2) then Two else
    if (is_float_in_range (fmod (oN o) 100) [(3, 10)]) then Few else
    if (is_float_in_range (fmod (oN o) 100) [(11, 99)]) then Many else Other).

(** catalog/cldrplural/builtin_gen.go:866-898 *)
Definition rs_cy : rule_set := RuleSet [Zero; One; Two; Few; Many; Other] (fun o =>
    if (neq_const (oN o) 0) then Zero else
    if (neq_const (oN o) 1) then One else
    if (neq_const (oN o) 2) then Two else
    if (neq_const (oN o) 3) then Few else
    if (neq_const (oN o) 6) then Many else Other).

(** catalog/cldrplural/builtin_gen.go:901-933 *)
Definition rs_kw : rule_set := RuleSet [Zero; One; Two; Few; Many; Other] (fun o =>
    if (neq_const (oN o) 0) then Zero else
    if (neq_const (oN o) 1) then One else
    if (((is_float_one_of (fmod (oN o) 100) [2; 22; 42; 62; 82]) || ((neq_const (fmod (oN o) 1000) 0) && ((is_float_in_range (fmod (oN o) 100000) [(1000, 20000)]) || (is_float_one_of (fmod (oN o) 100000) [40000; 60000; 80000])))) || ((negb (neq_const (oN o) 0)) && (neq_const (fmod (oN o) 1000000) 100000))) then Two else
    if (is_float_one_of (fmod (oN o) 100) [3; 23; 43; 63; 83]) then Few else
    if ((negb (neq_const (oN o) 1)) && (is_float_one_of (fmod (oN o) 100) [1; 21; 41; 61; 81])) then Many else Other).

(** catalog/cldrplural/builtin_gen.go:9-92 (getBuiltInForLanguage) *)
Definition cldr_table : list (list bytes * rule_set) := [
  ([bs "bm"; bs "bo"; bs "dz"; bs "hnj"; bs "id"; bs "ig"; bs "ii"; bs "ja"; bs "jbo"; bs "jv"; bs "jw"; bs "kde"; bs "kea"; bs "km"; bs "ko"; bs "lkt"; bs "lo"; bs "ms"; bs "my"; bs "nqo"; bs "osa"; bs "sah"; bs "ses"; bs "sg"; bs "su"; bs "th"; bs "to"; bs "tpi"; bs "und"; bs "vi"; bs "wo"; bs "yo"; bs "yue"; bs "zh"], rs_bm);
  ([bs "af"; bs "an"; bs "asa"; bs "az"; bs "bal"; bs "bem"; bs "bez"; bs "bg"; bs "brx"; bs "ce"; bs "cgg"; bs "chr"; bs "ckb"; bs "dv"; bs "ee"; bs "el"; bs "eo"; bs "eu"; bs "fo"; bs "fur"; bs "gsw"; bs "ha"; bs "haw"; bs "hu"; bs "jgo"; bs "jmc"; bs "ka"; bs "kaj"; bs "kcg"; bs "kk"; bs "kkj"; bs "kl"; bs "ks"; bs "ksb"; bs "ku"; bs "ky"; bs "lb"; bs "lg"; bs "mas"; bs "mgo"; bs "ml"; bs "mn"; bs "mr"; bs "nah"; bs "nb"; bs "nd"; bs "ne"; bs "nn"; bs "nnh"; bs "no"; bs "nr"; bs "ny"; bs "nyn"; bs "om"; bs "or"; bs "os"; bs "pap"; bs "ps"; bs "rm"; bs "rof"; bs "rwk"; bs "saq"; bs "sd"; bs "sdh"; bs "seh"; bs "sn"; bs "so"; bs "sq"; bs "ss"; bs "ssy"; bs "st"; bs "syr"; bs "ta"; bs "te"; bs "teo"; bs "tig"; bs "tk"; bs "tn"; bs "tr"; bs "ts"; bs "ug"; bs "uz"; bs "ve"; bs "vo"; bs "vun"; bs "wae"; bs "xh"; bs "xog"], rs_af);
  ([bs "ak"; bs "bho"; bs "csw"; bs "guw"; bs "ln"; bs "mg"; bs "nso"; bs "pa"; bs "ti"; bs "wa"], rs_ak);
  ([bs "am"; bs "as"; bs "bn"; bs "doi"; bs "fa"; bs "gu"; bs "hi"; bs "kn"; bs "pcm"; bs "zu"], rs_am);
  ([bs "ast"; bs "de"; bs "en"; bs "et"; bs "fi"; bs "fy"; bs "gl"; bs "ia"; bs "io"; bs "lij"; bs "nl"; bs "sc"; bs "sv"; bs "sw"; bs "ur"; bs "yi"], rs_ast);
  ([bs "ceb"; bs "fil"; bs "tl"], rs_ceb);
  ([bs "da"], rs_da);
  ([bs "ff"; bs "hy"; bs "kab"], rs_ff);
  ([bs "is"], rs_is);
  ([bs "mk"], rs_mk);
  ([bs "si"], rs_si);
  ([bs "tzm"], rs_tzm);
  ([bs "blo"; bs "ksh"], rs_blo);
  ([bs "bs"; bs "hr"; bs "sh"; bs "sr"; bs "sr-Latn"], rs_bs);
  ([bs "ca"; bs "it"; bs "lld"; bs "pt-PT"; bs "scn"; bs "vec"], rs_ca);
  ([bs "es"], rs_es);
  ([bs "fr"], rs_fr);
  ([bs "he"], rs_he);
  ([bs "iu"; bs "naq"; bs "sat"; bs "se"; bs "sma"; bs "smi"; bs "smj"; bs "smn"; bs "sms"], rs_iu);
  ([bs "lag"], rs_lag);
  ([bs "lv"; bs "prg"], rs_lv);
  ([bs "mo"; bs "ro"; bs "ro-MD"], rs_mo);
  ([bs "pt"], rs_pt);
  ([bs "shi"], rs_shi);
  ([bs "be"], rs_be);
  ([bs "cs"; bs "sk"], rs_cs);
  ([bs "dsb"; bs "hsb"], rs_dsb);
  ([bs "gd"], rs_gd);
  ([bs "lt"], rs_lt);
  ([bs "pl"], rs_pl);
  ([bs "ru"; bs "uk"], rs_ru);
  ([bs "sl"], rs_sl);
  ([bs "br"], rs_br);
  ([bs "ga"], rs_ga);
  ([bs "gv"], rs_gv);
  ([bs "mt"], rs_mt);
  ([bs "ar"; bs "ars"], rs_ar);
  ([bs "cy"], rs_cy);
  ([bs "kw"], rs_kw)].

Fixpoint cldr_find (t : list (list bytes * rule_set)) (l : bytes) : option rule_set :=
  match t with
  | [] => None
  | (ls, r) :: t' => if existsb (beq l) ls then Some r else cldr_find t' l
  end.
Definition cldr_built_in (l : bytes) : option rule_set := cldr_find cldr_table l.
