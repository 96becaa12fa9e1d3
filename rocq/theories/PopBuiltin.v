(** Model of catalog/poplural/builtin_gen.go (generated Go, translated
    mechanically: one definition per rule constructor, one table row per
    switch case).  Go's [%] on int64 is [Z.rem]. *)
From Coq Require Import String Ascii List ZArith Bool.
From Verif Require Import Base PopModel.
Import ListNotations.
Open Scope Z_scope.

(** catalog/poplural/builtin_gen.go:218-226 *)
Definition rule_bm : rule := Rule 1 (fun n => 0).

(** catalog/poplural/builtin_gen.go:229-240 *)
Definition rule_af : rule := Rule 2 (fun n =>
    if (negb (n =? 1)) then 1 else 0).

(** catalog/poplural/builtin_gen.go:243-254 *)
Definition rule_ak : rule := Rule 2 (fun n =>
    if (n >? 1) then 1 else 0).

(** catalog/poplural/builtin_gen.go:257-268 *)
Definition rule_ceb : rule := Rule 2 (fun n =>
    if (negb (n =? 1)) && (negb (n =? 2)) && (negb (n =? 3)) && ( ( ((Z.rem n 10) =? 4) || ((Z.rem n 10) =? 6) ) || ((Z.rem n 10) =? 9) ) then 1 else 0).

(** catalog/poplural/builtin_gen.go:271-282 *)
Definition rule_is : rule := Rule 2 (fun n =>
    if (negb ((Z.rem n 10) =? 1)) || ((Z.rem n 100) =? 11) then 1 else 0).

(** catalog/poplural/builtin_gen.go:285-296 *)
Definition rule_tzm : rule := Rule 2 (fun n =>
    if (n >=? 2) && ( (n <? 11) || (n >? 99) ) then 1 else 0).

(** catalog/poplural/builtin_gen.go:299-313 *)
Definition rule_be : rule := Rule 3 (fun n =>
    if ((Z.rem n 10) =? 1) && (negb ((Z.rem n 100) =? 11)) then 0 else
    if ((Z.rem n 10) >=? 2) && ((Z.rem n 10) <=? 4) && ( ((Z.rem n 100) <? 12) || ((Z.rem n 100) >? 14) ) then 1 else 2).

(** catalog/poplural/builtin_gen.go:316-330 *)
Definition rule_blo : rule := Rule 3 (fun n =>
    if (n =? 0) then 0 else
    if (n =? 1) then 1 else 2).

(** catalog/poplural/builtin_gen.go:333-347 *)
Definition rule_ca : rule := Rule 3 (fun n =>
    if (n =? 1) then 0 else
    if (negb (n =? 0)) && ((Z.rem n 1000000) =? 0) then 1 else 2).

(** catalog/poplural/builtin_gen.go:350-364 *)
Definition rule_cs : rule := Rule 3 (fun n =>
    if (n =? 1) then 0 else
    if (n >=? 2) && (n <=? 4) then 1 else 2).

(** catalog/poplural/builtin_gen.go:367-381 *)
Definition rule_fr : rule := Rule 3 (fun n =>
    if (n =? 0) || (n =? 1) then 0 else
    if (negb (n =? 0)) && ((Z.rem n 1000000) =? 0) then 1 else 2).

(** catalog/poplural/builtin_gen.go:384-398 *)
Definition rule_he : rule := Rule 3 (fun n =>
    if (n =? 1) then 0 else
    if (n =? 2) then 1 else 2).

(** catalog/poplural/builtin_gen.go:401-415 *)
Definition rule_lt : rule := Rule 3 (fun n =>
    if ((Z.rem n 10) =? 1) && ( ((Z.rem n 100) <? 11) || ((Z.rem n 100) >? 19) ) then 0 else
    if ((Z.rem n 10) >=? 2) && ((Z.rem n 10) <=? 9) && ( ((Z.rem n 100) <? 11) || ((Z.rem n 100) >? 19) ) then 1 else 2).

(** catalog/poplural/builtin_gen.go:418-432 *)
Definition rule_lv : rule := Rule 3 (fun n =>
    if ((Z.rem n 10) =? 0) || ((Z.rem n 100) >=? 11) && ((Z.rem n 100) <=? 19) then 0 else
    if ((Z.rem n 10) =? 1) && (negb ((Z.rem n 100) =? 11)) then 1 else 2).

(** catalog/poplural/builtin_gen.go:435-449 *)
Definition rule_pl : rule := Rule 3 (fun n =>
    if (n =? 1) then 0 else
    if ((Z.rem n 10) >=? 2) && ((Z.rem n 10) <=? 4) && ( ((Z.rem n 100) <? 12) || ((Z.rem n 100) >? 14) ) then 1 else 2).

(** catalog/poplural/builtin_gen.go:452-466 *)
Definition rule_ro : rule := Rule 3 (fun n =>
    if (n =? 1) then 0 else
    if (n =? 0) || (negb (n =? 1)) && ((Z.rem n 100) >=? 1) && ((Z.rem n 100) <=? 19) then 1 else 2).

(** catalog/poplural/builtin_gen.go:469-483 *)
Definition rule_shi : rule := Rule 3 (fun n =>
    if (n =? 0) || (n =? 1) then 0 else
    if (n >=? 2) && (n <=? 10) then 1 else 2).

(** catalog/poplural/builtin_gen.go:486-503 *)
Definition rule_dsb : rule := Rule 4 (fun n =>
    if ((Z.rem n 100) =? 1) then 0 else
    if ((Z.rem n 100) =? 2) then 1 else
    if ((Z.rem n 100) =? 3) || ((Z.rem n 100) =? 4) then 2 else 3).

(** catalog/poplural/builtin_gen.go:506-523 *)
Definition rule_gd : rule := Rule 4 (fun n =>
    if (n =? 1) || (n =? 11) then 0 else
    if (n =? 2) || (n =? 12) then 1 else
    if (n >=? 3) && (n <=? 10) || (n >=? 13) && (n <=? 19) then 2 else 3).

(** catalog/poplural/builtin_gen.go:526-543 *)
Definition rule_gv : rule := Rule 4 (fun n =>
    if ((Z.rem n 10) =? 1) then 0 else
    if ((Z.rem n 10) =? 2) then 1 else
    if ( ((Z.rem n 100) =? 0) || ( ((Z.rem n 100) =? 20) || ( ((Z.rem n 100) =? 40) || ((Z.rem n 100) =? 60) ) ) ) || ((Z.rem n 100) =? 80) then 2 else 3).

(** catalog/poplural/builtin_gen.go:546-566 *)
Definition rule_br : rule := Rule 5 (fun n =>
    if ((Z.rem n 10) =? 1) && (negb ((Z.rem n 100) =? 11)) && (negb ((Z.rem n 100) =? 71)) && (negb ((Z.rem n 100) =? 91)) then 0 else
    if ((Z.rem n 10) =? 2) && (negb ((Z.rem n 100) =? 12)) && (negb ((Z.rem n 100) =? 72)) && (negb ((Z.rem n 100) =? 92)) then 1 else
    if ( ( ((Z.rem n 10) =? 3) || ((Z.rem n 10) =? 4) ) || ((Z.rem n 10) =? 9) ) && ( ((Z.rem n 100) <? 10) || ((Z.rem n 100) >? 19) ) && ( ((Z.rem n 100) <? 70) || ((Z.rem n 100) >? 79) ) && ( ((Z.rem n 100) <? 90) || ((Z.rem n 100) >? 99) ) then 2 else
    if (negb (n =? 0)) && ((Z.rem n 1000000) =? 0) then 3 else 4).

(** catalog/poplural/builtin_gen.go:569-589 *)
Definition rule_ga : rule := Rule 5 (fun n =>
    if (n =? 1) then 0 else
    if (n =? 2) then 1 else
    if (n >=? 3) && (n <=? 6) then 2 else
    if (n >=? 7) && (n <=? 10) then 3 else 4).

(** catalog/poplural/builtin_gen.go:592-612 *)
Definition rule_mt : rule := Rule 5 (fun n =>
    if (n =? 1) then 0 else
    if (n =? 2) then 1 else
    if (n =? 0) || ((Z.rem n 100) >=? 3) && ((Z.rem n 100) <=? 10) then 2 else
    if ((Z.rem n 100) >=? 11) && ((Z.rem n 100) <=? 19) then 3 else 4).

(** catalog/poplural/builtin_gen.go:615-638 *)
Definition rule_ar : rule := Rule 6 (fun n =>
    if (n =? 0) then 0 else
    if (n =? 1) then 1 else
    if (n =? 2) then 2 else
    if ((Z.rem n 100) >=? 3) && ((Z.rem n 100) <=? 10) then 3 else
    if ((Z.rem n 100) >=? 11) && ((Z.rem n 100) <=? 99) then 4 else 5).

(** catalog/poplural/builtin_gen.go:641-664 *)
Definition rule_cy : rule := Rule 6 (fun n =>
    if (n =? 0) then 0 else
    if (n =? 1) then 1 else
    if (n =? 2) then 2 else
    if (n =? 3) then 3 else
    if (n =? 6) then 4 else 5).

(** catalog/poplural/builtin_gen.go:667-690 *)
Definition rule_kw : rule := Rule 6 (fun n =>
    if (n =? 0) then 0 else
    if (n =? 1) then 1 else
    if ( ( ( ((Z.rem n 100) =? 2) || ( ((Z.rem n 100) =? 22) || ( ((Z.rem n 100) =? 42) || ((Z.rem n 100) =? 62) ) ) ) || ((Z.rem n 100) =? 82) ) || ((Z.rem n 1000) =? 0) && ( ( ((Z.rem n 100000) >=? 1000) && ((Z.rem n 100000) <=? 20000) || ( ((Z.rem n 100000) =? 40000) || ((Z.rem n 100000) =? 60000) ) ) || ((Z.rem n 100000) =? 80000) ) ) || (negb (n =? 0)) && ((Z.rem n 1000000) =? 100000) then 2 else
    if ( ((Z.rem n 100) =? 3) || ( ((Z.rem n 100) =? 23) || ( ((Z.rem n 100) =? 43) || ((Z.rem n 100) =? 63) ) ) ) || ((Z.rem n 100) =? 83) then 3 else
    if (negb (n =? 1)) && ( ( ((Z.rem n 100) =? 1) || ( ((Z.rem n 100) =? 21) || ( ((Z.rem n 100) =? 41) || ((Z.rem n 100) =? 61) ) ) ) || ((Z.rem n 100) =? 81) ) then 4 else 5).

(** catalog/poplural/builtin_gen.go:18-28 *)
Definition rule_extra1 : rule := Rule 2 (fun n =>
    if ( ( (n =? 1) || (n =? 2) ) || (n =? 3) ) || (negb ((Z.rem n 10) =? 4)) && (negb ((Z.rem n 10) =? 6)) && (negb ((Z.rem n 10) =? 9)) then 1 else 0).

(** catalog/poplural/builtin_gen.go:29-39 *)
Definition rule_extra2 : rule := Rule 2 (fun n =>
    if (n <=? 1) || (n >=? 11) && (n <=? 99) then 1 else 0).

(** catalog/poplural/builtin_gen.go:40-50 *)
Definition rule_extra3 : rule := Rule 2 (fun n =>
    if (n =? 0) || (n =? 1) then 1 else 0).

(** catalog/poplural/builtin_gen.go:51-61 *)
Definition rule_extra4 : rule := Rule 2 (fun n =>
    if ((Z.rem n 10) =? 1) && (negb ((Z.rem n 100) =? 11)) then 1 else 0).

(** catalog/poplural/builtin_gen.go:84-97 *)
Definition rule_extra5 : rule := Rule 3 (fun n =>
    if (n =? 0) then 0 else
    if ( (n =? 0) || (n =? 1) ) && (negb (n =? 0)) then 1 else 2).

(** catalog/poplural/builtin_gen.go:104-120 *)
Definition rule_extra6 : rule := Rule 4 (fun n =>
    if ((Z.rem n 100) =? 1) then 0 else
    if ((Z.rem n 100) =? 2) then 1 else
    if ((Z.rem n 100) >=? 3) && ((Z.rem n 100) <=? 4) then 2 else 3).

(** catalog/poplural/builtin_gen.go:127-146 *)
Definition rule_extra7 : rule := Rule 5 (fun n =>
    if ((Z.rem n 10) =? 1) && (negb ((Z.rem n 100) =? 11)) && (negb ((Z.rem n 100) =? 71)) && (negb ((Z.rem n 100) =? 91)) then 0 else
    if ((Z.rem n 10) =? 2) && (negb ((Z.rem n 100) =? 12)) && (negb ((Z.rem n 100) =? 72)) && (negb ((Z.rem n 100) =? 92)) then 1 else
    if ( ((Z.rem n 10) >=? 3) && ((Z.rem n 10) <=? 4) || ((Z.rem n 10) =? 9) ) && ( ((Z.rem n 100) <? 10) || ((Z.rem n 100) >? 19) ) && ( ((Z.rem n 100) <? 70) || ((Z.rem n 100) >? 79) ) && ( ((Z.rem n 100) <? 90) || ((Z.rem n 100) >? 99) ) then 2 else
    if (negb (n =? 0)) && ((Z.rem n 1000000) =? 0) then 3 else 4).

(** switch of getBuiltInForRawRule, catalog/poplural/builtin_gen.go:4-156 *)
Definition raw_table : list (string * rule) := [
  ("nplurals=1; plural=0;"%string, rule_bm);
  ("nplurals=2; plural=n != 1;"%string, rule_af);
  ("nplurals=2; plural=n > 1;"%string, rule_ak);
  ("nplurals=2; plural=n != 1 && n != 2 && n != 3 && ((n % 10 == 4 || n % 10 == 6) || n % 10 == 9);"%string, rule_ceb);
  ("nplurals=2; plural=(n % 10 != 1 || n % 100 == 11);"%string, rule_is);
  ("nplurals=2; plural=n >= 2 && (n < 11 || n > 99);"%string, rule_tzm);
  ("nplurals=2; plural=(((n == 1 || n == 2) || n == 3) || n % 10 != 4 && n % 10 != 6 && n % 10 != 9);"%string, rule_extra1);
  ("nplurals=2; plural=(n <= 1 || n >= 11 && n <= 99);"%string, rule_extra2);
  ("nplurals=2; plural=(n == 0 || n == 1);"%string, rule_extra3);
  ("nplurals=2; plural=n % 10 == 1 && n % 100 != 11;"%string, rule_extra4);
  ("nplurals=3; plural=(n % 10 == 1 && n % 100 != 11) ? 0 : ((n % 10 >= 2 && n % 10 <= 4 && (n % 100 < 12 || n % 100 > 14)) ? 1 : 2);"%string, rule_be);
  ("nplurals=3; plural=(n == 0) ? 0 : ((n == 1) ? 1 : 2);"%string, rule_blo);
  ("nplurals=3; plural=(n == 1) ? 0 : ((n != 0 && n % 1000000 == 0) ? 1 : 2);"%string, rule_ca);
  ("nplurals=3; plural=(n == 1) ? 0 : ((n >= 2 && n <= 4) ? 1 : 2);"%string, rule_cs);
  ("nplurals=3; plural=(n == 0 || n == 1) ? 0 : ((n != 0 && n % 1000000 == 0) ? 1 : 2);"%string, rule_fr);
  ("nplurals=3; plural=(n == 1) ? 0 : ((n == 2) ? 1 : 2);"%string, rule_he);
  ("nplurals=3; plural=(n % 10 == 1 && (n % 100 < 11 || n % 100 > 19)) ? 0 : ((n % 10 >= 2 && n % 10 <= 9 && (n % 100 < 11 || n % 100 > 19)) ? 1 : 2);"%string, rule_lt);
  ("nplurals=3; plural=(n % 10 == 0 || n % 100 >= 11 && n % 100 <= 19) ? 0 : ((n % 10 == 1 && n % 100 != 11) ? 1 : 2);"%string, rule_lv);
  ("nplurals=3; plural=(n == 1) ? 0 : ((n % 10 >= 2 && n % 10 <= 4 && (n % 100 < 12 || n % 100 > 14)) ? 1 : 2);"%string, rule_pl);
  ("nplurals=3; plural=(n == 1) ? 0 : ((n == 0 || n != 1 && n % 100 >= 1 && n % 100 <= 19) ? 1 : 2);"%string, rule_ro);
  ("nplurals=3; plural=(n == 0 || n == 1) ? 0 : ((n >= 2 && n <= 10) ? 1 : 2);"%string, rule_shi);
  ("nplurals=3; plural=(n == 0) ? 0 : (((n == 0 || n == 1) && n != 0) ? 1 : 2);"%string, rule_extra5);
  ("nplurals=4; plural=(n % 100 == 1) ? 0 : ((n % 100 == 2) ? 1 : ((n % 100 == 3 || n % 100 == 4) ? 2 : 3));"%string, rule_dsb);
  ("nplurals=4; plural=(n == 1 || n == 11) ? 0 : ((n == 2 || n == 12) ? 1 : ((n >= 3 && n <= 10 || n >= 13 && n <= 19) ? 2 : 3));"%string, rule_gd);
  ("nplurals=4; plural=(n % 10 == 1) ? 0 : ((n % 10 == 2) ? 1 : (((n % 100 == 0 || (n % 100 == 20 || (n % 100 == 40 || n % 100 == 60))) || n % 100 == 80) ? 2 : 3));"%string, rule_gv);
  ("nplurals=4; plural=(n % 100 == 1) ? 0 : ((n % 100 == 2) ? 1 : ((n % 100 >= 3 && n % 100 <= 4) ? 2 : 3));"%string, rule_extra6);
  ("nplurals=5; plural=(n % 10 == 1 && n % 100 != 11 && n % 100 != 71 && n % 100 != 91) ? 0 : ((n % 10 == 2 && n % 100 != 12 && n % 100 != 72 && n % 100 != 92) ? 1 : (((n % 10 == 3 || n % 10 == 4) || n % 10 == 9) && (n % 100 < 10 || n % 100 > 19) && (n % 100 < 70 || n % 100 > 79) && (n % 100 < 90 || n % 100 > 99) ? 2 : ((n != 0 && n % 1000000 == 0) ? 3 : 4)));"%string, rule_br);
  ("nplurals=5; plural=(n == 1) ? 0 : ((n == 2) ? 1 : ((n >= 3 && n <= 6) ? 2 : ((n >= 7 && n <= 10) ? 3 : 4)));"%string, rule_ga);
  ("nplurals=5; plural=(n == 1) ? 0 : ((n == 2) ? 1 : ((n == 0 || n % 100 >= 3 && n % 100 <= 10) ? 2 : ((n % 100 >= 11 && n % 100 <= 19) ? 3 : 4)));"%string, rule_mt);
  ("nplurals=5; plural=(n % 10 == 1 && n % 100 != 11 && n % 100 != 71 && n % 100 != 91) ? 0 : ((n % 10 == 2 && n % 100 != 12 && n % 100 != 72 && n % 100 != 92) ? 1 : ((n % 10 >= 3 && n % 10 <= 4 || n % 10 == 9) && (n % 100 < 10 || n % 100 > 19) && (n % 100 < 70 || n % 100 > 79) && (n % 100 < 90 || n % 100 > 99) ? 2 : ((n != 0 && n % 1000000 == 0) ? 3 : 4)));"%string, rule_extra7);
  ("nplurals=6; plural=(n == 0) ? 0 : ((n == 1) ? 1 : ((n == 2) ? 2 : ((n % 100 >= 3 && n % 100 <= 10) ? 3 : ((n % 100 >= 11 && n % 100 <= 99) ? 4 : 5))));"%string, rule_ar);
  ("nplurals=6; plural=(n == 0) ? 0 : ((n == 1) ? 1 : ((n == 2) ? 2 : ((n == 3) ? 3 : ((n == 6) ? 4 : 5))));"%string, rule_cy);
  ("nplurals=6; plural=(n == 0) ? 0 : ((n == 1) ? 1 : (((((n % 100 == 2 || (n % 100 == 22 || (n % 100 == 42 || n % 100 == 62))) || n % 100 == 82) || n % 1000 == 0 && ((n % 100000 >= 1000 && n % 100000 <= 20000 || (n % 100000 == 40000 || n % 100000 == 60000)) || n % 100000 == 80000)) || n != 0 && n % 1000000 == 100000) ? 2 : (((n % 100 == 3 || (n % 100 == 23 || (n % 100 == 43 || n % 100 == 63))) || n % 100 == 83) ? 3 : ((n != 1 && ((n % 100 == 1 || (n % 100 == 21 || (n % 100 == 41 || n % 100 == 61))) || n % 100 == 81)) ? 4 : 5))));"%string, rule_kw)
].

(** switch of getBuiltInForLanguage, catalog/poplural/builtin_gen.go:158-215 *)
Definition lang_table : list (list string * rule) := [
  (["bm"; "bo"; "dz"; "hnj"; "id"; "ig"; "ii"; "ja"; "jbo"; "jv"; "kde";
    "kea"; "km"; "ko"; "lkt"; "lo"; "ms"; "my"; "nqo"; "osa"; "sah";
    "ses"; "sg"; "su"; "th"; "to"; "tpi"; "vi"; "wo"; "yo"; "yue"; "zh";
    "zh-Hans"; "zh-Hant"; "zh_Hans"; "zh_Hant"]%string,
   rule_bm);
  (["af"; "an"; "asa"; "ast"; "az"; "bal"; "bem"; "bez"; "bg"; "brx";
    "ce"; "cgg"; "chr"; "ckb"; "da"; "de"; "de-AT"; "de-CH"; "de_AT";
    "de_CH"; "dv"; "ee"; "el"; "en"; "en-AU"; "en-CA"; "en-GB"; "en-US";
    "en_AU"; "en_CA"; "en_GB"; "en_US"; "eo"; "et"; "eu"; "fi"; "fo";
    "fur"; "fy"; "gl"; "gsw"; "ha"; "haw"; "hu"; "ia"; "io"; "jgo"; "jmc";
    "ka"; "kaj"; "kcg"; "kk"; "kkj"; "kl"; "ks"; "ksb"; "ku"; "ky"; "lb";
    "lg"; "lij"; "mas"; "mgo"; "ml"; "mn"; "mr"; "nah"; "nb"; "nd"; "ne";
    "nl"; "nl-BE"; "nl_BE"; "nn"; "nnh"; "no"; "nr"; "ny"; "nyn"; "om";
    "or"; "os"; "pap"; "ps"; "rm"; "rof"; "rwk"; "saq"; "sc"; "sd"; "sdh";
    "seh"; "sn"; "so"; "sq"; "ss"; "ssy"; "st"; "sv"; "sw"; "sw-CD";
    "sw_CD"; "syr"; "ta"; "te"; "teo"; "tig"; "tk"; "tn"; "tr"; "ts";
    "ug"; "ur"; "uz"; "ve"; "vo"; "vun"; "wae"; "xh"; "xog"; "yi"]%string,
   rule_af);
  (["ak"; "am"; "as"; "bho"; "bn"; "csw"; "doi"; "fa"; "fa-AF"; "fa_AF";
    "ff"; "gu"; "guw"; "hi"; "hi-Latn"; "hi_Latn"; "hy"; "kab"; "kn";
    "ln"; "mg"; "nso"; "pa"; "pcm"; "si"; "ti"; "wa"; "zu"]%string,
   rule_ak);
  (["ceb"; "fil"; "tl"]%string,
   rule_ceb);
  (["is"; "mk"]%string,
   rule_is);
  (["tzm"]%string,
   rule_tzm);
  (["be"; "bs"; "hr"; "ru"; "sh"; "sr"; "sr-Latn"; "sr-ME"; "sr_ME"; "uk"]%string,
   rule_be);
  (["blo"; "ksh"; "lag"]%string,
   rule_blo);
  (["ca"; "es"; "es-419"; "es-ES"; "es-MX"; "es_419"; "es_ES"; "es_MX";
    "it"; "lld"; "pt-PT"; "pt_PT"; "scn"; "vec"]%string,
   rule_ca);
  (["cs"; "sk"]%string,
   rule_cs);
  (["fr"; "fr-CA"; "fr-CH"; "fr_CA"; "fr_CH"; "pt"; "pt-BR"; "pt_BR"]%string,
   rule_fr);
  (["he"; "iu"; "naq"; "sat"; "se"; "sma"; "smi"; "smj"; "smn"; "sms"]%string,
   rule_he);
  (["lt"]%string,
   rule_lt);
  (["lv"; "prg"]%string,
   rule_lv);
  (["pl"]%string,
   rule_pl);
  (["ro"; "ro-MD"; "ro_MD"]%string,
   rule_ro);
  (["shi"]%string,
   rule_shi);
  (["dsb"; "hsb"; "sl"]%string,
   rule_dsb);
  (["gd"]%string,
   rule_gd);
  (["gv"]%string,
   rule_gv);
  (["br"]%string,
   rule_br);
  (["ga"]%string,
   rule_ga);
  (["mt"]%string,
   rule_mt);
  (["ar"; "ar-001"; "ar_001"; "ars"]%string,
   rule_ar);
  (["cy"]%string,
   rule_cy);
  (["kw"]%string,
   rule_kw)
].

(** header comment above each language rule's FormFunc (documentation in the
    Go file; used only by specifications) *)
Definition doc_table : list (string * rule) := [
  ("nplurals=1; plural=0;"%string, rule_bm);
  ("nplurals=2; plural=n != 1;"%string, rule_af);
  ("nplurals=2; plural=n > 1;"%string, rule_ak);
  ("nplurals=2; plural=n != 1 && n != 2 && n != 3 && (n % 10 == 4 || n % 10 == 6 || n % 10 == 9);"%string, rule_ceb);
  ("nplurals=2; plural=n % 10 != 1 || n % 100 == 11;"%string, rule_is);
  ("nplurals=2; plural=n >= 2 && (n < 11 || n > 99);"%string, rule_tzm);
  ("nplurals=3; plural=(n % 10 == 1 && n % 100 != 11) ? 0 : ((n % 10 >= 2 && n % 10 <= 4 && (n % 100 < 12 || n % 100 > 14)) ? 1 : 2);"%string, rule_be);
  ("nplurals=3; plural=(n == 0) ? 0 : ((n == 1) ? 1 : 2);"%string, rule_blo);
  ("nplurals=3; plural=(n == 1) ? 0 : ((n != 0 && n % 1000000 == 0) ? 1 : 2);"%string, rule_ca);
  ("nplurals=3; plural=(n == 1) ? 0 : ((n >= 2 && n <= 4) ? 1 : 2);"%string, rule_cs);
  ("nplurals=3; plural=(n == 0 || n == 1) ? 0 : ((n != 0 && n % 1000000 == 0) ? 1 : 2);"%string, rule_fr);
  ("nplurals=3; plural=(n == 1) ? 0 : ((n == 2) ? 1 : 2);"%string, rule_he);
  ("nplurals=3; plural=(n % 10 == 1 && (n % 100 < 11 || n % 100 > 19)) ? 0 : ((n % 10 >= 2 && n % 10 <= 9 && (n % 100 < 11 || n % 100 > 19)) ? 1 : 2);"%string, rule_lt);
  ("nplurals=3; plural=(n % 10 == 0 || n % 100 >= 11 && n % 100 <= 19) ? 0 : ((n % 10 == 1 && n % 100 != 11) ? 1 : 2);"%string, rule_lv);
  ("nplurals=3; plural=(n == 1) ? 0 : ((n % 10 >= 2 && n % 10 <= 4 && (n % 100 < 12 || n % 100 > 14)) ? 1 : 2);"%string, rule_pl);
  ("nplurals=3; plural=(n == 1) ? 0 : ((n == 0 || n != 1 && n % 100 >= 1 && n % 100 <= 19) ? 1 : 2);"%string, rule_ro);
  ("nplurals=3; plural=(n == 0 || n == 1) ? 0 : ((n >= 2 && n <= 10) ? 1 : 2);"%string, rule_shi);
  ("nplurals=4; plural=(n % 100 == 1) ? 0 : ((n % 100 == 2) ? 1 : ((n % 100 == 3 || n % 100 == 4) ? 2 : 3));"%string, rule_dsb);
  ("nplurals=4; plural=(n == 1 || n == 11) ? 0 : ((n == 2 || n == 12) ? 1 : ((n >= 3 && n <= 10 || n >= 13 && n <= 19) ? 2 : 3));"%string, rule_gd);
  ("nplurals=4; plural=(n % 10 == 1) ? 0 : ((n % 10 == 2) ? 1 : ((n % 100 == 0 || n % 100 == 20 || n % 100 == 40 || n % 100 == 60 || n % 100 == 80) ? 2 : 3));"%string, rule_gv);
  ("nplurals=5; plural=(n % 10 == 1 && n % 100 != 11 && n % 100 != 71 && n % 100 != 91) ? 0 : ((n % 10 == 2 && n % 100 != 12 && n % 100 != 72 && n % 100 != 92) ? 1 : ((((n % 10 == 3 || n % 10 == 4) || n % 10 == 9) && (n % 100 < 10 || n % 100 > 19) && (n % 100 < 70 || n % 100 > 79) && (n % 100 < 90 || n % 100 > 99)) ? 2 : ((n != 0 && n % 1000000 == 0) ? 3 : 4)));"%string, rule_br);
  ("nplurals=5; plural=(n == 1) ? 0 : ((n == 2) ? 1 : ((n >= 3 && n <= 6) ? 2 : ((n >= 7 && n <= 10) ? 3 : 4)));"%string, rule_ga);
  ("nplurals=5; plural=(n == 1) ? 0 : ((n == 2) ? 1 : ((n == 0 || n % 100 >= 3 && n % 100 <= 10) ? 2 : ((n % 100 >= 11 && n % 100 <= 19) ? 3 : 4)));"%string, rule_mt);
  ("nplurals=6; plural=(n == 0) ? 0 : ((n == 1) ? 1 : ((n == 2) ? 2 : ((n % 100 >= 3 && n % 100 <= 10) ? 3 : ((n % 100 >= 11 && n % 100 <= 99) ? 4 : 5))));"%string, rule_ar);
  ("nplurals=6; plural=(n == 0) ? 0 : ((n == 1) ? 1 : ((n == 2) ? 2 : ((n == 3) ? 3 : ((n == 6) ? 4 : 5))));"%string, rule_cy);
  ("nplurals=6; plural=(n == 0) ? 0 : ((n == 1) ? 1 : (((n % 100 == 2 || n % 100 == 22 || n % 100 == 42 || n % 100 == 62 || n % 100 == 82) || n % 1000 == 0 && (n % 100000 >= 1000 && n % 100000 <= 20000 || n % 100000 == 40000 || n % 100000 == 60000 || n % 100000 == 80000) || n != 0 && n % 1000000 == 100000) ? 2 : ((n % 100 == 3 || n % 100 == 23 || n % 100 == 43 || n % 100 == 63 || n % 100 == 83) ? 3 : ((n != 1 && (n % 100 == 1 || n % 100 == 21 || n % 100 == 41 || n % 100 == 61 || n % 100 == 81)) ? 4 : 5))));"%string, rule_kw);
  ("nplurals=2; plural=((n == 1 || (n == 2 || n == 3)) || n % 10 != 4 && n % 10 != 6 && n % 10 != 9);"%string, rule_extra1);
  ("nplurals=2; plural=(n <= 1 || n >= 11 && n <= 99);"%string, rule_extra2);
  ("nplurals=2; plural=(n == 0 || n == 1);"%string, rule_extra3);
  ("nplurals=2; plural=n % 10 == 1 && n % 100 != 11;"%string, rule_extra4);
  ("nplurals=3; plural=n == 0 ? 0 : (n == 0 || n == 1) && n != 0 ? 1 : 2;"%string, rule_extra5);
  ("nplurals=4; plural=n % 100 == 1 ? 0 : n % 100 == 2 ? 1 : n % 100 >= 3 && n % 100 <= 4 ? 2 : 3;"%string, rule_extra6);
  ("nplurals=5; plural=n % 10 == 1 && n % 100 != 11 && n % 100 != 71 && n % 100 != 91 ? 0 : n % 10 == 2 && n % 100 != 12 && n % 100 != 72 && n % 100 != 92 ? 1 : (n % 10 >= 3 && n % 10 <= 4 || n % 10 == 9) && (n % 100 < 10 || n % 100 > 19) && (n % 100 < 70 || n % 100 > 79) && (n % 100 < 90 || n % 100 > 99) ? 2 : n != 0 && n % 1000000 == 0 ? 3 : 4;"%string, rule_extra7)
].

(** a Go switch on strings: first matching case *)
Fixpoint lookup_raw (t : list (string * rule)) (k : bytes) : option rule :=
  match t with
  | [] => None
  | (k', r) :: t' => if beq (bs k') k then Some r else lookup_raw t' k
  end.

(** catalog/poplural/builtin_gen.go:4-156 (getBuiltInForRawRule) *)
Definition built_in_raw (k : bytes) : option rule := lookup_raw raw_table k.

Fixpoint lookup_lang (t : list (list string * rule)) (k : bytes) : option rule :=
  match t with
  | [] => None
  | (ks, r) :: t' =>
      if existsb (fun k' => beq (bs k') k) ks then Some r else lookup_lang t' k
  end.

(** catalog/poplural/builtin_gen.go:158-215 (getBuiltInForLanguage) *)
Definition built_in_lang (k : bytes) : option rule := lookup_lang lang_table k.

(** catalog/poplural/rule.go:46-73 (Parse, generateFormFunc); the Root is
    never nil after a successful ast.Parse. *)
Definition parse_rule (s : bytes) : res rule :=
  do f <- parse_forms s;
  match built_in_raw (compile_forms f) with
  | Some r => Ok r
  | None => Ok (Rule (f_nplurals f) (eval_node (f_root f)))
  end.
