(** CLDR plural rules (https://unicode-org.github.io/cldr-staging, supplemental
    plurals): for every group of languages the categories and the condition of
    each, as text and as a tree.  The texts are those quoted in
    catalog/cldrplural/builtin_gen.go. *)
From Coq Require Import String Ascii List ZArith Bool.
From Verif Require Import Base CldrModel CldrSpec.
Import ListNotations.
Open Scope Z_scope.

Definition cldr_rules : list (list bytes * list (category * bytes * cond)) := [
  ([bs "bm"; bs "bo"; bs "dz"; bs "hnj"; bs "id"; bs "ig"; bs "ii"; bs "ja"; bs "jbo"; bs "jv"; bs "jw"; bs "kde"; bs "kea"; bs "km"; bs "ko"; bs "lkt"; bs "lo"; bs "ms"; bs "my"; bs "nqo"; bs "osa"; bs "sah"; bs "ses"; bs "sg"; bs "su"; bs "th"; bs "to"; bs "tpi"; bs "und"; bs "vi"; bs "wo"; bs "yo"; bs "yue"; bs "zh"],
    []);
  ([bs "af"; bs "an"; bs "asa"; bs "az"; bs "bal"; bs "bem"; bs "bez"; bs "bg"; bs "brx"; bs "ce"; bs "cgg"; bs "chr"; bs "ckb"; bs "dv"; bs "ee"; bs "el"; bs "eo"; bs "eu"; bs "fo"; bs "fur"; bs "gsw"; bs "ha"; bs "haw"; bs "hu"; bs "jgo"; bs "jmc"; bs "ka"; bs "kaj"; bs "kcg"; bs "kk"; bs "kkj"; bs "kl"; bs "ks"; bs "ksb"; bs "ku"; bs "ky"; bs "lb"; bs "lg"; bs "mas"; bs "mgo"; bs "ml"; bs "mn"; bs "mr"; bs "nah"; bs "nb"; bs "nd"; bs "ne"; bs "nn"; bs "nnh"; bs "no"; bs "nr"; bs "ny"; bs "nyn"; bs "om"; bs "or"; bs "os"; bs "pap"; bs "ps"; bs "rm"; bs "rof"; bs "rwk"; bs "saq"; bs "sd"; bs "sdh"; bs "seh"; bs "sn"; bs "so"; bs "sq"; bs "ss"; bs "ssy"; bs "st"; bs "syr"; bs "ta"; bs "te"; bs "teo"; bs "tig"; bs "tk"; bs "tn"; bs "tr"; bs "ts"; bs "ug"; bs "uz"; bs "ve"; bs "vo"; bs "vun"; bs "wae"; bs "xh"; bs "xog"],
    [(One, bs "n = 1",
      (Rel false (Expr On None) [Val 1]))]);
  ([bs "ak"; bs "bho"; bs "csw"; bs "guw"; bs "ln"; bs "mg"; bs "nso"; bs "pa"; bs "ti"; bs "wa"],
    [(One, bs "n = 0..1",
      (Rel false (Expr On None) [Range 0 1]))]);
  ([bs "am"; bs "as"; bs "bn"; bs "doi"; bs "fa"; bs "gu"; bs "hi"; bs "kn"; bs "pcm"; bs "zu"],
    [(One, bs "i = 0 or n = 1",
      (Or (Rel false (Expr Oi None) [Val 0]) (Rel false (Expr On None) [Val 1])))]);
  ([bs "ast"; bs "de"; bs "en"; bs "et"; bs "fi"; bs "fy"; bs "gl"; bs "ia"; bs "io"; bs "lij"; bs "nl"; bs "sc"; bs "sv"; bs "sw"; bs "ur"; bs "yi"],
    [(One, bs "i = 1 and v = 0",
      (And (Rel false (Expr Oi None) [Val 1]) (Rel false (Expr Ov None) [Val 0])))]);
  ([bs "ceb"; bs "fil"; bs "tl"],
    [(One, bs "v = 0 and i = 1,2,3 or v = 0 and i % 10 != 4,6,9 or v != 0 and f % 10 != 4,6,9",
      (Or (And (Rel false (Expr Ov None) [Val 0]) (Rel false (Expr Oi None) [Val 1; Val 2; Val 3])) (Or (And (Rel false (Expr Ov None) [Val 0]) (Rel true (Expr Oi (Some 10)) [Val 4; Val 6; Val 9])) (And (Rel true (Expr Ov None) [Val 0]) (Rel true (Expr Of (Some 10)) [Val 4; Val 6; Val 9])))))]);
  ([bs "da"],
    [(One, bs "n = 1 or t != 0 and i = 0,1",
      (Or (Rel false (Expr On None) [Val 1]) (And (Rel true (Expr Ot None) [Val 0]) (Rel false (Expr Oi None) [Val 0; Val 1]))))]);
  ([bs "ff"; bs "hy"; bs "kab"],
    [(One, bs "i = 0,1",
      (Rel false (Expr Oi None) [Val 0; Val 1]))]);
  ([bs "is"],
    [(One, bs "t = 0 and i % 10 = 1 and i % 100 != 11 or t % 10 = 1 and t % 100 != 11",
      (Or (And (Rel false (Expr Ot None) [Val 0]) (And (Rel false (Expr Oi (Some 10)) [Val 1]) (Rel true (Expr Oi (Some 100)) [Val 11]))) (And (Rel false (Expr Ot (Some 10)) [Val 1]) (Rel true (Expr Ot (Some 100)) [Val 11]))))]);
  ([bs "mk"],
    [(One, bs "v = 0 and i % 10 = 1 and i % 100 != 11 or f % 10 = 1 and f % 100 != 11",
      (Or (And (Rel false (Expr Ov None) [Val 0]) (And (Rel false (Expr Oi (Some 10)) [Val 1]) (Rel true (Expr Oi (Some 100)) [Val 11]))) (And (Rel false (Expr Of (Some 10)) [Val 1]) (Rel true (Expr Of (Some 100)) [Val 11]))))]);
  ([bs "si"],
    [(One, bs "n = 0,1 or i = 0 and f = 1",
      (Or (Rel false (Expr On None) [Val 0; Val 1]) (And (Rel false (Expr Oi None) [Val 0]) (Rel false (Expr Of None) [Val 1]))))]);
  ([bs "tzm"],
    [(One, bs "n = 0..1 or n = 11..99",
      (Or (Rel false (Expr On None) [Range 0 1]) (Rel false (Expr On None) [Range 11 99])))]);
  ([bs "blo"; bs "ksh"],
    [(Zero, bs "n = 0",
      (Rel false (Expr On None) [Val 0]));
     (One, bs "n = 1",
      (Rel false (Expr On None) [Val 1]))]);
  ([bs "bs"; bs "hr"; bs "sh"; bs "sr"; bs "sr-Latn"],
    [(One, bs "v = 0 and i % 10 = 1 and i % 100 != 11 or f % 10 = 1 and f % 100 != 11",
      (Or (And (Rel false (Expr Ov None) [Val 0]) (And (Rel false (Expr Oi (Some 10)) [Val 1]) (Rel true (Expr Oi (Some 100)) [Val 11]))) (And (Rel false (Expr Of (Some 10)) [Val 1]) (Rel true (Expr Of (Some 100)) [Val 11]))));
     (Few, bs "v = 0 and i % 10 = 2..4 and i % 100 != 12..14 or f % 10 = 2..4 and f % 100 != 12..14",
      (Or (And (Rel false (Expr Ov None) [Val 0]) (And (Rel false (Expr Oi (Some 10)) [Range 2 4]) (Rel true (Expr Oi (Some 100)) [Range 12 14]))) (And (Rel false (Expr Of (Some 10)) [Range 2 4]) (Rel true (Expr Of (Some 100)) [Range 12 14]))))]);
  ([bs "ca"; bs "it"; bs "lld"; bs "pt-PT"; bs "scn"; bs "vec"],
    [(One, bs "i = 1 and v = 0",
      (And (Rel false (Expr Oi None) [Val 1]) (Rel false (Expr Ov None) [Val 0])));
     (Many, bs "e = 0 and i != 0 and i % 1000000 = 0 and v = 0 or e != 0..5",
      (Or (And (Rel false (Expr Oe None) [Val 0]) (And (Rel true (Expr Oi None) [Val 0]) (And (Rel false (Expr Oi (Some 1000000)) [Val 0]) (Rel false (Expr Ov None) [Val 0])))) (Rel true (Expr Oe None) [Range 0 5])))]);
  ([bs "es"],
    [(One, bs "n = 1",
      (Rel false (Expr On None) [Val 1]));
     (Many, bs "e = 0 and i != 0 and i % 1000000 = 0 and v = 0 or e != 0..5",
      (Or (And (Rel false (Expr Oe None) [Val 0]) (And (Rel true (Expr Oi None) [Val 0]) (And (Rel false (Expr Oi (Some 1000000)) [Val 0]) (Rel false (Expr Ov None) [Val 0])))) (Rel true (Expr Oe None) [Range 0 5])))]);
  ([bs "fr"],
    [(One, bs "i = 0,1",
      (Rel false (Expr Oi None) [Val 0; Val 1]));
     (Many, bs "e = 0 and i != 0 and i % 1000000 = 0 and v = 0 or e != 0..5",
      (Or (And (Rel false (Expr Oe None) [Val 0]) (And (Rel true (Expr Oi None) [Val 0]) (And (Rel false (Expr Oi (Some 1000000)) [Val 0]) (Rel false (Expr Ov None) [Val 0])))) (Rel true (Expr Oe None) [Range 0 5])))]);
  ([bs "he"],
    [(One, bs "i = 1 and v = 0 or i = 0 and v != 0",
      (Or (And (Rel false (Expr Oi None) [Val 1]) (Rel false (Expr Ov None) [Val 0])) (And (Rel false (Expr Oi None) [Val 0]) (Rel true (Expr Ov None) [Val 0]))));
     (Two, bs "i = 2 and v = 0",
      (And (Rel false (Expr Oi None) [Val 2]) (Rel false (Expr Ov None) [Val 0])))]);
  ([bs "iu"; bs "naq"; bs "sat"; bs "se"; bs "sma"; bs "smi"; bs "smj"; bs "smn"; bs "sms"],
    [(One, bs "n = 1",
      (Rel false (Expr On None) [Val 1]));
     (Two, bs "n = 2",
      (Rel false (Expr On None) [Val 2]))]);
  ([bs "lag"],
    [(Zero, bs "n = 0",
      (Rel false (Expr On None) [Val 0]));
     (One, bs "i = 0,1 and n != 0",
      (And (Rel false (Expr Oi None) [Val 0; Val 1]) (Rel true (Expr On None) [Val 0])))]);
  ([bs "lv"; bs "prg"],
    [(Zero, bs "n % 10 = 0 or n % 100 = 11..19 or v = 2 and f % 100 = 11..19",
      (Or (Rel false (Expr On (Some 10)) [Val 0]) (Or (Rel false (Expr On (Some 100)) [Range 11 19]) (And (Rel false (Expr Ov None) [Val 2]) (Rel false (Expr Of (Some 100)) [Range 11 19])))));
     (One, bs "n % 10 = 1 and n % 100 != 11 or v = 2 and f % 10 = 1 and f % 100 != 11 or v != 2 and f % 10 = 1",
      (Or (And (Rel false (Expr On (Some 10)) [Val 1]) (Rel true (Expr On (Some 100)) [Val 11])) (Or (And (Rel false (Expr Ov None) [Val 2]) (And (Rel false (Expr Of (Some 10)) [Val 1]) (Rel true (Expr Of (Some 100)) [Val 11]))) (And (Rel true (Expr Ov None) [Val 2]) (Rel false (Expr Of (Some 10)) [Val 1])))))]);
  ([bs "mo"; bs "ro"; bs "ro-MD"],
    [(One, bs "i = 1 and v = 0",
      (And (Rel false (Expr Oi None) [Val 1]) (Rel false (Expr Ov None) [Val 0])));
     (Few, bs "v != 0 or n = 0 or n != 1 and n % 100 = 1..19",
      (Or (Rel true (Expr Ov None) [Val 0]) (Or (Rel false (Expr On None) [Val 0]) (And (Rel true (Expr On None) [Val 1]) (Rel false (Expr On (Some 100)) [Range 1 19])))))]);
  ([bs "pt"],
    [(One, bs "i = 0..1",
      (Rel false (Expr Oi None) [Range 0 1]));
     (Many, bs "e = 0 and i != 0 and i % 1000000 = 0 and v = 0 or e != 0..5",
      (Or (And (Rel false (Expr Oe None) [Val 0]) (And (Rel true (Expr Oi None) [Val 0]) (And (Rel false (Expr Oi (Some 1000000)) [Val 0]) (Rel false (Expr Ov None) [Val 0])))) (Rel true (Expr Oe None) [Range 0 5])))]);
  ([bs "shi"],
    [(One, bs "i = 0 or n = 1",
      (Or (Rel false (Expr Oi None) [Val 0]) (Rel false (Expr On None) [Val 1])));
     (Few, bs "n = 2..10",
      (Rel false (Expr On None) [Range 2 10]))]);
  ([bs "be"],
    [(One, bs "n % 10 = 1 and n % 100 != 11",
      (And (Rel false (Expr On (Some 10)) [Val 1]) (Rel true (Expr On (Some 100)) [Val 11])));
     (Few, bs "n % 10 = 2..4 and n % 100 != 12..14",
      (And (Rel false (Expr On (Some 10)) [Range 2 4]) (Rel true (Expr On (Some 100)) [Range 12 14])));
     (Many, bs "n % 10 = 0 or n % 10 = 5..9 or n % 100 = 11..14",
      (Or (Rel false (Expr On (Some 10)) [Val 0]) (Or (Rel false (Expr On (Some 10)) [Range 5 9]) (Rel false (Expr On (Some 100)) [Range 11 14]))))]);
  ([bs "cs"; bs "sk"],
    [(One, bs "i = 1 and v = 0",
      (And (Rel false (Expr Oi None) [Val 1]) (Rel false (Expr Ov None) [Val 0])));
     (Few, bs "i = 2..4 and v = 0",
      (And (Rel false (Expr Oi None) [Range 2 4]) (Rel false (Expr Ov None) [Val 0])));
     (Many, bs "v != 0",
      (Rel true (Expr Ov None) [Val 0]))]);
  ([bs "dsb"; bs "hsb"],
    [(One, bs "v = 0 and i % 100 = 1 or f % 100 = 1",
      (Or (And (Rel false (Expr Ov None) [Val 0]) (Rel false (Expr Oi (Some 100)) [Val 1])) (Rel false (Expr Of (Some 100)) [Val 1])));
     (Two, bs "v = 0 and i % 100 = 2 or f % 100 = 2",
      (Or (And (Rel false (Expr Ov None) [Val 0]) (Rel false (Expr Oi (Some 100)) [Val 2])) (Rel false (Expr Of (Some 100)) [Val 2])));
     (Few, bs "v = 0 and i % 100 = 3..4 or f % 100 = 3..4",
      (Or (And (Rel false (Expr Ov None) [Val 0]) (Rel false (Expr Oi (Some 100)) [Range 3 4])) (Rel false (Expr Of (Some 100)) [Range 3 4])))]);
  ([bs "gd"],
    [(One, bs "n = 1,11",
      (Rel false (Expr On None) [Val 1; Val 11]));
     (Two, bs "n = 2,12",
      (Rel false (Expr On None) [Val 2; Val 12]));
     (Few, bs "n = 3..10,13..19",
      (Rel false (Expr On None) [Range 3 10; Range 13 19]))]);
  ([bs "lt"],
    [(One, bs "n % 10 = 1 and n % 100 != 11..19",
      (And (Rel false (Expr On (Some 10)) [Val 1]) (Rel true (Expr On (Some 100)) [Range 11 19])));
     (Few, bs "n % 10 = 2..9 and n % 100 != 11..19",
      (And (Rel false (Expr On (Some 10)) [Range 2 9]) (Rel true (Expr On (Some 100)) [Range 11 19])));
     (Many, bs "f != 0",
      (Rel true (Expr Of None) [Val 0]))]);
  ([bs "pl"],
    [(One, bs "i = 1 and v = 0",
      (And (Rel false (Expr Oi None) [Val 1]) (Rel false (Expr Ov None) [Val 0])));
     (Few, bs "v = 0 and i % 10 = 2..4 and i % 100 != 12..14",
      (And (Rel false (Expr Ov None) [Val 0]) (And (Rel false (Expr Oi (Some 10)) [Range 2 4]) (Rel true (Expr Oi (Some 100)) [Range 12 14]))));
     (Many, bs "v = 0 and i != 1 and i % 10 = 0..1 or v = 0 and i % 10 = 5..9 or v = 0 and i % 100 = 12..14",
      (Or (And (Rel false (Expr Ov None) [Val 0]) (And (Rel true (Expr Oi None) [Val 1]) (Rel false (Expr Oi (Some 10)) [Range 0 1]))) (Or (And (Rel false (Expr Ov None) [Val 0]) (Rel false (Expr Oi (Some 10)) [Range 5 9])) (And (Rel false (Expr Ov None) [Val 0]) (Rel false (Expr Oi (Some 100)) [Range 12 14])))))]);
  ([bs "ru"; bs "uk"],
    [(One, bs "v = 0 and i % 10 = 1 and i % 100 != 11",
      (And (Rel false (Expr Ov None) [Val 0]) (And (Rel false (Expr Oi (Some 10)) [Val 1]) (Rel true (Expr Oi (Some 100)) [Val 11]))));
     (Few, bs "v = 0 and i % 10 = 2..4 and i % 100 != 12..14",
      (And (Rel false (Expr Ov None) [Val 0]) (And (Rel false (Expr Oi (Some 10)) [Range 2 4]) (Rel true (Expr Oi (Some 100)) [Range 12 14]))));
     (Many, bs "v = 0 and i % 10 = 0 or v = 0 and i % 10 = 5..9 or v = 0 and i % 100 = 11..14",
      (Or (And (Rel false (Expr Ov None) [Val 0]) (Rel false (Expr Oi (Some 10)) [Val 0])) (Or (And (Rel false (Expr Ov None) [Val 0]) (Rel false (Expr Oi (Some 10)) [Range 5 9])) (And (Rel false (Expr Ov None) [Val 0]) (Rel false (Expr Oi (Some 100)) [Range 11 14])))))]);
  ([bs "sl"],
    [(One, bs "v = 0 and i % 100 = 1",
      (And (Rel false (Expr Ov None) [Val 0]) (Rel false (Expr Oi (Some 100)) [Val 1])));
     (Two, bs "v = 0 and i % 100 = 2",
      (And (Rel false (Expr Ov None) [Val 0]) (Rel false (Expr Oi (Some 100)) [Val 2])));
     (Few, bs "v = 0 and i % 100 = 3..4 or v != 0",
      (Or (And (Rel false (Expr Ov None) [Val 0]) (Rel false (Expr Oi (Some 100)) [Range 3 4])) (Rel true (Expr Ov None) [Val 0])))]);
  ([bs "br"],
    [(One, bs "n % 10 = 1 and n % 100 != 11,71,91",
      (And (Rel false (Expr On (Some 10)) [Val 1]) (Rel true (Expr On (Some 100)) [Val 11; Val 71; Val 91])));
     (Two, bs "n % 10 = 2 and n % 100 != 12,72,92",
      (And (Rel false (Expr On (Some 10)) [Val 2]) (Rel true (Expr On (Some 100)) [Val 12; Val 72; Val 92])));
     (Few, bs "n % 10 = 3..4,9 and n % 100 != 10..19,70..79,90..99",
      (And (Rel false (Expr On (Some 10)) [Range 3 4; Val 9]) (Rel true (Expr On (Some 100)) [Range 10 19; Range 70 79; Range 90 99])));
     (Many, bs "n != 0 and n % 1000000 = 0",
      (And (Rel true (Expr On None) [Val 0]) (Rel false (Expr On (Some 1000000)) [Val 0])))]);
  ([bs "ga"],
    [(One, bs "n = 1",
      (Rel false (Expr On None) [Val 1]));
     (Two, bs "n = 2",
      (Rel false (Expr On None) [Val 2]));
     (Few, bs "n = 3..6",
      (Rel false (Expr On None) [Range 3 6]));
     (Many, bs "n = 7..10",
      (Rel false (Expr On None) [Range 7 10]))]);
  ([bs "gv"],
    [(One, bs "v = 0 and i % 10 = 1",
      (And (Rel false (Expr Ov None) [Val 0]) (Rel false (Expr Oi (Some 10)) [Val 1])));
     (Two, bs "v = 0 and i % 10 = 2",
      (And (Rel false (Expr Ov None) [Val 0]) (Rel false (Expr Oi (Some 10)) [Val 2])));
     (Few, bs "v = 0 and i % 100 = 0,20,40,60,80",
      (And (Rel false (Expr Ov None) [Val 0]) (Rel false (Expr Oi (Some 100)) [Val 0; Val 20; Val 40; Val 60; Val 80])));
     (Many, bs "v != 0",
      (Rel true (Expr Ov None) [Val 0]))]);
  ([bs "mt"],
    [(One, bs "n = 1",
      (Rel false (Expr On None) [Val 1]));
     (Two, bs "n = 2",
      (Rel false (Expr On None) [Val 2]));
     (Few, bs "n = 0 or n % 100 = 3..10",
      (Or (Rel false (Expr On None) [Val 0]) (Rel false (Expr On (Some 100)) [Range 3 10])));
     (Many, bs "n % 100 = 11..19",
      (Rel false (Expr On (Some 100)) [Range 11 19]))]);
  ([bs "ar"; bs "ars"],
    [(Zero, bs "n = 0",
      (Rel false (Expr On None) [Val 0]));
     (One, bs "n = 1",
      (Rel false (Expr On None) [Val 1]));
     (Two, bs "n = 2",
      (Rel false (Expr On None) [Val 2]));
     (Few, bs "n % 100 = 3..10",
      (Rel false (Expr On (Some 100)) [Range 3 10]));
     (Many, bs "n % 100 = 11..99",
      (Rel false (Expr On (Some 100)) [Range 11 99]))]);
  ([bs "cy"],
    [(Zero, bs "n = 0",
      (Rel false (Expr On None) [Val 0]));
     (One, bs "n = 1",
      (Rel false (Expr On None) [Val 1]));
     (Two, bs "n = 2",
      (Rel false (Expr On None) [Val 2]));
     (Few, bs "n = 3",
      (Rel false (Expr On None) [Val 3]));
     (Many, bs "n = 6",
      (Rel false (Expr On None) [Val 6]))]);
  ([bs "kw"],
    [(Zero, bs "n = 0",
      (Rel false (Expr On None) [Val 0]));
     (One, bs "n = 1",
      (Rel false (Expr On None) [Val 1]));
     (Two, bs "n % 100 = 2,22,42,62,82 or n % 1000 = 0 and n % 100000 = 1000..20000,40000,60000,80000 or n != 0 and n % 1000000 = 100000",
      (Or (Rel false (Expr On (Some 100)) [Val 2; Val 22; Val 42; Val 62; Val 82]) (Or (And (Rel false (Expr On (Some 1000)) [Val 0]) (Rel false (Expr On (Some 100000)) [Range 1000 20000; Val 40000; Val 60000; Val 80000])) (And (Rel true (Expr On None) [Val 0]) (Rel false (Expr On (Some 1000000)) [Val 100000])))));
     (Few, bs "n % 100 = 3,23,43,63,83",
      (Rel false (Expr On (Some 100)) [Val 3; Val 23; Val 43; Val 63; Val 83]));
     (Many, bs "n != 1 and n % 100 = 1,21,41,61,81",
      (And (Rel true (Expr On None) [Val 1]) (Rel false (Expr On (Some 100)) [Val 1; Val 21; Val 41; Val 61; Val 81])))])].
