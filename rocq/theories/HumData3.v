(** Translations and formats that come with humanize, part 3: generated by
    tools/gen_humdata.py from /repo/humanize/locale, django.po and the Go file of
    each package. *)
From Coq Require Import String Ascii List.
From Verif Require Import Base DfmtModel HumLocModel.
Import ListNotations.

(** humanize/locale/eo/django.po *)
Definition po_eo : bytes := bs "# This file is distributed under the same license as the Django package.
# 
# Translators:
# Batist D 🐍 <baptiste+transifex@darthenay.fr>, 2012-2013
# Batist D 🐍 <baptiste+transifex@darthenay.fr>, 2013-2019
# batisteo <bapdarth@yahoo·fr>, 2011
# Dinu Gherman <gherman@darwin.in-berlin.de>, 2011
# kristjan <kristjan.schmidt@googlemail.com>, 2011
# Matthieu Desplantes <matmututu@gmail.com>, 2021
# Meiyer <interdist+translations@gmail.com>, 2022
# Nikolay Korotkiy <sikmir@disroot.org>, 2017-2018
# Robin van der Vliet <info@robinvandervliet.com>, 2019
# Adamo Mesha <adam.raizen@gmail.com>, 2012
msgid """"
msgstr """"
""Project-Id-Version: django\n""
""Report-Msgid-Bugs-To: \n""
""POT-Creation-Date: 2022-05-17 05:23-0500\n""
""PO-Revision-Date: 2022-05-25 06:49+0000\n""
""Last-Translator: Meiyer <interdist+translations@gmail.com>, 2022\n""
""Language-Team: Esperanto (http://www.transifex.com/django/django/language/eo/)\n""
""Language: eo\n""
""MIME-Version: 1.0\n""
""Content-Type: text/plain; charset=UTF-8\n""
""Content-Transfer-Encoding: 8bit\n""
""Plural-Forms: nplurals=2; plural=(n != 1);\n""

msgid ""%[1]d byte""
msgid_plural ""%[1]d bytes""
msgstr[0] ""%[1]d bitoko""
msgstr[1] ""%[1]d bitokoj""

msgid ""%[1]s billion""
msgid_plural ""%[1]s billion""
msgstr[0] ""%[1]s miliardoj""
msgstr[1] ""%[1]s miliardoj""

msgid ""%[1]s decillion""
msgid_plural ""%[1]s decillion""
msgstr[0] ""%[1]s dekilionoj""
msgstr[1] ""%[1]s dekilionoj""

msgid ""%[1]s googol""
msgid_plural ""%[1]s googol""
msgstr[0] ""%[1]s gugloj""
msgstr[1] ""%[1]s gugloj""

msgid ""%[1]s million""
msgid_plural ""%[1]s million""
msgstr[0] ""%[1]s milionoj""
msgstr[1] ""%[1]s milionoj""

msgid ""%[1]s nonillion""
msgid_plural ""%[1]s nonillion""
msgstr[0] ""%[1]s naŭilionoj""
msgstr[1] ""%[1]s naŭilionoj""

msgid ""%[1]s octillion""
msgid_plural ""%[1]s octillion""
msgstr[0] ""%[1]s okilionoj""
msgstr[1] ""%[1]s okilionoj""

msgid ""%[1]s quadrillion""
msgid_plural ""%[1]s quadrillion""
msgstr[0] ""%[1]s kvarilionoj""
msgstr[1] ""%[1]s kvarilionoj""

msgid ""%[1]s quintillion""
msgid_plural ""%[1]s quintillion""
msgstr[0] ""%[1]s kvinilionoj""
msgstr[1] ""%[1]s kvinilionoj""

msgid ""%[1]s septillion""
msgid_plural ""%[1]s septillion""
msgstr[0] ""%[1]s sepilionoj""
msgstr[1] ""%[1]s sepilionoj""

msgid ""%[1]s sextillion""
msgid_plural ""%[1]s sextillion""
msgstr[0] ""%[1]s sesilionoj""
msgstr[1] ""%[1]s sesilionoj""

msgid ""%[1]s trillion""
msgid_plural ""%[1]s trillion""
msgstr[0] ""%[1]s triilionoj""
msgstr[1] ""%[1]s triilionoj""

msgid ""%[1]v ago""
msgstr ""antaŭ %[1]v""

msgid ""%[1]v day""
msgid_plural ""%[1]v days""
msgstr[0] ""%[1]v tago""
msgstr[1] ""%[1]v tagoj""

msgid ""%[1]v from now""
msgstr ""antaŭ %[1]v""

msgid ""%[1]v hour""
msgid_plural ""%[1]v hours""
msgstr[0] ""%[1]v horo""
msgstr[1] ""%[1]v horoj""

msgid ""%[1]v minute""
msgid_plural ""%[1]v minutes""
msgstr[0] ""%[1]v minuto""
msgstr[1] ""%[1]v minutoj""

msgid ""%[1]v month""
msgid_plural ""%[1]v months""
msgstr[0] ""%[1]v monato""
msgstr[1] ""%[1]v monatoj""

msgid ""%[1]v week""
msgid_plural ""%[1]v weeks""
msgstr[0] ""%[1]v semajno""
msgstr[1] ""%[1]v semajnoj""

msgid ""%[1]v year""
msgid_plural ""%[1]v years""
msgstr[0] ""%[1]v jaro""
msgstr[1] ""%[1]v jaroj""

msgid ""%s GB""
msgstr ""%s GB""

msgid ""%s KB""
msgstr ""%s KB""

msgid ""%s MB""
msgstr ""%s MB""

msgid ""%s PB""
msgstr ""%s PB""

msgid ""%s TB""
msgstr ""%s TB""

msgid "", ""
msgstr "", ""

msgid ""AM""
msgstr ""ATM""

msgid ""Afrikaans""
msgstr ""Afrikansa""

msgid ""Albanian""
msgstr ""Albana""

msgid ""Algerian Arabic""
msgstr ""Alĝeria araba""

msgid ""April""
msgstr ""aprilo""

msgid ""Arabic""
msgstr ""Araba""

msgid ""Argentinian Spanish""
msgstr ""Hispana (Argentinio)""

msgid ""Armenian""
msgstr ""Armena""

msgid ""Asturian""
msgstr ""Asturia""

msgid ""August""
msgstr ""aŭgusto""

msgid ""Australian English""
msgstr ""Angla (Aŭstralia)""

msgid ""Azerbaijani""
msgstr ""Azerbajĝana""

msgid ""Basque""
msgstr ""Eŭska""

msgid ""Belarusian""
msgstr ""Belorusa""

msgid ""Bengali""
msgstr ""Bengala""

msgid ""Bosnian""
msgstr ""Bosnia""

msgid ""Brazilian Portuguese""
msgstr ""Portugala (Brazilo)""

msgid ""Breton""
msgstr ""Bretona""

msgid ""British English""
msgstr ""Angla (Brita)""

msgid ""Bulgarian""
msgstr ""Bulgara""

msgid ""Burmese""
msgstr ""Birma""

msgid ""Catalan""
msgstr ""Kataluna""

msgid ""Colombian Spanish""
msgstr ""Hispana (Kolombio)""

msgid ""Croatian""
msgstr ""Kroata""

msgid ""Czech""
msgstr ""Ĉeĥa""

msgid ""Danish""
msgstr ""Dana""

msgid ""December""
msgstr ""decembro""

msgid ""Dutch""
msgstr ""Nederlanda""

msgid ""English""
msgstr ""Angla""

msgid ""Esperanto""
msgstr ""Esperanto""

msgid ""Estonian""
msgstr ""Estona""

msgid ""February""
msgstr ""februaro""

msgid ""Finnish""
msgstr ""Finna""

msgid ""French""
msgstr ""Franca""

msgid ""Fri""
msgstr ""ven""

msgid ""Friday""
msgstr ""vendredo""

msgid ""Frisian""
msgstr ""Frisa""

msgid ""Galician""
msgstr ""Galega""

msgid ""Georgian""
msgstr ""Kartvela""

msgid ""German""
msgstr ""Germana""

msgid ""Greek""
msgstr ""Greka""

msgid ""Hebrew""
msgstr ""Hebrea""

msgid ""Hindi""
msgstr ""Hinda""

msgid ""Hungarian""
msgstr ""Hungara""

msgid ""Icelandic""
msgstr ""Islanda""

msgid ""Ido""
msgstr ""Ido""

msgid ""Igbo""
msgstr ""Igba""

msgid ""Indonesian""
msgstr ""Indoneza""

msgid ""Interlingua""
msgstr ""Interlingvaa""

msgid ""Irish""
msgstr ""Irlanda""

msgid ""Italian""
msgstr ""Itala""

msgid ""January""
msgstr ""januaro""

msgid ""Japanese""
msgstr ""Japana""

msgid ""July""
msgstr ""julio""

msgid ""June""
msgstr ""junio""

msgid ""Kabyle""
msgstr ""Kabila""

msgid ""Kannada""
msgstr ""Kanara""

msgid ""Kazakh""
msgstr ""Kazaĥa""

msgid ""Khmer""
msgstr ""Kmera""

msgid ""Korean""
msgstr ""Korea""

msgid ""Kyrgyz""
msgstr ""Kirgiza""

msgid ""Latvian""
msgstr ""Latva""

msgid ""Lithuanian""
msgstr ""Litova""

msgid ""Lower Sorbian""
msgstr ""Malsuprasaroba""

msgid ""Luxembourgish""
msgstr ""Luksemburga""

msgid ""Macedonian""
msgstr ""Makedona""

msgid ""Malay""
msgstr ""Malaja""

msgid ""Malayalam""
msgstr ""Malajala""

msgid ""Marathi""
msgstr ""Marata""

msgid ""March""
msgstr ""marto""

msgid ""May""
msgstr ""majo""

msgid ""Mexican Spanish""
msgstr ""Hispana (Meksiko)""

msgid ""Mon""
msgstr ""lun""

msgid ""Monday""
msgstr ""lundo""

msgid ""Mongolian""
msgstr ""Mongola""

msgid ""Nepali""
msgstr ""Nepala""

msgid ""Nicaraguan Spanish""
msgstr ""Hispana (Nikaragvo)""

msgid ""Norwegian Bokmål""
msgstr ""Norvega (bokmål)""

msgid ""Norwegian Nynorsk""
msgstr ""Norvega (nynorsk)""

msgid ""November""
msgstr ""novembro""

msgid ""October""
msgstr ""oktobro""

msgid ""Ossetic""
msgstr ""Oseta""

msgid ""PM""
msgstr ""PTM""

msgid ""Persian""
msgstr ""Persa""

msgid ""Polish""
msgstr ""Pola""

msgid ""Portuguese""
msgstr ""Portugala""

msgid ""Punjabi""
msgstr ""Panĝaba""

msgid ""Romanian""
msgstr ""Rumana""

msgid ""Russian""
msgstr ""Rusa""

msgid ""Sat""
msgstr ""sab""

msgid ""Saturday""
msgstr ""sabato""

msgid ""Scottish Gaelic""
msgstr ""Skota gaela""

msgid ""September""
msgstr ""septembro""

msgid ""Serbian""
msgstr ""Serba""

msgid ""Serbian Latin""
msgstr ""Serba (latina)""

msgid ""Simplified Chinese""
msgstr ""Ĉina (simpligite)""

msgid ""Slovak""
msgstr ""Slovaka""

msgid ""Slovenian""
msgstr ""Slovena""

msgid ""Spanish""
msgstr ""Hispana""

msgid ""Sun""
msgstr ""dim""

msgid ""Sunday""
msgstr ""dimanĉo""

msgid ""Swahili""
msgstr ""Svahila""

msgid ""Swedish""
msgstr ""Sveda""

msgid ""Tajik""
msgstr ""Taĝika""

msgid ""Tamil""
msgstr ""Tamila""

msgid ""Tatar""
msgstr ""Tatara""

msgid ""Telugu""
msgstr ""Telugua""

msgid ""Thai""
msgstr ""Taja""

msgid ""Thu""
msgstr ""ĵaŭ""

msgid ""Thursday""
msgstr ""ĵaŭdo""

msgid ""Traditional Chinese""
msgstr ""Ĉina (tradicie)""

msgid ""Tue""
msgstr ""mar""

msgid ""Tuesday""
msgstr ""mardo""

msgid ""Turkish""
msgstr ""Turka""

msgid ""Turkmen""
msgstr ""Turkmena""

msgid ""Udmurt""
msgstr ""Udmurta""

msgid ""Ukrainian""
msgstr ""Ukraina""

msgid ""Upper Sorbian""
msgstr ""Suprasoraba""

msgid ""Urdu""
msgstr ""Urdua""

msgid ""Uzbek""
msgstr ""Uzbeka""

msgid ""Venezuelan Spanish""
msgstr ""Hispana (Venezuelo)""

msgid ""Vietnamese""
msgstr ""Vjetnama""

msgid ""Wed""
msgstr ""mer""

msgid ""Wednesday""
msgstr ""merkredo""

msgid ""Welsh""
msgstr ""Kimra""

msgid ""a minute ago""
msgid_plural ""%[1]v minutes ago""
msgstr[0] ""minuto antaŭe""
msgstr[1] ""%[1]v minutoj antaŭe""

msgid ""a minute from now""
msgid_plural ""%[1]v minutes from now""
msgstr[0] ""post minuto""
msgstr[1] ""post %[1]v minutoj""

msgid ""a second ago""
msgid_plural ""%[1]v seconds ago""
msgstr[0] ""sekundo antaŭe""
msgstr[1] ""%[1]v sekundoj antaŭe""

msgid ""a second from now""
msgid_plural ""%[1]v seconds from now""
msgstr[0] ""post sekundo""
msgstr[1] ""post %[1]v sekundoj""

msgid ""a.m.""
msgstr ""atm""

msgid ""an hour ago""
msgid_plural ""%[1]v hours ago""
msgstr[0] ""horo antaŭe""
msgstr[1] ""%[1]v horoj antaŭe""

msgid ""an hour from now""
msgid_plural ""%[1]v hours from now""
msgstr[0] ""post horo""
msgstr[1] ""post %[1]v horoj""

msgid ""apr""
msgstr ""apr""

msgid ""aug""
msgstr ""aŭg""

msgid ""dec""
msgstr ""dec""

msgid ""eight""
msgstr ""ok""

msgid ""feb""
msgstr ""feb""

msgid ""five""
msgstr ""kvin""

msgid ""four""
msgstr ""kvar""

msgid ""jan""
msgstr ""jan""

msgid ""jul""
msgstr ""jul""

msgid ""jun""
msgstr ""jun""

msgid ""mar""
msgstr ""mar""

msgid ""may""
msgstr ""maj""

msgid ""midnight""
msgstr ""noktomezo""

msgid ""nine""
msgstr ""naŭ""

msgid ""noon""
msgstr ""tagmezo""

msgid ""nov""
msgstr ""nov""

msgid ""now""
msgstr ""nun""

msgid ""oct""
msgstr ""okt""

msgid ""one""
msgstr ""unu""

msgid ""p.m.""
msgstr ""ptm""

msgid ""sep""
msgstr ""sep""

msgid ""seven""
msgstr ""sep""

msgid ""six""
msgstr ""ses""

msgid ""three""
msgstr ""tri""

msgid ""today""
msgstr ""hodiaŭ""

msgid ""tomorrow""
msgstr ""morgaŭ""

msgid ""two""
msgstr ""du""

msgid ""yesterday""
msgstr ""hieraŭ""

msgctxt ""abbrev. month""
msgid ""April""
msgstr ""apr.""

msgctxt ""abbrev. month""
msgid ""Aug.""
msgstr ""aŭg.""

msgctxt ""abbrev. month""
msgid ""Dec.""
msgstr ""dec.""

msgctxt ""abbrev. month""
msgid ""Feb.""
msgstr ""feb.""

msgctxt ""abbrev. month""
msgid ""Jan.""
msgstr ""jan.""

msgctxt ""abbrev. month""
msgid ""July""
msgstr ""jul.""

msgctxt ""abbrev. month""
msgid ""June""
msgstr ""jun.""

msgctxt ""abbrev. month""
msgid ""March""
msgstr ""mar.""

msgctxt ""abbrev. month""
msgid ""May""
msgstr ""majo""

msgctxt ""abbrev. month""
msgid ""Nov.""
msgstr ""nov.""

msgctxt ""abbrev. month""
msgid ""Oct.""
msgstr ""okt.""

msgctxt ""abbrev. month""
msgid ""Sept.""
msgstr ""sept.""

msgctxt ""alt. month""
msgid ""April""
msgstr ""Aprilo""

msgctxt ""alt. month""
msgid ""August""
msgstr ""Aŭgusto""

msgctxt ""alt. month""
msgid ""December""
msgstr ""Decembro""

msgctxt ""alt. month""
msgid ""February""
msgstr ""Februaro""

msgctxt ""alt. month""
msgid ""January""
msgstr ""Januaro""

msgctxt ""alt. month""
msgid ""July""
msgstr ""Julio""

msgctxt ""alt. month""
msgid ""June""
msgstr ""Junio""

msgctxt ""alt. month""
msgid ""March""
msgstr ""Marto""

msgctxt ""alt. month""
msgid ""May""
msgstr ""Majo""

msgctxt ""alt. month""
msgid ""November""
msgstr ""Novembro""

msgctxt ""alt. month""
msgid ""October""
msgstr ""Oktobro""

msgctxt ""alt. month""
msgid ""September""
msgstr ""Septembro""

msgctxt ""ordinal 0""
msgid ""%vth""
msgstr ""%va""

msgctxt ""ordinal 1""
msgid ""%vst""
msgstr ""%va""

msgctxt ""ordinal 11, 12, 13""
msgid ""%vth""
msgstr ""%va""

msgctxt ""ordinal 2""
msgid ""%vnd""
msgstr ""%va""

msgctxt ""ordinal 3""
msgid ""%vrd""
msgstr ""%va""

msgctxt ""ordinal 4""
msgid ""%vth""
msgstr ""%va""

msgctxt ""ordinal 5""
msgid ""%vth""
msgstr ""%va""

msgctxt ""ordinal 6""
msgid ""%vth""
msgstr ""%va""

msgctxt ""ordinal 7""
msgid ""%vth""
msgstr ""%va""

msgctxt ""ordinal 8""
msgid ""%vth""
msgstr ""%va""

msgctxt ""ordinal 9""
msgid ""%vth""
msgstr ""%va""
".
(** humanize/locale/eo/locale.go (New) *)
Definition loc_eo : locale_data := LD (bs "eo") [(bs "django.po", po_eo)]
  (Some (FD (bs "j\-\a \d\e F Y") (bs "H:i") (bs "j\-\a \d\e F Y\, \j\e H:i") (bs "F \d\e Y") (bs "j\-\a \d\e F") (bs "Y-m-d") (bs "Y-m-d H:i"))).

(** humanize/locale/es/django.po *)
Definition po_es : bytes := bs "# This file is distributed under the same license as the Django package.
# 
# Translators:
# 8cb2d5a716c3c9a99b6d20472609a4d5_6d03802 <ce931cb71bc28f3f828fb2dad368a4f7_5255>, 2011
# Abe Estrada, 2013
# Abe Estrada, 2013
# albertoalcolea <albertoalcolea@gmail.com>, 2014
# albertoalcolea <albertoalcolea@gmail.com>, 2014
# Amanda Copete, 2017
# Amanda Copete, 2017
# Antoni Aloy <aaloy@apsl.net>, 2011-2014,2017,2019
# Claude Paroz <claude@2xlibre.net>, 2020
# Diego Andres Sanabria Martin <diegueus9@gmail.com>, 2012
# Diego Schulz <dschulz@gmail.com>, 2012
# e4db27214f7e7544f2022c647b585925_bb0e321, 2014,2020
# e4db27214f7e7544f2022c647b585925_bb0e321, 2015-2016
# e4db27214f7e7544f2022c647b585925_bb0e321, 2014
# e4db27214f7e7544f2022c647b585925_bb0e321, 2020
# Ernesto Rico Schmidt <ernesto@rico-schmidt.name>, 2017
# Ernesto Rico Schmidt <ernesto@rico-schmidt.name>, 2017
# 8cb2d5a716c3c9a99b6d20472609a4d5_6d03802 <ce931cb71bc28f3f828fb2dad368a4f7_5255>, 2011
# Gustavo Adolfo Huarcaya Delgado <diavolo@gahd.net>, 2025
# Ignacio José Lizarán Rus <ilizaran@gmail.com>, 2019
# Igor Támara <igor@tamarapatino.org>, 2015
# Jannis Leidel <jannis@leidel.info>, 2011
# Jorge Andres Bravo Meza, 2024
# José Luis <alagunajs@gmail.com>, 2016
# José Luis <alagunajs@gmail.com>, 2016
# Josue Naaman Nistal Guerra <josuenistal@hotmail.com>, 2014
# Leonardo J. Caballero G. <leonardocaballero@gmail.com>, 2011,2013
# Luigy, 2019
# Luigy, 2019
# Marc Garcia <garcia.marc@gmail.com>, 2011
# Mariusz Felisiak <felisiak.mariusz@gmail.com>, 2021
# mpachas <miguel.pachas.garcia@gmail.com>, 2022
# monobotsoft <monobot.soft@gmail.com>, 2012
# Natalia, 2024
# ntrrgc <ntrrgc@gmail.com>, 2013
# ntrrgc <ntrrgc@gmail.com>, 2013
# Pablo, 2015
# Pablo, 2015
# Sebastián Magrí, 2013
# Sebastián Magrí, 2013
# Uriel Medina <urimeba511@gmail.com>, 2020-2021,2023
# Veronicabh <vero.blazher@gmail.com>, 2015
# Veronicabh <vero.blazher@gmail.com>, 2015
msgid """"
msgstr """"
""Project-Id-Version: django\n""
""Report-Msgid-Bugs-To: \n""
""POT-Creation-Date: 2025-03-19 11:30-0500\n""
""PO-Revision-Date: 2025-09-17 06:49+0000\n""
""Last-Translator: Gustavo Adolfo Huarcaya Delgado <diavolo@gahd.net>, 2025\n""
""Language-Team: Spanish (http://app.transifex.com/django/django/language/es/)\n""
""Language: es\n""
""MIME-Version: 1.0\n""
""Content-Type: text/plain; charset=UTF-8\n""
""Content-Transfer-Encoding: 8bit\n""
""Plural-Forms: nplurals=3; plural=n == 1 ? 0 : n != 0 && n % 1000000 == 0 ? 1 : 2;\n""

msgid ""%[1]d byte""
msgid_plural ""%[1]d bytes""
msgstr[0] ""%[1]d byte""
msgstr[1] ""%[1]d bytes""
msgstr[2] ""%[1]d bytes""

msgid ""%[1]s billion""
msgid_plural ""%[1]s billion""
msgstr[0] ""%[1]s millardo""
msgstr[1] ""%[1]s millardos""
msgstr[2] ""%[1]s millardos""

msgid ""%[1]s decillion""
msgid_plural ""%[1]s decillion""
msgstr[0] ""%[1]s quintillardo""
msgstr[1] ""%[1]s quintillardos""
msgstr[2] ""%[1]s quintillardos""

msgid ""%[1]s googol""
msgid_plural ""%[1]s googol""
msgstr[0] "" %[1]s  googol""
msgstr[1] "" %[1]s  gúgoles""
msgstr[2] "" %[1]s  gúgoles""

msgid ""%[1]s million""
msgid_plural ""%[1]s million""
msgstr[0] ""%[1]s millon""
msgstr[1] ""%[1]s millones""
msgstr[2] ""%[1]s millones""

msgid ""%[1]s nonillion""
msgid_plural ""%[1]s nonillion""
msgstr[0] ""%[1]s quintillón""
msgstr[1] ""%[1]s quintillones""
msgstr[2] ""%[1]s quintillones""

msgid ""%[1]s octillion""
msgid_plural ""%[1]s octillion""
msgstr[0] ""%[1]s cuatrillardo""
msgstr[1] ""%[1]s cuatrillardos""
msgstr[2] ""%[1]s cuatrillardos""

msgid ""%[1]s quadrillion""
msgid_plural ""%[1]s quadrillion""
msgstr[0] ""%[1]s billardos""
msgstr[1] ""%[1]s billardos""
msgstr[2] ""%[1]s billardos""

msgid ""%[1]s quintillion""
msgid_plural ""%[1]s quintillion""
msgstr[0] ""%[1]s trillón""
msgstr[1] ""%[1]s trillones""
msgstr[2] ""%[1]s trillones""

msgid ""%[1]s septillion""
msgid_plural ""%[1]s septillion""
msgstr[0] ""%[1]s cuatrillón""
msgstr[1] ""%[1]s cuatrillones""
msgstr[2] ""%[1]s cuatrillones""

msgid ""%[1]s sextillion""
msgid_plural ""%[1]s sextillion""
msgstr[0] ""%[1]s trillardo""
msgstr[1] ""%[1]s trillardos""
msgstr[2] ""%[1]s trillardos""

msgid ""%[1]s trillion""
msgid_plural ""%[1]s trillion""
msgstr[0] ""%[1]s billón""
msgstr[1] ""%[1]s billones""
msgstr[2] ""%[1]s billones""

msgid ""%[1]v ago""
msgstr ""hace %[1]v""

msgid ""%[1]v day""
msgid_plural ""%[1]v days""
msgstr[0] ""%[1]v día""
msgstr[1] ""%[1]v días""
msgstr[2] ""%[1]v días""

msgid ""%[1]v from now""
msgstr ""%[1]v desde ahora""

msgid ""%[1]v hour""
msgid_plural ""%[1]v hours""
msgstr[0] ""%[1]v hora""
msgstr[1] ""%[1]v horas""
msgstr[2] ""%[1]v horas""

msgid ""%[1]v minute""
msgid_plural ""%[1]v minutes""
msgstr[0] ""%[1]v minuto""
msgstr[1] ""%[1]v minutos""
msgstr[2] ""%[1]v minutos""

msgid ""%[1]v month""
msgid_plural ""%[1]v months""
msgstr[0] ""%[1]v mes""
msgstr[1] ""%[1]v meses""
msgstr[2] ""%[1]v meses""

msgid ""%[1]v week""
msgid_plural ""%[1]v weeks""
msgstr[0] ""%[1]v semana""
msgstr[1] ""%[1]v semanas""
msgstr[2] ""%[1]v semanas""

msgid ""%[1]v year""
msgid_plural ""%[1]v years""
msgstr[0] ""%[1]v año""
msgstr[1] ""%[1]v años""
msgstr[2] ""%[1]v años""

msgid ""%s GB""
msgstr ""%s GB""

msgid ""%s KB""
msgstr ""%s KB""

msgid ""%s MB""
msgstr ""%s MB""

msgid ""%s PB""
msgstr ""%s PB""

msgid ""%s TB""
msgstr ""%s TB""

msgid "", ""
msgstr "", ""

msgid ""AM""
msgstr ""AM""

msgid ""Afrikaans""
msgstr ""Africano""

msgid ""Albanian""
msgstr ""Albanés""

msgid ""Algerian Arabic""
msgstr ""Árabe argelino""

msgid ""April""
msgstr ""abril""

msgid ""Arabic""
msgstr ""Árabe""

msgid ""Argentinian Spanish""
msgstr ""Español de Argentina""

msgid ""Armenian""
msgstr ""Armenio""

msgid ""Asturian""
msgstr ""Asturiano""

msgid ""August""
msgstr ""agosto""

msgid ""Australian English""
msgstr ""Inglés australiano""

msgid ""Azerbaijani""
msgstr ""Azerbaiyán""

msgid ""Basque""
msgstr ""Vasco""

msgid ""Belarusian""
msgstr ""Bielorruso""

msgid ""Bengali""
msgstr ""Bengalí""

msgid ""Bosnian""
msgstr ""Bosnio""

msgid ""Brazilian Portuguese""
msgstr ""Portugués de Brasil""

msgid ""Breton""
msgstr ""Bretón""

msgid ""British English""
msgstr ""Inglés británico""

msgid ""Bulgarian""
msgstr ""Búlgaro""

msgid ""Burmese""
msgstr ""Birmano""

msgid ""Catalan""
msgstr ""Catalán""

msgid ""Central Kurdish (Sorani)""
msgstr ""Kurdo central (Sorani)""

msgid ""Colombian Spanish""
msgstr ""Español de Colombia""

msgid ""Croatian""
msgstr ""Croata""

msgid ""Czech""
msgstr ""Checo""

msgid ""Danish""
msgstr ""Danés""

msgid ""December""
msgstr ""diciembre""

msgid ""Dutch""
msgstr ""Holandés""

msgid ""English""
msgstr ""Inglés""

msgid ""Esperanto""
msgstr ""Esperanto""

msgid ""Estonian""
msgstr ""Estonio""

msgid ""February""
msgstr ""febrero""

msgid ""Finnish""
msgstr ""Finés""

msgid ""French""
msgstr ""Francés""

msgid ""Fri""
msgstr ""vie""

msgid ""Friday""
msgstr ""viernes""

msgid ""Frisian""
msgstr ""Frisón""

msgid ""Galician""
msgstr ""Gallego""

msgid ""Georgian""
msgstr ""Georgiano""

msgid ""German""
msgstr ""Alemán""

msgid ""Greek""
msgstr ""Griego""

msgid ""Hebrew""
msgstr ""Hebreo""

msgid ""Hindi""
msgstr ""Hindi""

msgid ""Hungarian""
msgstr ""Húngaro""

msgid ""Icelandic""
msgstr ""Islandés""

msgid ""Ido""
msgstr ""Ido""

msgid ""Igbo""
msgstr ""Igbo""

msgid ""Indonesian""
msgstr ""Indonesio""

msgid ""Interlingua""
msgstr ""Interlingua""

msgid ""Irish""
msgstr ""Irlandés""

msgid ""Italian""
msgstr ""Italiano""

msgid ""January""
msgstr ""enero""

msgid ""Japanese""
msgstr ""Japonés""

msgid ""July""
msgstr ""julio""

msgid ""June""
msgstr ""junio""

msgid ""Kabyle""
msgstr ""Cabilio""

msgid ""Kannada""
msgstr ""Kannada""

msgid ""Kazakh""
msgstr ""Kazajo""

msgid ""Khmer""
msgstr ""Khmer""

msgid ""Korean""
msgstr ""Coreano""

msgid ""Kyrgyz""
msgstr ""Kirguís""

msgid ""Latvian""
msgstr ""Letón""

msgid ""Lithuanian""
msgstr ""Lituano""

msgid ""Lower Sorbian""
msgstr ""Bajo sorbio""

msgid ""Luxembourgish""
msgstr ""Luxenburgués""

msgid ""Macedonian""
msgstr ""Macedonio""

msgid ""Malay""
msgstr ""Malayo""

msgid ""Malayalam""
msgstr ""Malayalam""

msgid ""Marathi""
msgstr ""Maratí""

msgid ""March""
msgstr ""marzo""

msgid ""May""
msgstr ""mayo""

msgid ""Mexican Spanish""
msgstr ""Español de México""

msgid ""Mon""
msgstr ""lun""

msgid ""Monday""
msgstr ""lunes""

msgid ""Mongolian""
msgstr ""Mongol""

msgid ""Nepali""
msgstr ""Nepalí""

msgid ""Nicaraguan Spanish""
msgstr ""Español de Nicaragua""

msgid ""Norwegian Bokmål""
msgstr ""Bokmål noruego""

msgid ""Norwegian Nynorsk""
msgstr ""Nynorsk""

msgid ""November""
msgstr ""noviembre""

msgid ""October""
msgstr ""octubre""

msgid ""Ossetic""
msgstr ""Osetio""

msgid ""PM""
msgstr ""PM""

msgid ""Persian""
msgstr ""Persa""

msgid ""Polish""
msgstr ""Polaco""

msgid ""Portuguese""
msgstr ""Portugués""

msgid ""Punjabi""
msgstr ""Panyabí""

msgid ""Romanian""
msgstr ""Rumano""

msgid ""Russian""
msgstr ""Ruso""

msgid ""Sat""
msgstr ""sáb""

msgid ""Saturday""
msgstr ""sábado""

msgid ""Scottish Gaelic""
msgstr ""Gaélico Escocés""

msgid ""September""
msgstr ""septiembre""

msgid ""Serbian""
msgstr ""Serbio""

msgid ""Serbian Latin""
msgstr ""Serbio latino""

msgid ""Simplified Chinese""
msgstr ""Chino simplificado""

msgid ""Slovak""
msgstr ""Eslovaco""

msgid ""Slovenian""
msgstr ""Esloveno""

msgid ""Spanish""
msgstr ""Español""

msgid ""Sun""
msgstr ""dom""

msgid ""Sunday""
msgstr ""domingo""

msgid ""Swahili""
msgstr ""Suajili""

msgid ""Swedish""
msgstr ""Sueco""

msgid ""Tajik""
msgstr ""Tayiko""

msgid ""Tamil""
msgstr ""Tamil""

msgid ""Tatar""
msgstr ""Tártaro""

msgid ""Telugu""
msgstr ""Telugu""

msgid ""Thai""
msgstr ""Tailandés""

msgid ""Thu""
msgstr ""jue""

msgid ""Thursday""
msgstr ""jueves""

msgid ""Traditional Chinese""
msgstr ""Chino tradicional""

msgid ""Tue""
msgstr ""mar""

msgid ""Tuesday""
msgstr ""martes""

msgid ""Turkish""
msgstr ""Turco""

msgid ""Turkmen""
msgstr ""Turcomanos""

msgid ""Udmurt""
msgstr ""Udmurt""

msgid ""Ukrainian""
msgstr ""Ucraniano""

msgid ""Upper Sorbian""
msgstr ""Alto sorbio""

msgid ""Urdu""
msgstr ""Urdu""

msgid ""Uyghur""
msgstr ""Uigur""

msgid ""Uzbek""
msgstr ""Uzbeko""

msgid ""Venezuelan Spanish""
msgstr ""Español de Venezuela""

msgid ""Vietnamese""
msgstr ""Vietnamita""

msgid ""Wed""
msgstr ""mié""

msgid ""Wednesday""
msgstr ""miércoles""

msgid ""Welsh""
msgstr ""Galés""

msgid ""a minute ago""
msgid_plural ""%[1]v minutes ago""
msgstr[0] ""hace un minuto""
msgstr[1] ""hace %[1]v minutos""
msgstr[2] ""hace %[1]v minutos""

msgid ""a minute from now""
msgid_plural ""%[1]v minutes from now""
msgstr[0] ""un minuto a partir de ahora""
msgstr[1] ""%[1]v minutos a partir de ahora""
msgstr[2] ""%[1]v minutos a partir de ahora""

msgid ""a second ago""
msgid_plural ""%[1]v seconds ago""
msgstr[0] ""hace un segundo""
msgstr[1] ""hace %[1]v segundos""
msgstr[2] ""hace %[1]v segundos""

msgid ""a second from now""
msgid_plural ""%[1]v seconds from now""
msgstr[0] ""un segundo a partir de ahora""
msgstr[1] ""%[1]v segundos a partir de ahora""
msgstr[2] ""%[1]v segundos a partir de ahora""

msgid ""a.m.""
msgstr ""a.m.""

msgid ""an hour ago""
msgid_plural ""%[1]v hours ago""
msgstr[0] ""hace una hora""
msgstr[1] ""hace %[1]v horas""
msgstr[2] ""hace %[1]v horas""

msgid ""an hour from now""
msgid_plural ""%[1]v hours from now""
msgstr[0] ""una hora a partir de ahora""
msgstr[1] ""%[1]v horas a partir de ahora""
msgstr[2] ""%[1]v horas a partir de ahora""

msgid ""apr""
msgstr ""abr""

msgid ""aug""
msgstr ""ago""

msgid ""dec""
msgstr ""dic""

msgid ""eight""
msgstr ""ocho""

msgid ""feb""
msgstr ""feb""

msgid ""five""
msgstr ""cinco""

msgid ""four""
msgstr ""cuatro""

msgid ""jan""
msgstr ""ene""

msgid ""jul""
msgstr ""jul""

msgid ""jun""
msgstr ""jun""

msgid ""mar""
msgstr ""mar""

msgid ""may""
msgstr ""may""

msgid ""midnight""
msgstr ""medianoche""

msgid ""nine""
msgstr ""nueve""

msgid ""noon""
msgstr ""mediodía""

msgid ""nov""
msgstr ""nov""

msgid ""now""
msgstr ""ahora""

msgid ""oct""
msgstr ""oct""

msgid ""one""
msgstr ""uno""

msgid ""p.m.""
msgstr ""p.m.""

msgid ""sep""
msgstr ""sep""

msgid ""seven""
msgstr ""siete""

msgid ""six""
msgstr ""seis""

msgid ""three""
msgstr ""tres""

msgid ""today""
msgstr ""hoy""

msgid ""tomorrow""
msgstr ""mañana""

msgid ""two""
msgstr ""dos""

msgid ""yesterday""
msgstr ""ayer""

msgctxt ""abbrev. month""
msgid ""April""
msgstr ""abril""

msgctxt ""abbrev. month""
msgid ""Aug.""
msgstr ""ago.""

msgctxt ""abbrev. month""
msgid ""Dec.""
msgstr ""dic.""

msgctxt ""abbrev. month""
msgid ""Feb.""
msgstr ""Feb.""

msgctxt ""abbrev. month""
msgid ""Jan.""
msgstr ""Ene.""

msgctxt ""abbrev. month""
msgid ""July""
msgstr ""julio""

msgctxt ""abbrev. month""
msgid ""June""
msgstr ""junio""

msgctxt ""abbrev. month""
msgid ""March""
msgstr ""marzo""

msgctxt ""abbrev. month""
msgid ""May""
msgstr ""mayo""

msgctxt ""abbrev. month""
msgid ""Nov.""
msgstr ""nov.""

msgctxt ""abbrev. month""
msgid ""Oct.""
msgstr ""oct.""

msgctxt ""abbrev. month""
msgid ""Sept.""
msgstr ""sept.""

msgctxt ""alt. month""
msgid ""April""
msgstr ""abril""

msgctxt ""alt. month""
msgid ""August""
msgstr ""agosto""

msgctxt ""alt. month""
msgid ""December""
msgstr ""diciembre""

msgctxt ""alt. month""
msgid ""February""
msgstr ""febrero""

msgctxt ""alt. month""
msgid ""January""
msgstr ""enero""

msgctxt ""alt. month""
msgid ""July""
msgstr ""julio""

msgctxt ""alt. month""
msgid ""June""
msgstr ""junio""

msgctxt ""alt. month""
msgid ""March""
msgstr ""marzo""

msgctxt ""alt. month""
msgid ""May""
msgstr ""mayo""

msgctxt ""alt. month""
msgid ""November""
msgstr ""noviembre""

msgctxt ""alt. month""
msgid ""October""
msgstr ""octubre""

msgctxt ""alt. month""
msgid ""September""
msgstr ""septiembre""

msgctxt ""naturaltime-future""
msgid ""%[1]v day""
msgid_plural ""%[1]v days""
msgstr[0] ""%[1]v día""
msgstr[1] ""%[1]v días""
msgstr[2] ""%[1]v días""

msgctxt ""naturaltime-future""
msgid ""%[1]v hour""
msgid_plural ""%[1]v hours""
msgstr[0] ""%[1]v hora""
msgstr[1] ""%[1]v horas""
msgstr[2] ""%[1]v horas""

msgctxt ""naturaltime-future""
msgid ""%[1]v minute""
msgid_plural ""%[1]v minutes""
msgstr[0] ""%[1]v minuto""
msgstr[1] ""%[1]v minutos""
msgstr[2] ""%[1]v minutos""

msgctxt ""naturaltime-future""
msgid ""%[1]v month""
msgid_plural ""%[1]v months""
msgstr[0] ""%[1]v mes""
msgstr[1] ""%[1]v meses""
msgstr[2] ""%[1]v meses""

msgctxt ""naturaltime-future""
msgid ""%[1]v week""
msgid_plural ""%[1]v weeks""
msgstr[0] ""%[1]v semana""
msgstr[1] ""%[1]v semanas""
msgstr[2] ""%[1]v semanas""

msgctxt ""naturaltime-future""
msgid ""%[1]v year""
msgid_plural ""%[1]v years""
msgstr[0] ""%[1]v año""
msgstr[1] ""%[1]v años""
msgstr[2] ""%[1]v años""

msgctxt ""naturaltime-past""
msgid ""%[1]v day""
msgid_plural ""%[1]v days""
msgstr[0] ""%[1]v día""
msgstr[1] ""%[1]v días""
msgstr[2] ""%[1]v días""

msgctxt ""naturaltime-past""
msgid ""%[1]v hour""
msgid_plural ""%[1]v hours""
msgstr[0] ""%[1]v hora""
msgstr[1] ""%[1]v horas""
msgstr[2] ""%[1]v horas""

msgctxt ""naturaltime-past""
msgid ""%[1]v minute""
msgid_plural ""%[1]v minutes""
msgstr[0] ""%[1]v minuto""
msgstr[1] ""%[1]v minutos""
msgstr[2] ""%[1]v minutos""

msgctxt ""naturaltime-past""
msgid ""%[1]v month""
msgid_plural ""%[1]v months""
msgstr[0] ""%[1]v mes""
msgstr[1] ""%[1]v meses""
msgstr[2] ""%[1]v meses""

msgctxt ""naturaltime-past""
msgid ""%[1]v week""
msgid_plural ""%[1]v weeks""
msgstr[0] ""%[1]v semana""
msgstr[1] ""%[1]v semanas""
msgstr[2] ""%[1]v semanas""

msgctxt ""naturaltime-past""
msgid ""%[1]v year""
msgid_plural ""%[1]v years""
msgstr[0] ""%[1]v año""
msgstr[1] ""%[1]v años""
msgstr[2] ""%[1]v años""

msgctxt ""ordinal 0""
msgid ""%vth""
msgstr ""%vº""

msgctxt ""ordinal 1""
msgid ""%vst""
msgstr ""%vº""

msgctxt ""ordinal 11, 12, 13""
msgid ""%vth""
msgstr ""%vº""

msgctxt ""ordinal 2""
msgid ""%vnd""
msgstr ""%vº""

msgctxt ""ordinal 3""
msgid ""%vrd""
msgstr ""%vº""

msgctxt ""ordinal 4""
msgid ""%vth""
msgstr ""%vº""

msgctxt ""ordinal 5""
msgid ""%vth""
msgstr ""%vº""

msgctxt ""ordinal 6""
msgid ""%vth""
msgstr ""%vº""

msgctxt ""ordinal 7""
msgid ""%vth""
msgstr ""%vº""

msgctxt ""ordinal 8""
msgid ""%vth""
msgstr ""%vº""

msgctxt ""ordinal 9""
msgid ""%vth""
msgstr ""%vº""
".
(** humanize/locale/es/locale.go (New) *)
Definition loc_es : locale_data := LD (bs "es") [(bs "django.po", po_es)]
  (Some (FD (bs "j \d\e F \d\e Y") (bs "H:i") (bs "j \d\e F \d\e Y \a \l\a\s H:i") (bs "F \d\e Y") (bs "j \d\e F") (bs "d/m/Y") (bs "d/m/Y H:i"))).

(** humanize/locale/esAR/django.po *)
Definition po_esAR : bytes := bs "# This file is distributed under the same license as the Django package.
# 
# Translators:
# Jannis Leidel <jannis@leidel.info>, 2011
# lardissone <lardissone@gmail.com>, 2014
# Natalia, 2023
# poli <poli@devartis.com>, 2014
# Ramiro Morales, 2013-2025
msgid """"
msgstr """"
""Project-Id-Version: django\n""
""Report-Msgid-Bugs-To: \n""
""POT-Creation-Date: 2025-03-19 11:30-0500\n""
""PO-Revision-Date: 2025-04-01 15:04-0500\n""
""Last-Translator: Ramiro Morales, 2013-2025\n""
""Language-Team: Spanish (Argentina) (http://app.transifex.com/django/django/language/es_AR/)\n""
""Language: es_AR\n""
""MIME-Version: 1.0\n""
""Content-Type: text/plain; charset=UTF-8\n""
""Content-Transfer-Encoding: 8bit\n""
""Plural-Forms: nplurals=2; plural=(n != 1);\n""

msgid ""%[1]d byte""
msgid_plural ""%[1]d bytes""
msgstr[0] ""%[1]d byte""
msgstr[1] ""%[1]d bytes""
msgstr[2] ""%[1]d bytes""

msgid ""%[1]s billion""
msgid_plural ""%[1]s billion""
msgstr[0] ""%[1]s millardo""
msgstr[1] ""%[1]s millardos""

msgid ""%[1]s decillion""
msgid_plural ""%[1]s decillion""
msgstr[0] ""%[1]s mil quintillones""
msgstr[1] ""%[1]s miles de quintillones""

msgid ""%[1]s googol""
msgid_plural ""%[1]s googol""
msgstr[0] ""%[1]s \""gúgol\""""
msgstr[1] ""%[1]s \""gúgols\""""

msgid ""%[1]s million""
msgid_plural ""%[1]s million""
msgstr[0] ""%[1]s millón""
msgstr[1] ""%[1]s millones""

msgid ""%[1]s nonillion""
msgid_plural ""%[1]s nonillion""
msgstr[0] ""%[1]s quintillón""
msgstr[1] ""%[1]s quintillones""

msgid ""%[1]s octillion""
msgid_plural ""%[1]s octillion""
msgstr[0] ""%[1]s mil cuatrillones""
msgstr[1] ""%[1]s miles de cuatrillones""

msgid ""%[1]s quadrillion""
msgid_plural ""%[1]s quadrillion""
msgstr[0] ""%[1]s mil billones""
msgstr[1] ""%[1]s miles de billones""

msgid ""%[1]s quintillion""
msgid_plural ""%[1]s quintillion""
msgstr[0] ""%[1]s trillón""
msgstr[1] ""%[1]s trilliones""

msgid ""%[1]s septillion""
msgid_plural ""%[1]s septillion""
msgstr[0] ""%[1]s cuatrillón""
msgstr[1] ""%[1]s cuatrillones""

msgid ""%[1]s sextillion""
msgid_plural ""%[1]s sextillion""
msgstr[0] ""%[1]s mil trillones""
msgstr[1] ""%[1]s miles de trillones""

msgid ""%[1]s trillion""
msgid_plural ""%[1]s trillion""
msgstr[0] ""%[1]s billón""
msgstr[1] ""%[1]s billones""

msgid ""%[1]v ago""
msgstr ""hace %[1]v""

msgid ""%[1]v day""
msgid_plural ""%[1]v days""
msgstr[0] ""%[1]v día""
msgstr[1] ""%[1]v días""
msgstr[2] ""%[1]v días""

msgid ""%[1]v from now""
msgstr ""dentro de %[1]v""

msgid ""%[1]v hour""
msgid_plural ""%[1]v hours""
msgstr[0] ""%[1]v hora""
msgstr[1] ""%[1]v horas""
msgstr[2] ""%[1]v horas""

msgid ""%[1]v minute""
msgid_plural ""%[1]v minutes""
msgstr[0] ""%[1]v minuto""
msgstr[1] ""%[1]v minutos""
msgstr[2] ""%[1]v minutos""

msgid ""%[1]v month""
msgid_plural ""%[1]v months""
msgstr[0] ""%[1]v mes""
msgstr[1] ""%[1]v meses""
msgstr[2] ""%[1]v meses""

msgid ""%[1]v week""
msgid_plural ""%[1]v weeks""
msgstr[0] ""%[1]v semana""
msgstr[1] ""%[1]v semanas""
msgstr[2] ""%[1]v semanas""

msgid ""%[1]v year""
msgid_plural ""%[1]v years""
msgstr[0] ""%[1]v año""
msgstr[1] ""%[1]v años""
msgstr[2] ""%[1]v años""

msgid ""%s GB""
msgstr ""%s GB""

msgid ""%s KB""
msgstr ""%s KB""

msgid ""%s MB""
msgstr ""%s MB""

msgid ""%s PB""
msgstr ""%s PB""

msgid ""%s TB""
msgstr ""%s TB""

msgid "", ""
msgstr "", ""

msgid ""AM""
msgstr ""AM""

msgid ""Afrikaans""
msgstr ""afrikáans""

msgid ""Albanian""
msgstr ""albanés""

msgid ""Algerian Arabic""
msgstr ""Árabe de Argelia""

msgid ""April""
msgstr ""abril""

msgid ""Arabic""
msgstr ""árabe""

msgid ""Argentinian Spanish""
msgstr ""español (Argentina)""

msgid ""Armenian""
msgstr ""armenio""

msgid ""Asturian""
msgstr ""asturiano""

msgid ""August""
msgstr ""agosto""

msgid ""Australian English""
msgstr ""inglés australiano""

msgid ""Azerbaijani""
msgstr ""azerbaiyán""

msgid ""Basque""
msgstr ""vasco""

msgid ""Belarusian""
msgstr ""bielorruso""

msgid ""Bengali""
msgstr ""bengalí""

msgid ""Bosnian""
msgstr ""bosnio""

msgid ""Brazilian Portuguese""
msgstr ""portugués de Brasil""

msgid ""Breton""
msgstr ""bretón""

msgid ""British English""
msgstr ""inglés británico""

msgid ""Bulgarian""
msgstr ""búlgaro""

msgid ""Burmese""
msgstr ""burmés""

msgid ""Catalan""
msgstr ""catalán""

msgid ""Central Kurdish (Sorani)""
msgstr ""Kurdo central (Sorani)""

msgid ""Colombian Spanish""
msgstr ""español (Colombia)""

msgid ""Croatian""
msgstr ""croata""

msgid ""Czech""
msgstr ""checo""

msgid ""Danish""
msgstr ""danés""

msgid ""December""
msgstr ""diciembre""

msgid ""Dutch""
msgstr ""holandés""

msgid ""English""
msgstr ""inglés""

msgid ""Esperanto""
msgstr ""esperanto""

msgid ""Estonian""
msgstr ""estonio""

msgid ""February""
msgstr ""febrero""

msgid ""Finnish""
msgstr ""finlandés""

msgid ""French""
msgstr ""francés""

msgid ""Fri""
msgstr ""Vie""

msgid ""Friday""
msgstr ""viernes""

msgid ""Frisian""
msgstr ""frisón""

msgid ""Galician""
msgstr ""gallego""

msgid ""Georgian""
msgstr ""georgiano""

msgid ""German""
msgstr ""alemán""

msgid ""Greek""
msgstr ""griego""

msgid ""Hebrew""
msgstr ""hebreo""

msgid ""Hindi""
msgstr ""hindi""

msgid ""Hungarian""
msgstr ""húngaro""

msgid ""Icelandic""
msgstr ""islandés""

msgid ""Ido""
msgstr ""ido""

msgid ""Igbo""
msgstr ""Igbo""

msgid ""Indonesian""
msgstr ""indonesio""

msgid ""Interlingua""
msgstr ""Interlingua""

msgid ""Irish""
msgstr ""irlandés""

msgid ""Italian""
msgstr ""italiano""

msgid ""January""
msgstr ""enero""

msgid ""Japanese""
msgstr ""japonés""

msgid ""July""
msgstr ""julio""

msgid ""June""
msgstr ""junio""

msgid ""Kabyle""
msgstr ""cabilio""

msgid ""Kannada""
msgstr ""canarés""

msgid ""Kazakh""
msgstr ""kazajo""

msgid ""Khmer""
msgstr ""jémer""

msgid ""Korean""
msgstr ""coreano""

msgid ""Kyrgyz""
msgstr ""kirguís""

msgid ""Latvian""
msgstr ""letón""

msgid ""Lithuanian""
msgstr ""lituano""

msgid ""Lower Sorbian""
msgstr ""bajo sorabo""

msgid ""Luxembourgish""
msgstr ""luxemburgués""

msgid ""Macedonian""
msgstr ""macedonio""

msgid ""Malay""
msgstr ""malayo""

msgid ""Malayalam""
msgstr ""malabar""

msgid ""Marathi""
msgstr ""maratí""

msgid ""March""
msgstr ""marzo""

msgid ""May""
msgstr ""mayo""

msgid ""Mexican Spanish""
msgstr ""español (México)""

msgid ""Mon""
msgstr ""Lun""

msgid ""Monday""
msgstr ""lunes""

msgid ""Mongolian""
msgstr ""mongol""

msgid ""Nepali""
msgstr ""nepalés""

msgid ""Nicaraguan Spanish""
msgstr ""español (Nicaragua)""

msgid ""Norwegian Bokmål""
msgstr ""bokmål noruego""

msgid ""Norwegian Nynorsk""
msgstr ""nynorsk""

msgid ""November""
msgstr ""noviembre""

msgid ""October""
msgstr ""octubre""

msgid ""Ossetic""
msgstr ""osetio""

msgid ""PM""
msgstr ""PM""

msgid ""Persian""
msgstr ""persa""

msgid ""Polish""
msgstr ""polaco""

msgid ""Portuguese""
msgstr ""portugués""

msgid ""Punjabi""
msgstr ""panyabí""

msgid ""Romanian""
msgstr ""rumano""

msgid ""Russian""
msgstr ""ruso""

msgid ""Sat""
msgstr ""Sab""

msgid ""Saturday""
msgstr ""sábado""

msgid ""Scottish Gaelic""
msgstr ""gaélico escocés""

msgid ""September""
msgstr ""setiembre""

msgid ""Serbian""
msgstr ""serbio""

msgid ""Serbian Latin""
msgstr ""latín de Serbia""

msgid ""Simplified Chinese""
msgstr ""chino simplificado""

msgid ""Slovak""
msgstr ""eslovaco""

msgid ""Slovenian""
msgstr ""esloveno""

msgid ""Spanish""
msgstr ""español""

msgid ""Sun""
msgstr ""Dom""

msgid ""Sunday""
msgstr ""Domingo""

msgid ""Swahili""
msgstr ""suajili""

msgid ""Swedish""
msgstr ""sueco""

msgid ""Tajik""
msgstr ""tayiko""

msgid ""Tamil""
msgstr ""tamil""

msgid ""Tatar""
msgstr ""tártaro""

msgid ""Telugu""
msgstr ""telugu""

msgid ""Thai""
msgstr ""tailandés""

msgid ""Thu""
msgstr ""Jue""

msgid ""Thursday""
msgstr ""jueves""

msgid ""Traditional Chinese""
msgstr ""chino tradicional""

msgid ""Tue""
msgstr ""Mar""

msgid ""Tuesday""
msgstr ""martes""

msgid ""Turkish""
msgstr ""turco""

msgid ""Turkmen""
msgstr ""turcomano""

msgid ""Udmurt""
msgstr ""udmurto""

msgid ""Ukrainian""
msgstr ""ucraniano""

msgid ""Upper Sorbian""
msgstr ""alto sorabo""

msgid ""Urdu""
msgstr ""urdu""

msgid ""Uyghur""
msgstr ""Uigur""

msgid ""Uzbek""
msgstr ""uzbeko""

msgid ""Venezuelan Spanish""
msgstr ""español (Venezuela)""

msgid ""Vietnamese""
msgstr ""vietnamita""

msgid ""Wed""
msgstr ""Mie""

msgid ""Wednesday""
msgstr ""miércoles""

msgid ""Welsh""
msgstr ""galés""

msgid ""a minute ago""
msgid_plural ""%[1]v minutes ago""
msgstr[0] ""hace un minuto""
msgstr[1] ""hace %[1]v minutos""

msgid ""a minute from now""
msgid_plural ""%[1]v minutes from now""
msgstr[0] ""dentro de un minuto""
msgstr[1] ""dentro de %[1]v minutos""

msgid ""a second ago""
msgid_plural ""%[1]v seconds ago""
msgstr[0] ""hace un segundo""
msgstr[1] ""hace %[1]v segundos""

msgid ""a second from now""
msgid_plural ""%[1]v seconds from now""
msgstr[0] ""dentro de un segundo""
msgstr[1] ""dentro de %[1]v segundos""

msgid ""a.m.""
msgstr ""a.m.""

msgid ""an hour ago""
msgid_plural ""%[1]v hours ago""
msgstr[0] ""hace una hora""
msgstr[1] ""hace %[1]v horas""

msgid ""an hour from now""
msgid_plural ""%[1]v hours from now""
msgstr[0] ""dentro de una hora""
msgstr[1] ""dentro de %[1]v horas""

msgid ""apr""
msgstr ""abr""

msgid ""aug""
msgstr ""ago""

msgid ""dec""
msgstr ""dic""

msgid ""eight""
msgstr ""ocho""

msgid ""feb""
msgstr ""feb""

msgid ""five""
msgstr ""cinco""

msgid ""four""
msgstr ""cuatro""

msgid ""jan""
msgstr ""ene""

msgid ""jul""
msgstr ""jul""

msgid ""jun""
msgstr ""jun""

msgid ""mar""
msgstr ""mar""

msgid ""may""
msgstr ""may""

msgid ""midnight""
msgstr ""medianoche""

msgid ""nine""
msgstr ""nueve""

msgid ""noon""
msgstr ""mediodía""

msgid ""nov""
msgstr ""nov""

msgid ""now""
msgstr ""ahora""

msgid ""oct""
msgstr ""oct""

msgid ""one""
msgstr ""uno""

msgid ""p.m.""
msgstr ""p.m.""

msgid ""sep""
msgstr ""set""

msgid ""seven""
msgstr ""siete""

msgid ""six""
msgstr ""seis""

msgid ""three""
msgstr ""tres""

msgid ""today""
msgstr ""hoy""

msgid ""tomorrow""
msgstr ""mañana""

msgid ""two""
msgstr ""dos""

msgid ""yesterday""
msgstr ""ayer""

msgctxt ""abbrev. month""
msgid ""April""
msgstr ""Abril""

msgctxt ""abbrev. month""
msgid ""Aug.""
msgstr ""Ago.""

msgctxt ""abbrev. month""
msgid ""Dec.""
msgstr ""Dic.""

msgctxt ""abbrev. month""
msgid ""Feb.""
msgstr ""Feb.""

msgctxt ""abbrev. month""
msgid ""Jan.""
msgstr ""Enero""

msgctxt ""abbrev. month""
msgid ""July""
msgstr ""Julio""

msgctxt ""abbrev. month""
msgid ""June""
msgstr ""Junio""

msgctxt ""abbrev. month""
msgid ""March""
msgstr ""Marzo""

msgctxt ""abbrev. month""
msgid ""May""
msgstr ""Mayo""

msgctxt ""abbrev. month""
msgid ""Nov.""
msgstr ""Nov.""

msgctxt ""abbrev. month""
msgid ""Oct.""
msgstr ""Oct.""

msgctxt ""abbrev. month""
msgid ""Sept.""
msgstr ""Set.""

msgctxt ""alt. month""
msgid ""April""
msgstr ""abril""

msgctxt ""alt. month""
msgid ""August""
msgstr ""agosto""

msgctxt ""alt. month""
msgid ""December""
msgstr ""diciembre""

msgctxt ""alt. month""
msgid ""February""
msgstr ""febrero""

msgctxt ""alt. month""
msgid ""January""
msgstr ""enero""

msgctxt ""alt. month""
msgid ""July""
msgstr ""julio""

msgctxt ""alt. month""
msgid ""June""
msgstr ""junio""

msgctxt ""alt. month""
msgid ""March""
msgstr ""marzo""

msgctxt ""alt. month""
msgid ""May""
msgstr ""mayo""

msgctxt ""alt. month""
msgid ""November""
msgstr ""noviembre""

msgctxt ""alt. month""
msgid ""October""
msgstr ""octubre""

msgctxt ""alt. month""
msgid ""September""
msgstr ""setiembre""

msgctxt ""naturaltime-future""
msgid ""%[1]v day""
msgid_plural ""%[1]v days""
msgstr[0] ""%[1]v día""
msgstr[1] ""%[1]v días""

msgctxt ""naturaltime-future""
msgid ""%[1]v hour""
msgid_plural ""%[1]v hours""
msgstr[0] ""%[1]v hora""
msgstr[1] ""%[1]v horas""

msgctxt ""naturaltime-future""
msgid ""%[1]v minute""
msgid_plural ""%[1]v minutes""
msgstr[0] ""%[1]v minuto""
msgstr[1] ""%[1]v minutos""

msgctxt ""naturaltime-future""
msgid ""%[1]v month""
msgid_plural ""%[1]v months""
msgstr[0] ""%[1]v mes""
msgstr[1] ""%[1]v meses""

msgctxt ""naturaltime-future""
msgid ""%[1]v week""
msgid_plural ""%[1]v weeks""
msgstr[0] ""%[1]v semana""
msgstr[1] ""%[1]v semanas""

msgctxt ""naturaltime-future""
msgid ""%[1]v year""
msgid_plural ""%[1]v years""
msgstr[0] ""%[1]v año""
msgstr[1] ""%[1]v años""

msgctxt ""naturaltime-past""
msgid ""%[1]v day""
msgid_plural ""%[1]v days""
msgstr[0] ""%[1]v día""
msgstr[1] ""%[1]v días""

msgctxt ""naturaltime-past""
msgid ""%[1]v hour""
msgid_plural ""%[1]v hours""
msgstr[0] ""%[1]v hora""
msgstr[1] ""%[1]v horas""

msgctxt ""naturaltime-past""
msgid ""%[1]v minute""
msgid_plural ""%[1]v minutes""
msgstr[0] ""%[1]v minuto""
msgstr[1] ""%[1]v minutos""

msgctxt ""naturaltime-past""
msgid ""%[1]v month""
msgid_plural ""%[1]v months""
msgstr[0] ""%[1]v mes""
msgstr[1] ""%[1]v meses""

msgctxt ""naturaltime-past""
msgid ""%[1]v week""
msgid_plural ""%[1]v weeks""
msgstr[0] ""%[1]v semana""
msgstr[1] ""%[1]v semanas""

msgctxt ""naturaltime-past""
msgid ""%[1]v year""
msgid_plural ""%[1]v years""
msgstr[0] ""%[1]v año""
msgstr[1] ""%[1]v años""

msgctxt ""ordinal 0""
msgid ""%vth""
msgstr ""%v.º""

msgctxt ""ordinal 1""
msgid ""%vst""
msgstr ""%v.º""

msgctxt ""ordinal 11, 12, 13""
msgid ""%vth""
msgstr ""%v.º""

msgctxt ""ordinal 2""
msgid ""%vnd""
msgstr ""%v.º""

msgctxt ""ordinal 3""
msgid ""%vrd""
msgstr ""%v.º""

msgctxt ""ordinal 4""
msgid ""%vth""
msgstr ""%v.º""

msgctxt ""ordinal 5""
msgid ""%vth""
msgstr ""%v.º""

msgctxt ""ordinal 6""
msgid ""%vth""
msgstr ""%v.º""

msgctxt ""ordinal 7""
msgid ""%vth""
msgstr ""%v.º""

msgctxt ""ordinal 8""
msgid ""%vth""
msgstr ""%v.º""

msgctxt ""ordinal 9""
msgid ""%vth""
msgstr ""%v.º""
".
(** humanize/locale/esAR/locale.go (New) *)
Definition loc_esAR : locale_data := LD (bs "es-AR") [(bs "django.po", po_esAR)]
  (Some (FD (bs "j N Y") (bs "H:i") (bs "j N Y H:i") (bs "F Y") (bs "j \d\e F") (bs "d/m/Y") (bs "d/m/Y H:i"))).

(** humanize/locale/esCO/django.po *)
Definition po_esCO : bytes := bs "# This file is distributed under the same license as the Django package.
# 
# Translators:
# Carlos Muñoz <cmuozdiaz@outlook.com>, 2015
# Claude Paroz <claude@2xlibre.net>, 2020
msgid """"
msgstr """"
""Project-Id-Version: django\n""
""Report-Msgid-Bugs-To: \n""
""POT-Creation-Date: 2020-05-19 20:23+0200\n""
""PO-Revision-Date: 2020-07-14 21:42+0000\n""
""Last-Translator: Transifex Bot <>\n""
""Language-Team: Spanish (Colombia) (http://www.transifex.com/django/django/language/es_CO/)\n""
""Language: es_CO\n""
""MIME-Version: 1.0\n""
""Content-Type: text/plain; charset=UTF-8\n""
""Content-Transfer-Encoding: 8bit\n""
""Plural-Forms: nplurals=2; plural=(n != 1);\n""

msgid ""%[1]d byte""
msgid_plural ""%[1]d bytes""
msgstr[0] ""%[1]d byte""
msgstr[1] ""%[1]d bytes""

msgid ""%[1]s billion""
msgid_plural ""%[1]s billion""
msgstr[0] ""%[1]s millardo""
msgstr[1] ""%[1]s millardos""

msgid ""%[1]s decillion""
msgid_plural ""%[1]s decillion""
msgstr[0] ""%[1]s quintillardo""
msgstr[1] ""%[1]s quintillardos""

msgid ""%[1]s googol""
msgid_plural ""%[1]s googol""
msgstr[0] "" %[1]s  googol""
msgstr[1] "" %[1]s  googol""

msgid ""%[1]s million""
msgid_plural ""%[1]s million""
msgstr[0] ""%[1]s millón""
msgstr[1] ""%[1]s millones""

msgid ""%[1]s nonillion""
msgid_plural ""%[1]s nonillion""
msgstr[0] ""%[1]s quintillón""
msgstr[1] ""%[1]s quintillones""

msgid ""%[1]s octillion""
msgid_plural ""%[1]s octillion""
msgstr[0] ""%[1]s cuatrillardo""
msgstr[1] ""%[1]s cuatrillardos""

msgid ""%[1]s quadrillion""
msgid_plural ""%[1]s quadrillion""
msgstr[0] ""%[1]s billardos""
msgstr[1] ""%[1]s billardos""

msgid ""%[1]s quintillion""
msgid_plural ""%[1]s quintillion""
msgstr[0] ""%[1]s trillón""
msgstr[1] ""%[1]s trillones""

msgid ""%[1]s septillion""
msgid_plural ""%[1]s septillion""
msgstr[0] ""%[1]s cuatrillón""
msgstr[1] ""%[1]s cuatrillones""

msgid ""%[1]s sextillion""
msgid_plural ""%[1]s sextillion""
msgstr[0] ""%[1]s trillardo""
msgstr[1] ""%[1]s trillardos""

msgid ""%[1]s trillion""
msgid_plural ""%[1]s trillion""
msgstr[0] ""%[1]s billón""
msgstr[1] ""%[1]s billones""

msgid ""%s GB""
msgstr ""%s GB""

msgid ""%s KB""
msgstr ""%s KB""

msgid ""%s MB""
msgstr ""%s MB""

msgid ""%s PB""
msgstr ""%s PB""

msgid ""%s TB""
msgstr ""%s TB""

msgid "", ""
msgstr "",""

msgid ""AM""
msgstr ""AM""

msgid ""Afrikaans""
msgstr ""Afrikáans""

msgid ""Albanian""
msgstr ""Albanés""

msgid ""Algerian Arabic""
msgstr """"

msgid ""April""
msgstr ""Abril""

msgid ""Arabic""
msgstr ""Árabe""

msgid ""Argentinian Spanish""
msgstr ""Español de Argentina""

msgid ""Armenian""
msgstr """"

msgid ""Asturian""
msgstr ""Asturiano""

msgid ""August""
msgstr ""Agosto""

msgid ""Australian English""
msgstr ""Inglés Australiano""

msgid ""Azerbaijani""
msgstr ""Azerí""

msgid ""Basque""
msgstr ""Vasco""

msgid ""Belarusian""
msgstr ""Bielorruso""

msgid ""Bengali""
msgstr ""Bengalí""

msgid ""Bosnian""
msgstr ""Bosnio""

msgid ""Brazilian Portuguese""
msgstr ""Portugués brasileño""

msgid ""Breton""
msgstr ""Bretón""

msgid ""British English""
msgstr ""Inglés Británico""

msgid ""Bulgarian""
msgstr ""Búlgaro""

msgid ""Burmese""
msgstr ""Birmano""

msgid ""Catalan""
msgstr ""Catalán""

msgid ""Colombian Spanish""
msgstr """"

msgid ""Croatian""
msgstr ""Croata""

msgid ""Czech""
msgstr ""Checo""

msgid ""Danish""
msgstr ""Danés""

msgid ""December""
msgstr ""Diciembre""

msgid ""Dutch""
msgstr ""Holandés""

msgid ""English""
msgstr ""Inglés""

msgid ""Esperanto""
msgstr ""Esperanto""

msgid ""Estonian""
msgstr ""Estonio""

msgid ""February""
msgstr ""Febrero""

msgid ""Finnish""
msgstr ""Finés""

msgid ""French""
msgstr ""Francés""

msgid ""Fri""
msgstr ""Vie""

msgid ""Friday""
msgstr ""Viernes""

msgid ""Frisian""
msgstr ""Frisón""

msgid ""Galician""
msgstr ""Gallego""

msgid ""Georgian""
msgstr ""Georgiano""

msgid ""German""
msgstr ""Alemán""

msgid ""Greek""
msgstr ""Griego""

msgid ""Hebrew""
msgstr ""Hebreo""

msgid ""Hindi""
msgstr ""Hindi""

msgid ""Hungarian""
msgstr ""Húngaro""

msgid ""Icelandic""
msgstr ""Islandés""

msgid ""Ido""
msgstr ""Ido""

msgid ""Igbo""
msgstr """"

msgid ""Indonesian""
msgstr ""Indonesio""

msgid ""Interlingua""
msgstr ""Interlingua""

msgid ""Irish""
msgstr ""Irlandés""

msgid ""Italian""
msgstr ""Italiano""

msgid ""January""
msgstr ""Enero""

msgid ""Japanese""
msgstr ""Japonés""

msgid ""July""
msgstr ""Julio""

msgid ""June""
msgstr ""Junio""

msgid ""Kabyle""
msgstr """"

msgid ""Kannada""
msgstr ""Kannada""

msgid ""Kazakh""
msgstr ""Kazajo""

msgid ""Khmer""
msgstr ""Khmer""

msgid ""Korean""
msgstr ""Koreano""

msgid ""Kyrgyz""
msgstr """"

msgid ""Latvian""
msgstr ""Letón""

msgid ""Lithuanian""
msgstr ""Lituano""

msgid ""Lower Sorbian""
msgstr """"

msgid ""Luxembourgish""
msgstr ""Luxenburgués""

msgid ""Macedonian""
msgstr ""Macedonio""

msgid ""Malayalam""
msgstr ""Malayalam""

msgid ""Marathi""
msgstr ""Maratí""

msgid ""March""
msgstr ""Marzo""

msgid ""May""
msgstr ""Mayo""

msgid ""Mexican Spanish""
msgstr ""Español de México""

msgid ""Mon""
msgstr ""Lun""

msgid ""Monday""
msgstr ""Lunes""

msgid ""Mongolian""
msgstr ""Mongol""

msgid ""Nepali""
msgstr ""Nepalí""

msgid ""Nicaraguan Spanish""
msgstr ""Español de Nicaragua""

msgid ""Norwegian Bokmål""
msgstr """"

msgid ""Norwegian Nynorsk""
msgstr ""Nynorsk""

msgid ""November""
msgstr ""Noviembre""

msgid ""October""
msgstr ""Octubre""

msgid ""Ossetic""
msgstr ""Osetio""

msgid ""PM""
msgstr ""PM""

msgid ""Persian""
msgstr ""Persa""

msgid ""Polish""
msgstr ""Polaco""

msgid ""Portuguese""
msgstr ""Portugués""

msgid ""Punjabi""
msgstr ""Panyabí""

msgid ""Romanian""
msgstr ""Rumano""

msgid ""Russian""
msgstr ""Ruso""

msgid ""Sat""
msgstr ""Sáb""

msgid ""Saturday""
msgstr ""Sábado""

msgid ""Scottish Gaelic""
msgstr """"

msgid ""September""
msgstr ""Septiembre""

msgid ""Serbian""
msgstr ""Serbio""

msgid ""Serbian Latin""
msgstr ""Serbio latino""

msgid ""Simplified Chinese""
msgstr ""Chino simplificado""

msgid ""Slovak""
msgstr ""Eslovaco""

msgid ""Slovenian""
msgstr ""Esloveno""

msgid ""Spanish""
msgstr ""Español""

msgid ""Sun""
msgstr ""Dom""

msgid ""Sunday""
msgstr ""Domingo""

msgid ""Swahili""
msgstr ""Suajili""

msgid ""Swedish""
msgstr ""Sueco""

msgid ""Tajik""
msgstr """"

msgid ""Tamil""
msgstr ""Tamil""

msgid ""Tatar""
msgstr ""Tártaro""

msgid ""Telugu""
msgstr ""Telugu""

msgid ""Thai""
msgstr ""Tailandés""

msgid ""Thu""
msgstr ""Jue""

msgid ""Thursday""
msgstr ""Jueves""

msgid ""Traditional Chinese""
msgstr ""Chino tradicional""

msgid ""Tue""
msgstr ""Mar""

msgid ""Tuesday""
msgstr ""Martes""

msgid ""Turkish""
msgstr ""Turco""

msgid ""Turkmen""
msgstr """"

msgid ""Udmurt""
msgstr ""Udmurt""

msgid ""Ukrainian""
msgstr ""Ucraniano""

msgid ""Upper Sorbian""
msgstr """"

msgid ""Urdu""
msgstr ""Urdu""

msgid ""Uzbek""
msgstr """"

msgid ""Venezuelan Spanish""
msgstr ""Español venezolano""

msgid ""Vietnamese""
msgstr ""Vietnamita""

msgid ""Wed""
msgstr ""Mié""

msgid ""Wednesday""
msgstr ""Miércoles""

msgid ""Welsh""
msgstr ""Galés""

msgid ""a minute ago""
msgid_plural ""%[1]v minutes ago""
msgstr[0] ""hace un minuto""
msgstr[1] ""hace %[1]v minutos""

msgid ""a minute from now""
msgid_plural ""%[1]v minutes from now""
msgstr[0] ""un minuto a partir de ahora""
msgstr[1] ""%[1]v minutos a partir de ahora""

msgid ""a second ago""
msgid_plural ""%[1]v seconds ago""
msgstr[0] ""hace un segundo""
msgstr[1] ""hace %[1]v segundos""

msgid ""a second from now""
msgid_plural ""%[1]v seconds from now""
msgstr[0] ""un segundo a partir de ahora""
msgstr[1] ""%[1]v segundos a partir de ahora""

msgid ""a.m.""
msgstr ""a.m.""

msgid ""an hour ago""
msgid_plural ""%[1]v hours ago""
msgstr[0] ""hace una hora""
msgstr[1] ""hace %[1]v horas""

msgid ""an hour from now""
msgid_plural ""%[1]v hours from now""
msgstr[0] ""una hora a partir de ahora""
msgstr[1] ""%[1]v horas a partir de ahora""

msgid ""apr""
msgstr ""abr""

msgid ""aug""
msgstr ""ago""

msgid ""dec""
msgstr ""dic""

msgid ""eight""
msgstr ""ocho""

msgid ""feb""
msgstr ""feb""

msgid ""five""
msgstr ""cinco""

msgid ""four""
msgstr ""cuatro""

msgid ""jan""
msgstr ""ene""

msgid ""jul""
msgstr ""jul""

msgid ""jun""
msgstr ""jun""

msgid ""mar""
msgstr ""mar""

msgid ""may""
msgstr ""may""

msgid ""midnight""
msgstr ""medianoche""

msgid ""nine""
msgstr ""nueve""

msgid ""noon""
msgstr ""mediodía""

msgid ""nov""
msgstr ""nov""

msgid ""now""
msgstr ""ahora""

msgid ""oct""
msgstr ""oct""

msgid ""one""
msgstr ""uno""

msgid ""p.m.""
msgstr ""p.m.""

msgid ""sep""
msgstr ""sep""

msgid ""seven""
msgstr ""siete""

msgid ""six""
msgstr ""seis""

msgid ""three""
msgstr ""tres""

msgid ""today""
msgstr ""hoy""

msgid ""tomorrow""
msgstr ""mañana""

msgid ""two""
msgstr ""dos""

msgid ""yesterday""
msgstr ""ayer""

msgctxt ""abbrev. month""
msgid ""April""
msgstr ""Abril""

msgctxt ""abbrev. month""
msgid ""Aug.""
msgstr ""Ago.""

msgctxt ""abbrev. month""
msgid ""Dec.""
msgstr ""Dic.""

msgctxt ""abbrev. month""
msgid ""Feb.""
msgstr ""Feb.""

msgctxt ""abbrev. month""
msgid ""Jan.""
msgstr ""Ene.""

msgctxt ""abbrev. month""
msgid ""July""
msgstr ""Julio""

msgctxt ""abbrev. month""
msgid ""June""
msgstr ""Junio""

msgctxt ""abbrev. month""
msgid ""March""
msgstr ""Marzo""

msgctxt ""abbrev. month""
msgid ""May""
msgstr ""Mayo""

msgctxt ""abbrev. month""
msgid ""Nov.""
msgstr ""Nov.""

msgctxt ""abbrev. month""
msgid ""Oct.""
msgstr ""Oct.""

msgctxt ""abbrev. month""
msgid ""Sept.""
msgstr ""Sep.""

msgctxt ""alt. month""
msgid ""April""
msgstr ""Abril""

msgctxt ""alt. month""
msgid ""August""
msgstr ""Agosto""

msgctxt ""alt. month""
msgid ""December""
msgstr ""Diciembre""

msgctxt ""alt. month""
msgid ""February""
msgstr ""Febrero""

msgctxt ""alt. month""
msgid ""January""
msgstr ""Enero""

msgctxt ""alt. month""
msgid ""July""
msgstr ""Julio""

msgctxt ""alt. month""
msgid ""June""
msgstr ""Junio""

msgctxt ""alt. month""
msgid ""March""
msgstr ""Marzo""

msgctxt ""alt. month""
msgid ""May""
msgstr ""Mayo""

msgctxt ""alt. month""
msgid ""November""
msgstr ""Noviembre""

msgctxt ""alt. month""
msgid ""October""
msgstr ""Octubre""

msgctxt ""alt. month""
msgid ""September""
msgstr ""Septiembre""
".
(** humanize/locale/esCO/locale.go (New) *)
Definition loc_esCO : locale_data := LD (bs "es-CO") [(bs "django.po", po_esCO)]
  (Some (FD (bs "j \d\e F \d\e Y") (bs "H:i") (bs "j \d\e F \d\e Y \a \l\a\s H:i") (bs "F \d\e Y") (bs "j \d\e F") (bs "d/m/Y") (bs "d/m/Y H:i"))).

(** humanize/locale/esMX/django.po *)
Definition po_esMX : bytes := bs "# This file is distributed under the same license as the Django package.
# 
# Translators:
# Abe Estrada, 2011-2013
# Claude Paroz <claude@2xlibre.net>, 2020
# Gustavo López Hernández, 2022
# Jesús Bautista <jesbam98@gmail.com>, 2019-2020
# Sergio Benitez <sb@sergio.bz>, 2021
# zodman <zodman@gmail.com>, 2011
msgid """"
msgstr """"
""Project-Id-Version: django\n""
""Report-Msgid-Bugs-To: \n""
""POT-Creation-Date: 2022-05-17 05:23-0500\n""
""PO-Revision-Date: 2022-07-25 06:49+0000\n""
""Last-Translator: Gustavo López Hernández\n""
""Language-Team: Spanish (Mexico) (http://www.transifex.com/django/django/language/es_MX/)\n""
""Language: es_MX\n""
""MIME-Version: 1.0\n""
""Content-Type: text/plain; charset=UTF-8\n""
""Content-Transfer-Encoding: 8bit\n""
""Plural-Forms: nplurals=2; plural=(n != 1);\n""

msgid ""%[1]d byte""
msgid_plural ""%[1]d bytes""
msgstr[0] ""%[1]d byte""
msgstr[1] ""%[1]d bytes""

msgid ""%[1]s billion""
msgid_plural ""%[1]s billion""
msgstr[0] ""%[1]s billiones""
msgstr[1] ""%[1]s billiones""

msgid ""%[1]s decillion""
msgid_plural ""%[1]s decillion""
msgstr[0] ""%[1]s decillón""
msgstr[1] ""%[1]s decillones""

msgid ""%[1]s googol""
msgid_plural ""%[1]s googol""
msgstr[0] ""%[1]s googol""
msgstr[1] ""%[1]s googoles""

msgid ""%[1]s million""
msgid_plural ""%[1]s million""
msgstr[0] ""%[1]s millones""
msgstr[1] ""%[1]s millones""

msgid ""%[1]s nonillion""
msgid_plural ""%[1]s nonillion""
msgstr[0] ""%[1]s nonillón""
msgstr[1] ""%[1]s nonillones""

msgid ""%[1]s octillion""
msgid_plural ""%[1]s octillion""
msgstr[0] ""%[1]s octillón""
msgstr[1] ""%[1]s octillones""

msgid ""%[1]s quadrillion""
msgid_plural ""%[1]s quadrillion""
msgstr[0] ""%[1]s cuatrillón""
msgstr[1] ""%[1]s cuatrillones""

msgid ""%[1]s quintillion""
msgid_plural ""%[1]s quintillion""
msgstr[0] ""%[1]s quintillón""
msgstr[1] ""%[1]s quintillones""

msgid ""%[1]s septillion""
msgid_plural ""%[1]s septillion""
msgstr[0] ""%[1]s septillón""
msgstr[1] ""%[1]s septillones""

msgid ""%[1]s sextillion""
msgid_plural ""%[1]s sextillion""
msgstr[0] ""%[1]s sextillón""
msgstr[1] ""%[1]s sextillones""

msgid ""%[1]s trillion""
msgid_plural ""%[1]s trillion""
msgstr[0] ""%[1]s trilliones""
msgstr[1] ""%[1]s trilliones""

msgid ""%[1]v day""
msgid_plural ""%[1]v days""
msgstr[0] """"
msgstr[1] """"

msgid ""%[1]v hour""
msgid_plural ""%[1]v hours""
msgstr[0] ""%[1]v hora""
msgstr[1] ""%[1]v horas""

msgid ""%[1]v minute""
msgid_plural ""%[1]v minutes""
msgstr[0] """"
msgstr[1] """"

msgid ""%[1]v month""
msgid_plural ""%[1]v months""
msgstr[0] """"
msgstr[1] """"

msgid ""%[1]v week""
msgid_plural ""%[1]v weeks""
msgstr[0] """"
msgstr[1] """"

msgid ""%[1]v year""
msgid_plural ""%[1]v years""
msgstr[0] """"
msgstr[1] """"

msgid ""%s GB""
msgstr ""%s GB""

msgid ""%s KB""
msgstr ""%s KB""

msgid ""%s MB""
msgstr ""%s MB""

msgid ""%s PB""
msgstr ""%s PB""

msgid ""%s TB""
msgstr ""%s TB""

msgid "", ""
msgstr "",""

msgid ""AM""
msgstr ""AM""

msgid ""Afrikaans""
msgstr ""afrikáans""

msgid ""Albanian""
msgstr ""Albanés""

msgid ""Algerian Arabic""
msgstr ""Árabe argelino""

msgid ""April""
msgstr ""Abril""

msgid ""Arabic""
msgstr ""Árabe""

msgid ""Argentinian Spanish""
msgstr ""Español de Argentina""

msgid ""Armenian""
msgstr ""Armenio""

msgid ""Asturian""
msgstr ""Asturiano""

msgid ""August""
msgstr ""Agosto""

msgid ""Australian English""
msgstr ""Inglés australiano""

msgid ""Azerbaijani""
msgstr ""Azerbaijani""

msgid ""Basque""
msgstr ""Vasco""

msgid ""Belarusian""
msgstr ""bielorruso""

msgid ""Bengali""
msgstr ""Bengalí""

msgid ""Bosnian""
msgstr ""Bosnio""

msgid ""Brazilian Portuguese""
msgstr ""Portugués de Brasil""

msgid ""Breton""
msgstr ""bretón""

msgid ""British English""
msgstr ""Inglés británico""

msgid ""Bulgarian""
msgstr ""Búlgaro""

msgid ""Burmese""
msgstr ""burmés""

msgid ""Catalan""
msgstr ""Catalán""

msgid ""Colombian Spanish""
msgstr ""Español Colombiano""

msgid ""Croatian""
msgstr ""Croata""

msgid ""Czech""
msgstr ""Checo""

msgid ""Danish""
msgstr ""Danés""

msgid ""December""
msgstr ""Diciembre""

msgid ""Dutch""
msgstr ""Holandés""

msgid ""English""
msgstr ""Inglés""

msgid ""Esperanto""
msgstr ""Esperanto""

msgid ""Estonian""
msgstr ""Estonio""

msgid ""February""
msgstr ""Febrero""

msgid ""Finnish""
msgstr ""Finés""

msgid ""French""
msgstr ""Francés""

msgid ""Fri""
msgstr ""Vie""

msgid ""Friday""
msgstr ""Viernes""

msgid ""Frisian""
msgstr ""Frisón""

msgid ""Galician""
msgstr ""Gallego""

msgid ""Georgian""
msgstr ""Georgiano""

msgid ""German""
msgstr ""Alemán""

msgid ""Greek""
msgstr ""Griego""

msgid ""Hebrew""
msgstr ""Hebreo""

msgid ""Hindi""
msgstr ""Hindi""

msgid ""Hungarian""
msgstr ""Húngaro""

msgid ""Icelandic""
msgstr ""Islandés""

msgid ""Ido""
msgstr ""Ido""

msgid ""Igbo""
msgstr ""Igbo""

msgid ""Indonesian""
msgstr ""Indonesio""

msgid ""Interlingua""
msgstr ""Interlingua""

msgid ""Irish""
msgstr ""Irlandés""

msgid ""Italian""
msgstr ""Italiano""

msgid ""January""
msgstr ""Enero""

msgid ""Japanese""
msgstr ""Japonés""

msgid ""July""
msgstr ""Julio""

msgid ""June""
msgstr ""Junio""

msgid ""Kabyle""
msgstr ""Cabilio""

msgid ""Kannada""
msgstr ""Kannada""

msgid ""Kazakh""
msgstr ""Kazajstán""

msgid ""Khmer""
msgstr ""Khmer""

msgid ""Korean""
msgstr ""Coreano""

msgid ""Kyrgyz""
msgstr """"

msgid ""Latvian""
msgstr ""Letón""

msgid ""Lithuanian""
msgstr ""Lituano""

msgid ""Lower Sorbian""
msgstr ""Bajo sorbio""

msgid ""Luxembourgish""
msgstr ""luxemburgués""

msgid ""Macedonian""
msgstr ""Macedonio""

msgid ""Malay""
msgstr """"

msgid ""Malayalam""
msgstr ""Malayalam""

msgid ""Marathi""
msgstr """"

msgid ""March""
msgstr ""Marzo""

msgid ""May""
msgstr ""Mayo""

msgid ""Mexican Spanish""
msgstr ""Español de México""

msgid ""Mon""
msgstr ""Lun""

msgid ""Monday""
msgstr ""Lunes""

msgid ""Mongolian""
msgstr ""Mongol""

msgid ""Nepali""
msgstr ""Nepal""

msgid ""Nicaraguan Spanish""
msgstr ""Español de nicaragua""

msgid ""Norwegian Bokmål""
msgstr """"

msgid ""Norwegian Nynorsk""
msgstr ""Noruego Nynorsk""

msgid ""November""
msgstr ""Noviembre""

msgid ""October""
msgstr ""Octubre""

msgid ""Ossetic""
msgstr ""osetio""

msgid ""PM""
msgstr ""PM""

msgid ""Persian""
msgstr ""Persa""

msgid ""Polish""
msgstr ""Polaco""

msgid ""Portuguese""
msgstr ""Portugués""

msgid ""Punjabi""
msgstr ""Punjabi""

msgid ""Romanian""
msgstr ""Rumano""

msgid ""Russian""
msgstr ""Ruso""

msgid ""Sat""
msgstr ""Sab""

msgid ""Saturday""
msgstr ""Sábado""

msgid ""Scottish Gaelic""
msgstr ""Gaélico escocés""

msgid ""September""
msgstr ""Septiembre""

msgid ""Serbian""
msgstr ""Serbio""

msgid ""Serbian Latin""
msgstr ""Latin Serbio""

msgid ""Simplified Chinese""
msgstr ""Chino simplificado""

msgid ""Slovak""
msgstr ""Eslovaco""

msgid ""Slovenian""
msgstr ""Esloveno""

msgid ""Spanish""
msgstr ""Español""

msgid ""Sun""
msgstr ""Dom""

msgid ""Sunday""
msgstr ""Domingo""

msgid ""Swahili""
msgstr ""Swahili""

msgid ""Swedish""
msgstr ""Sueco""

msgid ""Tajik""
msgstr """"

msgid ""Tamil""
msgstr ""Tamil""

msgid ""Tatar""
msgstr ""Tatar""

msgid ""Telugu""
msgstr ""Telugu""

msgid ""Thai""
msgstr ""Tailandés""

msgid ""Thu""
msgstr ""Jue""

msgid ""Thursday""
msgstr ""Jueves""

msgid ""Traditional Chinese""
msgstr ""Chino tradicional""

msgid ""Tue""
msgstr ""Mar""

msgid ""Tuesday""
msgstr ""Martes""

msgid ""Turkish""
msgstr ""Turco""

msgid ""Turkmen""
msgstr """"

msgid ""Udmurt""
msgstr ""udmurto""

msgid ""Ukrainian""
msgstr ""Ucraniano""

msgid ""Upper Sorbian""
msgstr ""Alto sorbio""

msgid ""Urdu""
msgstr ""Urdu""

msgid ""Uzbek""
msgstr """"

msgid ""Venezuelan Spanish""
msgstr ""español de Venezuela""

msgid ""Vietnamese""
msgstr ""Vietnamita""

msgid ""Wed""
msgstr ""Mie""

msgid ""Wednesday""
msgstr ""Miércoles""

msgid ""Welsh""
msgstr ""Galés""

msgid ""a minute ago""
msgid_plural ""%[1]v minutes ago""
msgstr[0] ""hace un minuto""
msgstr[1] ""Hace %[1]v minutos""

msgid ""a minute from now""
msgid_plural ""%[1]v minutes from now""
msgstr[0] """"
msgstr[1] """"

msgid ""a second ago""
msgid_plural ""%[1]v seconds ago""
msgstr[0] ""hace un segundo""
msgstr[1] ""Hace %[1]v segundos""

msgid ""a second from now""
msgid_plural ""%[1]v seconds from now""
msgstr[0] ""Un segundo desde ahora""
msgstr[1] ""%[1]v desde ahora""

msgid ""a.m.""
msgstr ""a.m.""

msgid ""an hour ago""
msgid_plural ""%[1]v hours ago""
msgstr[0] ""hace una hora""
msgstr[1] ""Hace %[1]v horas""

msgid ""an hour from now""
msgid_plural ""%[1]v hours from now""
msgstr[0] """"
msgstr[1] """"

msgid ""apr""
msgstr ""abr""

msgid ""aug""
msgstr ""ago""

msgid ""dec""
msgstr ""dic""

msgid ""eight""
msgstr ""ocho""

msgid ""feb""
msgstr ""feb""

msgid ""five""
msgstr ""cinco""

msgid ""four""
msgstr ""cuatro""

msgid ""jan""
msgstr ""ene""

msgid ""jul""
msgstr ""jul""

msgid ""jun""
msgstr ""jun""

msgid ""mar""
msgstr ""mar""

msgid ""may""
msgstr ""may""

msgid ""midnight""
msgstr ""medianoche""

msgid ""nine""
msgstr ""nueve""

msgid ""noon""
msgstr ""mediodía""

msgid ""nov""
msgstr ""nov""

msgid ""now""
msgstr ""ahora""

msgid ""oct""
msgstr ""oct""

msgid ""one""
msgstr ""uno""

msgid ""p.m.""
msgstr ""p.m.""

msgid ""sep""
msgstr ""sep""

msgid ""seven""
msgstr ""siete""

msgid ""six""
msgstr ""seis""

msgid ""three""
msgstr ""tres""

msgid ""today""
msgstr ""hoy""

msgid ""tomorrow""
msgstr ""mañana""

msgid ""two""
msgstr ""dos""

msgid ""yesterday""
msgstr ""ayer""

msgctxt ""abbrev. month""
msgid ""April""
msgstr ""Abril""

msgctxt ""abbrev. month""
msgid ""Aug.""
msgstr ""Ago.""

msgctxt ""abbrev. month""
msgid ""Dec.""
msgstr ""Dic.""

msgctxt ""abbrev. month""
msgid ""Feb.""
msgstr ""Feb.""

msgctxt ""abbrev. month""
msgid ""Jan.""
msgstr ""Ene.""

msgctxt ""abbrev. month""
msgid ""July""
msgstr ""Julio""

msgctxt ""abbrev. month""
msgid ""June""
msgstr ""Junio""

msgctxt ""abbrev. month""
msgid ""March""
msgstr ""Marzo""

msgctxt ""abbrev. month""
msgid ""May""
msgstr ""Mayo""

msgctxt ""abbrev. month""
msgid ""Nov.""
msgstr ""Nov.""

msgctxt ""abbrev. month""
msgid ""Oct.""
msgstr ""Oct.""

msgctxt ""abbrev. month""
msgid ""Sept.""
msgstr ""Sep.""

msgctxt ""alt. month""
msgid ""April""
msgstr ""Abril""

msgctxt ""alt. month""
msgid ""August""
msgstr ""Agosto""

msgctxt ""alt. month""
msgid ""December""
msgstr ""Diciembre""

msgctxt ""alt. month""
msgid ""February""
msgstr ""Febrero""

msgctxt ""alt. month""
msgid ""January""
msgstr ""Enero""

msgctxt ""alt. month""
msgid ""July""
msgstr ""Julio""

msgctxt ""alt. month""
msgid ""June""
msgstr ""Junio""

msgctxt ""alt. month""
msgid ""March""
msgstr ""Marzo""

msgctxt ""alt. month""
msgid ""May""
msgstr ""Mayo""

msgctxt ""alt. month""
msgid ""November""
msgstr ""Noviembre""

msgctxt ""alt. month""
msgid ""October""
msgstr ""Octubre""

msgctxt ""alt. month""
msgid ""September""
msgstr ""Septiembre""
".
(** humanize/locale/esMX/locale.go (New) *)
Definition loc_esMX : locale_data := LD (bs "es-MX") [(bs "django.po", po_esMX)]
  (Some (FD (bs "j \d\e F \d\e Y") (bs "H:i") (bs "j \d\e F \d\e Y \a \l\a\s H:i") (bs "F \d\e Y") (bs "j \d\e F") (bs "d/m/Y") (bs "d/m/Y H:i"))).

(** humanize/locale/esVE/django.po *)
Definition po_esVE : bytes := bs "# This file is distributed under the same license as the Django package.
# 
# Translators:
# Claude Paroz <claude@2xlibre.net>, 2020
# Eduardo <edos21@gmail.com>, 2017
# Leonardo J. Caballero G. <leonardocaballero@gmail.com>, 2016
# Sebastián Magrí, 2011
# Yoel Acevedo, 2017
msgid """"
msgstr """"
""Project-Id-Version: django\n""
""Report-Msgid-Bugs-To: \n""
""POT-Creation-Date: 2020-05-19 20:23+0200\n""
""PO-Revision-Date: 2020-07-14 21:42+0000\n""
""Last-Translator: Transifex Bot <>\n""
""Language-Team: Spanish (Venezuela) (http://www.transifex.com/django/django/language/es_VE/)\n""
""Language: es_VE\n""
""MIME-Version: 1.0\n""
""Content-Type: text/plain; charset=UTF-8\n""
""Content-Transfer-Encoding: 8bit\n""
""Plural-Forms: nplurals=2; plural=(n != 1);\n""

msgid ""%[1]d byte""
msgid_plural ""%[1]d bytes""
msgstr[0] ""%[1]d byte""
msgstr[1] ""%[1]d bytes""

msgid ""%[1]s billion""
msgid_plural ""%[1]s billion""
msgstr[0] """"
msgstr[1] """"

msgid ""%[1]s decillion""
msgid_plural ""%[1]s decillion""
msgstr[0] """"
msgstr[1] """"

msgid ""%[1]s googol""
msgid_plural ""%[1]s googol""
msgstr[0] """"
msgstr[1] """"

msgid ""%[1]s million""
msgid_plural ""%[1]s million""
msgstr[0] """"
msgstr[1] """"

msgid ""%[1]s nonillion""
msgid_plural ""%[1]s nonillion""
msgstr[0] """"
msgstr[1] """"

msgid ""%[1]s octillion""
msgid_plural ""%[1]s octillion""
msgstr[0] """"
msgstr[1] """"

msgid ""%[1]s quadrillion""
msgid_plural ""%[1]s quadrillion""
msgstr[0] """"
msgstr[1] """"

msgid ""%[1]s quintillion""
msgid_plural ""%[1]s quintillion""
msgstr[0] """"
msgstr[1] """"

msgid ""%[1]s septillion""
msgid_plural ""%[1]s septillion""
msgstr[0] """"
msgstr[1] """"

msgid ""%[1]s sextillion""
msgid_plural ""%[1]s sextillion""
msgstr[0] """"
msgstr[1] """"

msgid ""%[1]s trillion""
msgid_plural ""%[1]s trillion""
msgstr[0] """"
msgstr[1] """"

msgid ""%s GB""
msgstr ""%s GB""

msgid ""%s KB""
msgstr ""%s KB""

msgid ""%s MB""
msgstr ""%s MB""

msgid ""%s PB""
msgstr ""%s PB""

msgid ""%s TB""
msgstr ""%s TB""

msgid "", ""
msgstr "", ""

msgid ""AM""
msgstr ""AM""

msgid ""Afrikaans""
msgstr ""Afrikáans""

msgid ""Albanian""
msgstr ""Albano""

msgid ""Algerian Arabic""
msgstr """"

msgid ""April""
msgstr ""Abril""

msgid ""Arabic""
msgstr ""Árabe""

msgid ""Argentinian Spanish""
msgstr ""Español de Argentina""

msgid ""Armenian""
msgstr """"

msgid ""Asturian""
msgstr ""Asturiano""

msgid ""August""
msgstr ""Agosto""

msgid ""Australian English""
msgstr ""Inglés Australiano""

msgid ""Azerbaijani""
msgstr ""Azerí""

msgid ""Basque""
msgstr ""Vazco""

msgid ""Belarusian""
msgstr ""Bielorruso""

msgid ""Bengali""
msgstr ""Bengalí""

msgid ""Bosnian""
msgstr ""Bosnio""

msgid ""Brazilian Portuguese""
msgstr ""Portugués de Brasil""

msgid ""Breton""
msgstr ""Bretón""

msgid ""British English""
msgstr ""Inglés Británico""

msgid ""Bulgarian""
msgstr ""Búlgaro""

msgid ""Burmese""
msgstr ""Birmano""

msgid ""Catalan""
msgstr ""Catalán""

msgid ""Colombian Spanish""
msgstr ""Español de Colombia""

msgid ""Croatian""
msgstr ""Croata""

msgid ""Czech""
msgstr ""Checo""

msgid ""Danish""
msgstr ""Danés""

msgid ""December""
msgstr ""Diciembre""

msgid ""Dutch""
msgstr ""Holandés""

msgid ""English""
msgstr ""Inglés""

msgid ""Esperanto""
msgstr ""Esperanto""

msgid ""Estonian""
msgstr ""Estonio""

msgid ""February""
msgstr ""Febrero""

msgid ""Finnish""
msgstr ""Finlandés""

msgid ""French""
msgstr ""Francés""

msgid ""Fri""
msgstr ""Vie""

msgid ""Friday""
msgstr ""Viernes""

msgid ""Frisian""
msgstr ""Frisio""

msgid ""Galician""
msgstr ""Galés""

msgid ""Georgian""
msgstr ""Georgiano""

msgid ""German""
msgstr ""Alemán""

msgid ""Greek""
msgstr ""Griego""

msgid ""Hebrew""
msgstr ""Hebreo""

msgid ""Hindi""
msgstr ""Hindi""

msgid ""Hungarian""
msgstr ""Húngaro""

msgid ""Icelandic""
msgstr ""Islandés""

msgid ""Ido""
msgstr ""Ido""

msgid ""Igbo""
msgstr """"

msgid ""Indonesian""
msgstr ""Indonesio""

msgid ""Interlingua""
msgstr ""Interlingua""

msgid ""Irish""
msgstr ""Irlandés""

msgid ""Italian""
msgstr ""Italiano""

msgid ""January""
msgstr ""Enero""

msgid ""Japanese""
msgstr ""Japonés""

msgid ""July""
msgstr ""Julio""

msgid ""June""
msgstr ""Junio""

msgid ""Kabyle""
msgstr """"

msgid ""Kannada""
msgstr ""Canarés""

msgid ""Kazakh""
msgstr ""Kazajo""

msgid ""Khmer""
msgstr ""Khmer""

msgid ""Korean""
msgstr ""Coreano""

msgid ""Kyrgyz""
msgstr """"

msgid ""Latvian""
msgstr ""Latvio""

msgid ""Lithuanian""
msgstr ""Lituano""

msgid ""Lower Sorbian""
msgstr ""Sorbio Inferior""

msgid ""Luxembourgish""
msgstr ""Luxenburgués""

msgid ""Macedonian""
msgstr ""Macedonio""

msgid ""Malayalam""
msgstr ""Malayala""

msgid ""Marathi""
msgstr ""Maratí""

msgid ""March""
msgstr ""Marzo""

msgid ""May""
msgstr ""Mayo""

msgid ""Mexican Spanish""
msgstr ""Español de México""

msgid ""Mon""
msgstr ""Lun""

msgid ""Monday""
msgstr ""Lunes""

msgid ""Mongolian""
msgstr ""Mongol""

msgid ""Nepali""
msgstr ""Nepalí""

msgid ""Nicaraguan Spanish""
msgstr ""Español de Nicaragua""

msgid ""Norwegian Bokmål""
msgstr ""Noruego""

msgid ""Norwegian Nynorsk""
msgstr ""Nynorsk""

msgid ""November""
msgstr ""Noviembre""

msgid ""October""
msgstr ""Octubre""

msgid ""Ossetic""
msgstr ""Osetio""

msgid ""PM""
msgstr ""PM""

msgid ""Persian""
msgstr ""Persa""

msgid ""Polish""
msgstr ""Polaco""

msgid ""Portuguese""
msgstr ""Portugués""

msgid ""Punjabi""
msgstr ""Punjabi""

msgid ""Romanian""
msgstr ""Ruman""

msgid ""Russian""
msgstr ""Ruso""

msgid ""Sat""
msgstr ""Sáb""

msgid ""Saturday""
msgstr ""Sábado""

msgid ""Scottish Gaelic""
msgstr ""Gaélico Escocés""

msgid ""September""
msgstr ""Septiembre""

msgid ""Serbian""
msgstr ""Serbi""

msgid ""Serbian Latin""
msgstr ""Latín Serbio""

msgid ""Simplified Chinese""
msgstr ""Chino simplificado""

msgid ""Slovak""
msgstr ""Eslovaco""

msgid ""Slovenian""
msgstr ""Eslovenio""

msgid ""Spanish""
msgstr ""Español""

msgid ""Sun""
msgstr ""Dom""

msgid ""Sunday""
msgstr ""Domingo""

msgid ""Swahili""
msgstr ""Suajili""

msgid ""Swedish""
msgstr ""Sueco""

msgid ""Tajik""
msgstr """"

msgid ""Tamil""
msgstr ""Tamil""

msgid ""Tatar""
msgstr ""Tártaro""

msgid ""Telugu""
msgstr ""Telugu""

msgid ""Thai""
msgstr ""Tailandés""

msgid ""Thu""
msgstr ""Jue""

msgid ""Thursday""
msgstr ""Jueves""

msgid ""Traditional Chinese""
msgstr ""Chino tradicional""

msgid ""Tue""
msgstr ""Mar""

msgid ""Tuesday""
msgstr ""Martes""

msgid ""Turkish""
msgstr ""Turco""

msgid ""Turkmen""
msgstr """"

msgid ""Udmurt""
msgstr ""Udmurt""

msgid ""Ukrainian""
msgstr ""Ucranio""

msgid ""Upper Sorbian""
msgstr ""Sorbio Superior""

msgid ""Urdu""
msgstr ""Urdu""

msgid ""Uzbek""
msgstr """"

msgid ""Venezuelan Spanish""
msgstr ""Español de Venezuela""

msgid ""Vietnamese""
msgstr ""Vietnamita""

msgid ""Wed""
msgstr ""Mié""

msgid ""Wednesday""
msgstr ""Miércoles""

msgid ""Welsh""
msgstr ""Galés""

msgid ""a minute ago""
msgid_plural ""%[1]v minutes ago""
msgstr[0] """"
msgstr[1] """"

msgid ""a minute from now""
msgid_plural ""%[1]v minutes from now""
msgstr[0] """"
msgstr[1] """"

msgid ""a second ago""
msgid_plural ""%[1]v seconds ago""
msgstr[0] """"
msgstr[1] """"

msgid ""a second from now""
msgid_plural ""%[1]v seconds from now""
msgstr[0] """"
msgstr[1] """"

msgid ""a.m.""
msgstr ""a.m.""

msgid ""an hour ago""
msgid_plural ""%[1]v hours ago""
msgstr[0] """"
msgstr[1] """"

msgid ""an hour from now""
msgid_plural ""%[1]v hours from now""
msgstr[0] """"
msgstr[1] """"

msgid ""apr""
msgstr ""abr""

msgid ""aug""
msgstr ""ago""

msgid ""dec""
msgstr ""dic""

msgid ""eight""
msgstr ""ocho""

msgid ""feb""
msgstr ""feb""

msgid ""five""
msgstr ""cinco""

msgid ""four""
msgstr ""cuatro""

msgid ""jan""
msgstr ""ene""

msgid ""jul""
msgstr ""jul""

msgid ""jun""
msgstr ""jun""

msgid ""mar""
msgstr ""mar""

msgid ""may""
msgstr ""may""

msgid ""midnight""
msgstr ""medianoche""

msgid ""nine""
msgstr ""nueve""

msgid ""noon""
msgstr ""mediodía""

msgid ""nov""
msgstr ""nov""

msgid ""now""
msgstr ""ahora""

msgid ""oct""
msgstr ""oct""

msgid ""one""
msgstr ""uno""

msgid ""p.m.""
msgstr ""p.m.""

msgid ""sep""
msgstr ""sep""

msgid ""seven""
msgstr ""siete""

msgid ""six""
msgstr ""seis""

msgid ""three""
msgstr ""tres""

msgid ""today""
msgstr ""hoy""

msgid ""tomorrow""
msgstr ""mañana""

msgid ""two""
msgstr ""dos""

msgid ""yesterday""
msgstr ""ayer""

msgctxt ""abbrev. month""
msgid ""April""
msgstr ""Abril""

msgctxt ""abbrev. month""
msgid ""Aug.""
msgstr ""Ago.""

msgctxt ""abbrev. month""
msgid ""Dec.""
msgstr ""Dic.""

msgctxt ""abbrev. month""
msgid ""Feb.""
msgstr ""Feb.""

msgctxt ""abbrev. month""
msgid ""Jan.""
msgstr ""Ene.""

msgctxt ""abbrev. month""
msgid ""July""
msgstr ""Julio""

msgctxt ""abbrev. month""
msgid ""June""
msgstr ""Junio""

msgctxt ""abbrev. month""
msgid ""March""
msgstr ""Marzo""

msgctxt ""abbrev. month""
msgid ""May""
msgstr ""Mayo""

msgctxt ""abbrev. month""
msgid ""Nov.""
msgstr ""Nov.""

msgctxt ""abbrev. month""
msgid ""Oct.""
msgstr ""Oct.""

msgctxt ""abbrev. month""
msgid ""Sept.""
msgstr ""Sep.""

msgctxt ""alt. month""
msgid ""April""
msgstr ""Abril""

msgctxt ""alt. month""
msgid ""August""
msgstr ""Agosto""

msgctxt ""alt. month""
msgid ""December""
msgstr ""Diciembre""

msgctxt ""alt. month""
msgid ""February""
msgstr ""Febrero""

msgctxt ""alt. month""
msgid ""January""
msgstr ""Enero""

msgctxt ""alt. month""
msgid ""July""
msgstr ""Julio""

msgctxt ""alt. month""
msgid ""June""
msgstr ""Junio""

msgctxt ""alt. month""
msgid ""March""
msgstr ""Marzo""

msgctxt ""alt. month""
msgid ""May""
msgstr ""Mayo""

msgctxt ""alt. month""
msgid ""November""
msgstr ""Noviembre""

msgctxt ""alt. month""
msgid ""October""
msgstr ""Octubre""

msgctxt ""alt. month""
msgid ""September""
msgstr ""Septiembre""
".
(** humanize/locale/esVE/locale.go (New) *)
Definition loc_esVE : locale_data := LD (bs "es-VE") [(bs "django.po", po_esVE)]
  (None).

(** humanize/locale/et/django.po *)
Definition po_et : bytes := bs "# This file is distributed under the same license as the Django package.
# 
# Translators:
# eallik <eallik@gmail.com>, 2011
# Erlend Eelmets <debcf78e@opayq.com>, 2020
# Jannis Leidel <jannis@leidel.info>, 2011
# Janno Liivak <jannolii@gmail.com>, 2013-2015
# madisvain <madisvain@gmail.com>, 2011
# Martin <martinpajuste@gmail.com>, 2014-2015,2021-2025
# Martin <martinpajuste@gmail.com>, 2016-2017,2019-2020
# Marti Raudsepp <marti@juffo.org>, 2014,2016
# Ragnar Rebase <rrebase@gmail.com>, 2019
msgid """"
msgstr """"
""Project-Id-Version: django\n""
""Report-Msgid-Bugs-To: \n""
""POT-Creation-Date: 2025-03-19 11:30-0500\n""
""PO-Revision-Date: 2025-04-01 15:04-0500\n""
""Last-Translator: Martin <martinpajuste@gmail.com>, 2014-2015,2021-2025\n""
""Language-Team: Estonian (http://app.transifex.com/django/django/language/et/)\n""
""Language: et\n""
""MIME-Version: 1.0\n""
""Content-Type: text/plain; charset=UTF-8\n""
""Content-Transfer-Encoding: 8bit\n""
""Plural-Forms: nplurals=2; plural=(n != 1);\n""

msgid ""%[1]d byte""
msgid_plural ""%[1]d bytes""
msgstr[0] ""%[1]d bait""
msgstr[1] ""%[1]d baiti""

msgid ""%[1]s billion""
msgid_plural ""%[1]s billion""
msgstr[0] ""%[1]s miljard""
msgstr[1] ""%[1]s miljardit""

msgid ""%[1]s decillion""
msgid_plural ""%[1]s decillion""
msgstr[0] ""%[1]s detsiljon""
msgstr[1] ""%[1]s detsiljonit""

msgid ""%[1]s googol""
msgid_plural ""%[1]s googol""
msgstr[0] ""%[1]s googol""
msgstr[1] ""%[1]s googolit""

msgid ""%[1]s million""
msgid_plural ""%[1]s million""
msgstr[0] ""%[1]s miljon""
msgstr[1] ""%[1]s miljonit""

msgid ""%[1]s nonillion""
msgid_plural ""%[1]s nonillion""
msgstr[0] ""%[1]s noniljon""
msgstr[1] ""%[1]s noniljonit""

msgid ""%[1]s octillion""
msgid_plural ""%[1]s octillion""
msgstr[0] ""%[1]s oktiljon""
msgstr[1] ""%[1]s oktiljonit""

msgid ""%[1]s quadrillion""
msgid_plural ""%[1]s quadrillion""
msgstr[0] ""%[1]s kvadriljon""
msgstr[1] ""%[1]s kvadriljonit""

msgid ""%[1]s quintillion""
msgid_plural ""%[1]s quintillion""
msgstr[0] ""%[1]s kvintiljon""
msgstr[1] ""%[1]s kvintiljonit""

msgid ""%[1]s septillion""
msgid_plural ""%[1]s septillion""
msgstr[0] ""%[1]s septiljon""
msgstr[1] ""%[1]s septiljonit""

msgid ""%[1]s sextillion""
msgid_plural ""%[1]s sextillion""
msgstr[0] ""%[1]s sekstiljon""
msgstr[1] ""%[1]s sekstiljonit""

msgid ""%[1]s trillion""
msgid_plural ""%[1]s trillion""
msgstr[0] ""%[1]s triljon""
msgstr[1] ""%[1]s triljonit""

msgid ""%[1]v ago""
msgstr ""%[1]v tagasi""

msgid ""%[1]v day""
msgid_plural ""%[1]v days""
msgstr[0] ""%[1]v päev""
msgstr[1] ""%[1]v päeva""

msgid ""%[1]v from now""
msgstr ""%[1]v praegusest hetkest""

msgid ""%[1]v hour""
msgid_plural ""%[1]v hours""
msgstr[0] ""%[1]v tund""
msgstr[1] ""%[1]v tundi""

msgid ""%[1]v minute""
msgid_plural ""%[1]v minutes""
msgstr[0] ""%[1]v minut""
msgstr[1] ""%[1]v minutit""

msgid ""%[1]v month""
msgid_plural ""%[1]v months""
msgstr[0] ""%[1]v kuu""
msgstr[1] ""%[1]v kuud""

msgid ""%[1]v week""
msgid_plural ""%[1]v weeks""
msgstr[0] ""%[1]v nädal""
msgstr[1] ""%[1]v nädalat""

msgid ""%[1]v year""
msgid_plural ""%[1]v years""
msgstr[0] ""%[1]v aasta""
msgstr[1] ""%[1]v aastat""

msgid ""%s GB""
msgstr ""%s GB""

msgid ""%s KB""
msgstr ""%s kB""

msgid ""%s MB""
msgstr ""%s MB""

msgid ""%s PB""
msgstr ""%s PB""

msgid ""%s TB""
msgstr ""%s TB""

msgid "", ""
msgstr "", ""

msgid ""AM""
msgstr ""EL""

msgid ""Afrikaans""
msgstr ""afrikaani""

msgid ""Albanian""
msgstr ""albaania""

msgid ""Algerian Arabic""
msgstr ""Alžeeria Araabia""

msgid ""April""
msgstr ""aprill""

msgid ""Arabic""
msgstr ""araabia""

msgid ""Argentinian Spanish""
msgstr ""argentiina hispaani""

msgid ""Armenian""
msgstr ""armeenia""

msgid ""Asturian""
msgstr ""astuuria""

msgid ""August""
msgstr ""august""

msgid ""Australian English""
msgstr ""austraalia inglise""

msgid ""Azerbaijani""
msgstr ""aserbaidžaani""

msgid ""Basque""
msgstr ""baski""

msgid ""Belarusian""
msgstr ""valgevene""

msgid ""Bengali""
msgstr ""bengali""

msgid ""Bosnian""
msgstr ""bosnia""

msgid ""Brazilian Portuguese""
msgstr ""brasiilia portugali""

msgid ""Breton""
msgstr ""bretooni""

msgid ""British English""
msgstr ""briti inglise""

msgid ""Bulgarian""
msgstr ""bulgaaria""

msgid ""Burmese""
msgstr ""birma""

msgid ""Catalan""
msgstr ""katalaani""

msgid ""Central Kurdish (Sorani)""
msgstr ""Keskkurdi keel (sorani)""

msgid ""Colombian Spanish""
msgstr ""kolumbia hispaania""

msgid ""Croatian""
msgstr ""horvaatia""

msgid ""Czech""
msgstr ""tšehhi""

msgid ""Danish""
msgstr ""taani""

msgid ""December""
msgstr ""detsember""

msgid ""Dutch""
msgstr ""hollandi""

msgid ""English""
msgstr ""inglise""

msgid ""Esperanto""
msgstr ""esperanto""

msgid ""Estonian""
msgstr ""eesti""

msgid ""February""
msgstr ""veebruar""

msgid ""Finnish""
msgstr ""soome""

msgid ""French""
msgstr ""prantsuse""

msgid ""Fri""
msgstr ""reede""

msgid ""Friday""
msgstr ""reede""

msgid ""Frisian""
msgstr ""friisi""

msgid ""Galician""
msgstr ""galiitsia""

msgid ""Georgian""
msgstr ""gruusia""

msgid ""German""
msgstr ""saksa""

msgid ""Greek""
msgstr ""kreeka""

msgid ""Hebrew""
msgstr ""heebrea""

msgid ""Hindi""
msgstr ""hindi""

msgid ""Hungarian""
msgstr ""ungari""

msgid ""Icelandic""
msgstr ""islandi""

msgid ""Ido""
msgstr ""ido""

msgid ""Igbo""
msgstr ""ibo""

msgid ""Indonesian""
msgstr ""indoneesi""

msgid ""Interlingua""
msgstr ""interlingua""

msgid ""Irish""
msgstr ""iiri""

msgid ""Italian""
msgstr ""itaalia""

msgid ""January""
msgstr ""jaanuar""

msgid ""Japanese""
msgstr ""jaapani""

msgid ""July""
msgstr ""juuli""

msgid ""June""
msgstr ""juuni""

msgid ""Kabyle""
msgstr ""Kabiili""

msgid ""Kannada""
msgstr ""kannada""

msgid ""Kazakh""
msgstr ""kasahhi""

msgid ""Khmer""
msgstr ""khmeri""

msgid ""Korean""
msgstr ""korea""

msgid ""Kyrgyz""
msgstr ""kirgiisi""

msgid ""Latvian""
msgstr ""läti""

msgid ""Lithuanian""
msgstr ""leedu""

msgid ""Lower Sorbian""
msgstr ""alamsorbi""

msgid ""Luxembourgish""
msgstr ""letseburgi""

msgid ""Macedonian""
msgstr ""makedoonia""

msgid ""Malay""
msgstr ""malai""

msgid ""Malayalam""
msgstr ""malaia""

msgid ""Marathi""
msgstr ""marathi""

msgid ""March""
msgstr ""märts""

msgid ""May""
msgstr ""mai""

msgid ""Mexican Spanish""
msgstr ""mehhiko hispaania""

msgid ""Mon""
msgstr ""esmasp.""

msgid ""Monday""
msgstr ""esmaspäev""

msgid ""Mongolian""
msgstr ""mongoolia""

msgid ""Nepali""
msgstr ""nepali""

msgid ""Nicaraguan Spanish""
msgstr ""nikaraagua hispaania""

msgid ""Norwegian Bokmål""
msgstr ""norra bokmål""

msgid ""Norwegian Nynorsk""
msgstr ""norra (nynorsk)""

msgid ""November""
msgstr ""november""

msgid ""October""
msgstr ""oktoober""

msgid ""Ossetic""
msgstr ""osseetia""

msgid ""PM""
msgstr ""PL""

msgid ""Persian""
msgstr ""pärsia""

msgid ""Polish""
msgstr ""poola""

msgid ""Portuguese""
msgstr ""portugali""

msgid ""Punjabi""
msgstr ""pandžab""

msgid ""Romanian""
msgstr ""rumeenia""

msgid ""Russian""
msgstr ""vene""

msgid ""Sat""
msgstr ""laup.""

msgid ""Saturday""
msgstr ""laupäev""

msgid ""Scottish Gaelic""
msgstr ""šoti gaeli""

msgid ""September""
msgstr ""september""

msgid ""Serbian""
msgstr ""serbia""

msgid ""Serbian Latin""
msgstr ""serbia (ladina)""

msgid ""Simplified Chinese""
msgstr ""lihtsustatud hiina""

msgid ""Slovak""
msgstr ""slovaki""

msgid ""Slovenian""
msgstr ""sloveeni""

msgid ""Spanish""
msgstr ""hispaania""

msgid ""Sun""
msgstr ""pühap.""

msgid ""Sunday""
msgstr ""pühapäev""

msgid ""Swahili""
msgstr ""suahiili""

msgid ""Swedish""
msgstr ""rootsi""

msgid ""Tajik""
msgstr ""tadžiki""

msgid ""Tamil""
msgstr ""tamiili""

msgid ""Tatar""
msgstr ""tatari""

msgid ""Telugu""
msgstr ""telugu""

msgid ""Thai""
msgstr ""tai""

msgid ""Thu""
msgstr ""neljap.""

msgid ""Thursday""
msgstr ""neljapäev""

msgid ""Traditional Chinese""
msgstr ""traditsiooniline hiina""

msgid ""Tue""
msgstr ""teisip.""

msgid ""Tuesday""
msgstr ""teisipäev""

msgid ""Turkish""
msgstr ""türgi""

msgid ""Turkmen""
msgstr ""türkmeeni""

msgid ""Udmurt""
msgstr ""udmurdi""

msgid ""Ukrainian""
msgstr ""ukrania""

msgid ""Upper Sorbian""
msgstr ""ülemsorbi""

msgid ""Urdu""
msgstr ""urdu""

msgid ""Uyghur""
msgstr ""Uiguuri""

msgid ""Uzbek""
msgstr ""Usbeki""

msgid ""Venezuelan Spanish""
msgstr ""venetsueela hispaania""

msgid ""Vietnamese""
msgstr ""vietnami""

msgid ""Wed""
msgstr ""kolmap.""

msgid ""Wednesday""
msgstr ""kolmapäev""

msgid ""Welsh""
msgstr ""uelsi""

msgid ""a minute ago""
msgid_plural ""%[1]v minutes ago""
msgstr[0] ""minut tagasi""
msgstr[1] ""%[1]v minutit tagasi""

msgid ""a minute from now""
msgid_plural ""%[1]v minutes from now""
msgstr[0] ""minut praegusest hetkest""
msgstr[1] ""%[1]v minutit praegusest hetkest""

msgid ""a second ago""
msgid_plural ""%[1]v seconds ago""
msgstr[0] ""sekund tagasi""
msgstr[1] ""%[1]v sekundit tagasi""

msgid ""a second from now""
msgid_plural ""%[1]v seconds from now""
msgstr[0] ""sekund praegusest hetkest""
msgstr[1] ""%[1]v sekundit praegusest hetkest""

msgid ""a.m.""
msgstr ""e.l.""

msgid ""an hour ago""
msgid_plural ""%[1]v hours ago""
msgstr[0] ""tund tagasi""
msgstr[1] ""%[1]v tundi tagasi""

msgid ""an hour from now""
msgid_plural ""%[1]v hours from now""
msgstr[0] ""tund praegusest hetkest""
msgstr[1] ""%[1]v tundi praegusest hetkest""

msgid ""apr""
msgstr ""apr""

msgid ""aug""
msgstr ""aug""

msgid ""dec""
msgstr ""dets""

msgid ""eight""
msgstr ""kaheksa""

msgid ""feb""
msgstr ""veeb""

msgid ""five""
msgstr ""viis""

msgid ""four""
msgstr ""neli""

msgid ""jan""
msgstr ""jaan""

msgid ""jul""
msgstr ""jul""

msgid ""jun""
msgstr ""jun""

msgid ""mar""
msgstr ""märts""

msgid ""may""
msgstr ""mai""

msgid ""midnight""
msgstr ""südaöö""

msgid ""nine""
msgstr ""üheksa""

msgid ""noon""
msgstr ""keskpäev""

msgid ""nov""
msgstr ""nov""

msgid ""now""
msgstr ""praegu""

msgid ""oct""
msgstr ""okt""

msgid ""one""
msgstr ""üks""

msgid ""p.m.""
msgstr ""p.l.""

msgid ""sep""
msgstr ""sept""

msgid ""seven""
msgstr ""seitse""

msgid ""six""
msgstr ""kuus""

msgid ""three""
msgstr ""kolm""

msgid ""today""
msgstr ""täna""

msgid ""tomorrow""
msgstr ""homme""

msgid ""two""
msgstr ""kaks""

msgid ""yesterday""
msgstr ""eile""

msgctxt ""abbrev. month""
msgid ""April""
msgstr ""apr.""

msgctxt ""abbrev. month""
msgid ""Aug.""
msgstr ""aug.""

msgctxt ""abbrev. month""
msgid ""Dec.""
msgstr ""dets.""

msgctxt ""abbrev. month""
msgid ""Feb.""
msgstr ""veeb.""

msgctxt ""abbrev. month""
msgid ""Jan.""
msgstr ""jaan.""

msgctxt ""abbrev. month""
msgid ""July""
msgstr ""juuli""

msgctxt ""abbrev. month""
msgid ""June""
msgstr ""juuni""

msgctxt ""abbrev. month""
msgid ""March""
msgstr ""mär.""

msgctxt ""abbrev. month""
msgid ""May""
msgstr ""mai""

msgctxt ""abbrev. month""
msgid ""Nov.""
msgstr ""nov.""

msgctxt ""abbrev. month""
msgid ""Oct.""
msgstr ""okt.""

msgctxt ""abbrev. month""
msgid ""Sept.""
msgstr ""sept.""

msgctxt ""alt. month""
msgid ""April""
msgstr ""aprill""

msgctxt ""alt. month""
msgid ""August""
msgstr ""august""

msgctxt ""alt. month""
msgid ""December""
msgstr ""detsember""

msgctxt ""alt. month""
msgid ""February""
msgstr ""veebruar""

msgctxt ""alt. month""
msgid ""January""
msgstr ""jaanuar""

msgctxt ""alt. month""
msgid ""July""
msgstr ""juuli""

msgctxt ""alt. month""
msgid ""June""
msgstr ""juuni""

msgctxt ""alt. month""
msgid ""March""
msgstr ""märts""

msgctxt ""alt. month""
msgid ""May""
msgstr ""mai""

msgctxt ""alt. month""
msgid ""November""
msgstr ""november""

msgctxt ""alt. month""
msgid ""October""
msgstr ""oktoober""

msgctxt ""alt. month""
msgid ""September""
msgstr ""september""

msgctxt ""naturaltime-future""
msgid ""%[1]v day""
msgid_plural ""%[1]v days""
msgstr[0] ""%[1]v päev""
msgstr[1] ""%[1]v päeva""

msgctxt ""naturaltime-future""
msgid ""%[1]v hour""
msgid_plural ""%[1]v hours""
msgstr[0] ""%[1]v tund""
msgstr[1] ""%[1]v tundi""

msgctxt ""naturaltime-future""
msgid ""%[1]v minute""
msgid_plural ""%[1]v minutes""
msgstr[0] ""%[1]v minut""
msgstr[1] ""%[1]v minutit""

msgctxt ""naturaltime-future""
msgid ""%[1]v month""
msgid_plural ""%[1]v months""
msgstr[0] ""%[1]v kuu""
msgstr[1] ""%[1]v kuud""

msgctxt ""naturaltime-future""
msgid ""%[1]v week""
msgid_plural ""%[1]v weeks""
msgstr[0] ""%[1]v nädal""
msgstr[1] ""%[1]v nädalat""

msgctxt ""naturaltime-future""
msgid ""%[1]v year""
msgid_plural ""%[1]v years""
msgstr[0] ""%[1]v aasta""
msgstr[1] ""%[1]v aastat""

msgctxt ""naturaltime-past""
msgid ""%[1]v day""
msgid_plural ""%[1]v days""
msgstr[0] ""%[1]v päev""
msgstr[1] ""%[1]v päeva""

msgctxt ""naturaltime-past""
msgid ""%[1]v hour""
msgid_plural ""%[1]v hours""
msgstr[0] ""%[1]v tund""
msgstr[1] ""%[1]v tundi""

msgctxt ""naturaltime-past""
msgid ""%[1]v minute""
msgid_plural ""%[1]v minutes""
msgstr[0] ""%[1]v minut""
msgstr[1] ""%[1]v minutit""

msgctxt ""naturaltime-past""
msgid ""%[1]v month""
msgid_plural ""%[1]v months""
msgstr[0] ""%[1]v kuu""
msgstr[1] ""%[1]v kuud""

msgctxt ""naturaltime-past""
msgid ""%[1]v week""
msgid_plural ""%[1]v weeks""
msgstr[0] ""%[1]v nädal""
msgstr[1] ""%[1]v nädalat""

msgctxt ""naturaltime-past""
msgid ""%[1]v year""
msgid_plural ""%[1]v years""
msgstr[0] ""%[1]v aasta""
msgstr[1] ""%[1]v aastat""

msgctxt ""ordinal 0""
msgid ""%vth""
msgstr ""%v.""

msgctxt ""ordinal 1""
msgid ""%vst""
msgstr ""%v.""

msgctxt ""ordinal 11, 12, 13""
msgid ""%vth""
msgstr ""%v.""

msgctxt ""ordinal 2""
msgid ""%vnd""
msgstr ""%v.""

msgctxt ""ordinal 3""
msgid ""%vrd""
msgstr ""%v.""

msgctxt ""ordinal 4""
msgid ""%vth""
msgstr ""%v.""

msgctxt ""ordinal 5""
msgid ""%vth""
msgstr ""%v.""

msgctxt ""ordinal 6""
msgid ""%vth""
msgstr ""%v.""

msgctxt ""ordinal 7""
msgid ""%vth""
msgstr ""%v.""

msgctxt ""ordinal 8""
msgid ""%vth""
msgstr ""%v.""

msgctxt ""ordinal 9""
msgid ""%vth""
msgstr ""%v.""
".
(** humanize/locale/et/locale.go (New) *)
Definition loc_et : locale_data := LD (bs "et") [(bs "django.po", po_et)]
  (Some (FD (bs "j. F Y") (bs "G:i") (bs "") (bs "") (bs "j. F") (bs "d.m.Y") (bs ""))).

(** humanize/locale/eu/django.po *)
Definition po_eu : bytes := bs "# This file is distributed under the same license as the Django package.
# 
# Translators:
# Aitzol Naberan <anaberan@codesyntax.com>, 2013,2016
# Ander Martinez <ander.basaundi@gmail.com>, 2013-2014
# Eneko Illarramendi <eneko@illarra.com>, 2017-2019,2021-2022,2024
# Jannis Leidel <jannis@leidel.info>, 2011
# jazpillaga <jazpillaga@codesyntax.com>, 2011
# julen, 2011-2012
# julen, 2013,2015
# Mikel Maldonado <d.mikel.maldonado@gmail.com>, 2021
# totorika93 <totorika93@gmail.com>, 2012
# 67feb0cba3962a6c9f09eb0e43697461_528661a <cbde1c637170da616adcdde6daca673c_96059>, 2013
# Urtzi Odriozola <urtzi.odriozola@gmail.com>, 2017
msgid """"
msgstr """"
""Project-Id-Version: django\n""
""Report-Msgid-Bugs-To: \n""
""POT-Creation-Date: 2024-05-22 11:46-0300\n""
""PO-Revision-Date: 2024-08-07 06:49+0000\n""
""Last-Translator: Eneko Illarramendi <eneko@illarra.com>, 2017-2019,2021-2022,2024\n""
""Language-Team: Basque (http://app.transifex.com/django/django/language/eu/)\n""
""Language: eu\n""
""MIME-Version: 1.0\n""
""Content-Type: text/plain; charset=UTF-8\n""
""Content-Transfer-Encoding: 8bit\n""
""Plural-Forms: nplurals=2; plural=(n != 1);\n""

msgid ""%[1]d byte""
msgid_plural ""%[1]d bytes""
msgstr[0] ""byte %[1]d ""
msgstr[1] ""%[1]d byte""

msgid ""%[1]s billion""
msgid_plural ""%[1]s billion""
msgstr[0] ""bilioi %[1]s""
msgstr[1] ""%[1]s bilioi""

msgid ""%[1]s decillion""
msgid_plural ""%[1]s decillion""
msgstr[0] ""dezilioi %[1]s ""
msgstr[1] ""%[1]s dezilioi""

msgid ""%[1]s googol""
msgid_plural ""%[1]s googol""
msgstr[0] ""googol %[1]s""
msgstr[1] ""%[1]s googol""

msgid ""%[1]s million""
msgid_plural ""%[1]s million""
msgstr[0] ""milioi %[1]s""
msgstr[1] ""%[1]s milioi""

msgid ""%[1]s nonillion""
msgid_plural ""%[1]s nonillion""
msgstr[0] ""nonilioi %[1]s""
msgstr[1] ""%[1]s nonilioi""

msgid ""%[1]s octillion""
msgid_plural ""%[1]s octillion""
msgstr[0] ""octillioi %[1]s""
msgstr[1] "" %[1]s octilioi""

msgid ""%[1]s quadrillion""
msgid_plural ""%[1]s quadrillion""
msgstr[0] ""kuatrilioi %[1]s""
msgstr[1] ""%[1]s kuatrilioi""

msgid ""%[1]s quintillion""
msgid_plural ""%[1]s quintillion""
msgstr[0] ""kintilioi %[1]s""
msgstr[1] ""%[1]s kintilioi""

msgid ""%[1]s septillion""
msgid_plural ""%[1]s septillion""
msgstr[0] ""septilioi %[1]s""
msgstr[1] ""%[1]s septilioi""

msgid ""%[1]s sextillion""
msgid_plural ""%[1]s sextillion""
msgstr[0] ""sextilioi %[1]s""
msgstr[1] ""%[1]s sextilioi""

msgid ""%[1]s trillion""
msgid_plural ""%[1]s trillion""
msgstr[0] ""trilioi %[1]s""
msgstr[1] ""%[1]s trilioi""

msgid ""%[1]v ago""
msgstr ""duela %[1]v""

msgid ""%[1]v day""
msgid_plural ""%[1]v days""
msgstr[0] ""egun %[1]v""
msgstr[1] ""%[1]v egun""

msgid ""%[1]v from now""
msgstr ""%[1]v barru""

msgid ""%[1]v hour""
msgid_plural ""%[1]v hours""
msgstr[0] ""ordu %[1]v""
msgstr[1] ""%[1]v ordu""

msgid ""%[1]v minute""
msgid_plural ""%[1]v minutes""
msgstr[0] ""minutu %[1]v""
msgstr[1] ""%[1]v minutu""

msgid ""%[1]v month""
msgid_plural ""%[1]v months""
msgstr[0] ""hilabete %[1]v""
msgstr[1] ""%[1]v hilabete""

msgid ""%[1]v week""
msgid_plural ""%[1]v weeks""
msgstr[0] ""aste %[1]v""
msgstr[1] ""%[1]v aste""

msgid ""%[1]v year""
msgid_plural ""%[1]v years""
msgstr[0] ""urte %[1]v""
msgstr[1] ""%[1]v urte""

msgid ""%s GB""
msgstr ""%s GB""

msgid ""%s KB""
msgstr ""%s KB""

msgid ""%s MB""
msgstr ""%s MB""

msgid ""%s PB""
msgstr ""%s PB""

msgid ""%s TB""
msgstr ""%s TB""

msgid "", ""
msgstr "", ""

msgid ""AM""
msgstr ""AM""

msgid ""Afrikaans""
msgstr ""Afrikaans""

msgid ""Albanian""
msgstr ""Albaniera""

msgid ""Algerian Arabic""
msgstr ""Algeriar Arabiera""

msgid ""April""
msgstr ""apirila""

msgid ""Arabic""
msgstr ""Arabiera""

msgid ""Argentinian Spanish""
msgstr ""Gaztelania (Argentina)""

msgid ""Armenian""
msgstr ""Armeniera""

msgid ""Asturian""
msgstr ""Asturiera""

msgid ""August""
msgstr ""abuztua""

msgid ""Australian English""
msgstr ""Australiar ingelesa""

msgid ""Azerbaijani""
msgstr ""Azerbaijanera""

msgid ""Basque""
msgstr ""Euskara""

msgid ""Belarusian""
msgstr ""Bielorrusiera""

msgid ""Bengali""
msgstr ""Bengalera""

msgid ""Bosnian""
msgstr ""Bosniera""

msgid ""Brazilian Portuguese""
msgstr ""Portugesa (Brazil)""

msgid ""Breton""
msgstr ""Bretoia""

msgid ""British English""
msgstr ""Ingelesa""

msgid ""Bulgarian""
msgstr ""Bulgariera""

msgid ""Burmese""
msgstr ""Birmaniera""

msgid ""Catalan""
msgstr ""Katalana""

msgid ""Central Kurdish (Sorani)""
msgstr """"

msgid ""Colombian Spanish""
msgstr ""Gaztelania (Kolonbia)""

msgid ""Croatian""
msgstr ""Kroaziera""

msgid ""Czech""
msgstr ""Txekiera""

msgid ""Danish""
msgstr ""Daniera""

msgid ""December""
msgstr ""abendua""

msgid ""Dutch""
msgstr ""Nederlandera""

msgid ""English""
msgstr ""Ingelesa""

msgid ""Esperanto""
msgstr ""Esperantoa""

msgid ""Estonian""
msgstr ""Estoniera""

msgid ""February""
msgstr ""otsaila""

msgid ""Finnish""
msgstr ""Finlandiera""

msgid ""French""
msgstr ""Frantsesa""

msgid ""Fri""
msgstr ""ol""

msgid ""Friday""
msgstr ""ostirala""

msgid ""Frisian""
msgstr ""Frisiera""

msgid ""Galician""
msgstr ""Galiziera""

msgid ""Georgian""
msgstr ""Georgiera""

msgid ""German""
msgstr ""Alemana""

msgid ""Greek""
msgstr ""Greziera""

msgid ""Hebrew""
msgstr ""Hebreera""

msgid ""Hindi""
msgstr ""Hindi""

msgid ""Hungarian""
msgstr ""Hungariera""

msgid ""Icelandic""
msgstr ""Islandiera""

msgid ""Ido""
msgstr ""Ido""

msgid ""Igbo""
msgstr ""Igboera""

msgid ""Indonesian""
msgstr ""Indonesiera""

msgid ""Interlingua""
msgstr ""Interlingua""

msgid ""Irish""
msgstr ""Irlandako gaelikoa""

msgid ""Italian""
msgstr ""Italiera""

msgid ""January""
msgstr ""urtarrila""

msgid ""Japanese""
msgstr ""Japoniera""

msgid ""July""
msgstr ""uztaila""

msgid ""June""
msgstr ""ekaina""

msgid ""Kabyle""
msgstr ""Kabylera""

msgid ""Kannada""
msgstr ""Kannada""

msgid ""Kazakh""
msgstr ""Kazakhera""

msgid ""Khmer""
msgstr ""Khmerera""

msgid ""Korean""
msgstr ""Koreera""

msgid ""Kyrgyz""
msgstr """"

msgid ""Latvian""
msgstr ""Letoniera""

msgid ""Lithuanian""
msgstr ""Lituaniera""

msgid ""Lower Sorbian""
msgstr ""Behe-sorbiera""

msgid ""Luxembourgish""
msgstr ""Luxenburgera""

msgid ""Macedonian""
msgstr ""Mazedoniera""

msgid ""Malay""
msgstr """"

msgid ""Malayalam""
msgstr ""Malabarera""

msgid ""Marathi""
msgstr ""Marathera""

msgid ""March""
msgstr ""martxoa""

msgid ""May""
msgstr ""maiatza""

msgid ""Mexican Spanish""
msgstr ""Gaztelania (Mexiko)""

msgid ""Mon""
msgstr ""al""

msgid ""Monday""
msgstr ""astelehena""

msgid ""Mongolian""
msgstr ""Mongoliera""

msgid ""Nepali""
msgstr ""Nepalera""

msgid ""Nicaraguan Spanish""
msgstr ""Gaztelania (Nikaragua)""

msgid ""Norwegian Bokmål""
msgstr ""Bokmåla (Norvegia)""

msgid ""Norwegian Nynorsk""
msgstr ""Nynorsk (Norvegia)""

msgid ""November""
msgstr ""azaroa""

msgid ""October""
msgstr ""urria""

msgid ""Ossetic""
msgstr ""Osetiera""

msgid ""PM""
msgstr ""PM""

msgid ""Persian""
msgstr ""Persiera""

msgid ""Polish""
msgstr ""Poloniera""

msgid ""Portuguese""
msgstr ""Portugesa""

msgid ""Punjabi""
msgstr ""Punjabera""

msgid ""Romanian""
msgstr ""Errumaniera""

msgid ""Russian""
msgstr ""Errusiera""

msgid ""Sat""
msgstr ""lr""

msgid ""Saturday""
msgstr ""larunbata""

msgid ""Scottish Gaelic""
msgstr ""Eskoziako gaelikoa""

msgid ""September""
msgstr ""iraila""

msgid ""Serbian""
msgstr ""Serbiera""

msgid ""Serbian Latin""
msgstr ""Serbiera""

msgid ""Simplified Chinese""
msgstr ""Txinera (sinpletua)""

msgid ""Slovak""
msgstr ""Eslovakiera""

msgid ""Slovenian""
msgstr ""Esloveniera""

msgid ""Spanish""
msgstr ""Gaztelania""

msgid ""Sun""
msgstr ""ig""

msgid ""Sunday""
msgstr ""igandea""

msgid ""Swahili""
msgstr ""Swahilia""

msgid ""Swedish""
msgstr ""Suediera""

msgid ""Tajik""
msgstr """"

msgid ""Tamil""
msgstr ""Tamilera""

msgid ""Tatar""
msgstr ""Tatarera""

msgid ""Telugu""
msgstr ""Telugua""

msgid ""Thai""
msgstr ""Thailandiera""

msgid ""Thu""
msgstr ""og""

msgid ""Thursday""
msgstr ""osteguna""

msgid ""Traditional Chinese""
msgstr ""Txinera (tradizionala)""

msgid ""Tue""
msgstr ""ar""

msgid ""Tuesday""
msgstr ""asteartea""

msgid ""Turkish""
msgstr ""Turkiera""

msgid ""Turkmen""
msgstr """"

msgid ""Udmurt""
msgstr ""Udmurtera""

msgid ""Ukrainian""
msgstr ""Ukrainera""

msgid ""Upper Sorbian""
msgstr ""Goi-sorbiera""

msgid ""Urdu""
msgstr ""Urdua""

msgid ""Uyghur""
msgstr """"

msgid ""Uzbek""
msgstr """"

msgid ""Venezuelan Spanish""
msgstr ""Gaztelania (Venezuela)""

msgid ""Vietnamese""
msgstr ""Vietnamera""

msgid ""Wed""
msgstr ""az""

msgid ""Wednesday""
msgstr ""asteazkena""

msgid ""Welsh""
msgstr ""Galesa""

msgid ""a minute ago""
msgid_plural ""%[1]v minutes ago""
msgstr[0] ""duela minutu bat""
msgstr[1] ""duela %[1]v minutu""

msgid ""a minute from now""
msgid_plural ""%[1]v minutes from now""
msgstr[0] ""minutu bat barru""
msgstr[1] ""%[1]v minutu barru""

msgid ""a second ago""
msgid_plural ""%[1]v seconds ago""
msgstr[0] ""duela segundu bat""
msgstr[1] ""duela %[1]v segundo""

msgid ""a second from now""
msgid_plural ""%[1]v seconds from now""
msgstr[0] ""segundu bat barru""
msgstr[1] ""%[1]v segundo barru""

msgid ""a.m.""
msgstr ""a.m.""

msgid ""an hour ago""
msgid_plural ""%[1]v hours ago""
msgstr[0] ""duela ordubete""
msgstr[1] ""duela %[1]v ordu""

msgid ""an hour from now""
msgid_plural ""%[1]v hours from now""
msgstr[0] ""ordubete barru""
msgstr[1] ""%[1]v ordu barru""

msgid ""apr""
msgstr ""api""

msgid ""aug""
msgstr ""abu""

msgid ""dec""
msgstr ""abe""

msgid ""eight""
msgstr ""zortzi""

msgid ""feb""
msgstr ""ots""

msgid ""five""
msgstr ""bost""

msgid ""four""
msgstr ""lau""

msgid ""jan""
msgstr ""urt""

msgid ""jul""
msgstr ""uzt""

msgid ""jun""
msgstr ""eka""

msgid ""mar""
msgstr ""mar""

msgid ""may""
msgstr ""mai""

msgid ""midnight""
msgstr ""gauerdia""

msgid ""nine""
msgstr ""bederatzi""

msgid ""noon""
msgstr ""eguerdia""

msgid ""nov""
msgstr ""aza""

msgid ""now""
msgstr ""orain""

msgid ""oct""
msgstr ""urr""

msgid ""one""
msgstr ""bat""

msgid ""p.m.""
msgstr ""p.m.""

msgid ""sep""
msgstr ""ira""

msgid ""seven""
msgstr ""zazpi""

msgid ""six""
msgstr ""sei""

msgid ""three""
msgstr ""hiru""

msgid ""today""
msgstr ""gaur""

msgid ""tomorrow""
msgstr ""bihar""

msgid ""two""
msgstr ""bi""

msgid ""yesterday""
msgstr ""atzo""

msgctxt ""abbrev. month""
msgid ""April""
msgstr ""api.""

msgctxt ""abbrev. month""
msgid ""Aug.""
msgstr ""abu.""

msgctxt ""abbrev. month""
msgid ""Dec.""
msgstr ""abe.""

msgctxt ""abbrev. month""
msgid ""Feb.""
msgstr ""ots.""

msgctxt ""abbrev. month""
msgid ""Jan.""
msgstr ""urt.""

msgctxt ""abbrev. month""
msgid ""July""
msgstr ""uzt.""

msgctxt ""abbrev. month""
msgid ""June""
msgstr ""eka.""

msgctxt ""abbrev. month""
msgid ""March""
msgstr ""mar.""

msgctxt ""abbrev. month""
msgid ""May""
msgstr ""mai.""

msgctxt ""abbrev. month""
msgid ""Nov.""
msgstr ""aza.""

msgctxt ""abbrev. month""
msgid ""Oct.""
msgstr ""urr.""

msgctxt ""abbrev. month""
msgid ""Sept.""
msgstr ""ira.""

msgctxt ""alt. month""
msgid ""April""
msgstr ""apirila""

msgctxt ""alt. month""
msgid ""August""
msgstr ""abuztua""

msgctxt ""alt. month""
msgid ""December""
msgstr ""abendua""

msgctxt ""alt. month""
msgid ""February""
msgstr ""otsaila""

msgctxt ""alt. month""
msgid ""January""
msgstr ""urtarrila""

msgctxt ""alt. month""
msgid ""July""
msgstr ""uztaila""

msgctxt ""alt. month""
msgid ""June""
msgstr ""ekaina""

msgctxt ""alt. month""
msgid ""March""
msgstr ""martxoa""

msgctxt ""alt. month""
msgid ""May""
msgstr ""maiatza""

msgctxt ""alt. month""
msgid ""November""
msgstr ""azaroa""

msgctxt ""alt. month""
msgid ""October""
msgstr ""urria""

msgctxt ""alt. month""
msgid ""September""
msgstr ""iraila""

msgctxt ""naturaltime-future""
msgid ""%[1]v day""
msgid_plural ""%[1]v days""
msgstr[0] ""egun %[1]v""
msgstr[1] ""%[1]v egun""

msgctxt ""naturaltime-future""
msgid ""%[1]v hour""
msgid_plural ""%[1]v hours""
msgstr[0] ""ordu %[1]v""
msgstr[1] ""%[1]v ordu""

msgctxt ""naturaltime-future""
msgid ""%[1]v minute""
msgid_plural ""%[1]v minutes""
msgstr[0] ""minutu %[1]v""
msgstr[1] ""%[1]v minutu""

msgctxt ""naturaltime-future""
msgid ""%[1]v month""
msgid_plural ""%[1]v months""
msgstr[0] ""hilabete %[1]v""
msgstr[1] ""%[1]v hilabete""

msgctxt ""naturaltime-future""
msgid ""%[1]v week""
msgid_plural ""%[1]v weeks""
msgstr[0] ""aste %[1]v""
msgstr[1] ""%[1]v aste""

msgctxt ""naturaltime-future""
msgid ""%[1]v year""
msgid_plural ""%[1]v years""
msgstr[0] ""urte %[1]v""
msgstr[1] ""%[1]v urte""

msgctxt ""naturaltime-past""
msgid ""%[1]v day""
msgid_plural ""%[1]v days""
msgstr[0] ""egun %[1]v""
msgstr[1] ""%[1]v egun""

msgctxt ""naturaltime-past""
msgid ""%[1]v hour""
msgid_plural ""%[1]v hours""
msgstr[0] ""ordu %[1]v""
msgstr[1] ""%[1]v ordu""

msgctxt ""naturaltime-past""
msgid ""%[1]v minute""
msgid_plural ""%[1]v minutes""
msgstr[0] ""minutu %[1]v""
msgstr[1] ""%[1]v minutu""

msgctxt ""naturaltime-past""
msgid ""%[1]v month""
msgid_plural ""%[1]v months""
msgstr[0] ""hilabete %[1]v""
msgstr[1] ""%[1]v hilabete""

msgctxt ""naturaltime-past""
msgid ""%[1]v week""
msgid_plural ""%[1]v weeks""
msgstr[0] ""aste %[1]v""
msgstr[1] ""%[1]v aste""

msgctxt ""naturaltime-past""
msgid ""%[1]v year""
msgid_plural ""%[1]v years""
msgstr[0] "" urte %[1]v""
msgstr[1] ""%[1]v urte""

msgctxt ""ordinal 0""
msgid ""%vth""
msgstr ""%v.""

msgctxt ""ordinal 1""
msgid ""%vst""
msgstr ""%v.""

msgctxt ""ordinal 11, 12, 13""
msgid ""%vth""
msgstr ""%v.""

msgctxt ""ordinal 2""
msgid ""%vnd""
msgstr ""%v.""

msgctxt ""ordinal 3""
msgid ""%vrd""
msgstr ""%v.""

msgctxt ""ordinal 4""
msgid ""%vth""
msgstr ""%v.""

msgctxt ""ordinal 5""
msgid ""%vth""
msgstr ""%v.""

msgctxt ""ordinal 6""
msgid ""%vth""
msgstr ""%v.""

msgctxt ""ordinal 7""
msgid ""%vth""
msgstr ""%v.""

msgctxt ""ordinal 8""
msgid ""%vth""
msgstr ""%v.""

msgctxt ""ordinal 9""
msgid ""%vth""
msgstr ""%v.""
".
(** humanize/locale/eu/locale.go (New) *)
Definition loc_eu : locale_data := LD (bs "eu") [(bs "django.po", po_eu)]
  (Some (FD (bs "Y\k\o N j\a") (bs "H:i") (bs "Y\k\o N j\a, H:i") (bs "Y\k\o F") (bs "F\r\e\n j\a") (bs "Y-m-d") (bs "Y-m-d H:i"))).

(** humanize/locale/fa/django.po *)
Definition po_fa : bytes := bs "# This file is distributed under the same license as the Django package.
# 
# Translators:
# Ahmad Hosseini <ahmadly.com@gmail.com>, 2020
# alirezamastery <alireza.mastery@gmail.com>, 2021
# ali salehi, 2023
# Ali Vakilzade <ali.vakilzade@gmail.com>, 2015
# Arash Fazeli <a.fazeli@gmail.com>, 2012
# Eric Hamiter <ehamiter@gmail.com>, 2019
# Eshagh <ase.mugem@gmail.com>, 2022
# Farshad Asadpour, 2021
# Jannis Leidel <jannis@leidel.info>, 2011
# Mariusz Felisiak <felisiak.mariusz@gmail.com>, 2021
# Mazdak Badakhshan <geraneum@gmail.com>, 2014
# Milad Hazrati <miladhazrati75@gmail.com>, 2019
# MJafar Mashhadi <raindigital2007@gmail.com>, 2018
# Mohammad Hossein Mojtahedi <Mhm5000@gmail.com>, 2013,2019
# Natalia, 2025
# Pouya Abbassi, 2016
# Pouya Abbassi, 2016
# rahim agh <rahim.aghareb@gmail.com>, 2020-2021
# Reza Mohammadi <reza@teeleh.ir>, 2013-2016
# Saeed <sd.javadi@gmail.com>, 2011
# Sina Cheraghi <sinacher@gmail.com>, 2011
msgid """"
msgstr """"
""Project-Id-Version: django\n""
""Report-Msgid-Bugs-To: \n""
""POT-Creation-Date: 2025-03-19 11:30-0500\n""
""PO-Revision-Date: 2025-09-17 06:49+0000\n""
""Last-Translator: Natalia, 2025\n""
""Language-Team: Persian (http://app.transifex.com/django/django/language/fa/)\n""
""Language: fa\n""
""MIME-Version: 1.0\n""
""Content-Type: text/plain; charset=UTF-8\n""
""Content-Transfer-Encoding: 8bit\n""
""Plural-Forms: nplurals=2; plural=(n > 1);\n""

msgid ""%[1]d byte""
msgid_plural ""%[1]d bytes""
msgstr[0] ""%[1]d بایت""
msgstr[1] ""%[1]d بایت""

msgid ""%[1]s billion""
msgid_plural ""%[1]s billion""
msgstr[0] ""%[1]s میلیارد""
msgstr[1] ""%[1]s میلیارد""

msgid ""%[1]s decillion""
msgid_plural ""%[1]s decillion""
msgstr[0] ""%[1]s با شصت صفر""
msgstr[1] ""%[1]s با شصت صفر""

msgid ""%[1]s googol""
msgid_plural ""%[1]s googol""
msgstr[0] ""%[1]s گوگُل""
msgstr[1] ""%[1]s گوگُل""

msgid ""%[1]s million""
msgid_plural ""%[1]s million""
msgstr[0] ""%[1]s میلیون""
msgstr[1] ""%[1]s میلیون""

msgid ""%[1]s nonillion""
msgid_plural ""%[1]s nonillion""
msgstr[0] ""%[1]s با ۵۴ صفر""
msgstr[1] ""%[1]s با ۵۴ صفر""

msgid ""%[1]s octillion""
msgid_plural ""%[1]s octillion""
msgstr[0] ""%[1]s octillion""
msgstr[1] ""%[1]s octillion""

msgid ""%[1]s quadrillion""
msgid_plural ""%[1]s quadrillion""
msgstr[0] ""%[1]s کوادریلیون""
msgstr[1] ""%[1]s کوادریلیون""

msgid ""%[1]s quintillion""
msgid_plural ""%[1]s quintillion""
msgstr[0] ""%[1]s کوانتینیوم""
msgstr[1] ""%[1]s کوانتینیوم""

msgid ""%[1]s septillion""
msgid_plural ""%[1]s septillion""
msgstr[0] ""%[1]s سپتیلیون""
msgstr[1] ""%[1]s سپتیلیون""

msgid ""%[1]s sextillion""
msgid_plural ""%[1]s sextillion""
msgstr[0] ""%[1]s با ۲۱ صفر""
msgstr[1] ""%[1]s با ۲۱ صفر""

msgid ""%[1]s trillion""
msgid_plural ""%[1]s trillion""
msgstr[0] ""%[1]s تریلیون""
msgstr[1] ""%[1]s تریلیون""

msgid ""%[1]v ago""
msgstr ""%[1]v پیش""

msgid ""%[1]v day""
msgid_plural ""%[1]v days""
msgstr[0] ""%[1]v روز""
msgstr[1] ""%[1]v روز""

msgid ""%[1]v from now""
msgstr ""%[1]v دیگر""

msgid ""%[1]v hour""
msgid_plural ""%[1]v hours""
msgstr[0] ""%[1]v ساعت""
msgstr[1] ""%[1]v ساعت""

msgid ""%[1]v minute""
msgid_plural ""%[1]v minutes""
msgstr[0] ""%[1]v دقیقه""
msgstr[1] ""%[1]v دقیقه""

msgid ""%[1]v month""
msgid_plural ""%[1]v months""
msgstr[0] ""%[1]v ماه""
msgstr[1] ""%[1]v ماه""

msgid ""%[1]v week""
msgid_plural ""%[1]v weeks""
msgstr[0] ""%[1]v هفته""
msgstr[1] ""%[1]v هفته""

msgid ""%[1]v year""
msgid_plural ""%[1]v years""
msgstr[0] ""%[1]v سال""
msgstr[1] ""%[1]v سال""

msgid ""%s GB""
msgstr ""%s GB""

msgid ""%s KB""
msgstr ""%s KB""

msgid ""%s MB""
msgstr ""%s MB""

msgid ""%s PB""
msgstr ""%s PB""

msgid ""%s TB""
msgstr ""%s TB""

msgid "", ""
msgstr ""،""

msgid ""AM""
msgstr ""صبح""

msgid ""Afrikaans""
msgstr ""آفریکانس""

msgid ""Albanian""
msgstr ""آلبانیایی""

msgid ""Algerian Arabic""
msgstr ""عربی الجزایری""

msgid ""April""
msgstr ""آوریل""

msgid ""Arabic""
msgstr ""عربی""

msgid ""Argentinian Spanish""
msgstr ""اسپانیایی آرژانتینی""

msgid ""Armenian""
msgstr ""ارمنی""

msgid ""Asturian""
msgstr ""آستوری""

msgid ""August""
msgstr ""اوت""

msgid ""Australian English""
msgstr ""انگلیسی استرالیایی""

msgid ""Azerbaijani""
msgstr ""آذربایجانی""

msgid ""Basque""
msgstr ""باسکی""

msgid ""Belarusian""
msgstr ""بلاروس""

msgid ""Bengali""
msgstr ""بنگالی""

msgid ""Bosnian""
msgstr ""بوسنیایی""

msgid ""Brazilian Portuguese""
msgstr ""پرتغالیِ برزیل""

msgid ""Breton""
msgstr ""برتون""

msgid ""British English""
msgstr ""انگلیسی بریتیش""

msgid ""Bulgarian""
msgstr ""بلغاری""

msgid ""Burmese""
msgstr ""برمه‌ای""

msgid ""Catalan""
msgstr ""کاتالونیایی""

msgid ""Central Kurdish (Sorani)""
msgstr """"

msgid ""Colombian Spanish""
msgstr ""اسپانیایی کلمبیایی""

msgid ""Croatian""
msgstr ""کرواتی""

msgid ""Czech""
msgstr ""چکی""

msgid ""Danish""
msgstr ""دانمارکی""

msgid ""December""
msgstr ""دسامبر""

msgid ""Dutch""
msgstr ""هلندی""

msgid ""English""
msgstr ""انگلیسی""

msgid ""Esperanto""
msgstr ""اسپرانتو""

msgid ""Estonian""
msgstr ""استونی""

msgid ""February""
msgstr ""فوریه""

msgid ""Finnish""
msgstr ""فنلاندی""

msgid ""French""
msgstr ""فرانسوی""

msgid ""Fri""
msgstr ""جمعه""

msgid ""Friday""
msgstr ""جمعه""

msgid ""Frisian""
msgstr ""فریزی""

msgid ""Galician""
msgstr ""گالیسیایی""

msgid ""Georgian""
msgstr ""گرجی""

msgid ""German""
msgstr ""آلمانی""

msgid ""Greek""
msgstr ""یونانی""

msgid ""Hebrew""
msgstr ""عبری""

msgid ""Hindi""
msgstr ""هندی""

msgid ""Hungarian""
msgstr ""مجاری""

msgid ""Icelandic""
msgstr ""ایسلندی""

msgid ""Ido""
msgstr ""ایدو""

msgid ""Igbo""
msgstr ""ایگبو""

msgid ""Indonesian""
msgstr ""اندونزیایی""

msgid ""Interlingua""
msgstr ""اینترلینگوا""

msgid ""Irish""
msgstr ""ایرلندی""

msgid ""Italian""
msgstr ""ایتالیایی""

msgid ""January""
msgstr ""ژانویه""

msgid ""Japanese""
msgstr ""ژاپنی""

msgid ""July""
msgstr ""ژوئیه""

msgid ""June""
msgstr ""ژوئن""

msgid ""Kabyle""
msgstr ""قبایلی""

msgid ""Kannada""
msgstr ""کناده‌ای""

msgid ""Kazakh""
msgstr ""قزاقستان""

msgid ""Khmer""
msgstr ""خمری""

msgid ""Korean""
msgstr ""کره‌ای""

msgid ""Kyrgyz""
msgstr ""قرقیزی""

msgid ""Latvian""
msgstr ""لتونیایی""

msgid ""Lithuanian""
msgstr ""لیتوانی""

msgid ""Lower Sorbian""
msgstr ""صربستانی پایین""

msgid ""Luxembourgish""
msgstr ""لوگزامبورگی""

msgid ""Macedonian""
msgstr ""مقدونی""

msgid ""Malay""
msgstr ""Malay""

msgid ""Malayalam""
msgstr ""مالایایی""

msgid ""Marathi""
msgstr ""مِراتی""

msgid ""March""
msgstr ""مارس""

msgid ""May""
msgstr ""مه""

msgid ""Mexican Spanish""
msgstr ""اسپانیولی مکزیکی""

msgid ""Mon""
msgstr ""دوشنبه""

msgid ""Monday""
msgstr ""دوشنبه""

msgid ""Mongolian""
msgstr ""مغولی""

msgid ""Nepali""
msgstr ""نپالی""

msgid ""Nicaraguan Spanish""
msgstr ""نیکاراگوئه اسپانیایی""

msgid ""Norwegian Bokmål""
msgstr ""نروژی""

msgid ""Norwegian Nynorsk""
msgstr ""نروژی Nynorsk""

msgid ""November""
msgstr ""نوامبر""

msgid ""October""
msgstr ""اکتبر""

msgid ""Ossetic""
msgstr ""آسی""

msgid ""PM""
msgstr ""بعد از ظهر""

msgid ""Persian""
msgstr ""فارسی""

msgid ""Polish""
msgstr ""لهستانی""

msgid ""Portuguese""
msgstr ""پرتغالی""

msgid ""Punjabi""
msgstr ""پنجابی""

msgid ""Romanian""
msgstr ""رومانی""

msgid ""Russian""
msgstr ""روسی""

msgid ""Sat""
msgstr ""شنبه""

msgid ""Saturday""
msgstr ""شنبه""

msgid ""Scottish Gaelic""
msgstr ""گیلیک اسکاتلندی""

msgid ""September""
msgstr ""سپتامبر""

msgid ""Serbian""
msgstr ""صربی""

msgid ""Serbian Latin""
msgstr ""صربی لاتین""

msgid ""Simplified Chinese""
msgstr ""چینی ساده‌شده""

msgid ""Slovak""
msgstr ""اسلواکی""

msgid ""Slovenian""
msgstr ""اسلووِنی""

msgid ""Spanish""
msgstr ""اسپانیایی""

msgid ""Sun""
msgstr ""یکشنبه""

msgid ""Sunday""
msgstr ""یکشنبه""

msgid ""Swahili""
msgstr ""سواحیلی""

msgid ""Swedish""
msgstr ""سوئدی""

msgid ""Tajik""
msgstr ""تاجیک""

msgid ""Tamil""
msgstr ""تامیلی""

msgid ""Tatar""
msgstr ""تاتار""

msgid ""Telugu""
msgstr ""تلوگویی""

msgid ""Thai""
msgstr ""تایلندی""

msgid ""Thu""
msgstr ""پنجشنبه""

msgid ""Thursday""
msgstr ""پنجشنبه""

msgid ""Traditional Chinese""
msgstr ""چینی سنتی""

msgid ""Tue""
msgstr ""سه‌شنبه""

msgid ""Tuesday""
msgstr ""سه شنبه""

msgid ""Turkish""
msgstr ""ترکی""

msgid ""Turkmen""
msgstr ""ترکمن""

msgid ""Udmurt""
msgstr ""ادمورت""

msgid ""Ukrainian""
msgstr ""اکراینی""

msgid ""Upper Sorbian""
msgstr ""صربستانی بالا""

msgid ""Urdu""
msgstr ""اردو""

msgid ""Uyghur""
msgstr """"

msgid ""Uzbek""
msgstr ""ازبکی""

msgid ""Venezuelan Spanish""
msgstr ""ونزوئلا اسپانیایی""

msgid ""Vietnamese""
msgstr ""ویتنامی""

msgid ""Wed""
msgstr ""چهارشنبه""

msgid ""Wednesday""
msgstr ""چهارشنبه""

msgid ""Welsh""
msgstr ""ویلزی""

msgid ""a minute ago""
msgid_plural ""%[1]v minutes ago""
msgstr[0] ""%[1]v دقیقه پیش""
msgstr[1] ""%[1]v دقیقه پیش""

msgid ""a minute from now""
msgid_plural ""%[1]v minutes from now""
msgstr[0] ""%[1]v دقیقه دیگر""
msgstr[1] ""%[1]v دقیقه دیگر""

msgid ""a second ago""
msgid_plural ""%[1]v seconds ago""
msgstr[0] ""%[1]v ثانیه پیش""
msgstr[1] ""%[1]v ثانیه پیش""

msgid ""a second from now""
msgid_plural ""%[1]v seconds from now""
msgstr[0] ""%[1]v ثانیه دیگر""
msgstr[1] ""%[1]v ثانیه دیگر""

msgid ""a.m.""
msgstr ""صبح""

msgid ""an hour ago""
msgid_plural ""%[1]v hours ago""
msgstr[0] ""%[1]v ساعت پیش""
msgstr[1] ""%[1]v ساعت پیش""

msgid ""an hour from now""
msgid_plural ""%[1]v hours from now""
msgstr[0] ""%[1]v ساعت دیگر""
msgstr[1] ""%[1]v ساعت دیگر""

msgid ""apr""
msgstr ""آوریل""

msgid ""aug""
msgstr ""اوت""

msgid ""dec""
msgstr ""دسامبر""

msgid ""eight""
msgstr ""هشت""

msgid ""feb""
msgstr ""فوریه""

msgid ""five""
msgstr ""پنج""

msgid ""four""
msgstr ""چهار""

msgid ""jan""
msgstr ""ژانویه""

msgid ""jul""
msgstr ""ژوئیه""

msgid ""jun""
msgstr ""ژوئن""

msgid ""mar""
msgstr ""مارس""

msgid ""may""
msgstr ""مه""

msgid ""midnight""
msgstr ""نیمه شب""

msgid ""nine""
msgstr ""نُه""

msgid ""noon""
msgstr ""ظهر""

msgid ""nov""
msgstr ""نوامبر""

msgid ""now""
msgstr ""اکنون""

msgid ""oct""
msgstr ""اکتبر""

msgid ""one""
msgstr ""یک""

msgid ""p.m.""
msgstr ""ب.ظ.""

msgid ""sep""
msgstr ""سپتامبر""

msgid ""seven""
msgstr ""هفت""

msgid ""six""
msgstr ""شش""

msgid ""three""
msgstr ""سه""

msgid ""today""
msgstr ""امروز""

msgid ""tomorrow""
msgstr ""فردا""

msgid ""two""
msgstr ""دو""

msgid ""yesterday""
msgstr ""دیروز""

msgctxt ""abbrev. month""
msgid ""April""
msgstr ""آوریل""

msgctxt ""abbrev. month""
msgid ""Aug.""
msgstr ""اوت""

msgctxt ""abbrev. month""
msgid ""Dec.""
msgstr ""دسامبر""

msgctxt ""abbrev. month""
msgid ""Feb.""
msgstr ""فوریه""

msgctxt ""abbrev. month""
msgid ""Jan.""
msgstr ""ژانویه""

msgctxt ""abbrev. month""
msgid ""July""
msgstr ""جولای""

msgctxt ""abbrev. month""
msgid ""June""
msgstr ""ژوئن""

msgctxt ""abbrev. month""
msgid ""March""
msgstr ""مارس""

msgctxt ""abbrev. month""
msgid ""May""
msgstr ""مه""

msgctxt ""abbrev. month""
msgid ""Nov.""
msgstr ""نوامبر""

msgctxt ""abbrev. month""
msgid ""Oct.""
msgstr ""اکتبر""

msgctxt ""abbrev. month""
msgid ""Sept.""
msgstr ""سپتامبر""

msgctxt ""alt. month""
msgid ""April""
msgstr ""آوریل""

msgctxt ""alt. month""
msgid ""August""
msgstr ""اوت""

msgctxt ""alt. month""
msgid ""December""
msgstr ""دسامبر""

msgctxt ""alt. month""
msgid ""February""
msgstr ""فوریه""

msgctxt ""alt. month""
msgid ""January""
msgstr ""ژانویه""

msgctxt ""alt. month""
msgid ""July""
msgstr ""جولای""

msgctxt ""alt. month""
msgid ""June""
msgstr ""ژوئن""

msgctxt ""alt. month""
msgid ""March""
msgstr ""مارس""

msgctxt ""alt. month""
msgid ""May""
msgstr ""مه""

msgctxt ""alt. month""
msgid ""November""
msgstr ""نوامبر""

msgctxt ""alt. month""
msgid ""October""
msgstr ""اکتبر""

msgctxt ""alt. month""
msgid ""September""
msgstr ""سپتامبر""

msgctxt ""naturaltime-future""
msgid ""%[1]v day""
msgid_plural ""%[1]v days""
msgstr[0] ""%[1]v روز""
msgstr[1] ""%[1]v روز""

msgctxt ""naturaltime-future""
msgid ""%[1]v hour""
msgid_plural ""%[1]v hours""
msgstr[0] ""%[1]v ساعت""
msgstr[1] ""%[1]v ساعت""

msgctxt ""naturaltime-future""
msgid ""%[1]v minute""
msgid_plural ""%[1]v minutes""
msgstr[0] ""%[1]v دقیقه""
msgstr[1] ""%[1]v دقیقه""

msgctxt ""naturaltime-future""
msgid ""%[1]v month""
msgid_plural ""%[1]v months""
msgstr[0] ""%[1]v ماه""
msgstr[1] ""%[1]v ماه""

msgctxt ""naturaltime-future""
msgid ""%[1]v week""
msgid_plural ""%[1]v weeks""
msgstr[0] ""%[1]v هفته""
msgstr[1] ""%[1]v هفته""

msgctxt ""naturaltime-future""
msgid ""%[1]v year""
msgid_plural ""%[1]v years""
msgstr[0] ""%[1]v سال""
msgstr[1] ""%[1]v سال""

msgctxt ""naturaltime-past""
msgid ""%[1]v day""
msgid_plural ""%[1]v days""
msgstr[0] ""%[1]v روز""
msgstr[1] ""%[1]v روز""

msgctxt ""naturaltime-past""
msgid ""%[1]v hour""
msgid_plural ""%[1]v hours""
msgstr[0] ""%[1]v ساعت""
msgstr[1] ""%[1]v ساعت""

msgctxt ""naturaltime-past""
msgid ""%[1]v minute""
msgid_plural ""%[1]v minutes""
msgstr[0] ""%[1]v دقیقه""
msgstr[1] ""%[1]v دقیقه""

msgctxt ""naturaltime-past""
msgid ""%[1]v month""
msgid_plural ""%[1]v months""
msgstr[0] ""%[1]v ماه""
msgstr[1] ""%[1]v ماه""

msgctxt ""naturaltime-past""
msgid ""%[1]v week""
msgid_plural ""%[1]v weeks""
msgstr[0] ""%[1]v هفته""
msgstr[1] ""%[1]v هفته""

msgctxt ""naturaltime-past""
msgid ""%[1]v year""
msgid_plural ""%[1]v years""
msgstr[0] ""%[1]v سال""
msgstr[1] ""%[1]v سال""

msgctxt ""ordinal 0""
msgid ""%vth""
msgstr ""%vم""

msgctxt ""ordinal 1""
msgid ""%vst""
msgstr ""%vین""

msgctxt ""ordinal 11, 12, 13""
msgid ""%vth""
msgstr ""%vم""

msgctxt ""ordinal 2""
msgid ""%vnd""
msgstr ""%vم""

msgctxt ""ordinal 3""
msgid ""%vrd""
msgstr ""%vم""

msgctxt ""ordinal 4""
msgid ""%vth""
msgstr ""%vم""

msgctxt ""ordinal 5""
msgid ""%vth""
msgstr ""%vم""

msgctxt ""ordinal 6""
msgid ""%vth""
msgstr ""%vم""

msgctxt ""ordinal 7""
msgid ""%vth""
msgstr ""%vم""

msgctxt ""ordinal 8""
msgid ""%vth""
msgstr ""%vم""

msgctxt ""ordinal 9""
msgid ""%vth""
msgstr ""%vم""
".
(** humanize/locale/fa/locale.go (New) *)
Definition loc_fa : locale_data := LD (bs "fa") [(bs "django.po", po_fa)]
  (Some (FD (bs "j F Y") (bs "G:i") (bs "j F Y، ساعت G:i") (bs "F Y") (bs "j F") (bs "Y/n/j") (bs "Y/n/j، G:i"))).

(** humanize/locale/fi/django.po *)
Definition po_fi : bytes := bs "# This file is distributed under the same license as the Django package.
# 
# Translators:
# Aarni Koskela, 2015,2017-2018,2020-2022,2025
# Antti Kaihola <antti.15+transifex@kaihola.fi>, 2011
# Jannis Leidel <jannis@leidel.info>, 2011
# Jiri Grönroos <jiri.gronroos@iki.fi>, 2021,2023
# Lasse Liehu-Inui <larso@gmx.com>, 2015
# Mika Mäkelä <mika.m.makela@gmail.com>, 2018
# Klaus Dahlén, 2011
msgid """"
msgstr """"
""Project-Id-Version: django\n""
""Report-Msgid-Bugs-To: \n""
""POT-Creation-Date: 2025-03-19 11:30-0500\n""
""PO-Revision-Date: 2025-04-01 15:04-0500\n""
""Last-Translator: Aarni Koskela, 2015,2017-2018,2020-2022,2025\n""
""Language-Team: Finnish (http://app.transifex.com/django/django/language/fi/)\n""
""Language: fi\n""
""MIME-Version: 1.0\n""
""Content-Type: text/plain; charset=UTF-8\n""
""Content-Transfer-Encoding: 8bit\n""
""Plural-Forms: nplurals=2; plural=(n != 1);\n""

msgid ""%[1]d byte""
msgid_plural ""%[1]d bytes""
msgstr[0] ""%[1]d tavu""
msgstr[1] ""%[1]d tavua""

msgid ""%[1]s billion""
msgid_plural ""%[1]s billion""
msgstr[0] ""%[1]s miljardi""
msgstr[1] ""%[1]s miljardia""

msgid ""%[1]s decillion""
msgid_plural ""%[1]s decillion""
msgstr[0] ""%[1]s dekiljoona""
msgstr[1] ""%[1]s dekiljoonaa""

msgid ""%[1]s googol""
msgid_plural ""%[1]s googol""
msgstr[0] ""%[1]s googol""
msgstr[1] ""%[1]s googolia""

msgid ""%[1]s million""
msgid_plural ""%[1]s million""
msgstr[0] ""%[1]s miljoona""
msgstr[1] ""%[1]s miljoonaa""

msgid ""%[1]s nonillion""
msgid_plural ""%[1]s nonillion""
msgstr[0] ""%[1]s noniljoona""
msgstr[1] ""%[1]s noniljoonaa""

msgid ""%[1]s octillion""
msgid_plural ""%[1]s octillion""
msgstr[0] ""%[1]s oktiljoona""
msgstr[1] ""%[1]s oktiljoonaa""

msgid ""%[1]s quadrillion""
msgid_plural ""%[1]s quadrillion""
msgstr[0] ""%[1]s kvadriljoona""
msgstr[1] ""%[1]s kvadriljoonaa""

msgid ""%[1]s quintillion""
msgid_plural ""%[1]s quintillion""
msgstr[0] ""%[1]s kvintiljoona""
msgstr[1] ""%[1]s kvintiljoonaa""

msgid ""%[1]s septillion""
msgid_plural ""%[1]s septillion""
msgstr[0] ""%[1]s septiljoona""
msgstr[1] ""%[1]s septiljoonaa""

msgid ""%[1]s sextillion""
msgid_plural ""%[1]s sextillion""
msgstr[0] ""%[1]s sekstiljoona""
msgstr[1] ""%[1]s sekstiljoonaa""

msgid ""%[1]s trillion""
msgid_plural ""%[1]s trillion""
msgstr[0] ""%[1]s biljoona""
msgstr[1] ""%[1]s biljoonaa""

msgid ""%[1]v ago""
msgstr ""%[1]v sitten""

msgid ""%[1]v day""
msgid_plural ""%[1]v days""
msgstr[0] ""%[1]v päivä""
msgstr[1] ""%[1]v päivää""

msgid ""%[1]v from now""
msgstr ""%[1]v nykyhetkestä""

msgid ""%[1]v hour""
msgid_plural ""%[1]v hours""
msgstr[0] ""%[1]v tunti""
msgstr[1] ""%[1]v tuntia""

msgid ""%[1]v minute""
msgid_plural ""%[1]v minutes""
msgstr[0] ""%[1]v minuutti""
msgstr[1] ""%[1]v minuuttia""

msgid ""%[1]v month""
msgid_plural ""%[1]v months""
msgstr[0] ""%[1]v kuukausi""
msgstr[1] ""%[1]v kuukautta ""

msgid ""%[1]v week""
msgid_plural ""%[1]v weeks""
msgstr[0] ""%[1]v viikko""
msgstr[1] ""%[1]v viikkoa""

msgid ""%[1]v year""
msgid_plural ""%[1]v years""
msgstr[0] ""%[1]v vuosi""
msgstr[1] ""%[1]v vuotta""

msgid ""%s GB""
msgstr ""%s GB""

msgid ""%s KB""
msgstr ""%s KB""

msgid ""%s MB""
msgstr ""%s MB""

msgid ""%s PB""
msgstr ""%s PB""

msgid ""%s TB""
msgstr ""%s TB""

msgid "", ""
msgstr "", ""

msgid ""AM""
msgstr ""AP""

msgid ""Afrikaans""
msgstr ""afrikaans""

msgid ""Albanian""
msgstr ""albaani""

msgid ""Algerian Arabic""
msgstr ""Algerian arabia""

msgid ""April""
msgstr ""huhtikuu""

msgid ""Arabic""
msgstr ""arabia""

msgid ""Argentinian Spanish""
msgstr ""Argentiinan espanja""

msgid ""Armenian""
msgstr ""armenian kieli""

msgid ""Asturian""
msgstr ""asturian kieli""

msgid ""August""
msgstr ""elokuu""

msgid ""Australian English""
msgstr ""australianenglanti""

msgid ""Azerbaijani""
msgstr ""azeri""

msgid ""Basque""
msgstr ""baski""

msgid ""Belarusian""
msgstr ""valkovenäjän kieli""

msgid ""Bengali""
msgstr ""bengali""

msgid ""Bosnian""
msgstr ""bosnia""

msgid ""Brazilian Portuguese""
msgstr ""brasilian portugali""

msgid ""Breton""
msgstr ""bretoni""

msgid ""British English""
msgstr ""brittienglanti""

msgid ""Bulgarian""
msgstr ""bulgaria""

msgid ""Burmese""
msgstr ""burman kieli""

msgid ""Catalan""
msgstr ""katalaani""

msgid ""Central Kurdish (Sorani)""
msgstr ""Keskikurdi (sorani)""

msgid ""Colombian Spanish""
msgstr ""Kolumbian espanja""

msgid ""Croatian""
msgstr ""kroatia""

msgid ""Czech""
msgstr ""tšekki""

msgid ""Danish""
msgstr ""tanska""

msgid ""December""
msgstr ""joulukuu""

msgid ""Dutch""
msgstr ""hollanti""

msgid ""English""
msgstr ""englanti""

msgid ""Esperanto""
msgstr ""esperanto""

msgid ""Estonian""
msgstr ""viro""

msgid ""February""
msgstr ""helmikuu""

msgid ""Finnish""
msgstr ""suomi""

msgid ""French""
msgstr ""ranska""

msgid ""Fri""
msgstr ""pe""

msgid ""Friday""
msgstr ""perjantai""

msgid ""Frisian""
msgstr ""friisi""

msgid ""Galician""
msgstr ""galicia""

msgid ""Georgian""
msgstr ""georgia""

msgid ""German""
msgstr ""saksa""

msgid ""Greek""
msgstr ""kreikka""

msgid ""Hebrew""
msgstr ""heprea""

msgid ""Hindi""
msgstr ""hindi""

msgid ""Hungarian""
msgstr ""unkari""

msgid ""Icelandic""
msgstr ""islanti""

msgid ""Ido""
msgstr ""ido""

msgid ""Igbo""
msgstr ""igbo""

msgid ""Indonesian""
msgstr ""indonesia""

msgid ""Interlingua""
msgstr ""interlingua""

msgid ""Irish""
msgstr ""irlanti""

msgid ""Italian""
msgstr ""italia""

msgid ""January""
msgstr ""tammikuu""

msgid ""Japanese""
msgstr ""japani""

msgid ""July""
msgstr ""heinäkuu""

msgid ""June""
msgstr ""kesäkuu""

msgid ""Kabyle""
msgstr ""Kabyle""

msgid ""Kannada""
msgstr ""kannada""

msgid ""Kazakh""
msgstr ""kazakin kieli""

msgid ""Khmer""
msgstr ""khmerin kieli""

msgid ""Korean""
msgstr ""korea""

msgid ""Kyrgyz""
msgstr ""kirgiisi""

msgid ""Latvian""
msgstr ""latvia""

msgid ""Lithuanian""
msgstr ""liettua""

msgid ""Lower Sorbian""
msgstr ""Alasorbi""

msgid ""Luxembourgish""
msgstr ""luxemburgin kieli""

msgid ""Macedonian""
msgstr ""makedonia""

msgid ""Malay""
msgstr ""malaiji""

msgid ""Malayalam""
msgstr ""malajalam""

msgid ""Marathi""
msgstr ""marathi""

msgid ""March""
msgstr ""maaliskuu""

msgid ""May""
msgstr ""toukokuu""

msgid ""Mexican Spanish""
msgstr ""Meksikon espanja""

msgid ""Mon""
msgstr ""ma""

msgid ""Monday""
msgstr ""maanantai""

msgid ""Mongolian""
msgstr ""mongolia""

msgid ""Nepali""
msgstr ""nepalin kieli""

msgid ""Nicaraguan Spanish""
msgstr ""Nicaraguan espanja""

msgid ""Norwegian Bokmål""
msgstr ""norja (bokmål)""

msgid ""Norwegian Nynorsk""
msgstr ""norja (uusnorja)""

msgid ""November""
msgstr ""marraskuu""

msgid ""October""
msgstr ""lokakuu""

msgid ""Ossetic""
msgstr ""osseetin kieli""

msgid ""PM""
msgstr ""IP""

msgid ""Persian""
msgstr ""persia""

msgid ""Polish""
msgstr ""puola""

msgid ""Portuguese""
msgstr ""portugali""

msgid ""Punjabi""
msgstr ""punjabin kieli""

msgid ""Romanian""
msgstr ""romania""

msgid ""Russian""
msgstr ""venäjä""

msgid ""Sat""
msgstr ""la""

msgid ""Saturday""
msgstr ""lauantai""

msgid ""Scottish Gaelic""
msgstr ""skottilainen gaeli""

msgid ""September""
msgstr ""syyskuu""

msgid ""Serbian""
msgstr ""serbia""

msgid ""Serbian Latin""
msgstr ""serbian latina""

msgid ""Simplified Chinese""
msgstr ""kiina (yksinkertaistettu)""

msgid ""Slovak""
msgstr ""slovakia""

msgid ""Slovenian""
msgstr ""slovenia""

msgid ""Spanish""
msgstr ""espanja""

msgid ""Sun""
msgstr ""su""

msgid ""Sunday""
msgstr ""sunnuntai""

msgid ""Swahili""
msgstr ""swahili""

msgid ""Swedish""
msgstr ""ruotsi""

msgid ""Tajik""
msgstr ""tadžikki""

msgid ""Tamil""
msgstr ""tamili""

msgid ""Tatar""
msgstr ""tataarin kieli""

msgid ""Telugu""
msgstr ""telugu""

msgid ""Thai""
msgstr ""thain kieli""

msgid ""Thu""
msgstr ""to""

msgid ""Thursday""
msgstr ""torstai""

msgid ""Traditional Chinese""
msgstr ""kiina (perinteinen)""

msgid ""Tue""
msgstr ""ti""

msgid ""Tuesday""
msgstr ""tiistai""

msgid ""Turkish""
msgstr ""turkki""

msgid ""Turkmen""
msgstr ""turkmeeni""

msgid ""Udmurt""
msgstr ""udmurtti""

msgid ""Ukrainian""
msgstr ""ukraina""

msgid ""Upper Sorbian""
msgstr ""Yläsorbi""

msgid ""Urdu""
msgstr ""urdu""

msgid ""Uyghur""
msgstr ""uiguuri""

msgid ""Uzbek""
msgstr ""uzbekki""

msgid ""Venezuelan Spanish""
msgstr ""Venezuelan espanja""

msgid ""Vietnamese""
msgstr ""vietnam""

msgid ""Wed""
msgstr ""ke""

msgid ""Wednesday""
msgstr ""keskiviikko""

msgid ""Welsh""
msgstr ""wales""

msgid ""a minute ago""
msgid_plural ""%[1]v minutes ago""
msgstr[0] ""minuutti sitten""
msgstr[1] ""%[1]v minuuttia sitten""

msgid ""a minute from now""
msgid_plural ""%[1]v minutes from now""
msgstr[0] ""minuutin päästä""
msgstr[1] ""%[1]v minuutin päästä""

msgid ""a second ago""
msgid_plural ""%[1]v seconds ago""
msgstr[0] ""sekunti sitten""
msgstr[1] ""%[1]v sekuntia sitten""

msgid ""a second from now""
msgid_plural ""%[1]v seconds from now""
msgstr[0] ""sekunnin päästä""
msgstr[1] ""%[1]v sekunnin päästä""

msgid ""a.m.""
msgstr ""ap""

msgid ""an hour ago""
msgid_plural ""%[1]v hours ago""
msgstr[0] ""tunti sitten""
msgstr[1] ""%[1]v tuntia sitten""

msgid ""an hour from now""
msgid_plural ""%[1]v hours from now""
msgstr[0] ""tunnin päästä""
msgstr[1] ""%[1]v tunnin päästä""

msgid ""apr""
msgstr ""huh""

msgid ""aug""
msgstr ""elo""

msgid ""dec""
msgstr ""jou""

msgid ""eight""
msgstr ""kahdeksan""

msgid ""feb""
msgstr ""hel""

msgid ""five""
msgstr ""viisi""

msgid ""four""
msgstr ""neljä""

msgid ""jan""
msgstr ""tam""

msgid ""jul""
msgstr ""hei""

msgid ""jun""
msgstr ""kes""

msgid ""mar""
msgstr ""maa""

msgid ""may""
msgstr ""tou""

msgid ""midnight""
msgstr ""keskiyö""

msgid ""nine""
msgstr ""yhdeksän""

msgid ""noon""
msgstr ""keskipäivä""

msgid ""nov""
msgstr ""mar""

msgid ""now""
msgstr ""nyt""

msgid ""oct""
msgstr ""lok""

msgid ""one""
msgstr ""yksi""

msgid ""p.m.""
msgstr ""ip""

msgid ""sep""
msgstr ""syy""

msgid ""seven""
msgstr ""seitsemän""

msgid ""six""
msgstr ""kuusi""

msgid ""three""
msgstr ""kolme""

msgid ""today""
msgstr ""tänään""

msgid ""tomorrow""
msgstr ""huomenna""

msgid ""two""
msgstr ""kaksi""

msgid ""yesterday""
msgstr ""eilen""

msgctxt ""abbrev. month""
msgid ""April""
msgstr ""huhti""

msgctxt ""abbrev. month""
msgid ""Aug.""
msgstr ""elo""

msgctxt ""abbrev. month""
msgid ""Dec.""
msgstr ""joulu""

msgctxt ""abbrev. month""
msgid ""Feb.""
msgstr ""helmi""

msgctxt ""abbrev. month""
msgid ""Jan.""
msgstr ""tammi""

msgctxt ""abbrev. month""
msgid ""July""
msgstr ""heinä""

msgctxt ""abbrev. month""
msgid ""June""
msgstr ""kesä""

msgctxt ""abbrev. month""
msgid ""March""
msgstr ""maalis""

msgctxt ""abbrev. month""
msgid ""May""
msgstr ""touko""

msgctxt ""abbrev. month""
msgid ""Nov.""
msgstr ""marras""

msgctxt ""abbrev. month""
msgid ""Oct.""
msgstr ""loka""

msgctxt ""abbrev. month""
msgid ""Sept.""
msgstr ""syys""

msgctxt ""alt. month""
msgid ""April""
msgstr ""huhtikuuta""

msgctxt ""alt. month""
msgid ""August""
msgstr ""elokuuta""

msgctxt ""alt. month""
msgid ""December""
msgstr ""joulukuuta""

msgctxt ""alt. month""
msgid ""February""
msgstr ""helmikuuta""

msgctxt ""alt. month""
msgid ""January""
msgstr ""tammikuuta""

msgctxt ""alt. month""
msgid ""July""
msgstr ""heinäkuuta""

msgctxt ""alt. month""
msgid ""June""
msgstr ""kesäkuuta""

msgctxt ""alt. month""
msgid ""March""
msgstr ""maaliskuuta""

msgctxt ""alt. month""
msgid ""May""
msgstr ""toukokuuta""

msgctxt ""alt. month""
msgid ""November""
msgstr ""marraskuuta""

msgctxt ""alt. month""
msgid ""October""
msgstr ""lokakuuta""

msgctxt ""alt. month""
msgid ""September""
msgstr ""syyskuuta""

msgctxt ""naturaltime-future""
msgid ""%[1]v day""
msgid_plural ""%[1]v days""
msgstr[0] ""%[1]v päivä""
msgstr[1] ""%[1]v päivää""

msgctxt ""naturaltime-future""
msgid ""%[1]v hour""
msgid_plural ""%[1]v hours""
msgstr[0] ""%[1]v tunti""
msgstr[1] ""%[1]v tuntia""

msgctxt ""naturaltime-future""
msgid ""%[1]v minute""
msgid_plural ""%[1]v minutes""
msgstr[0] ""%[1]v minuutti""
msgstr[1] ""%[1]v minuuttia""

msgctxt ""naturaltime-future""
msgid ""%[1]v month""
msgid_plural ""%[1]v months""
msgstr[0] ""%[1]v kuukausi""
msgstr[1] ""%[1]v kuukautta ""

msgctxt ""naturaltime-future""
msgid ""%[1]v week""
msgid_plural ""%[1]v weeks""
msgstr[0] ""%[1]v viikko""
msgstr[1] ""%[1]v viikkoa""

msgctxt ""naturaltime-future""
msgid ""%[1]v year""
msgid_plural ""%[1]v years""
msgstr[0] ""%[1]v vuosi""
msgstr[1] ""%[1]v vuotta""

msgctxt ""naturaltime-past""
msgid ""%[1]v day""
msgid_plural ""%[1]v days""
msgstr[0] ""%[1]vpäivä""
msgstr[1] ""%[1]v päivää""

msgctxt ""naturaltime-past""
msgid ""%[1]v hour""
msgid_plural ""%[1]v hours""
msgstr[0] ""%[1]v tunti""
msgstr[1] ""%[1]v tuntia""

msgctxt ""naturaltime-past""
msgid ""%[1]v minute""
msgid_plural ""%[1]v minutes""
msgstr[0] ""%[1]v minuutti""
msgstr[1] ""%[1]v minuuttia""

msgctxt ""naturaltime-past""
msgid ""%[1]v month""
msgid_plural ""%[1]v months""
msgstr[0] ""%[1]vkuukausi""
msgstr[1] ""%[1]vkuukautta""

msgctxt ""naturaltime-past""
msgid ""%[1]v week""
msgid_plural ""%[1]v weeks""
msgstr[0] ""%[1]v viikko""
msgstr[1] ""%[1]v viikkoa""

msgctxt ""naturaltime-past""
msgid ""%[1]v year""
msgid_plural ""%[1]v years""
msgstr[0] ""%[1]v vuosi""
msgstr[1] ""%[1]v vuotta""

msgctxt ""ordinal 0""
msgid ""%vth""
msgstr ""%v.""

msgctxt ""ordinal 1""
msgid ""%vst""
msgstr ""%v.""

msgctxt ""ordinal 11, 12, 13""
msgid ""%vth""
msgstr ""%v.""

msgctxt ""ordinal 2""
msgid ""%vnd""
msgstr ""%v.""

msgctxt ""ordinal 3""
msgid ""%vrd""
msgstr ""%v.""

msgctxt ""ordinal 4""
msgid ""%vth""
msgstr ""%v.""

msgctxt ""ordinal 5""
msgid ""%vth""
msgstr ""%v.""

msgctxt ""ordinal 6""
msgid ""%vth""
msgstr ""%v.""

msgctxt ""ordinal 7""
msgid ""%vth""
msgstr ""%v.""

msgctxt ""ordinal 8""
msgid ""%vth""
msgstr ""%v.""

msgctxt ""ordinal 9""
msgid ""%vth""
msgstr ""%v.""
".
(** humanize/locale/fi/locale.go (New) *)
Definition loc_fi : locale_data := LD (bs "fi") [(bs "django.po", po_fi)]
  (Some (FD (bs "j. E Y") (bs "G.i") (bs "j. E Y \k\e\l\l\o G.i") (bs "F Y") (bs "j. F") (bs "j.n.Y") (bs "j.n.Y G.i"))).

Definition shipped_3 : list (bytes * locale_data) :=
  [(bs "eo", loc_eo);
   (bs "es", loc_es);
   (bs "esAR", loc_esAR);
   (bs "esCO", loc_esCO);
   (bs "esMX", loc_esMX);
   (bs "esVE", loc_esVE);
   (bs "et", loc_et);
   (bs "eu", loc_eu);
   (bs "fa", loc_fa);
   (bs "fi", loc_fi)].
