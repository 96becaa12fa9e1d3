(** Translations and formats that come with humanize, part 2: generated by
    tools/gen_humdata.py from /repo/humanize/locale, django.po and the Go file of
    each package. *)
From Coq Require Import String Ascii List.
From Verif Require Import Base DfmtModel HumLocModel.
Import ListNotations.

(** humanize/locale/ca/django.po *)
Definition po_ca : bytes := bs "# This file is distributed under the same license as the Django package.
# 
# Translators:
# Antoni Aloy <aaloy@apsl.net>, 2012,2015-2017,2021-2022
# Carles Barrobés <carles@barrobes.com>, 2011-2012,2014,2020
# duub qnnp, 2015
# Emilio Carrion, 2022
# Gil Obradors Via <gil.obradors@gmail.com>, 2019
# Gil Obradors Via <gil.obradors@gmail.com>, 2019
# Jannis Leidel <jannis@leidel.info>, 2011
# Manel Clos <manelclos@gmail.com>, 2020
# Manuel Miranda <manu.mirandad@gmail.com>, 2015
# Mariusz Felisiak <felisiak.mariusz@gmail.com>, 2021
# Roger Pons <rogerpons@gmail.com>, 2015
# Santiago Lamora <santiago@ribaguifi.com>, 2020
msgid """"
msgstr """"
""Project-Id-Version: django\n""
""Report-Msgid-Bugs-To: \n""
""POT-Creation-Date: 2022-05-17 05:23-0500\n""
""PO-Revision-Date: 2022-07-25 06:49+0000\n""
""Last-Translator: Emilio Carrion\n""
""Language-Team: Catalan (http://www.transifex.com/django/django/language/ca/)\n""
""Language: ca\n""
""MIME-Version: 1.0\n""
""Content-Type: text/plain; charset=UTF-8\n""
""Content-Transfer-Encoding: 8bit\n""
""Plural-Forms: nplurals=2; plural=(n != 1);\n""

msgid ""%[1]d byte""
msgid_plural ""%[1]d bytes""
msgstr[0] ""%[1]d byte""
msgstr[1] ""%[1]d bytes""

msgid ""%[1]s billion""
msgid_plural ""%[1]s billion""
msgstr[0] ""%[1]s miliard""
msgstr[1] ""%[1]s miliards""

msgid ""%[1]s decillion""
msgid_plural ""%[1]s decillion""
msgstr[0] ""%[1]s decilió""
msgstr[1] ""%[1]s decilions""

msgid ""%[1]s googol""
msgid_plural ""%[1]s googol""
msgstr[0] ""%[1]s googol""
msgstr[1] ""%[1]s googols""

msgid ""%[1]s million""
msgid_plural ""%[1]s million""
msgstr[0] ""%[1]s milió""
msgstr[1] ""%[1]s milions""

msgid ""%[1]s nonillion""
msgid_plural ""%[1]s nonillion""
msgstr[0] ""%[1]s nonilió""
msgstr[1] ""%[1]s nonilions""

msgid ""%[1]s octillion""
msgid_plural ""%[1]s octillion""
msgstr[0] ""%[1]s octilió""
msgstr[1] ""%[1]s octilions""

msgid ""%[1]s quadrillion""
msgid_plural ""%[1]s quadrillion""
msgstr[0] ""%[1]s quadrilió""
msgstr[1] ""%[1]s quadrilions""

msgid ""%[1]s quintillion""
msgid_plural ""%[1]s quintillion""
msgstr[0] ""%[1]s quintilió""
msgstr[1] ""%[1]s quintilions""

msgid ""%[1]s septillion""
msgid_plural ""%[1]s septillion""
msgstr[0] ""%[1]s septilió""
msgstr[1] ""%[1]s septilions""

msgid ""%[1]s sextillion""
msgid_plural ""%[1]s sextillion""
msgstr[0] ""%[1]s sextilió""
msgstr[1] ""%[1]s sextilions""

msgid ""%[1]s trillion""
msgid_plural ""%[1]s trillion""
msgstr[0] ""%[1]s bilió""
msgstr[1] ""%[1]s bilió""

msgid ""%[1]v ago""
msgstr ""Fa %[1]v ""

msgid ""%[1]v day""
msgid_plural ""%[1]v days""
msgstr[0] ""%[1]v dia""
msgstr[1] ""%[1]v dies""

msgid ""%[1]v from now""
msgstr ""fa %[1]v""

msgid ""%[1]v hour""
msgid_plural ""%[1]v hours""
msgstr[0] ""%[1]v hora""
msgstr[1] ""%[1]v hores""

msgid ""%[1]v minute""
msgid_plural ""%[1]v minutes""
msgstr[0] ""%[1]v minut""
msgstr[1] ""%[1]v minuts""

msgid ""%[1]v month""
msgid_plural ""%[1]v months""
msgstr[0] ""%[1]v mes""
msgstr[1] ""%[1]v mesos""

msgid ""%[1]v week""
msgid_plural ""%[1]v weeks""
msgstr[0] ""%[1]v setmana""
msgstr[1] ""%[1]v setmanes""

msgid ""%[1]v year""
msgid_plural ""%[1]v years""
msgstr[0] ""%[1]v any""
msgstr[1] ""%[1]v anys""

msgid ""%s GB""
msgstr ""%s GB""

msgid ""%s KB""
msgstr ""%s KB""

msgid ""%s MB""
msgstr ""%s MB""

msgid ""%s PB""
msgstr ""%s PB""

msgid ""%s TB""
msgstr ""%s TB""

msgid "", ""
msgstr "", ""

msgid ""AM""
msgstr ""AM""

msgid ""Afrikaans""
msgstr ""Afrikans""

msgid ""Albanian""
msgstr ""albanès""

msgid ""Algerian Arabic""
msgstr ""àrab argelià""

msgid ""April""
msgstr ""abril""

msgid ""Arabic""
msgstr ""àrab""

msgid ""Argentinian Spanish""
msgstr ""castellà d'Argentina""

msgid ""Armenian""
msgstr ""Armeni""

msgid ""Asturian""
msgstr ""Asturià""

msgid ""August""
msgstr ""agost""

msgid ""Australian English""
msgstr ""Anglès d'Austràlia""

msgid ""Azerbaijani""
msgstr ""azerbaijanès""

msgid ""Basque""
msgstr ""èuscar""

msgid ""Belarusian""
msgstr ""Bielorús""

msgid ""Bengali""
msgstr ""bengalí""

msgid ""Bosnian""
msgstr ""bosnià""

msgid ""Brazilian Portuguese""
msgstr ""portuguès de brasil""

msgid ""Breton""
msgstr ""Bretó""

msgid ""British English""
msgstr ""anglès britànic""

msgid ""Bulgarian""
msgstr ""búlgar""

msgid ""Burmese""
msgstr ""Burmès""

msgid ""Catalan""
msgstr ""català""

msgid ""Colombian Spanish""
msgstr ""castellà de Colombia""

msgid ""Croatian""
msgstr ""croat""

msgid ""Czech""
msgstr ""txec""

msgid ""Danish""
msgstr ""danès""

msgid ""December""
msgstr ""desembre""

msgid ""Dutch""
msgstr ""holandès""

msgid ""English""
msgstr ""anglès""

msgid ""Esperanto""
msgstr ""Esperanto""

msgid ""Estonian""
msgstr ""estonià""

msgid ""February""
msgstr ""febrer""

msgid ""Finnish""
msgstr ""finlandès""

msgid ""French""
msgstr ""francès""

msgid ""Fri""
msgstr ""dv.""

msgid ""Friday""
msgstr ""Divendres""

msgid ""Frisian""
msgstr ""frisi""

msgid ""Galician""
msgstr ""gallec""

msgid ""Georgian""
msgstr ""georgià""

msgid ""German""
msgstr ""alemany""

msgid ""Greek""
msgstr ""grec""

msgid ""Hebrew""
msgstr ""hebreu""

msgid ""Hindi""
msgstr ""hindi""

msgid ""Hungarian""
msgstr ""hongarès""

msgid ""Icelandic""
msgstr ""islandès""

msgid ""Ido""
msgstr ""Ido""

msgid ""Igbo""
msgstr ""lgbo""

msgid ""Indonesian""
msgstr ""indonesi""

msgid ""Interlingua""
msgstr ""Interlingua""

msgid ""Irish""
msgstr ""irlandès""

msgid ""Italian""
msgstr ""italià""

msgid ""January""
msgstr ""gener""

msgid ""Japanese""
msgstr ""japonès""

msgid ""July""
msgstr ""juliol""

msgid ""June""
msgstr ""juny""

msgid ""Kabyle""
msgstr ""Cabilenc""

msgid ""Kannada""
msgstr ""kannarès""

msgid ""Kazakh""
msgstr ""Kazakh""

msgid ""Khmer""
msgstr ""khmer""

msgid ""Korean""
msgstr ""coreà""

msgid ""Kyrgyz""
msgstr ""Kyrgyz""

msgid ""Latvian""
msgstr ""letó""

msgid ""Lithuanian""
msgstr ""lituà""

msgid ""Lower Sorbian""
msgstr ""baix serbi""

msgid ""Luxembourgish""
msgstr ""Luxemburguès""

msgid ""Macedonian""
msgstr ""macedoni""

msgid ""Malay""
msgstr ""Malai""

msgid ""Malayalam""
msgstr ""malaiàlam ""

msgid ""Marathi""
msgstr ""Maratí""

msgid ""March""
msgstr ""març""

msgid ""May""
msgstr ""maig""

msgid ""Mexican Spanish""
msgstr ""castellà de Mèxic""

msgid ""Mon""
msgstr ""dl.""

msgid ""Monday""
msgstr ""Dilluns""

msgid ""Mongolian""
msgstr ""mongol""

msgid ""Nepali""
msgstr ""nepalès""

msgid ""Nicaraguan Spanish""
msgstr ""castellà de Nicaragua""

msgid ""Norwegian Bokmål""
msgstr ""Bokmål noruec""

msgid ""Norwegian Nynorsk""
msgstr ""noruec nynorsk""

msgid ""November""
msgstr ""novembre""

msgid ""October""
msgstr ""octubre""

msgid ""Ossetic""
msgstr ""ossètic""

msgid ""PM""
msgstr ""PM""

msgid ""Persian""
msgstr ""persa""

msgid ""Polish""
msgstr ""polonès""

msgid ""Portuguese""
msgstr ""portuguès""

msgid ""Punjabi""
msgstr ""panjabi""

msgid ""Romanian""
msgstr ""romanès""

msgid ""Russian""
msgstr ""rus""

msgid ""Sat""
msgstr ""ds.""

msgid ""Saturday""
msgstr ""Dissabte""

msgid ""Scottish Gaelic""
msgstr ""Gaèlic escocès""

msgid ""September""
msgstr ""setembre""

msgid ""Serbian""
msgstr ""serbi""

msgid ""Serbian Latin""
msgstr ""serbi llatí""

msgid ""Simplified Chinese""
msgstr ""xinès simplificat""

msgid ""Slovak""
msgstr ""eslovac""

msgid ""Slovenian""
msgstr ""eslovè""

msgid ""Spanish""
msgstr ""castellà""

msgid ""Sun""
msgstr ""dg.""

msgid ""Sunday""
msgstr ""Diumenge""

msgid ""Swahili""
msgstr ""Swahili""

msgid ""Swedish""
msgstr ""suec""

msgid ""Tajik""
msgstr ""Tajik""

msgid ""Tamil""
msgstr ""tàmil""

msgid ""Tatar""
msgstr ""Tatar""

msgid ""Telugu""
msgstr ""telugu""

msgid ""Thai""
msgstr ""tailandès""

msgid ""Thu""
msgstr ""dj.""

msgid ""Thursday""
msgstr ""Dijous""

msgid ""Traditional Chinese""
msgstr ""xinès tradicional""

msgid ""Tue""
msgstr ""dt.""

msgid ""Tuesday""
msgstr ""Dimarts""

msgid ""Turkish""
msgstr ""turc""

msgid ""Turkmen""
msgstr ""Turkmen""

msgid ""Udmurt""
msgstr ""Udmurt""

msgid ""Ukrainian""
msgstr ""ucraïnès""

msgid ""Upper Sorbian""
msgstr ""alt serbi""

msgid ""Urdu""
msgstr ""urdu""

msgid ""Uzbek""
msgstr ""Uzbek""

msgid ""Venezuelan Spanish""
msgstr ""castellà de Veneçuela""

msgid ""Vietnamese""
msgstr ""vietnamita""

msgid ""Wed""
msgstr ""dc.""

msgid ""Wednesday""
msgstr ""Dimecres""

msgid ""Welsh""
msgstr ""gal·lès""

msgid ""a minute ago""
msgid_plural ""%[1]v minutes ago""
msgstr[0] ""fa un minut""
msgstr[1] ""fa %[1]v minuts""

msgid ""a minute from now""
msgid_plural ""%[1]v minutes from now""
msgstr[0] ""d'aquí a un minut""
msgstr[1] ""d'aquí a %[1]v minuts""

msgid ""a second ago""
msgid_plural ""%[1]v seconds ago""
msgstr[0] ""fa un segon""
msgstr[1] ""fa %[1]v segons""

msgid ""a second from now""
msgid_plural ""%[1]v seconds from now""
msgstr[0] ""d'aquí a un segon""
msgstr[1] ""d'aquí a %[1]v segons""

msgid ""a.m.""
msgstr ""a.m.""

msgid ""an hour ago""
msgid_plural ""%[1]v hours ago""
msgstr[0] ""fa una hora""
msgstr[1] ""fa %[1]v hores""

msgid ""an hour from now""
msgid_plural ""%[1]v hours from now""
msgstr[0] ""d'aquí a una hora""
msgstr[1] ""d'aquí a %[1]v hores""

msgid ""apr""
msgstr ""abr.""

msgid ""aug""
msgstr ""ago.""

msgid ""dec""
msgstr ""des.""

msgid ""eight""
msgstr ""vuit""

msgid ""feb""
msgstr ""feb.""

msgid ""five""
msgstr ""cinc""

msgid ""four""
msgstr ""quatre""

msgid ""jan""
msgstr ""gen.""

msgid ""jul""
msgstr ""jul.""

msgid ""jun""
msgstr ""juny""

msgid ""mar""
msgstr ""març""

msgid ""may""
msgstr ""maig""

msgid ""midnight""
msgstr ""mitjanit""

msgid ""nine""
msgstr ""nou""

msgid ""noon""
msgstr ""migdia""

msgid ""nov""
msgstr ""nov.""

msgid ""now""
msgstr ""ara""

msgid ""oct""
msgstr ""oct.""

msgid ""one""
msgstr ""un""

msgid ""p.m.""
msgstr ""p.m.""

msgid ""sep""
msgstr ""set.""

msgid ""seven""
msgstr ""set""

msgid ""six""
msgstr ""sis""

msgid ""three""
msgstr ""tres""

msgid ""today""
msgstr ""avui""

msgid ""tomorrow""
msgstr ""demà""

msgid ""two""
msgstr ""dos""

msgid ""yesterday""
msgstr ""ahir""

msgctxt ""abbrev. month""
msgid ""April""
msgstr ""Abr.""

msgctxt ""abbrev. month""
msgid ""Aug.""
msgstr ""Ago.""

msgctxt ""abbrev. month""
msgid ""Dec.""
msgstr ""Des.""

msgctxt ""abbrev. month""
msgid ""Feb.""
msgstr ""Feb.""

msgctxt ""abbrev. month""
msgid ""Jan.""
msgstr ""Gen.""

msgctxt ""abbrev. month""
msgid ""July""
msgstr ""Jul.""

msgctxt ""abbrev. month""
msgid ""June""
msgstr ""Juny""

msgctxt ""abbrev. month""
msgid ""March""
msgstr ""Març""

msgctxt ""abbrev. month""
msgid ""May""
msgstr ""Maig""

msgctxt ""abbrev. month""
msgid ""Nov.""
msgstr ""Nov.""

msgctxt ""abbrev. month""
msgid ""Oct.""
msgstr ""Oct.""

msgctxt ""abbrev. month""
msgid ""Sept.""
msgstr ""Set.""

msgctxt ""alt. month""
msgid ""April""
msgstr ""abril""

msgctxt ""alt. month""
msgid ""August""
msgstr ""agost""

msgctxt ""alt. month""
msgid ""December""
msgstr ""desembre""

msgctxt ""alt. month""
msgid ""February""
msgstr ""febrer""

msgctxt ""alt. month""
msgid ""January""
msgstr ""gener""

msgctxt ""alt. month""
msgid ""July""
msgstr ""juliol""

msgctxt ""alt. month""
msgid ""June""
msgstr ""juny""

msgctxt ""alt. month""
msgid ""March""
msgstr ""març""

msgctxt ""alt. month""
msgid ""May""
msgstr ""maig""

msgctxt ""alt. month""
msgid ""November""
msgstr ""novembre""

msgctxt ""alt. month""
msgid ""October""
msgstr ""octubre""

msgctxt ""alt. month""
msgid ""September""
msgstr ""setembre""

msgctxt ""naturaltime-future""
msgid ""%[1]v day""
msgid_plural ""%[1]v days""
msgstr[0] ""%[1]v dia""
msgstr[1] ""%[1]v dies""

msgctxt ""naturaltime-future""
msgid ""%[1]v hour""
msgid_plural ""%[1]v hours""
msgstr[0] ""%[1]v hora""
msgstr[1] ""%[1]v hores""

msgctxt ""naturaltime-future""
msgid ""%[1]v minute""
msgid_plural ""%[1]v minutes""
msgstr[0] ""%[1]v minut""
msgstr[1] ""%[1]v minuts""

msgctxt ""naturaltime-future""
msgid ""%[1]v month""
msgid_plural ""%[1]v months""
msgstr[0] ""%[1]v mes""
msgstr[1] ""%[1]v mesos""

msgctxt ""naturaltime-future""
msgid ""%[1]v week""
msgid_plural ""%[1]v weeks""
msgstr[0] ""%[1]v setmana""
msgstr[1] ""%[1]v setmanes""

msgctxt ""naturaltime-future""
msgid ""%[1]v year""
msgid_plural ""%[1]v years""
msgstr[0] ""%[1]v any""
msgstr[1] ""%[1]v anys""

msgctxt ""naturaltime-past""
msgid ""%[1]v day""
msgid_plural ""%[1]v days""
msgstr[0] ""%[1]v dia""
msgstr[1] ""%[1]v dies""

msgctxt ""naturaltime-past""
msgid ""%[1]v hour""
msgid_plural ""%[1]v hours""
msgstr[0] ""%[1]v hora""
msgstr[1] ""%[1]v hores""

msgctxt ""naturaltime-past""
msgid ""%[1]v minute""
msgid_plural ""%[1]v minutes""
msgstr[0] ""%[1]v minut""
msgstr[1] ""%[1]v minuts""

msgctxt ""naturaltime-past""
msgid ""%[1]v month""
msgid_plural ""%[1]v months""
msgstr[0] ""%[1]v mes""
msgstr[1] ""%[1]v mesos""

msgctxt ""naturaltime-past""
msgid ""%[1]v week""
msgid_plural ""%[1]v weeks""
msgstr[0] ""%[1]v setmana""
msgstr[1] ""%[1]v setmanes""

msgctxt ""naturaltime-past""
msgid ""%[1]v year""
msgid_plural ""%[1]v years""
msgstr[0] ""%[1]v any""
msgstr[1] ""%[1]v anys""

msgctxt ""ordinal 0""
msgid ""%vth""
msgstr ""%vè""

msgctxt ""ordinal 1""
msgid ""%vst""
msgstr ""%vr""

msgctxt ""ordinal 11, 12, 13""
msgid ""%vth""
msgstr ""%vè""

msgctxt ""ordinal 2""
msgid ""%vnd""
msgstr ""%vn""

msgctxt ""ordinal 3""
msgid ""%vrd""
msgstr ""%vr""

msgctxt ""ordinal 4""
msgid ""%vth""
msgstr ""%vè""

msgctxt ""ordinal 5""
msgid ""%vth""
msgstr ""%vè""

msgctxt ""ordinal 6""
msgid ""%vth""
msgstr ""%vè""

msgctxt ""ordinal 7""
msgid ""%vth""
msgstr ""%vè""

msgctxt ""ordinal 8""
msgid ""%vth""
msgstr ""%vè""

msgctxt ""ordinal 9""
msgid ""%vth""
msgstr ""%vè""
".
(** humanize/locale/ca/locale.go (New) *)
Definition loc_ca : locale_data := LD (bs "ca") [(bs "django.po", po_ca)]
  (Some (FD (bs "j E \d\e Y") (bs "G:i") (bs "j E \d\e Y \a \l\e\s G:i") (bs "F \d\e\l Y") (bs "j E") (bs "d/m/Y") (bs "d/m/Y G:i"))).

(** humanize/locale/ckb/django.po *)
Definition po_ckb : bytes := bs "# This file is distributed under the same license as the Django package.
# 
# Translators:
# Bawar Jalal, 2021
# Bawar Jalal, 2020-2021
# Bawar Jalal, 2020
# Kosar Tofiq Saeed <kosar.belana@gmail.com>, 2020-2021
# Natalia, 2025
# Swara <swara09@gmail.com>, 2022-2024
msgid """"
msgstr """"
""Project-Id-Version: django\n""
""Report-Msgid-Bugs-To: \n""
""POT-Creation-Date: 2025-03-19 11:30-0500\n""
""PO-Revision-Date: 2025-09-17 06:49+0000\n""
""Last-Translator: Natalia, 2025\n""
""Language-Team: Central Kurdish (http://app.transifex.com/django/django/language/ckb/)\n""
""Language: ckb\n""
""MIME-Version: 1.0\n""
""Content-Type: text/plain; charset=UTF-8\n""
""Content-Transfer-Encoding: 8bit\n""
""Plural-Forms: nplurals=2; plural=(n != 1);\n""

msgid ""%[1]d byte""
msgid_plural ""%[1]d bytes""
msgstr[0] ""%[1]dبایت""
msgstr[1] ""%[1]d بایت""

msgid ""%[1]s billion""
msgid_plural ""%[1]s billion""
msgstr[0] ""‫%[1]s بلیۆن""
msgstr[1] ""‫%[1]s بلیۆن""

msgid ""%[1]s decillion""
msgid_plural ""%[1]s decillion""
msgstr[0] ""‫%[1]s دێستریلیۆن""
msgstr[1] ""‫%[1]s دێستریلیۆن""

msgid ""%[1]s googol""
msgid_plural ""%[1]s googol""
msgstr[0] ""‫%[1]s گوگۆڵ""
msgstr[1] ""‫%[1]s گوگۆڵ""

msgid ""%[1]s million""
msgid_plural ""%[1]s million""
msgstr[0] ""%[1]s ملیۆن""
msgstr[1] ""%[1]s ملیۆن""

msgid ""%[1]s nonillion""
msgid_plural ""%[1]s nonillion""
msgstr[0] ""‫%[1]s نۆنتریلۆن""
msgstr[1] ""‫%[1]s نۆنتریلۆن""

msgid ""%[1]s octillion""
msgid_plural ""%[1]s octillion""
msgstr[0] ""‫%[1]s ئۆکتریلیۆن""
msgstr[1] ""‫%[1]s ئۆکتریلیۆن""

msgid ""%[1]s quadrillion""
msgid_plural ""%[1]s quadrillion""
msgstr[0] ""‫%[1]s کوادرلیۆن""
msgstr[1] ""‫%[1]s کوادرلیۆن""

msgid ""%[1]s quintillion""
msgid_plural ""%[1]s quintillion""
msgstr[0] ""‫%[1]s کوینترلیۆن""
msgstr[1] ""‫%[1]s کوینترلیۆن""

msgid ""%[1]s septillion""
msgid_plural ""%[1]s septillion""
msgstr[0] ""‫%[1]s سێپتریلۆن""
msgstr[1] ""‫%[1]s سێپتریلۆن""

msgid ""%[1]s sextillion""
msgid_plural ""%[1]s sextillion""
msgstr[0] ""‫%[1]s شەش تریلۆن""
msgstr[1] ""‫%[1]s شەش تریلۆن""

msgid ""%[1]s trillion""
msgid_plural ""%[1]s trillion""
msgstr[0] ""‫%[1]s تریلۆن""
msgstr[1] ""‫%[1]s تریلۆن""

msgid ""%[1]v ago""
msgstr ""%[1]v پێشتر""

msgid ""%[1]v day""
msgid_plural ""%[1]v days""
msgstr[0] ""‫%[1]v ڕۆژ""
msgstr[1] ""‫%[1]v ڕۆژ""

msgid ""%[1]v from now""
msgstr ""%[1]v لە ئێستاوە""

msgid ""%[1]v hour""
msgid_plural ""%[1]v hours""
msgstr[0] ""‫%[1]v کاتژمێر""
msgstr[1] ""‫%[1]v کاتژمێر""

msgid ""%[1]v minute""
msgid_plural ""%[1]v minutes""
msgstr[0] ""‫%[1]v خولەک""
msgstr[1] ""‫%[1]v خولەک""

msgid ""%[1]v month""
msgid_plural ""%[1]v months""
msgstr[0] ""‫%[1]v مانگ""
msgstr[1] ""‫%[1]v مانگ""

msgid ""%[1]v week""
msgid_plural ""%[1]v weeks""
msgstr[0] ""‫%[1]v هەفتە""
msgstr[1] ""‫%[1]v هەفتە""

msgid ""%[1]v year""
msgid_plural ""%[1]v years""
msgstr[0] ""‫%[1]v ساڵ""
msgstr[1] ""‫%[1]v ساڵ""

msgid ""%s GB""
msgstr ""%s گب""

msgid ""%s KB""
msgstr ""%s کب""

msgid ""%s MB""
msgstr ""%s مب""

msgid ""%s PB""
msgstr ""%s پب""

msgid ""%s TB""
msgstr ""%s تب""

msgid "", ""
msgstr ""، ""

msgid ""AM""
msgstr ""پ.ن""

msgid ""Afrikaans""
msgstr ""ئەفریقی""

msgid ""Albanian""
msgstr ""ئەلبانی""

msgid ""Algerian Arabic""
msgstr ""عەرەبیی جەزائیری""

msgid ""April""
msgstr ""گوڵان""

msgid ""Arabic""
msgstr ""عەرەبی""

msgid ""Argentinian Spanish""
msgstr ""ئیسپانیی ئەرجەنتینی""

msgid ""Armenian""
msgstr ""ئەرمەنی""

msgid ""Asturian""
msgstr ""ئاستوری""

msgid ""August""
msgstr ""خەرمانان""

msgid ""Australian English""
msgstr ""ئینگلیزی ئوستورالی""

msgid ""Azerbaijani""
msgstr ""ئازەربایجانی""

msgid ""Basque""
msgstr ""باسکۆیی""

msgid ""Belarusian""
msgstr ""بیلاڕوسی""

msgid ""Bengali""
msgstr ""بەنگالی""

msgid ""Bosnian""
msgstr ""بۆسنێیی""

msgid ""Brazilian Portuguese""
msgstr ""پورتوگالیی بەڕازیلی""

msgid ""Breton""
msgstr ""بریتۆنی""

msgid ""British English""
msgstr ""ئینگلیزی بەریتانی""

msgid ""Bulgarian""
msgstr ""بولگاری""

msgid ""Burmese""
msgstr ""بورمایی""

msgid ""Catalan""
msgstr ""کاتالانی""

msgid ""Central Kurdish (Sorani)""
msgstr ""کوردی""

msgid ""Colombian Spanish""
msgstr ""ئیسپانیی کۆڵۆمبی""

msgid ""Croatian""
msgstr ""کڕواتی""

msgid ""Czech""
msgstr ""چیکی""

msgid ""Danish""
msgstr ""دانیمارکی""

msgid ""December""
msgstr ""بەفرانبار""

msgid ""Dutch""
msgstr ""هۆڵەندی""

msgid ""English""
msgstr ""ئینگلیزی""

msgid ""Esperanto""
msgstr ""ئێسپەرانتەویی""

msgid ""Estonian""
msgstr ""ئیستۆنی""

msgid ""February""
msgstr ""ڕەشەمە""

msgid ""Finnish""
msgstr ""فینلەندی""

msgid ""French""
msgstr ""فەڕەنسی""

msgid ""Fri""
msgstr ""هەین""

msgid ""Friday""
msgstr ""هەینی""

msgid ""Frisian""
msgstr ""فریسی""

msgid ""Galician""
msgstr ""گالیسیایی""

msgid ""Georgian""
msgstr ""جۆرجی""

msgid ""German""
msgstr ""ئەڵمانی""

msgid ""Greek""
msgstr ""یۆنانی""

msgid ""Hebrew""
msgstr ""ئیسرائیلی""

msgid ""Hindi""
msgstr ""هیندی""

msgid ""Hungarian""
msgstr ""هەنگاری""

msgid ""Icelandic""
msgstr ""ئایسلەندی""

msgid ""Ido""
msgstr ""ئیدۆیی""

msgid ""Igbo""
msgstr ""ئیگبۆیی""

msgid ""Indonesian""
msgstr ""ئیندۆنیزی""

msgid ""Interlingua""
msgstr ""ئینتەرلینگوایی""

msgid ""Irish""
msgstr ""ئیرلەندی""

msgid ""Italian""
msgstr ""ئیتاڵی""

msgid ""January""
msgstr ""ڕێبەندان""

msgid ""Japanese""
msgstr ""یابانی""

msgid ""July""
msgstr ""گەلاوێژ""

msgid ""June""
msgstr ""پوشپەڕ""

msgid ""Kabyle""
msgstr ""کابایلی""

msgid ""Kannada""
msgstr ""کانێدایی""

msgid ""Kazakh""
msgstr ""کازاخی""

msgid ""Khmer""
msgstr ""خەمیری""

msgid ""Korean""
msgstr ""کۆری""

msgid ""Kyrgyz""
msgstr ""کیرگزستانی""

msgid ""Latvian""
msgstr ""لاتیڤی""

msgid ""Lithuanian""
msgstr ""لیتوانی""

msgid ""Lower Sorbian""
msgstr ""سۆربیانی خواروو""

msgid ""Luxembourgish""
msgstr ""لۆکسەمبۆرگی""

msgid ""Macedonian""
msgstr ""مەسەدۆنی""

msgid ""Malay""
msgstr ""مالایی""

msgid ""Malayalam""
msgstr ""مەلایالامی""

msgid ""Marathi""
msgstr ""ماراسی""

msgid ""March""
msgstr ""نەورۆز""

msgid ""May""
msgstr ""جۆزەردان""

msgid ""Mexican Spanish""
msgstr ""ئیسپانیی مەکسیکی""

msgid ""Mon""
msgstr ""دوو""

msgid ""Monday""
msgstr ""دووشەممە""

msgid ""Mongolian""
msgstr ""مەنگۆلی""

msgid ""Nepali""
msgstr ""نیپاڵی""

msgid ""Nicaraguan Spanish""
msgstr ""ئیسپانیی نیکاراگوایی""

msgid ""Norwegian Bokmål""
msgstr ""بۆکامۆلی نەرویجی""

msgid ""Norwegian Nynorsk""
msgstr ""نینۆرسکی نەرویجی""

msgid ""November""
msgstr ""سەرماوەرز""

msgid ""October""
msgstr ""گەڵاڕێزان""

msgid ""Ossetic""
msgstr ""ئۆسیتی""

msgid ""PM""
msgstr ""د.ن""

msgid ""Persian""
msgstr ""فارسی""

msgid ""Polish""
msgstr ""پۆڵۆنی""

msgid ""Portuguese""
msgstr ""پورتوگالی""

msgid ""Punjabi""
msgstr ""پونجابی""

msgid ""Romanian""
msgstr ""ڕۆمانیایی""

msgid ""Russian""
msgstr ""ڕووسی""

msgid ""Sat""
msgstr ""شەم""

msgid ""Saturday""
msgstr ""شەممە""

msgid ""Scottish Gaelic""
msgstr ""گالیکی سکۆتلەندی""

msgid ""September""
msgstr ""ڕەزبەر""

msgid ""Serbian""
msgstr ""سڕبی""

msgid ""Serbian Latin""
msgstr ""سڕبیی لاتین""

msgid ""Simplified Chinese""
msgstr ""چینی سادەکراو""

msgid ""Slovak""
msgstr ""سلۆڤاکی""

msgid ""Slovenian""
msgstr ""سلۆڤینیایی""

msgid ""Spanish""
msgstr ""ئیسپانی""

msgid ""Sun""
msgstr ""یەک""

msgid ""Sunday""
msgstr ""یەکشەممە""

msgid ""Swahili""
msgstr ""سواهیلی""

msgid ""Swedish""
msgstr ""سویدی""

msgid ""Tajik""
msgstr ""تاجیکی""

msgid ""Tamil""
msgstr ""تامیلی""

msgid ""Tatar""
msgstr ""تاتاری""

msgid ""Telugu""
msgstr ""تێلوگویی""

msgid ""Thai""
msgstr ""تایلاندی""

msgid ""Thu""
msgstr ""پێنج""

msgid ""Thursday""
msgstr ""پێنجشەممە""

msgid ""Traditional Chinese""
msgstr ""چینی کلاسیکی""

msgid ""Tue""
msgstr ""سێ""

msgid ""Tuesday""
msgstr ""سێشەممە""

msgid ""Turkish""
msgstr ""تورکی""

msgid ""Turkmen""
msgstr ""تورکمانی""

msgid ""Udmurt""
msgstr ""ئودمورتی""

msgid ""Ukrainian""
msgstr ""ئۆکرانی""

msgid ""Upper Sorbian""
msgstr ""سڕبی سەروو""

msgid ""Urdu""
msgstr ""ئوردویی""

msgid ""Uyghur""
msgstr ""ئۆیغور""

msgid ""Uzbek""
msgstr ""ئۆزبەکی""

msgid ""Venezuelan Spanish""
msgstr ""ئیسپانیی فەنزوێلایی""

msgid ""Vietnamese""
msgstr ""ڤێتنامی""

msgid ""Wed""
msgstr ""چوار""

msgid ""Wednesday""
msgstr ""چوارشەممە""

msgid ""Welsh""
msgstr ""وێڵزی""

msgid ""a minute ago""
msgid_plural ""%[1]v minutes ago""
msgstr[0] ""خولەکێک پێشتر""
msgstr[1] ""‫%[1]v خولەک پێشتر""

msgid ""a minute from now""
msgid_plural ""%[1]v minutes from now""
msgstr[0] ""خولەکێک لە ئێستاوە""
msgstr[1] ""‫%[1]v خولەک لە ئێستاوە""

msgid ""a second ago""
msgid_plural ""%[1]v seconds ago""
msgstr[0] ""چرکەیەک پێشتر""
msgstr[1] ""‫%[1]v چرکە پێشتر""

msgid ""a second from now""
msgid_plural ""%[1]v seconds from now""
msgstr[0] ""چرکەیەک لە ئێستاوە""
msgstr[1] ""‫%[1]v چرکە لە ئێستاوە""

msgid ""a.m.""
msgstr ""پ.ن""

msgid ""an hour ago""
msgid_plural ""%[1]v hours ago""
msgstr[0] ""کاتژمێرێک پێشتر""
msgstr[1] ""‫%[1]v کاتژمێر پێشتر""

msgid ""an hour from now""
msgid_plural ""%[1]v hours from now""
msgstr[0] ""کاتژمێرێک لە ئێستاوە""
msgstr[1] ""‫%[1]v کاتژمێر لە ئێستاوە""

msgid ""apr""
msgstr ""گوڵان""

msgid ""aug""
msgstr ""خەرمانان""

msgid ""dec""
msgstr ""‎بەفرانبار""

msgid ""eight""
msgstr ""هەشت""

msgid ""feb""
msgstr ""ڕەشەمە""

msgid ""five""
msgstr ""پێنج""

msgid ""four""
msgstr ""چوار""

msgid ""jan""
msgstr ""‎ڕێبەندان""

msgid ""jul""
msgstr ""‎گەلاوێژ""

msgid ""jun""
msgstr ""پوشپەڕ""

msgid ""mar""
msgstr ""نەورۆز""

msgid ""may""
msgstr ""‎جۆزەردان""

msgid ""midnight""
msgstr ""نیوەشەو""

msgid ""nine""
msgstr ""نۆ""

msgid ""noon""
msgstr ""نیوەڕۆ""

msgid ""nov""
msgstr ""‎سەرماوەرز""

msgid ""now""
msgstr ""ئێستا""

msgid ""oct""
msgstr ""‎گەڵاڕێزان""

msgid ""one""
msgstr ""یەک""

msgid ""p.m.""
msgstr ""پ.ن""

msgid ""sep""
msgstr ""‎ڕەزبەر""

msgid ""seven""
msgstr ""حەوت""

msgid ""six""
msgstr ""شەش""

msgid ""three""
msgstr ""سێ""

msgid ""today""
msgstr ""ئەمڕۆ""

msgid ""tomorrow""
msgstr ""سبەینێ""

msgid ""two""
msgstr ""دوو""

msgid ""yesterday""
msgstr ""دوێنێ""

msgctxt ""abbrev. month""
msgid ""April""
msgstr ""گوڵان""

msgctxt ""abbrev. month""
msgid ""Aug.""
msgstr ""خەرمانان""

msgctxt ""abbrev. month""
msgid ""Dec.""
msgstr ""‎بەفرانبار""

msgctxt ""abbrev. month""
msgid ""Feb.""
msgstr ""ڕەشەمە""

msgctxt ""abbrev. month""
msgid ""Jan.""
msgstr ""‎ڕێبەندان""

msgctxt ""abbrev. month""
msgid ""July""
msgstr ""گەلاوێژ""

msgctxt ""abbrev. month""
msgid ""June""
msgstr ""پوشپەڕ""

msgctxt ""abbrev. month""
msgid ""March""
msgstr ""نەورۆز""

msgctxt ""abbrev. month""
msgid ""May""
msgstr ""جۆزەردان""

msgctxt ""abbrev. month""
msgid ""Nov.""
msgstr ""‎سەرماوەرز""

msgctxt ""abbrev. month""
msgid ""Oct.""
msgstr ""‎گەڵاڕێزان""

msgctxt ""abbrev. month""
msgid ""Sept.""
msgstr ""ڕەزبەر""

msgctxt ""alt. month""
msgid ""April""
msgstr ""گوڵان""

msgctxt ""alt. month""
msgid ""August""
msgstr ""خەرمانان""

msgctxt ""alt. month""
msgid ""December""
msgstr ""بەفرانبار""

msgctxt ""alt. month""
msgid ""February""
msgstr ""ڕەشەمە""

msgctxt ""alt. month""
msgid ""January""
msgstr ""ڕێبەندان""

msgctxt ""alt. month""
msgid ""July""
msgstr ""گەلاوێژ""

msgctxt ""alt. month""
msgid ""June""
msgstr ""پوشپەڕ""

msgctxt ""alt. month""
msgid ""March""
msgstr ""نەورۆز""

msgctxt ""alt. month""
msgid ""May""
msgstr ""جۆزەردان""

msgctxt ""alt. month""
msgid ""November""
msgstr ""سەرماوەرز""

msgctxt ""alt. month""
msgid ""October""
msgstr ""گەڵاڕێزان""

msgctxt ""alt. month""
msgid ""September""
msgstr ""ڕەزبەر""

msgctxt ""naturaltime-future""
msgid ""%[1]v day""
msgid_plural ""%[1]v days""
msgstr[0] ""‫%[1]v ڕۆژ""
msgstr[1] ""‫%[1]v ڕۆژ""

msgctxt ""naturaltime-future""
msgid ""%[1]v hour""
msgid_plural ""%[1]v hours""
msgstr[0] ""‫%[1]v کاتژمێر""
msgstr[1] ""‫%[1]v کاتژمێر""

msgctxt ""naturaltime-future""
msgid ""%[1]v minute""
msgid_plural ""%[1]v minutes""
msgstr[0] ""‫%[1]v خولەک""
msgstr[1] ""‫%[1]v خولەک""

msgctxt ""naturaltime-future""
msgid ""%[1]v month""
msgid_plural ""%[1]v months""
msgstr[0] ""‫%[1]v مانگ""
msgstr[1] ""‫%[1]v مانگ""

msgctxt ""naturaltime-future""
msgid ""%[1]v week""
msgid_plural ""%[1]v weeks""
msgstr[0] ""‫%[1]v هەفتە""
msgstr[1] ""‫%[1]v هەفتە""

msgctxt ""naturaltime-future""
msgid ""%[1]v year""
msgid_plural ""%[1]v years""
msgstr[0] ""‫%[1]v ساڵ""
msgstr[1] ""‫%[1]v ساڵ""

msgctxt ""naturaltime-past""
msgid ""%[1]v day""
msgid_plural ""%[1]v days""
msgstr[0] ""‫%[1]v ڕۆژ""
msgstr[1] ""‫%[1]v ڕۆژ""

msgctxt ""naturaltime-past""
msgid ""%[1]v hour""
msgid_plural ""%[1]v hours""
msgstr[0] ""‫%[1]v کاتژمێر""
msgstr[1] ""‫%[1]v کاتژمێر""

msgctxt ""naturaltime-past""
msgid ""%[1]v minute""
msgid_plural ""%[1]v minutes""
msgstr[0] ""‫%[1]v خولەک""
msgstr[1] ""‫%[1]v خولەک""

msgctxt ""naturaltime-past""
msgid ""%[1]v month""
msgid_plural ""%[1]v months""
msgstr[0] ""‫%[1]v مانگ""
msgstr[1] ""‫%[1]v مانگ""

msgctxt ""naturaltime-past""
msgid ""%[1]v week""
msgid_plural ""%[1]v weeks""
msgstr[0] ""‫%[1]v هەفتە""
msgstr[1] ""‫%[1]v هەفتە""

msgctxt ""naturaltime-past""
msgid ""%[1]v year""
msgid_plural ""%[1]v years""
msgstr[0] ""‫%[1]v ساڵ""
msgstr[1] ""‫%[1]v ساڵ""

msgctxt ""ordinal 0""
msgid ""%vth""
msgstr ""‫%vth""

msgctxt ""ordinal 1""
msgid ""%vst""
msgstr ""‫%vst""

msgctxt ""ordinal 11, 12, 13""
msgid ""%vth""
msgstr ""‫%vth""

msgctxt ""ordinal 2""
msgid ""%vnd""
msgstr ""‫%vnd""

msgctxt ""ordinal 3""
msgid ""%vrd""
msgstr ""‫%vrd""

msgctxt ""ordinal 4""
msgid ""%vth""
msgstr ""‫%vth""

msgctxt ""ordinal 5""
msgid ""%vth""
msgstr ""‫%vth""

msgctxt ""ordinal 6""
msgid ""%vth""
msgstr ""‫%vth""

msgctxt ""ordinal 7""
msgid ""%vth""
msgstr ""‫%vth""

msgctxt ""ordinal 8""
msgid ""%vth""
msgstr ""‫%vth""

msgctxt ""ordinal 9""
msgid ""%vth""
msgstr ""‫%vth""
".
(** humanize/locale/ckb/locale.go (New) *)
Definition loc_ckb : locale_data := LD (bs "ckb") [(bs "django.po", po_ckb)]
  (Some (FD (bs "j F Y") (bs "G:i") (bs "j F Y، کاتژمێر G:i") (bs "F Y") (bs "j F") (bs "Y/n/j") (bs "Y/n/j، G:i"))).

(** humanize/locale/cs/django.po *)
Definition po_cs : bytes := bs "# This file is distributed under the same license as the Django package.
# 
# Translators:
# Claude Paroz <claude@2xlibre.net>, 2020
# Jannis Leidel <jannis@leidel.info>, 2011
# Jan Papež <honyczek@centrum.cz>, 2012,2024
# Jiří Podhorecký <jirka.p@volny.cz>, 2024
# Jiří Podhorecký <jirka.p@volny.cz>, 2022
# Jirka Vejrazka <Jirka.Vejrazka@gmail.com>, 2011
# Jiří Podhorecký <jirka.p@volny.cz>, 2020
# Tomáš Ehrlich <tomas.ehrlich@gmail.com>, 2015
# Vláďa Macek <macek@sandbox.cz>, 2012-2014
# Vláďa Macek <macek@sandbox.cz>, 2015-2022
msgid """"
msgstr """"
""Project-Id-Version: django\n""
""Report-Msgid-Bugs-To: \n""
""POT-Creation-Date: 2024-05-22 11:46-0300\n""
""PO-Revision-Date: 2024-10-07 06:49+0000\n""
""Last-Translator: Jan Papež <honyczek@centrum.cz>, 2012,2024\n""
""Language-Team: Czech (http://app.transifex.com/django/django/language/cs/)\n""
""Language: cs\n""
""MIME-Version: 1.0\n""
""Content-Type: text/plain; charset=UTF-8\n""
""Content-Transfer-Encoding: 8bit\n""
""Plural-Forms: nplurals=4; plural=(n == 1 && n % 1 == 0) ? 0 : (n >= 2 && n <= 4 && n % 1 == 0) ? 1: (n % 1 != 0 ) ? 2 : 3;\n""

msgid ""%[1]d byte""
msgid_plural ""%[1]d bytes""
msgstr[0] ""%[1]d bajt""
msgstr[1] ""%[1]d bajty""
msgstr[2] ""%[1]d bajtů""
msgstr[3] ""%[1]d bajtů""

msgid ""%[1]s billion""
msgid_plural ""%[1]s billion""
msgstr[0] ""%[1]s miliarda""
msgstr[1] ""%[1]s miliardy""
msgstr[2] ""%[1]s miliard""
msgstr[3] ""%[1]s miliard""

msgid ""%[1]s decillion""
msgid_plural ""%[1]s decillion""
msgstr[0] ""%[1]s kvintiliarda""
msgstr[1] ""%[1]s kvintiliardy""
msgstr[2] ""%[1]s kvintiliard""
msgstr[3] ""%[1]s kvintiliard""

msgid ""%[1]s googol""
msgid_plural ""%[1]s googol""
msgstr[0] ""%[1]s googol""
msgstr[1] ""%[1]s googoly""
msgstr[2] ""%[1]s googolů""
msgstr[3] ""%[1]s googolů""

msgid ""%[1]s million""
msgid_plural ""%[1]s million""
msgstr[0] "" %[1]s milion""
msgstr[1] "" %[1]s miliony""
msgstr[2] "" %[1]s milionů""
msgstr[3] "" %[1]s milionů""

msgid ""%[1]s nonillion""
msgid_plural ""%[1]s nonillion""
msgstr[0] ""%[1]s kvintilion""
msgstr[1] ""%[1]s kvintiliony""
msgstr[2] ""%[1]s kvintilionů""
msgstr[3] ""%[1]s kvintilionů""

msgid ""%[1]s octillion""
msgid_plural ""%[1]s octillion""
msgstr[0] ""%[1]s kvadriliarda""
msgstr[1] ""%[1]s kvadriliardy""
msgstr[2] ""%[1]s kvadriliard""
msgstr[3] ""%[1]s kvadriliard""

msgid ""%[1]s quadrillion""
msgid_plural ""%[1]s quadrillion""
msgstr[0] ""%[1]s biliarda""
msgstr[1] ""%[1]s biliardy""
msgstr[2] ""%[1]s biliard""
msgstr[3] ""%[1]s biliard""

msgid ""%[1]s quintillion""
msgid_plural ""%[1]s quintillion""
msgstr[0] ""%[1]s trilion""
msgstr[1] ""%[1]s triliony""
msgstr[2] ""%[1]s trilionů""
msgstr[3] ""%[1]s trilionů""

msgid ""%[1]s septillion""
msgid_plural ""%[1]s septillion""
msgstr[0] ""%[1]s kvadrilion""
msgstr[1] ""%[1]s kvadriliony""
msgstr[2] ""%[1]s kvadrilionů""
msgstr[3] ""%[1]s kvadrilionů""

msgid ""%[1]s sextillion""
msgid_plural ""%[1]s sextillion""
msgstr[0] ""%[1]s triliarda""
msgstr[1] ""%[1]s triliardy""
msgstr[2] ""%[1]s triliard""
msgstr[3] ""%[1]s triliard""

msgid ""%[1]s trillion""
msgid_plural ""%[1]s trillion""
msgstr[0] ""%[1]s bilion""
msgstr[1] ""%[1]s biliony""
msgstr[2] ""%[1]s bilionů""
msgstr[3] ""%[1]s bilionů""

msgid ""%[1]v ago""
msgstr ""před %[1]v""

msgid ""%[1]v day""
msgid_plural ""%[1]v days""
msgstr[0] ""%[1]v den""
msgstr[1] ""%[1]v dny""
msgstr[2] ""%[1]v dní""
msgstr[3] ""%[1]v dní""

msgid ""%[1]v from now""
msgstr ""za %[1]v""

msgid ""%[1]v hour""
msgid_plural ""%[1]v hours""
msgstr[0] ""%[1]v hodina""
msgstr[1] ""%[1]v hodiny""
msgstr[2] ""%[1]v hodiny""
msgstr[3] ""%[1]v hodin""

msgid ""%[1]v minute""
msgid_plural ""%[1]v minutes""
msgstr[0] ""%[1]v minuta""
msgstr[1] ""%[1]v minuty""
msgstr[2] ""%[1]v minut""
msgstr[3] ""%[1]v minut""

msgid ""%[1]v month""
msgid_plural ""%[1]v months""
msgstr[0] ""%[1]v měsíc""
msgstr[1] ""%[1]v měsíce""
msgstr[2] ""%[1]v měsíců""
msgstr[3] ""%[1]v měsíců""

msgid ""%[1]v week""
msgid_plural ""%[1]v weeks""
msgstr[0] ""%[1]v týden""
msgstr[1] ""%[1]v týdny""
msgstr[2] ""%[1]v týdne""
msgstr[3] ""%[1]v týdnů""

msgid ""%[1]v year""
msgid_plural ""%[1]v years""
msgstr[0] ""%[1]v rok""
msgstr[1] ""%[1]v roky""
msgstr[2] ""%[1]v roku""
msgstr[3] ""%[1]v let""

msgid ""%s GB""
msgstr ""%s GB""

msgid ""%s KB""
msgstr ""%s KB""

msgid ""%s MB""
msgstr ""%s MB""

msgid ""%s PB""
msgstr ""%s PB""

msgid ""%s TB""
msgstr ""%s TB""

msgid "", ""
msgstr "", ""

msgid ""AM""
msgstr ""dop.""

msgid ""Afrikaans""
msgstr ""afrikánsky""

msgid ""Albanian""
msgstr ""albánsky""

msgid ""Algerian Arabic""
msgstr ""alžírskou arabštinou""

msgid ""April""
msgstr ""duben""

msgid ""Arabic""
msgstr ""arabsky""

msgid ""Argentinian Spanish""
msgstr ""argentinskou španělštinou""

msgid ""Armenian""
msgstr ""arménštinou""

msgid ""Asturian""
msgstr ""asturštinou""

msgid ""August""
msgstr ""srpen""

msgid ""Australian English""
msgstr ""australskou angličtinou""

msgid ""Azerbaijani""
msgstr ""ázerbájdžánsky""

msgid ""Basque""
msgstr ""baskicky""

msgid ""Belarusian""
msgstr ""bělorusky""

msgid ""Bengali""
msgstr ""bengálsky""

msgid ""Bosnian""
msgstr ""bosensky""

msgid ""Brazilian Portuguese""
msgstr ""brazilskou portugalštinou""

msgid ""Breton""
msgstr ""bretonsky""

msgid ""British English""
msgstr ""britskou angličtinou""

msgid ""Bulgarian""
msgstr ""bulharsky""

msgid ""Burmese""
msgstr ""barmštinou""

msgid ""Catalan""
msgstr ""katalánsky""

msgid ""Central Kurdish (Sorani)""
msgstr ""Střední kurdština (soranština)""

msgid ""Colombian Spanish""
msgstr ""kolumbijskou španělštinou""

msgid ""Croatian""
msgstr ""chorvatsky""

msgid ""Czech""
msgstr ""česky""

msgid ""Danish""
msgstr ""dánsky""

msgid ""December""
msgstr ""prosinec""

msgid ""Dutch""
msgstr ""nizozemsky""

msgid ""English""
msgstr ""anglicky""

msgid ""Esperanto""
msgstr ""esperantsky""

msgid ""Estonian""
msgstr ""estonsky""

msgid ""February""
msgstr ""únor""

msgid ""Finnish""
msgstr ""finsky""

msgid ""French""
msgstr ""francouzsky""

msgid ""Fri""
msgstr ""pá""

msgid ""Friday""
msgstr ""pátek""

msgid ""Frisian""
msgstr ""frísky""

msgid ""Galician""
msgstr ""galicijsky""

msgid ""Georgian""
msgstr ""gruzínštinou""

msgid ""German""
msgstr ""německy""

msgid ""Greek""
msgstr ""řecky""

msgid ""Hebrew""
msgstr ""hebrejsky""

msgid ""Hindi""
msgstr ""hindsky""

msgid ""Hungarian""
msgstr ""maďarsky""

msgid ""Icelandic""
msgstr ""islandsky""

msgid ""Ido""
msgstr ""idem""

msgid ""Igbo""
msgstr ""igboštinou""

msgid ""Indonesian""
msgstr ""indonésky""

msgid ""Interlingua""
msgstr ""interlingua""

msgid ""Irish""
msgstr ""irsky""

msgid ""Italian""
msgstr ""italsky""

msgid ""January""
msgstr ""leden""

msgid ""Japanese""
msgstr ""japonsky""

msgid ""July""
msgstr ""červenec""

msgid ""June""
msgstr ""červen""

msgid ""Kabyle""
msgstr ""kabylštinou""

msgid ""Kannada""
msgstr ""kannadsky""

msgid ""Kazakh""
msgstr ""kazašsky""

msgid ""Khmer""
msgstr ""khmersky""

msgid ""Korean""
msgstr ""korejsky""

msgid ""Kyrgyz""
msgstr ""kyrgyzštinou""

msgid ""Latvian""
msgstr ""lotyšsky""

msgid ""Lithuanian""
msgstr ""litevsky""

msgid ""Lower Sorbian""
msgstr ""dolnolužickou srbštinou""

msgid ""Luxembourgish""
msgstr ""lucembursky""

msgid ""Macedonian""
msgstr ""makedonsky""

msgid ""Malay""
msgstr ""malajštinou""

msgid ""Malayalam""
msgstr ""malajálamsky""

msgid ""Marathi""
msgstr ""marathi""

msgid ""March""
msgstr ""březen""

msgid ""May""
msgstr ""květen""

msgid ""Mexican Spanish""
msgstr ""mexickou španělštinou""

msgid ""Mon""
msgstr ""po""

msgid ""Monday""
msgstr ""pondělí""

msgid ""Mongolian""
msgstr ""mongolsky""

msgid ""Nepali""
msgstr ""nepálsky""

msgid ""Nicaraguan Spanish""
msgstr ""nikaragujskou španělštinou""

msgid ""Norwegian Bokmål""
msgstr ""bokmål norštinou""

msgid ""Norwegian Nynorsk""
msgstr ""norsky (Nynorsk)""

msgid ""November""
msgstr ""listopad""

msgid ""October""
msgstr ""říjen""

msgid ""Ossetic""
msgstr ""osetštinou""

msgid ""PM""
msgstr ""odp.""

msgid ""Persian""
msgstr ""persky""

msgid ""Polish""
msgstr ""polsky""

msgid ""Portuguese""
msgstr ""portugalsky""

msgid ""Punjabi""
msgstr ""paňdžábsky""

msgid ""Romanian""
msgstr ""rumunsky""

msgid ""Russian""
msgstr ""rusky""

msgid ""Sat""
msgstr ""so""

msgid ""Saturday""
msgstr ""sobota""

msgid ""Scottish Gaelic""
msgstr ""skotskou keltštinou""

msgid ""September""
msgstr ""září""

msgid ""Serbian""
msgstr ""srbsky""

msgid ""Serbian Latin""
msgstr ""srbsky (latinkou)""

msgid ""Simplified Chinese""
msgstr ""čínsky (zjednodušeně)""

msgid ""Slovak""
msgstr ""slovensky""

msgid ""Slovenian""
msgstr ""slovinsky""

msgid ""Spanish""
msgstr ""španělsky""

msgid ""Sun""
msgstr ""ne""

msgid ""Sunday""
msgstr ""neděle""

msgid ""Swahili""
msgstr ""svahilsky""

msgid ""Swedish""
msgstr ""švédsky""

msgid ""Tajik""
msgstr ""Tádžik""

msgid ""Tamil""
msgstr ""tamilsky""

msgid ""Tatar""
msgstr ""tatarsky""

msgid ""Telugu""
msgstr ""telužsky""

msgid ""Thai""
msgstr ""thajsky""

msgid ""Thu""
msgstr ""čt""

msgid ""Thursday""
msgstr ""čtvrtek""

msgid ""Traditional Chinese""
msgstr ""čínsky (tradičně)""

msgid ""Tue""
msgstr ""út""

msgid ""Tuesday""
msgstr ""úterý""

msgid ""Turkish""
msgstr ""turecky""

msgid ""Turkmen""
msgstr ""turkmenštinou""

msgid ""Udmurt""
msgstr ""udmurtsky""

msgid ""Ukrainian""
msgstr ""ukrajinsky""

msgid ""Upper Sorbian""
msgstr ""hornolužickou srbštinou""

msgid ""Urdu""
msgstr ""urdsky""

msgid ""Uyghur""
msgstr ""Ujgurština""

msgid ""Uzbek""
msgstr ""uzbecky""

msgid ""Venezuelan Spanish""
msgstr ""venezuelskou španělštinou""

msgid ""Vietnamese""
msgstr ""vietnamsky""

msgid ""Wed""
msgstr ""st""

msgid ""Wednesday""
msgstr ""středa""

msgid ""Welsh""
msgstr ""velšsky""

msgid ""a minute ago""
msgid_plural ""%[1]v minutes ago""
msgstr[0] ""před minutou""
msgstr[1] ""před %[1]v minutami""
msgstr[2] ""o %[1]v minuty dříve""
msgstr[3] ""před %[1]v minutami""

msgid ""a minute from now""
msgid_plural ""%[1]v minutes from now""
msgstr[0] ""za minutu""
msgstr[1] ""za %[1]v minuty""
msgstr[2] ""za %[1]v minuty""
msgstr[3] ""za %[1]v minut""

msgid ""a second ago""
msgid_plural ""%[1]v seconds ago""
msgstr[0] ""před sekundou""
msgstr[1] ""před %[1]v sekundami""
msgstr[2] ""o %[1]v sekundy dříve""
msgstr[3] ""před %[1]v sekundami""

msgid ""a second from now""
msgid_plural ""%[1]v seconds from now""
msgstr[0] ""za sekundu""
msgstr[1] ""za %[1]v sekundy""
msgstr[2] ""za %[1]v sekundy""
msgstr[3] ""za %[1]v sekund""

msgid ""a.m.""
msgstr ""dop.""

msgid ""an hour ago""
msgid_plural ""%[1]v hours ago""
msgstr[0] ""před hodinou""
msgstr[1] ""před %[1]v hodinami""
msgstr[2] ""o %[1]v hodin dříve""
msgstr[3] ""před %[1]v hodinami""

msgid ""an hour from now""
msgid_plural ""%[1]v hours from now""
msgstr[0] ""za hodinu""
msgstr[1] ""za %[1]v hodiny""
msgstr[2] ""za %[1]v hodiny""
msgstr[3] ""za %[1]v hodin""

msgid ""apr""
msgstr ""dub""

msgid ""aug""
msgstr ""srp""

msgid ""dec""
msgstr ""pro""

msgid ""eight""
msgstr ""osm""

msgid ""feb""
msgstr ""úno""

msgid ""five""
msgstr ""pět""

msgid ""four""
msgstr ""čtyři""

msgid ""jan""
msgstr ""led""

msgid ""jul""
msgstr ""čec""

msgid ""jun""
msgstr ""čen""

msgid ""mar""
msgstr ""bře""

msgid ""may""
msgstr ""kvě""

msgid ""midnight""
msgstr ""půlnoc""

msgid ""nine""
msgstr ""devět""

msgid ""noon""
msgstr ""poledne""

msgid ""nov""
msgstr ""lis""

msgid ""now""
msgstr ""nyní""

msgid ""oct""
msgstr ""říj""

msgid ""one""
msgstr ""jedna""

msgid ""p.m.""
msgstr ""odp.""

msgid ""sep""
msgstr ""zář""

msgid ""seven""
msgstr ""sedm""

msgid ""six""
msgstr ""šest""

msgid ""three""
msgstr ""tři""

msgid ""today""
msgstr ""dnes""

msgid ""tomorrow""
msgstr ""zítra""

msgid ""two""
msgstr ""dvě""

msgid ""yesterday""
msgstr ""včera""

msgctxt ""abbrev. month""
msgid ""April""
msgstr ""Dub.""

msgctxt ""abbrev. month""
msgid ""Aug.""
msgstr ""Srp.""

msgctxt ""abbrev. month""
msgid ""Dec.""
msgstr ""Pro.""

msgctxt ""abbrev. month""
msgid ""Feb.""
msgstr ""Úno.""

msgctxt ""abbrev. month""
msgid ""Jan.""
msgstr ""Led.""

msgctxt ""abbrev. month""
msgid ""July""
msgstr ""Čec.""

msgctxt ""abbrev. month""
msgid ""June""
msgstr ""Čer.""

msgctxt ""abbrev. month""
msgid ""March""
msgstr ""Bře.""

msgctxt ""abbrev. month""
msgid ""May""
msgstr ""Kvě.""

msgctxt ""abbrev. month""
msgid ""Nov.""
msgstr ""Lis.""

msgctxt ""abbrev. month""
msgid ""Oct.""
msgstr ""Říj.""

msgctxt ""abbrev. month""
msgid ""Sept.""
msgstr ""Zář.""

msgctxt ""alt. month""
msgid ""April""
msgstr ""dubna""

msgctxt ""alt. month""
msgid ""August""
msgstr ""srpna""

msgctxt ""alt. month""
msgid ""December""
msgstr ""prosince""

msgctxt ""alt. month""
msgid ""February""
msgstr ""února""

msgctxt ""alt. month""
msgid ""January""
msgstr ""ledna""

msgctxt ""alt. month""
msgid ""July""
msgstr ""července""

msgctxt ""alt. month""
msgid ""June""
msgstr ""června""

msgctxt ""alt. month""
msgid ""March""
msgstr ""března""

msgctxt ""alt. month""
msgid ""May""
msgstr ""května""

msgctxt ""alt. month""
msgid ""November""
msgstr ""listopadu""

msgctxt ""alt. month""
msgid ""October""
msgstr ""října""

msgctxt ""alt. month""
msgid ""September""
msgstr ""září""

msgctxt ""naturaltime-future""
msgid ""%[1]v day""
msgid_plural ""%[1]v days""
msgstr[0] ""%[1]v den""
msgstr[1] ""%[1]v dny""
msgstr[2] ""%[1]v dní""
msgstr[3] ""%[1]v dní""

msgctxt ""naturaltime-future""
msgid ""%[1]v hour""
msgid_plural ""%[1]v hours""
msgstr[0] ""%[1]v hodina""
msgstr[1] ""%[1]v hodiny""
msgstr[2] ""%[1]v hodin""
msgstr[3] ""%[1]v hodin""

msgctxt ""naturaltime-future""
msgid ""%[1]v minute""
msgid_plural ""%[1]v minutes""
msgstr[0] ""%[1]v minuta""
msgstr[1] ""%[1]v minuty""
msgstr[2] ""%[1]v minut""
msgstr[3] ""%[1]v minut""

msgctxt ""naturaltime-future""
msgid ""%[1]v month""
msgid_plural ""%[1]v months""
msgstr[0] ""%[1]v měsíc""
msgstr[1] ""%[1]v měsíce""
msgstr[2] ""%[1]v měsíců""
msgstr[3] ""%[1]v měsíců""

msgctxt ""naturaltime-future""
msgid ""%[1]v week""
msgid_plural ""%[1]v weeks""
msgstr[0] ""%[1]v týden""
msgstr[1] ""%[1]v týdny""
msgstr[2] ""%[1]v týdnů""
msgstr[3] ""%[1]v týdnů""

msgctxt ""naturaltime-future""
msgid ""%[1]v year""
msgid_plural ""%[1]v years""
msgstr[0] ""%[1]v rok""
msgstr[1] ""%[1]v roky""
msgstr[2] ""%[1]v let""
msgstr[3] ""%[1]v let""

msgctxt ""naturaltime-past""
msgid ""%[1]v day""
msgid_plural ""%[1]v days""
msgstr[0] ""%[1]v dnem""
msgstr[1] ""%[1]v dny""
msgstr[2] ""%[1]v dny""
msgstr[3] ""%[1]v dny""

msgctxt ""naturaltime-past""
msgid ""%[1]v hour""
msgid_plural ""%[1]v hours""
msgstr[0] ""%[1]v hodinou""
msgstr[1] ""%[1]v hodinami""
msgstr[2] ""%[1]v hodinami""
msgstr[3] ""%[1]v hodinami""

msgctxt ""naturaltime-past""
msgid ""%[1]v minute""
msgid_plural ""%[1]v minutes""
msgstr[0] ""%[1]v minutou""
msgstr[1] ""%[1]v minutami""
msgstr[2] ""%[1]v minutami""
msgstr[3] ""%[1]v minutami""

msgctxt ""naturaltime-past""
msgid ""%[1]v month""
msgid_plural ""%[1]v months""
msgstr[0] ""%[1]v měsícem""
msgstr[1] ""%[1]v měsíci""
msgstr[2] ""%[1]v měsícem""
msgstr[3] ""%[1]v měsíci""

msgctxt ""naturaltime-past""
msgid ""%[1]v week""
msgid_plural ""%[1]v weeks""
msgstr[0] ""%[1]v týdnem""
msgstr[1] ""%[1]v týdny""
msgstr[2] ""%[1]v týdny""
msgstr[3] ""%[1]v týdny""

msgctxt ""naturaltime-past""
msgid ""%[1]v year""
msgid_plural ""%[1]v years""
msgstr[0] ""%[1]v rokem""
msgstr[1] ""%[1]v lety""
msgstr[2] ""%[1]v rokem""
msgstr[3] ""%[1]v lety""

msgctxt ""ordinal 0""
msgid ""%vth""
msgstr ""%v.""

msgctxt ""ordinal 1""
msgid ""%vst""
msgstr ""%v.""

msgctxt ""ordinal 11, 12, 13""
msgid ""%vth""
msgstr ""%v.""

msgctxt ""ordinal 2""
msgid ""%vnd""
msgstr ""%v.""

msgctxt ""ordinal 3""
msgid ""%vrd""
msgstr ""%v.""

msgctxt ""ordinal 4""
msgid ""%vth""
msgstr ""%v.""

msgctxt ""ordinal 5""
msgid ""%vth""
msgstr ""%v.""

msgctxt ""ordinal 6""
msgid ""%vth""
msgstr ""%v.""

msgctxt ""ordinal 7""
msgid ""%vth""
msgstr ""%v.""

msgctxt ""ordinal 8""
msgid ""%vth""
msgstr ""%v.""

msgctxt ""ordinal 9""
msgid ""%vth""
msgstr ""%v.""
".
(** humanize/locale/cs/locale.go (New) *)
Definition loc_cs : locale_data := LD (bs "cs") [(bs "django.po", po_cs)]
  (Some (FD (bs "j. E Y") (bs "G:i") (bs "j. E Y G:i") (bs "F Y") (bs "j. F") (bs "d.m.Y") (bs "d.m.Y G:i"))).

(** humanize/locale/cy/django.po *)
Definition po_cy : bytes := bs "# This file is distributed under the same license as the Django package.
# 
# Translators:
# Jannis Leidel <jannis@leidel.info>, 2011
# Maredudd ap Gwyndaf <maredudd@maredudd.com>, 2012,2014
msgid """"
msgstr """"
""Project-Id-Version: django\n""
""Report-Msgid-Bugs-To: \n""
""POT-Creation-Date: 2019-09-27 22:40+0200\n""
""PO-Revision-Date: 2019-11-05 00:38+0000\n""
""Last-Translator: Ramiro Morales\n""
""Language-Team: Welsh (http://www.transifex.com/django/django/language/cy/)\n""
""Language: cy\n""
""MIME-Version: 1.0\n""
""Content-Type: text/plain; charset=UTF-8\n""
""Content-Transfer-Encoding: 8bit\n""
""Plural-Forms: nplurals=4; plural=(n==1) ? 0 : (n==2) ? 1 : (n != 8 && n != 11) ? 2 : 3;\n""

msgid ""%[1]d byte""
msgid_plural ""%[1]d bytes""
msgstr[0] ""%[1]d beit""
msgstr[1] ""%[1]d beit""
msgstr[2] ""%[1]d beit""
msgstr[3] ""%[1]d beit""

msgid ""%[1]s billion""
msgid_plural ""%[1]s billion""
msgstr[0] ""%[1]s biliwn""
msgstr[1] ""%[1]s biliwn""
msgstr[2] ""%[1]s biliwn""
msgstr[3] ""%[1]s biliwn""

msgid ""%[1]s decillion""
msgid_plural ""%[1]s decillion""
msgstr[0] ""%[1]s dengiliwn""
msgstr[1] ""%[1]s dengiliwn""
msgstr[2] ""%[1]s dengiliwn""
msgstr[3] ""%[1]s dengiliwn""

msgid ""%[1]s googol""
msgid_plural ""%[1]s googol""
msgstr[0] ""%[1]s gwgol""
msgstr[1] ""%[1]s gwgol""
msgstr[2] ""%[1]s gwgol""
msgstr[3] ""%[1]s gwgol""

msgid ""%[1]s million""
msgid_plural ""%[1]s million""
msgstr[0] ""%[1]s miliwn""
msgstr[1] ""%[1]s miliwn""
msgstr[2] ""%[1]s miliwn""
msgstr[3] ""%[1]s miliwn""

msgid ""%[1]s nonillion""
msgid_plural ""%[1]s nonillion""
msgstr[0] ""%[1]s noniliwn""
msgstr[1] ""%[1]s noniliwn""
msgstr[2] ""%[1]s noniliwn""
msgstr[3] ""%[1]s noniliwn""

msgid ""%[1]s octillion""
msgid_plural ""%[1]s octillion""
msgstr[0] ""%[1]s octiliwn""
msgstr[1] ""%[1]s octiliwn""
msgstr[2] ""%[1]s octiliwn""
msgstr[3] ""%[1]s octiliwn""

msgid ""%[1]s quadrillion""
msgid_plural ""%[1]s quadrillion""
msgstr[0] ""%[1]s cwadriliwn""
msgstr[1] ""%[1]s cwadriliwn""
msgstr[2] ""%[1]s cwadriliwn""
msgstr[3] ""%[1]s cwadriliwn""

msgid ""%[1]s quintillion""
msgid_plural ""%[1]s quintillion""
msgstr[0] ""%[1]s cwintiliwn""
msgstr[1] ""%[1]s cwintiliwn""
msgstr[2] ""%[1]s cwintiliwn""
msgstr[3] ""%[1]s cwintiliwn""

msgid ""%[1]s septillion""
msgid_plural ""%[1]s septillion""
msgstr[0] ""%[1]s septiliwn""
msgstr[1] ""%[1]s septiliwn""
msgstr[2] ""%[1]s septiliwn""
msgstr[3] ""%[1]s septiliwn""

msgid ""%[1]s sextillion""
msgid_plural ""%[1]s sextillion""
msgstr[0] ""%[1]s secstiliwn""
msgstr[1] ""%[1]s secstiliwn""
msgstr[2] ""%[1]s secstiliwn""
msgstr[3] ""%[1]s secstiliwn""

msgid ""%[1]s trillion""
msgid_plural ""%[1]s trillion""
msgstr[0] ""%[1]s triliwn""
msgstr[1] ""%[1]s triliwn""
msgstr[2] ""%[1]s triliwn""
msgstr[3] ""%[1]s triliwn""

msgid ""%s GB""
msgstr ""%s GB""

msgid ""%s KB""
msgstr ""%s KB""

msgid ""%s MB""
msgstr ""%s MB""

msgid ""%s PB""
msgstr ""%s PB""

msgid ""%s TB""
msgstr ""%s TB""

msgid "", ""
msgstr "",""

msgid ""AM""
msgstr ""YB""

msgid ""Afrikaans""
msgstr ""Affricaneg""

msgid ""Albanian""
msgstr ""Albaneg""

msgid ""April""
msgstr ""Ebrill""

msgid ""Arabic""
msgstr ""Arabeg""

msgid ""Argentinian Spanish""
msgstr ""Sbaeneg Ariannin""

msgid ""Armenian""
msgstr """"

msgid ""Asturian""
msgstr ""Astwrieg""

msgid ""August""
msgstr ""Awst""

msgid ""Australian English""
msgstr ""Saesneg Awstralia""

msgid ""Azerbaijani""
msgstr ""Azerbaijanaidd""

msgid ""Basque""
msgstr ""Basgeg""

msgid ""Belarusian""
msgstr ""Belarwseg""

msgid ""Bengali""
msgstr ""Bengaleg""

msgid ""Bosnian""
msgstr ""Bosnieg""

msgid ""Brazilian Portuguese""
msgstr ""Portiwgaleg Brasil""

msgid ""Breton""
msgstr ""Llydaweg""

msgid ""British English""
msgstr ""Saesneg Prydain""

msgid ""Bulgarian""
msgstr ""Bwlgareg""

msgid ""Burmese""
msgstr ""Byrmaneg""

msgid ""Catalan""
msgstr ""Catalaneg""

msgid ""Colombian Spanish""
msgstr """"

msgid ""Croatian""
msgstr ""Croasieg""

msgid ""Czech""
msgstr ""Tsieceg""

msgid ""Danish""
msgstr ""Daneg""

msgid ""December""
msgstr ""Rhagfyr""

msgid ""Dutch""
msgstr ""Iseldireg""

msgid ""English""
msgstr ""Saesneg""

msgid ""Esperanto""
msgstr ""Esperanto""

msgid ""Estonian""
msgstr ""Estoneg""

msgid ""February""
msgstr ""Chwefror""

msgid ""Finnish""
msgstr ""Ffinneg""

msgid ""French""
msgstr ""Ffrangeg""

msgid ""Fri""
msgstr ""Gwe""

msgid ""Friday""
msgstr ""Dydd Gwener""

msgid ""Frisian""
msgstr ""Ffrisieg""

msgid ""Galician""
msgstr ""Galisieg""

msgid ""Georgian""
msgstr ""Georgeg""

msgid ""German""
msgstr ""Almaeneg""

msgid ""Greek""
msgstr ""Groegedd""

msgid ""Hebrew""
msgstr ""Hebraeg""

msgid ""Hindi""
msgstr ""Hindi""

msgid ""Hungarian""
msgstr ""Hwngareg""

msgid ""Icelandic""
msgstr ""Islandeg""

msgid ""Ido""
msgstr ""Ido""

msgid ""Indonesian""
msgstr ""Indoneseg""

msgid ""Interlingua""
msgstr ""Interlingua""

msgid ""Irish""
msgstr ""Gwyddeleg""

msgid ""Italian""
msgstr ""Eidaleg""

msgid ""January""
msgstr ""Ionawr""

msgid ""Japanese""
msgstr ""Siapanëeg""

msgid ""July""
msgstr ""Gorffenaf""

msgid ""June""
msgstr ""Mehefin""

msgid ""Kabyle""
msgstr """"

msgid ""Kannada""
msgstr ""Canadeg""

msgid ""Kazakh""
msgstr ""Casacstanaidd""

msgid ""Khmer""
msgstr ""Chmereg""

msgid ""Korean""
msgstr ""Corëeg""

msgid ""Latvian""
msgstr ""Latfieg""

msgid ""Lithuanian""
msgstr ""Lithwaneg""

msgid ""Lower Sorbian""
msgstr """"

msgid ""Luxembourgish""
msgstr ""Lwcsembergeg""

msgid ""Macedonian""
msgstr ""Macedoneg""

msgid ""Malayalam""
msgstr ""Malaialam""

msgid ""Marathi""
msgstr ""Marathi""

msgid ""March""
msgstr ""Mawrth""

msgid ""May""
msgstr ""Mai""

msgid ""Mexican Spanish""
msgstr ""Sbaeneg Mecsico""

msgid ""Mon""
msgstr ""Llu""

msgid ""Monday""
msgstr ""Dydd Llun""

msgid ""Mongolian""
msgstr ""Mongoleg""

msgid ""Nepali""
msgstr ""Nepaleg""

msgid ""Nicaraguan Spanish""
msgstr ""Sbaeneg Nicaragwa""

msgid ""Norwegian Bokmål""
msgstr """"

msgid ""Norwegian Nynorsk""
msgstr ""Ninorsk Norwyeg""

msgid ""November""
msgstr ""Tachwedd""

msgid ""October""
msgstr ""Hydref""

msgid ""Ossetic""
msgstr ""Osetieg""

msgid ""PM""
msgstr ""YH""

msgid ""Persian""
msgstr ""Persieg""

msgid ""Polish""
msgstr ""Pwyleg""

msgid ""Portuguese""
msgstr ""Portiwgaleg""

msgid ""Punjabi""
msgstr ""Pwnjabi""

msgid ""Romanian""
msgstr ""Romaneg""

msgid ""Russian""
msgstr ""Rwsieg""

msgid ""Sat""
msgstr ""Sad""

msgid ""Saturday""
msgstr ""Dydd Sadwrn""

msgid ""Scottish Gaelic""
msgstr """"

msgid ""September""
msgstr ""Medi""

msgid ""Serbian""
msgstr ""Serbeg""

msgid ""Serbian Latin""
msgstr ""Lladin Serbiaidd""

msgid ""Simplified Chinese""
msgstr ""Tsieinëeg Syml""

msgid ""Slovak""
msgstr ""Slofaceg""

msgid ""Slovenian""
msgstr ""Slofeneg""

msgid ""Spanish""
msgstr ""Sbaeneg""

msgid ""Sun""
msgstr ""Sul""

msgid ""Sunday""
msgstr ""Dydd Sul""

msgid ""Swahili""
msgstr ""Swahili""

msgid ""Swedish""
msgstr ""Swedeg""

msgid ""Tamil""
msgstr ""Tamil""

msgid ""Tatar""
msgstr ""Tatareg""

msgid ""Telugu""
msgstr ""Telwgw""

msgid ""Thai""
msgstr ""Tai""

msgid ""Thu""
msgstr ""Iau""

msgid ""Thursday""
msgstr ""Dydd Iau""

msgid ""Traditional Chinese""
msgstr ""Tseinëeg Traddodiadol""

msgid ""Tue""
msgstr ""Maw""

msgid ""Tuesday""
msgstr ""Dydd Mawrth""

msgid ""Turkish""
msgstr ""Twrceg""

msgid ""Udmurt""
msgstr ""Wdmwrteg""

msgid ""Ukrainian""
msgstr ""Wcreineg""

msgid ""Upper Sorbian""
msgstr """"

msgid ""Urdu""
msgstr ""Wrdw""

msgid ""Uzbek""
msgstr """"

msgid ""Venezuelan Spanish""
msgstr ""Sbaeneg Feneswela""

msgid ""Vietnamese""
msgstr ""Fietnameg""

msgid ""Wed""
msgstr ""Mer""

msgid ""Wednesday""
msgstr ""Dydd Mercher""

msgid ""Welsh""
msgstr ""Cymraeg""

msgid ""a minute ago""
msgid_plural ""%[1]v minutes ago""
msgstr[0] ""un munud yn ôl""
msgstr[1] ""%[1]v munud yn ôl""
msgstr[2] ""%[1]v munud yn ôl""
msgstr[3] ""%[1]v munud yn ôl""

msgid ""a minute from now""
msgid_plural ""%[1]v minutes from now""
msgstr[0] ""un munud o nawr""
msgstr[1] ""%[1]v funud o nawr""
msgstr[2] ""%[1]v munud o nawr""
msgstr[3] ""%[1]v munud o nawr""

msgid ""a second ago""
msgid_plural ""%[1]v seconds ago""
msgstr[0] ""un eiliad yn ôl""
msgstr[1] ""%[1]v eiliad yn ôl""
msgstr[2] ""%[1]v eiliad yn ôl""
msgstr[3] ""%[1]v eiliad yn ôl""

msgid ""a second from now""
msgid_plural ""%[1]v seconds from now""
msgstr[0] ""un eiliad o nawr""
msgstr[1] ""%[1]v eiliad o nawr""
msgstr[2] ""%[1]v eiliad o nawr""
msgstr[3] ""%[1]v eiliad o nawr""

msgid ""a.m.""
msgstr ""y.b.""

msgid ""an hour ago""
msgid_plural ""%[1]v hours ago""
msgstr[0] ""un awr yn ôl""
msgstr[1] ""%[1]v awr yn ôl""
msgstr[2] ""%[1]v awr yn ôl""
msgstr[3] ""%[1]v awr yn ôl""

msgid ""an hour from now""
msgid_plural ""%[1]v hours from now""
msgstr[0] ""un awr o nawr""
msgstr[1] ""%[1]v awr o nawr""
msgstr[2] ""%[1]v awr o nawr""
msgstr[3] ""%[1]v awr o nawr""

msgid ""apr""
msgstr ""ebr""

msgid ""aug""
msgstr ""aws""

msgid ""dec""
msgstr ""rhag""

msgid ""eight""
msgstr ""wyth""

msgid ""feb""
msgstr ""chw""

msgid ""five""
msgstr ""pump""

msgid ""four""
msgstr ""pedwar""

msgid ""jan""
msgstr ""ion""

msgid ""jul""
msgstr ""gor""

msgid ""jun""
msgstr ""meh""

msgid ""mar""
msgstr ""maw""

msgid ""may""
msgstr ""mai""

msgid ""midnight""
msgstr ""canol nos""

msgid ""nine""
msgstr ""naw""

msgid ""noon""
msgstr ""canol dydd""

msgid ""nov""
msgstr ""tach""

msgid ""now""
msgstr ""nawr""

msgid ""oct""
msgstr ""hyd""

msgid ""one""
msgstr ""un""

msgid ""p.m.""
msgstr ""y.h.""

msgid ""sep""
msgstr ""med""

msgid ""seven""
msgstr ""saith""

msgid ""six""
msgstr ""chwech""

msgid ""three""
msgstr ""tri""

msgid ""today""
msgstr ""heddiw""

msgid ""tomorrow""
msgstr ""fory""

msgid ""two""
msgstr ""dau""

msgid ""yesterday""
msgstr ""ddoe""

msgctxt ""abbrev. month""
msgid ""April""
msgstr ""Ebrill""

msgctxt ""abbrev. month""
msgid ""Aug.""
msgstr ""Awst""

msgctxt ""abbrev. month""
msgid ""Dec.""
msgstr ""Rhag.""

msgctxt ""abbrev. month""
msgid ""Feb.""
msgstr ""Chwe.""

msgctxt ""abbrev. month""
msgid ""Jan.""
msgstr ""Ion.""

msgctxt ""abbrev. month""
msgid ""July""
msgstr ""Gorff.""

msgctxt ""abbrev. month""
msgid ""June""
msgstr ""Meh.""

msgctxt ""abbrev. month""
msgid ""March""
msgstr ""Mawrth""

msgctxt ""abbrev. month""
msgid ""May""
msgstr ""Mai""

msgctxt ""abbrev. month""
msgid ""Nov.""
msgstr ""Tach.""

msgctxt ""abbrev. month""
msgid ""Oct.""
msgstr ""Hydr.""

msgctxt ""abbrev. month""
msgid ""Sept.""
msgstr ""Medi""

msgctxt ""alt. month""
msgid ""April""
msgstr ""Ebrill""

msgctxt ""alt. month""
msgid ""August""
msgstr ""Awst""

msgctxt ""alt. month""
msgid ""December""
msgstr ""Rhagfyr""

msgctxt ""alt. month""
msgid ""February""
msgstr ""Chwefror""

msgctxt ""alt. month""
msgid ""January""
msgstr ""Ionawr""

msgctxt ""alt. month""
msgid ""July""
msgstr ""Gorffenaf""

msgctxt ""alt. month""
msgid ""June""
msgstr ""Mehefin""

msgctxt ""alt. month""
msgid ""March""
msgstr ""Mawrth""

msgctxt ""alt. month""
msgid ""May""
msgstr ""Mai""

msgctxt ""alt. month""
msgid ""November""
msgstr ""Tachwedd""

msgctxt ""alt. month""
msgid ""October""
msgstr ""Hydref""

msgctxt ""alt. month""
msgid ""September""
msgstr ""Medi""
".
(** humanize/locale/cy/locale.go (New) *)
Definition loc_cy : locale_data := LD (bs "cy") [(bs "django.po", po_cy)]
  (Some (FD (bs "j F Y") (bs "P") (bs "j F Y, P") (bs "F Y") (bs "j F") (bs "d/m/Y") (bs "d/m/Y P"))).

(** humanize/locale/da/django.po *)
Definition po_da : bytes := bs "# This file is distributed under the same license as the Django package.
# 
# Translators:
# Christian Joergensen <christian@gmta.info>, 2012
# Danni Randeris <danniranderis+djangocore@gmail.com>, 2014
# Erik Ramsgaard Wognsen <r4mses@gmail.com>, 2020-2025
# Erik Ramsgaard Wognsen <r4mses@gmail.com>, 2013-2019
# Finn Gruwier Larsen, 2011
# Jannis Leidel <jannis@leidel.info>, 2011
# jonaskoelker <jonaskoelker@gnu.org>, 2012
# Mads Chr. Olesen <mads@mchro.dk>, 2013
# valberg <valberg@orn.li>, 2015
msgid """"
msgstr """"
""Project-Id-Version: django\n""
""Report-Msgid-Bugs-To: \n""
""POT-Creation-Date: 2025-03-19 11:30-0500\n""
""PO-Revision-Date: 2025-04-01 15:04-0500\n""
""Last-Translator: Erik Ramsgaard Wognsen <r4mses@gmail.com>, 2020-2025\n""
""Language-Team: Danish (http://app.transifex.com/django/django/language/da/)\n""
""Language: da\n""
""MIME-Version: 1.0\n""
""Content-Type: text/plain; charset=UTF-8\n""
""Content-Transfer-Encoding: 8bit\n""
""Plural-Forms: nplurals=2; plural=(n != 1);\n""

msgid ""%[1]d byte""
msgid_plural ""%[1]d bytes""
msgstr[0] ""%[1]d byte""
msgstr[1] ""%[1]d bytes""

msgid ""%[1]s billion""
msgid_plural ""%[1]s billion""
msgstr[0] ""%[1]s milliard""
msgstr[1] ""%[1]s milliarder""

msgid ""%[1]s decillion""
msgid_plural ""%[1]s decillion""
msgstr[0] ""%[1]s kvintilliard""
msgstr[1] ""%[1]s kvintilliarder""

msgid ""%[1]s googol""
msgid_plural ""%[1]s googol""
msgstr[0] ""%[1]s gogol""
msgstr[1] ""%[1]s gogoler""

msgid ""%[1]s million""
msgid_plural ""%[1]s million""
msgstr[0] ""%[1]s million""
msgstr[1] ""%[1]s millioner""

msgid ""%[1]s nonillion""
msgid_plural ""%[1]s nonillion""
msgstr[0] ""%[1]s kvintillion""
msgstr[1] ""%[1]s kvintillioner""

msgid ""%[1]s octillion""
msgid_plural ""%[1]s octillion""
msgstr[0] ""%[1]s kvadrilliard""
msgstr[1] ""%[1]s kvadrilliarder""

msgid ""%[1]s quadrillion""
msgid_plural ""%[1]s quadrillion""
msgstr[0] ""%[1]s billiard""
msgstr[1] ""%[1]s billiarder""

msgid ""%[1]s quintillion""
msgid_plural ""%[1]s quintillion""
msgstr[0] ""%[1]s trillion""
msgstr[1] ""%[1]s trillioner""

msgid ""%[1]s septillion""
msgid_plural ""%[1]s septillion""
msgstr[0] ""%[1]s kvadrillion""
msgstr[1] ""%[1]s kvadrillioner""

msgid ""%[1]s sextillion""
msgid_plural ""%[1]s sextillion""
msgstr[0] ""%[1]s trilliard""
msgstr[1] ""%[1]s trilliarder""

msgid ""%[1]s trillion""
msgid_plural ""%[1]s trillion""
msgstr[0] ""%[1]s billion""
msgstr[1] ""%[1]s billioner""

msgid ""%[1]v ago""
msgstr ""%[1]v siden""

msgid ""%[1]v day""
msgid_plural ""%[1]v days""
msgstr[0] ""%[1]v dag""
msgstr[1] ""%[1]v dage""

msgid ""%[1]v from now""
msgstr ""%[1]v fra nu af""

msgid ""%[1]v hour""
msgid_plural ""%[1]v hours""
msgstr[0] ""%[1]v time""
msgstr[1] ""%[1]v timer""

msgid ""%[1]v minute""
msgid_plural ""%[1]v minutes""
msgstr[0] ""%[1]v minut""
msgstr[1] ""%[1]v minutter""

msgid ""%[1]v month""
msgid_plural ""%[1]v months""
msgstr[0] ""%[1]v måned""
msgstr[1] ""%[1]v måneder""

msgid ""%[1]v week""
msgid_plural ""%[1]v weeks""
msgstr[0] ""%[1]v uge""
msgstr[1] ""%[1]v uger""

msgid ""%[1]v year""
msgid_plural ""%[1]v years""
msgstr[0] ""%[1]v år""
msgstr[1] ""%[1]v år""

msgid ""%s GB""
msgstr ""%s GB""

msgid ""%s KB""
msgstr ""%s KB""

msgid ""%s MB""
msgstr ""%s MB""

msgid ""%s PB""
msgstr ""%s PB""

msgid ""%s TB""
msgstr ""%s TB""

msgid "", ""
msgstr "", ""

msgid ""AM""
msgstr ""AM""

msgid ""Afrikaans""
msgstr ""afrikaans""

msgid ""Albanian""
msgstr ""albansk""

msgid ""Algerian Arabic""
msgstr ""algerisk arabisk""

msgid ""April""
msgstr ""april""

msgid ""Arabic""
msgstr ""arabisk""

msgid ""Argentinian Spanish""
msgstr ""argentinsk spansk""

msgid ""Armenian""
msgstr ""armensk""

msgid ""Asturian""
msgstr ""Asturisk""

msgid ""August""
msgstr ""august""

msgid ""Australian English""
msgstr ""australsk engelsk""

msgid ""Azerbaijani""
msgstr ""azerbaidjansk""

msgid ""Basque""
msgstr ""baskisk""

msgid ""Belarusian""
msgstr ""hviderussisk""

msgid ""Bengali""
msgstr ""bengalsk""

msgid ""Bosnian""
msgstr ""bosnisk""

msgid ""Brazilian Portuguese""
msgstr ""brasiliansk portugisisk""

msgid ""Breton""
msgstr ""bretonsk""

msgid ""British English""
msgstr ""britisk engelsk""

msgid ""Bulgarian""
msgstr ""bulgarsk""

msgid ""Burmese""
msgstr ""burmesisk""

msgid ""Catalan""
msgstr ""catalansk""

msgid ""Central Kurdish (Sorani)""
msgstr ""Centralkurdisk (Sorani)""

msgid ""Colombian Spanish""
msgstr ""colombiansk spansk""

msgid ""Croatian""
msgstr ""kroatisk""

msgid ""Czech""
msgstr ""tjekkisk""

msgid ""Danish""
msgstr ""dansk""

msgid ""December""
msgstr ""december""

msgid ""Dutch""
msgstr ""hollandsk""

msgid ""English""
msgstr ""engelsk""

msgid ""Esperanto""
msgstr ""esperanto""

msgid ""Estonian""
msgstr ""estisk""

msgid ""February""
msgstr ""februar""

msgid ""Finnish""
msgstr ""finsk""

msgid ""French""
msgstr ""fransk""

msgid ""Fri""
msgstr ""fre""

msgid ""Friday""
msgstr ""fredag""

msgid ""Frisian""
msgstr ""frisisk""

msgid ""Galician""
msgstr ""galicisk""

msgid ""Georgian""
msgstr ""georgisk""

msgid ""German""
msgstr ""tysk""

msgid ""Greek""
msgstr ""græsk""

msgid ""Hebrew""
msgstr ""hebraisk""

msgid ""Hindi""
msgstr ""hindi""

msgid ""Hungarian""
msgstr ""ungarsk""

msgid ""Icelandic""
msgstr ""islandsk""

msgid ""Ido""
msgstr ""Ido""

msgid ""Igbo""
msgstr ""igbo""

msgid ""Indonesian""
msgstr ""indonesisk""

msgid ""Interlingua""
msgstr ""interlingua""

msgid ""Irish""
msgstr ""irsk""

msgid ""Italian""
msgstr ""italiensk""

msgid ""January""
msgstr ""januar""

msgid ""Japanese""
msgstr ""japansk""

msgid ""July""
msgstr ""juli""

msgid ""June""
msgstr ""juni""

msgid ""Kabyle""
msgstr ""kabylsk""

msgid ""Kannada""
msgstr ""kannada""

msgid ""Kazakh""
msgstr ""kasakhisk""

msgid ""Khmer""
msgstr ""khmer""

msgid ""Korean""
msgstr ""koreansk""

msgid ""Kyrgyz""
msgstr ""kirgisisk""

msgid ""Latvian""
msgstr ""lettisk""

msgid ""Lithuanian""
msgstr ""litauisk""

msgid ""Lower Sorbian""
msgstr ""nedresorbisk""

msgid ""Luxembourgish""
msgstr ""luxembourgisk""

msgid ""Macedonian""
msgstr ""makedonsk""

msgid ""Malay""
msgstr ""malajisk""

msgid ""Malayalam""
msgstr ""malayalam""

msgid ""Marathi""
msgstr ""marathi""

msgid ""March""
msgstr ""marts""

msgid ""May""
msgstr ""maj""

msgid ""Mexican Spanish""
msgstr ""mexikansk spansk""

msgid ""Mon""
msgstr ""man""

msgid ""Monday""
msgstr ""mandag""

msgid ""Mongolian""
msgstr ""mongolsk""

msgid ""Nepali""
msgstr ""nepalesisk""

msgid ""Nicaraguan Spanish""
msgstr ""nicaraguansk spansk""

msgid ""Norwegian Bokmål""
msgstr ""norsk bokmål""

msgid ""Norwegian Nynorsk""
msgstr ""norsk nynorsk""

msgid ""November""
msgstr ""november""

msgid ""October""
msgstr ""oktober""

msgid ""Ossetic""
msgstr ""ossetisk""

msgid ""PM""
msgstr ""PM""

msgid ""Persian""
msgstr ""persisk""

msgid ""Polish""
msgstr ""polsk""

msgid ""Portuguese""
msgstr ""portugisisk""

msgid ""Punjabi""
msgstr ""punjabi""

msgid ""Romanian""
msgstr ""rumænsk""

msgid ""Russian""
msgstr ""russisk""

msgid ""Sat""
msgstr ""lør""

msgid ""Saturday""
msgstr ""lørdag""

msgid ""Scottish Gaelic""
msgstr ""skotsk gælisk""

msgid ""September""
msgstr ""september""

msgid ""Serbian""
msgstr ""serbisk""

msgid ""Serbian Latin""
msgstr ""serbisk (latin)""

msgid ""Simplified Chinese""
msgstr ""forenklet kinesisk""

msgid ""Slovak""
msgstr ""slovakisk""

msgid ""Slovenian""
msgstr ""slovensk""

msgid ""Spanish""
msgstr ""spansk""

msgid ""Sun""
msgstr ""søn""

msgid ""Sunday""
msgstr ""søndag""

msgid ""Swahili""
msgstr ""swahili""

msgid ""Swedish""
msgstr ""svensk""

msgid ""Tajik""
msgstr ""tadsjikisk""

msgid ""Tamil""
msgstr ""tamil""

msgid ""Tatar""
msgstr ""tatarisk""

msgid ""Telugu""
msgstr ""telugu""

msgid ""Thai""
msgstr ""thai""

msgid ""Thu""
msgstr ""tor""

msgid ""Thursday""
msgstr ""torsdag""

msgid ""Traditional Chinese""
msgstr ""traditionelt kinesisk""

msgid ""Tue""
msgstr ""tir""

msgid ""Tuesday""
msgstr ""tirsdag""

msgid ""Turkish""
msgstr ""tyrkisk""

msgid ""Turkmen""
msgstr ""turkmensk""

msgid ""Udmurt""
msgstr ""udmurtisk""

msgid ""Ukrainian""
msgstr ""ukrainsk""

msgid ""Upper Sorbian""
msgstr ""øvresorbisk""

msgid ""Urdu""
msgstr ""urdu""

msgid ""Uyghur""
msgstr ""uygurisk""

msgid ""Uzbek""
msgstr ""usbekisk""

msgid ""Venezuelan Spanish""
msgstr ""venezuelansk spansk""

msgid ""Vietnamese""
msgstr ""vietnamesisk""

msgid ""Wed""
msgstr ""ons""

msgid ""Wednesday""
msgstr ""onsdag""

msgid ""Welsh""
msgstr ""walisisk""

msgid ""a minute ago""
msgid_plural ""%[1]v minutes ago""
msgstr[0] ""et minut siden""
msgstr[1] ""%[1]v minutter siden""

msgid ""a minute from now""
msgid_plural ""%[1]v minutes from now""
msgstr[0] ""om et minut""
msgstr[1] ""om %[1]v minutter""

msgid ""a second ago""
msgid_plural ""%[1]v seconds ago""
msgstr[0] ""et sekund siden""
msgstr[1] ""%[1]v sekunder siden""

msgid ""a second from now""
msgid_plural ""%[1]v seconds from now""
msgstr[0] ""om et sekund""
msgstr[1] ""om %[1]v sekunder""

msgid ""a.m.""
msgstr ""a.m.""

msgid ""an hour ago""
msgid_plural ""%[1]v hours ago""
msgstr[0] ""en time siden""
msgstr[1] ""%[1]v timer siden""

msgid ""an hour from now""
msgid_plural ""%[1]v hours from now""
msgstr[0] ""om en time""
msgstr[1] ""om %[1]v timer""

msgid ""apr""
msgstr ""apr""

msgid ""aug""
msgstr ""aug""

msgid ""dec""
msgstr ""dec""

msgid ""eight""
msgstr ""otte""

msgid ""feb""
msgstr ""feb""

msgid ""five""
msgstr ""fem""

msgid ""four""
msgstr ""fire""

msgid ""jan""
msgstr ""jan""

msgid ""jul""
msgstr ""jul""

msgid ""jun""
msgstr ""jun""

msgid ""mar""
msgstr ""mar""

msgid ""may""
msgstr ""maj""

msgid ""midnight""
msgstr ""midnat""

msgid ""nine""
msgstr ""ni""

msgid ""noon""
msgstr ""middag""

msgid ""nov""
msgstr ""nov""

msgid ""now""
msgstr ""nu""

msgid ""oct""
msgstr ""okt""

msgid ""one""
msgstr ""en""

msgid ""p.m.""
msgstr ""p.m.""

msgid ""sep""
msgstr ""sept""

msgid ""seven""
msgstr ""syv""

msgid ""six""
msgstr ""seks""

msgid ""three""
msgstr ""tre""

msgid ""today""
msgstr ""i dag""

msgid ""tomorrow""
msgstr ""i morgen""

msgid ""two""
msgstr ""to""

msgid ""yesterday""
msgstr ""i går""

msgctxt ""abbrev. month""
msgid ""April""
msgstr ""april""

msgctxt ""abbrev. month""
msgid ""Aug.""
msgstr ""aug.""

msgctxt ""abbrev. month""
msgid ""Dec.""
msgstr ""dec.""

msgctxt ""abbrev. month""
msgid ""Feb.""
msgstr ""feb.""

msgctxt ""abbrev. month""
msgid ""Jan.""
msgstr ""jan.""

msgctxt ""abbrev. month""
msgid ""July""
msgstr ""juli""

msgctxt ""abbrev. month""
msgid ""June""
msgstr ""juni""

msgctxt ""abbrev. month""
msgid ""March""
msgstr ""marts""

msgctxt ""abbrev. month""
msgid ""May""
msgstr ""maj""

msgctxt ""abbrev. month""
msgid ""Nov.""
msgstr ""nov.""

msgctxt ""abbrev. month""
msgid ""Oct.""
msgstr ""okt.""

msgctxt ""abbrev. month""
msgid ""Sept.""
msgstr ""sept.""

msgctxt ""alt. month""
msgid ""April""
msgstr ""april""

msgctxt ""alt. month""
msgid ""August""
msgstr ""august""

msgctxt ""alt. month""
msgid ""December""
msgstr ""december""

msgctxt ""alt. month""
msgid ""February""
msgstr ""februar""

msgctxt ""alt. month""
msgid ""January""
msgstr ""januar""

msgctxt ""alt. month""
msgid ""July""
msgstr ""juli""

msgctxt ""alt. month""
msgid ""June""
msgstr ""juni""

msgctxt ""alt. month""
msgid ""March""
msgstr ""marts""

msgctxt ""alt. month""
msgid ""May""
msgstr ""maj""

msgctxt ""alt. month""
msgid ""November""
msgstr ""november""

msgctxt ""alt. month""
msgid ""October""
msgstr ""oktober""

msgctxt ""alt. month""
msgid ""September""
msgstr ""september""

msgctxt ""naturaltime-future""
msgid ""%[1]v day""
msgid_plural ""%[1]v days""
msgstr[0] ""%[1]v dag""
msgstr[1] ""%[1]v dage""

msgctxt ""naturaltime-future""
msgid ""%[1]v hour""
msgid_plural ""%[1]v hours""
msgstr[0] ""%[1]v time""
msgstr[1] ""%[1]v timer""

msgctxt ""naturaltime-future""
msgid ""%[1]v minute""
msgid_plural ""%[1]v minutes""
msgstr[0] ""%[1]v minut""
msgstr[1] ""%[1]v minutter""

msgctxt ""naturaltime-future""
msgid ""%[1]v month""
msgid_plural ""%[1]v months""
msgstr[0] ""%[1]v måned""
msgstr[1] ""%[1]v måneder""

msgctxt ""naturaltime-future""
msgid ""%[1]v week""
msgid_plural ""%[1]v weeks""
msgstr[0] ""%[1]v uge""
msgstr[1] ""%[1]v uger""

msgctxt ""naturaltime-future""
msgid ""%[1]v year""
msgid_plural ""%[1]v years""
msgstr[0] ""%[1]v år""
msgstr[1] ""%[1]v år""

msgctxt ""naturaltime-past""
msgid ""%[1]v day""
msgid_plural ""%[1]v days""
msgstr[0] ""%[1]v dag""
msgstr[1] ""%[1]v dage""

msgctxt ""naturaltime-past""
msgid ""%[1]v hour""
msgid_plural ""%[1]v hours""
msgstr[0] ""%[1]v time""
msgstr[1] ""%[1]v timer""

msgctxt ""naturaltime-past""
msgid ""%[1]v minute""
msgid_plural ""%[1]v minutes""
msgstr[0] ""%[1]v minut""
msgstr[1] ""%[1]v minutter""

msgctxt ""naturaltime-past""
msgid ""%[1]v month""
msgid_plural ""%[1]v months""
msgstr[0] ""%[1]v måned""
msgstr[1] ""%[1]v måneder""

msgctxt ""naturaltime-past""
msgid ""%[1]v week""
msgid_plural ""%[1]v weeks""
msgstr[0] ""%[1]v uge""
msgstr[1] ""%[1]v uger""

msgctxt ""naturaltime-past""
msgid ""%[1]v year""
msgid_plural ""%[1]v years""
msgstr[0] ""%[1]v år""
msgstr[1] ""%[1]v år""

msgctxt ""ordinal 0""
msgid ""%vth""
msgstr ""%v.""

msgctxt ""ordinal 1""
msgid ""%vst""
msgstr ""%v.""

msgctxt ""ordinal 11, 12, 13""
msgid ""%vth""
msgstr ""%v.""

msgctxt ""ordinal 2""
msgid ""%vnd""
msgstr ""%v.""

msgctxt ""ordinal 3""
msgid ""%vrd""
msgstr ""%v.""

msgctxt ""ordinal 4""
msgid ""%vth""
msgstr ""%v.""

msgctxt ""ordinal 5""
msgid ""%vth""
msgstr ""%v.""

msgctxt ""ordinal 6""
msgid ""%vth""
msgstr ""%v.""

msgctxt ""ordinal 7""
msgid ""%vth""
msgstr ""%v.""

msgctxt ""ordinal 8""
msgid ""%vth""
msgstr ""%v.""

msgctxt ""ordinal 9""
msgid ""%vth""
msgstr ""%v.""
".
(** humanize/locale/da/locale.go (New) *)
Definition loc_da : locale_data := LD (bs "da") [(bs "django.po", po_da)]
  (Some (FD (bs "j. F Y") (bs "H:i") (bs "j. F Y H:i") (bs "F Y") (bs "j. F") (bs "d.m.Y") (bs "d.m.Y H:i"))).

(** humanize/locale/de/django.po *)
Definition po_de : bytes := bs "# This file is distributed under the same license as the Django package.
# 
# Translators:
# André Hagenbruch, 2011-2012
# Florian Apolloner <florian@apolloner.eu>, 2011
# Daniel Roschka, 2016
# Florian Apolloner <florian@apolloner.eu>, 2018,2020-2023
# jnns, 2011,2013
# Jannis Leidel <jannis@leidel.info>, 2013-2018,2020
# jnns, 2016
# Markus Holtermann <info@markusholtermann.eu>, 2023
# Markus Holtermann <info@markusholtermann.eu>, 2013,2015
# Raphael Michel <mail@raphaelmichel.de>, 2021
# Ronny Vedrilla, 2025
# Sarah Boyce, 2025
msgid """"
msgstr """"
""Project-Id-Version: django\n""
""Report-Msgid-Bugs-To: \n""
""POT-Creation-Date: 2025-03-19 11:30-0500\n""
""PO-Revision-Date: 2025-09-17 06:49+0000\n""
""Last-Translator: Sarah Boyce, 2025\n""
""Language-Team: German (http://app.transifex.com/django/django/language/de/)\n""
""Language: de\n""
""MIME-Version: 1.0\n""
""Content-Type: text/plain; charset=UTF-8\n""
""Content-Transfer-Encoding: 8bit\n""
""Plural-Forms: nplurals=2; plural=(n != 1);\n""

msgid ""%[1]d byte""
msgid_plural ""%[1]d bytes""
msgstr[0] ""%[1]d Byte""
msgstr[1] ""%[1]d Bytes""

msgid ""%[1]s billion""
msgid_plural ""%[1]s billion""
msgstr[0] ""%[1]s Milliarde""
msgstr[1] ""%[1]s Milliarden""

msgid ""%[1]s decillion""
msgid_plural ""%[1]s decillion""
msgstr[0] ""%[1]s Quintilliarde""
msgstr[1] ""%[1]s Quintilliarden""

msgid ""%[1]s googol""
msgid_plural ""%[1]s googol""
msgstr[0] ""%[1]s Sedezilliarde""
msgstr[1] ""%[1]s Sedezilliarden""

msgid ""%[1]s million""
msgid_plural ""%[1]s million""
msgstr[0] ""%[1]s Million""
msgstr[1] ""%[1]s Millionen""

msgid ""%[1]s nonillion""
msgid_plural ""%[1]s nonillion""
msgstr[0] ""%[1]s Quintillion""
msgstr[1] ""%[1]s Quintillionen""

msgid ""%[1]s octillion""
msgid_plural ""%[1]s octillion""
msgstr[0] ""%[1]s Quadrilliarde""
msgstr[1] ""%[1]s Quadrilliarden""

msgid ""%[1]s quadrillion""
msgid_plural ""%[1]s quadrillion""
msgstr[0] ""%[1]s Billiarde""
msgstr[1] ""%[1]s Billiarden""

msgid ""%[1]s quintillion""
msgid_plural ""%[1]s quintillion""
msgstr[0] ""%[1]s Trillion""
msgstr[1] ""%[1]s Trillionen""

msgid ""%[1]s septillion""
msgid_plural ""%[1]s septillion""
msgstr[0] ""%[1]s Quadrillion""
msgstr[1] ""%[1]s Quadrillionen""

msgid ""%[1]s sextillion""
msgid_plural ""%[1]s sextillion""
msgstr[0] ""%[1]s Trilliarde""
msgstr[1] ""%[1]s Trilliarden""

msgid ""%[1]s trillion""
msgid_plural ""%[1]s trillion""
msgstr[0] ""%[1]s Billion""
msgstr[1] ""%[1]s Billionen""

msgid ""%[1]v ago""
msgstr ""%[1]v her""

msgid ""%[1]v day""
msgid_plural ""%[1]v days""
msgstr[0] ""%[1]v Tag""
msgstr[1] ""%[1]v Tage""

msgid ""%[1]v from now""
msgstr ""%[1]v von jetzt an""

msgid ""%[1]v hour""
msgid_plural ""%[1]v hours""
msgstr[0] ""%[1]v Stunde""
msgstr[1] ""%[1]v Stunden""

msgid ""%[1]v minute""
msgid_plural ""%[1]v minutes""
msgstr[0] ""%[1]v Minute""
msgstr[1] ""%[1]v Minuten""

msgid ""%[1]v month""
msgid_plural ""%[1]v months""
msgstr[0] ""%[1]v Monat""
msgstr[1] ""%[1]v Monate""

msgid ""%[1]v week""
msgid_plural ""%[1]v weeks""
msgstr[0] ""%[1]v Woche""
msgstr[1] ""%[1]v Wochen""

msgid ""%[1]v year""
msgid_plural ""%[1]v years""
msgstr[0] ""%[1]v Jahr""
msgstr[1] ""%[1]v Jahre""

msgid ""%s GB""
msgstr ""%s GB""

msgid ""%s KB""
msgstr ""%s KB""

msgid ""%s MB""
msgstr ""%s MB""

msgid ""%s PB""
msgstr ""%s PB""

msgid ""%s TB""
msgstr ""%s TB""

msgid "", ""
msgstr "", ""

msgid ""AM""
msgstr ""vorm.""

msgid ""Afrikaans""
msgstr ""Afrikaans""

msgid ""Albanian""
msgstr ""Albanisch""

msgid ""Algerian Arabic""
msgstr ""Algerisches Arabisch""

msgid ""April""
msgstr ""April""

msgid ""Arabic""
msgstr ""Arabisch""

msgid ""Argentinian Spanish""
msgstr ""Argentinisches Spanisch""

msgid ""Armenian""
msgstr ""Armenisch""

msgid ""Asturian""
msgstr ""Asturisch""

msgid ""August""
msgstr ""August""

msgid ""Australian English""
msgstr ""Australisches Englisch""

msgid ""Azerbaijani""
msgstr ""Aserbaidschanisch""

msgid ""Basque""
msgstr ""Baskisch""

msgid ""Belarusian""
msgstr ""Weißrussisch""

msgid ""Bengali""
msgstr ""Bengali""

msgid ""Bosnian""
msgstr ""Bosnisch""

msgid ""Brazilian Portuguese""
msgstr ""Brasilianisches Portugiesisch""

msgid ""Breton""
msgstr ""Bretonisch""

msgid ""British English""
msgstr ""Britisches Englisch""

msgid ""Bulgarian""
msgstr ""Bulgarisch""

msgid ""Burmese""
msgstr ""Birmanisch""

msgid ""Catalan""
msgstr ""Katalanisch""

msgid ""Central Kurdish (Sorani)""
msgstr ""Zentralkurdisch (Sorani)""

msgid ""Colombian Spanish""
msgstr ""Kolumbianisches Spanisch""

msgid ""Croatian""
msgstr ""Kroatisch""

msgid ""Czech""
msgstr ""Tschechisch""

msgid ""Danish""
msgstr ""Dänisch""

msgid ""December""
msgstr ""Dezember""

msgid ""Dutch""
msgstr ""Niederländisch""

msgid ""English""
msgstr ""Englisch""

msgid ""Esperanto""
msgstr ""Esperanto""

msgid ""Estonian""
msgstr ""Estnisch""

msgid ""February""
msgstr ""Februar""

msgid ""Finnish""
msgstr ""Finnisch""

msgid ""French""
msgstr ""Französisch""

msgid ""Fri""
msgstr ""Fr""

msgid ""Friday""
msgstr ""Freitag""

msgid ""Frisian""
msgstr ""Friesisch""

msgid ""Galician""
msgstr ""Galicisch""

msgid ""Georgian""
msgstr ""Georgisch""

msgid ""German""
msgstr ""Deutsch""

msgid ""Greek""
msgstr ""Griechisch""

msgid ""Hebrew""
msgstr ""Hebräisch""

msgid ""Hindi""
msgstr ""Hindi""

msgid ""Hungarian""
msgstr ""Ungarisch""

msgid ""Icelandic""
msgstr ""Isländisch""

msgid ""Ido""
msgstr ""Ido""

msgid ""Igbo""
msgstr ""Igbo""

msgid ""Indonesian""
msgstr ""Indonesisch""

msgid ""Interlingua""
msgstr ""Interlingua""

msgid ""Irish""
msgstr ""Irisch""

msgid ""Italian""
msgstr ""Italienisch""

msgid ""January""
msgstr ""Januar""

msgid ""Japanese""
msgstr ""Japanisch""

msgid ""July""
msgstr ""Juli""

msgid ""June""
msgstr ""Juni""

msgid ""Kabyle""
msgstr ""Kabylisch""

msgid ""Kannada""
msgstr ""Kannada""

msgid ""Kazakh""
msgstr ""Kasachisch""

msgid ""Khmer""
msgstr ""Khmer""

msgid ""Korean""
msgstr ""Koreanisch""

msgid ""Kyrgyz""
msgstr ""Kirgisisch""

msgid ""Latvian""
msgstr ""Lettisch""

msgid ""Lithuanian""
msgstr ""Litauisch""

msgid ""Lower Sorbian""
msgstr ""Niedersorbisch""

msgid ""Luxembourgish""
msgstr ""Luxemburgisch""

msgid ""Macedonian""
msgstr ""Mazedonisch""

msgid ""Malay""
msgstr ""Malaiisch""

msgid ""Malayalam""
msgstr ""Malayalam""

msgid ""Marathi""
msgstr ""Marathi""

msgid ""March""
msgstr ""März""

msgid ""May""
msgstr ""Mai""

msgid ""Mexican Spanish""
msgstr ""Mexikanisches Spanisch""

msgid ""Mon""
msgstr ""Mo""

msgid ""Monday""
msgstr ""Montag""

msgid ""Mongolian""
msgstr ""Mongolisch""

msgid ""Nepali""
msgstr ""Nepali""

msgid ""Nicaraguan Spanish""
msgstr ""Nicaraguanisches Spanisch""

msgid ""Norwegian Bokmål""
msgstr ""Norwegisch (Bokmål)""

msgid ""Norwegian Nynorsk""
msgstr ""Norwegisch (Nynorsk)""

msgid ""November""
msgstr ""November""

msgid ""October""
msgstr ""Oktober""

msgid ""Ossetic""
msgstr ""Ossetisch""

msgid ""PM""
msgstr ""nachm.""

msgid ""Persian""
msgstr ""Persisch""

msgid ""Polish""
msgstr ""Polnisch""

msgid ""Portuguese""
msgstr ""Portugiesisch""

msgid ""Punjabi""
msgstr ""Panjabi""

msgid ""Romanian""
msgstr ""Rumänisch""

msgid ""Russian""
msgstr ""Russisch""

msgid ""Sat""
msgstr ""Sa""

msgid ""Saturday""
msgstr ""Samstag""

msgid ""Scottish Gaelic""
msgstr ""Schottisch-Gälisch""

msgid ""September""
msgstr ""September""

msgid ""Serbian""
msgstr ""Serbisch""

msgid ""Serbian Latin""
msgstr ""Serbisch (Latein)""

msgid ""Simplified Chinese""
msgstr ""Vereinfachtes Chinesisch""

msgid ""Slovak""
msgstr ""Slowakisch""

msgid ""Slovenian""
msgstr ""Slowenisch""

msgid ""Spanish""
msgstr ""Spanisch""

msgid ""Sun""
msgstr ""So""

msgid ""Sunday""
msgstr ""Sonntag""

msgid ""Swahili""
msgstr ""Swahili""

msgid ""Swedish""
msgstr ""Schwedisch""

msgid ""Tajik""
msgstr ""Tadschikisch""

msgid ""Tamil""
msgstr ""Tamilisch""

msgid ""Tatar""
msgstr ""Tatarisch""

msgid ""Telugu""
msgstr ""Telugisch""

msgid ""Thai""
msgstr ""Thailändisch""

msgid ""Thu""
msgstr ""Do""

msgid ""Thursday""
msgstr ""Donnerstag""

msgid ""Traditional Chinese""
msgstr ""Traditionelles Chinesisch""

msgid ""Tue""
msgstr ""Di""

msgid ""Tuesday""
msgstr ""Dienstag""

msgid ""Turkish""
msgstr ""Türkisch""

msgid ""Turkmen""
msgstr ""Turkmenisch""

msgid ""Udmurt""
msgstr ""Udmurtisch""

msgid ""Ukrainian""
msgstr ""Ukrainisch""

msgid ""Upper Sorbian""
msgstr ""Obersorbisch""

msgid ""Urdu""
msgstr ""Urdu""

msgid ""Uyghur""
msgstr ""Uigurisch""

msgid ""Uzbek""
msgstr ""Usbekisch""

msgid ""Venezuelan Spanish""
msgstr ""Venezolanisches Spanisch""

msgid ""Vietnamese""
msgstr ""Vietnamesisch""

msgid ""Wed""
msgstr ""Mi""

msgid ""Wednesday""
msgstr ""Mittwoch""

msgid ""Welsh""
msgstr ""Walisisch""

msgid ""a minute ago""
msgid_plural ""%[1]v minutes ago""
msgstr[0] ""vor einer Minute""
msgstr[1] ""vor %[1]v Minuten""

msgid ""a minute from now""
msgid_plural ""%[1]v minutes from now""
msgstr[0] ""in einer Minute""
msgstr[1] ""in %[1]v Minuten""

msgid ""a second ago""
msgid_plural ""%[1]v seconds ago""
msgstr[0] ""vor einer Sekunde""
msgstr[1] ""vor %[1]v Sekunden""

msgid ""a second from now""
msgid_plural ""%[1]v seconds from now""
msgstr[0] ""in einer Sekunde""
msgstr[1] ""in %[1]v Sekunden""

msgid ""a.m.""
msgstr ""vorm.""

msgid ""an hour ago""
msgid_plural ""%[1]v hours ago""
msgstr[0] ""vor einer Stunde""
msgstr[1] ""vor %[1]v Stunden""

msgid ""an hour from now""
msgid_plural ""%[1]v hours from now""
msgstr[0] ""in einer Stunde""
msgstr[1] ""in %[1]v Stunden""

msgid ""apr""
msgstr ""Apr""

msgid ""aug""
msgstr ""Aug""

msgid ""dec""
msgstr ""Dez""

msgid ""eight""
msgstr ""acht""

msgid ""feb""
msgstr ""Feb""

msgid ""five""
msgstr ""fünf""

msgid ""four""
msgstr ""vier""

msgid ""jan""
msgstr ""Jan""

msgid ""jul""
msgstr ""Jul""

msgid ""jun""
msgstr ""Jun""

msgid ""mar""
msgstr ""Mär""

msgid ""may""
msgstr ""Mai""

msgid ""midnight""
msgstr ""Mitternacht""

msgid ""nine""
msgstr ""neun""

msgid ""noon""
msgstr ""Mittag""

msgid ""nov""
msgstr ""Nov""

msgid ""now""
msgstr ""jetzt""

msgid ""oct""
msgstr ""Okt""

msgid ""one""
msgstr ""eins""

msgid ""p.m.""
msgstr ""nachm.""

msgid ""sep""
msgstr ""Sep""

msgid ""seven""
msgstr ""sieben""

msgid ""six""
msgstr ""sechs""

msgid ""three""
msgstr ""drei""

msgid ""today""
msgstr ""heute""

msgid ""tomorrow""
msgstr ""morgen""

msgid ""two""
msgstr ""zwei""

msgid ""yesterday""
msgstr ""gestern""

msgctxt ""abbrev. month""
msgid ""April""
msgstr ""April""

msgctxt ""abbrev. month""
msgid ""Aug.""
msgstr ""Aug.""

msgctxt ""abbrev. month""
msgid ""Dec.""
msgstr ""Dez.""

msgctxt ""abbrev. month""
msgid ""Feb.""
msgstr ""Feb.""

msgctxt ""abbrev. month""
msgid ""Jan.""
msgstr ""Jan.""

msgctxt ""abbrev. month""
msgid ""July""
msgstr ""Juli""

msgctxt ""abbrev. month""
msgid ""June""
msgstr ""Juni""

msgctxt ""abbrev. month""
msgid ""March""
msgstr ""März""

msgctxt ""abbrev. month""
msgid ""May""
msgstr ""Mai""

msgctxt ""abbrev. month""
msgid ""Nov.""
msgstr ""Nov.""

msgctxt ""abbrev. month""
msgid ""Oct.""
msgstr ""Okt.""

msgctxt ""abbrev. month""
msgid ""Sept.""
msgstr ""Sept.""

msgctxt ""alt. month""
msgid ""April""
msgstr ""April""

msgctxt ""alt. month""
msgid ""August""
msgstr ""August""

msgctxt ""alt. month""
msgid ""December""
msgstr ""Dezember""

msgctxt ""alt. month""
msgid ""February""
msgstr ""Februar""

msgctxt ""alt. month""
msgid ""January""
msgstr ""Januar""

msgctxt ""alt. month""
msgid ""July""
msgstr ""Juli""

msgctxt ""alt. month""
msgid ""June""
msgstr ""Juni""

msgctxt ""alt. month""
msgid ""March""
msgstr ""März""

msgctxt ""alt. month""
msgid ""May""
msgstr ""Mai""

msgctxt ""alt. month""
msgid ""November""
msgstr ""November""

msgctxt ""alt. month""
msgid ""October""
msgstr ""Oktober""

msgctxt ""alt. month""
msgid ""September""
msgstr ""September""

msgctxt ""naturaltime-future""
msgid ""%[1]v day""
msgid_plural ""%[1]v days""
msgstr[0] ""%[1]v Tag""
msgstr[1] ""%[1]v Tage""

msgctxt ""naturaltime-future""
msgid ""%[1]v hour""
msgid_plural ""%[1]v hours""
msgstr[0] ""%[1]v Stunde""
msgstr[1] ""%[1]v Stunden""

msgctxt ""naturaltime-future""
msgid ""%[1]v minute""
msgid_plural ""%[1]v minutes""
msgstr[0] ""%[1]v Minute""
msgstr[1] ""%[1]v Minuten""

msgctxt ""naturaltime-future""
msgid ""%[1]v month""
msgid_plural ""%[1]v months""
msgstr[0] ""%[1]v Monat""
msgstr[1] ""%[1]v Monate""

msgctxt ""naturaltime-future""
msgid ""%[1]v week""
msgid_plural ""%[1]v weeks""
msgstr[0] ""%[1]v Woche""
msgstr[1] ""%[1]v Wochen""

msgctxt ""naturaltime-future""
msgid ""%[1]v year""
msgid_plural ""%[1]v years""
msgstr[0] ""%[1]v Jahr""
msgstr[1] ""%[1]v Jahre""

msgctxt ""naturaltime-past""
msgid ""%[1]v day""
msgid_plural ""%[1]v days""
msgstr[0] ""%[1]v Tage""
msgstr[1] ""%[1]v Tage""

msgctxt ""naturaltime-past""
msgid ""%[1]v hour""
msgid_plural ""%[1]v hours""
msgstr[0] ""%[1]v Stunde""
msgstr[1] ""%[1]v Stunden""

msgctxt ""naturaltime-past""
msgid ""%[1]v minute""
msgid_plural ""%[1]v minutes""
msgstr[0] ""%[1]v Minute""
msgstr[1] ""%[1]v Minuten""

msgctxt ""naturaltime-past""
msgid ""%[1]v month""
msgid_plural ""%[1]v months""
msgstr[0] ""%[1]v Monat""
msgstr[1] ""%[1]v Monate""

msgctxt ""naturaltime-past""
msgid ""%[1]v week""
msgid_plural ""%[1]v weeks""
msgstr[0] ""%[1]v Woche""
msgstr[1] ""%[1]v Wochen""

msgctxt ""naturaltime-past""
msgid ""%[1]v year""
msgid_plural ""%[1]v years""
msgstr[0] ""%[1]v Jahr""
msgstr[1] ""%[1]v Jahre""

msgctxt ""ordinal 0""
msgid ""%vth""
msgstr ""%v.""

msgctxt ""ordinal 1""
msgid ""%vst""
msgstr ""%v.""

msgctxt ""ordinal 11, 12, 13""
msgid ""%vth""
msgstr ""%v.""

msgctxt ""ordinal 2""
msgid ""%vnd""
msgstr ""%v.""

msgctxt ""ordinal 3""
msgid ""%vrd""
msgstr ""%v.""

msgctxt ""ordinal 4""
msgid ""%vth""
msgstr ""%v.""

msgctxt ""ordinal 5""
msgid ""%vth""
msgstr ""%v.""

msgctxt ""ordinal 6""
msgid ""%vth""
msgstr ""%v.""

msgctxt ""ordinal 7""
msgid ""%vth""
msgstr ""%v.""

msgctxt ""ordinal 8""
msgid ""%vth""
msgstr ""%v.""

msgctxt ""ordinal 9""
msgid ""%vth""
msgstr ""%v.""
".
(** humanize/locale/de/locale.go (New) *)
Definition loc_de : locale_data := LD (bs "de") [(bs "django.po", po_de)]
  (Some (FD (bs "j. F Y") (bs "H:i") (bs "j. F Y H:i") (bs "F Y") (bs "j. F") (bs "d.m.Y") (bs "d.m.Y H:i"))).

(** humanize/locale/dsb/django.po *)
Definition po_dsb : bytes := bs "# This file is distributed under the same license as the Django package.
# 
# Translators:
# Michael Wolf <milupo@sorbzilla.de>, 2016-2025
msgid """"
msgstr """"
""Project-Id-Version: django\n""
""Report-Msgid-Bugs-To: \n""
""POT-Creation-Date: 2025-03-19 11:30-0500\n""
""PO-Revision-Date: 2025-04-01 15:04-0500\n""
""Last-Translator: Michael Wolf <milupo@sorbzilla.de>, 2016-2025\n""
""Language-Team: Lower Sorbian (http://app.transifex.com/django/django/language/dsb/)\n""
""Language: dsb\n""
""MIME-Version: 1.0\n""
""Content-Type: text/plain; charset=UTF-8\n""
""Content-Transfer-Encoding: 8bit\n""
""Plural-Forms: nplurals=4; plural=(n%100==1 ? 0 : n%100==2 ? 1 : n%100==3 || n%100==4 ? 2 : 3);\n""

msgid ""%[1]d byte""
msgid_plural ""%[1]d bytes""
msgstr[0] ""%[1]d bajt""
msgstr[1] ""%[1]d bajta""
msgstr[2] ""%[1]d bajty""
msgstr[3] ""%[1]d bajtow""

msgid ""%[1]s billion""
msgid_plural ""%[1]s billion""
msgstr[0] ""%[1]s miliarda""
msgstr[1] ""%[1]s miliarźe""
msgstr[2] ""%[1]s miliardy""
msgstr[3] ""%[1]s miliardow""

msgid ""%[1]s decillion""
msgid_plural ""%[1]s decillion""
msgstr[0] ""%[1]s kwintiliarda""
msgstr[1] ""%[1]s kwintiliarźe""
msgstr[2] ""%[1]s kwintiliardy""
msgstr[3] ""%[1]s kwintiliardow""

msgid ""%[1]s googol""
msgid_plural ""%[1]s googol""
msgstr[0] ""%[1]s sedeciliarda""
msgstr[1] ""%[1]s sedeciliarźe""
msgstr[2] ""%[1]s sedeciliardy""
msgstr[3] ""%[1]s sedeciliardow""

msgid ""%[1]s million""
msgid_plural ""%[1]s million""
msgstr[0] ""%[1]s milion""
msgstr[1] ""%[1]s miliona""
msgstr[2] ""%[1]s miliony""
msgstr[3] ""%[1]s milionow""

msgid ""%[1]s nonillion""
msgid_plural ""%[1]s nonillion""
msgstr[0] ""%[1]s kwintilion""
msgstr[1] ""%[1]s kwintiliona""
msgstr[2] ""%[1]s kwintiliony""
msgstr[3] ""%[1]s kwintilionow""

msgid ""%[1]s octillion""
msgid_plural ""%[1]s octillion""
msgstr[0] ""%[1]s kwadriliarda""
msgstr[1] ""%[1]s kwadriliarźe""
msgstr[2] ""%[1]s kwadriliardy""
msgstr[3] ""%[1]s kwadriliardow""

msgid ""%[1]s quadrillion""
msgid_plural ""%[1]s quadrillion""
msgstr[0] ""%[1]s biliarda""
msgstr[1] ""%[1]s biliarźe""
msgstr[2] ""%[1]s biliardy""
msgstr[3] ""%[1]s biliardow""

msgid ""%[1]s quintillion""
msgid_plural ""%[1]s quintillion""
msgstr[0] ""%[1]s trilion""
msgstr[1] ""%[1]s triliona""
msgstr[2] ""%[1]s triliony""
msgstr[3] ""%[1]s trilionow""

msgid ""%[1]s septillion""
msgid_plural ""%[1]s septillion""
msgstr[0] ""%[1]s kwadrilion""
msgstr[1] ""%[1]s kwadriliona""
msgstr[2] ""%[1]s kwadriliony""
msgstr[3] ""%[1]s kwadrilionow""

msgid ""%[1]s sextillion""
msgid_plural ""%[1]s sextillion""
msgstr[0] ""%[1]s triliarda""
msgstr[1] ""%[1]s triliarźe""
msgstr[2] ""%[1]s triliardy""
msgstr[3] ""%[1]s triliardow""

msgid ""%[1]s trillion""
msgid_plural ""%[1]s trillion""
msgstr[0] ""%[1]s bilion""
msgstr[1] ""%[1]s biliona""
msgstr[2] ""%[1]s biliony""
msgstr[3] ""%[1]s bilionow""

msgid ""%[1]v ago""
msgstr ""pśed %[1]v""

msgid ""%[1]v day""
msgid_plural ""%[1]v days""
msgstr[0] ""%[1]v źeń ""
msgstr[1] ""%[1]v dnja""
msgstr[2] ""%[1]v dny""
msgstr[3] ""%[1]v dnjow""

msgid ""%[1]v from now""
msgstr ""%[1]v wótněnta""

msgid ""%[1]v hour""
msgid_plural ""%[1]v hours""
msgstr[0] ""%[1]v góźina""
msgstr[1] ""%[1]v góźinje""
msgstr[2] ""%[1]v góźiny""
msgstr[3] ""%[1]v góźin""

msgid ""%[1]v minute""
msgid_plural ""%[1]v minutes""
msgstr[0] ""%[1]v minuta""
msgstr[1] ""%[1]v minuśe""
msgstr[2] ""%[1]v minuty""
msgstr[3] ""%[1]v minutow""

msgid ""%[1]v month""
msgid_plural ""%[1]v months""
msgstr[0] ""%[1]v mjasec""
msgstr[1] ""%[1]v mjaseca""
msgstr[2] ""%[1]v mjasece""
msgstr[3] ""%[1]vmjasecow""

msgid ""%[1]v week""
msgid_plural ""%[1]v weeks""
msgstr[0] ""%[1]v tyźeń""
msgstr[1] ""%[1]v tyźenja""
msgstr[2] ""%[1]v tyźenje""
msgstr[3] ""%[1]v tyźenjow""

msgid ""%[1]v year""
msgid_plural ""%[1]v years""
msgstr[0] ""%[1]v lěto""
msgstr[1] ""%[1]v lěśe""
msgstr[2] ""%[1]v lěta""
msgstr[3] ""%[1]v lět""

msgid ""%s GB""
msgstr ""%s GB""

msgid ""%s KB""
msgstr ""%s KB""

msgid ""%s MB""
msgstr ""%s MB""

msgid ""%s PB""
msgstr ""%s PB""

msgid ""%s TB""
msgstr ""%s TB""

msgid "", ""
msgstr "", ""

msgid ""AM""
msgstr ""dopołdnja""

msgid ""Afrikaans""
msgstr ""Afrikaanšćina""

msgid ""Albanian""
msgstr ""Albanšćina""

msgid ""Algerian Arabic""
msgstr ""Algeriska arabšćina""

msgid ""April""
msgstr ""Apryl""

msgid ""Arabic""
msgstr ""Arabšćina""

msgid ""Argentinian Spanish""
msgstr ""Argentinska špańšćina""

msgid ""Armenian""
msgstr ""Armeńšćina""

msgid ""Asturian""
msgstr ""Asturišćina""

msgid ""August""
msgstr ""Awgust""

msgid ""Australian English""
msgstr ""Awstralska engelšćina""

msgid ""Azerbaijani""
msgstr ""Azerbajdžanišćina""

msgid ""Basque""
msgstr ""Baskišćina""

msgid ""Belarusian""
msgstr ""Běłorušćina""

msgid ""Bengali""
msgstr ""Bengalšćina""

msgid ""Bosnian""
msgstr ""Bosnišćina""

msgid ""Brazilian Portuguese""
msgstr ""Brazilska portugišćina""

msgid ""Breton""
msgstr ""Bretońšćina""

msgid ""British English""
msgstr ""Britiska engelšćina""

msgid ""Bulgarian""
msgstr ""Bulgaršćina""

msgid ""Burmese""
msgstr ""Myanmaršćina""

msgid ""Catalan""
msgstr ""Katalańšćina""

msgid ""Central Kurdish (Sorani)""
msgstr ""Centralna kurdišćina (Sorani)""

msgid ""Colombian Spanish""
msgstr ""Kolumbiska špańšćina""

msgid ""Croatian""
msgstr ""Chorwatšćina""

msgid ""Czech""
msgstr ""Češćina""

msgid ""Danish""
msgstr ""Dańšćina""

msgid ""December""
msgstr ""December""

msgid ""Dutch""
msgstr ""¨Nižozemšćina""

msgid ""English""
msgstr ""Engelšćina""

msgid ""Esperanto""
msgstr ""Esperanto""

msgid ""Estonian""
msgstr ""Estnišćina""

msgid ""February""
msgstr ""Februar""

msgid ""Finnish""
msgstr ""Finšćina""

msgid ""French""
msgstr ""Francojšćina""

msgid ""Fri""
msgstr ""Pět""

msgid ""Friday""
msgstr ""Pětk""

msgid ""Frisian""
msgstr ""Frizišćina""

msgid ""Galician""
msgstr ""Galicišćina""

msgid ""Georgian""
msgstr ""Georgišćina""

msgid ""German""
msgstr ""Nimšćina""

msgid ""Greek""
msgstr ""Grichišćina""

msgid ""Hebrew""
msgstr ""Hebrejšćina""

msgid ""Hindi""
msgstr ""Hindišćina""

msgid ""Hungarian""
msgstr ""Hungoršćina""

msgid ""Icelandic""
msgstr ""Islandšćina""

msgid ""Ido""
msgstr ""Ido""

msgid ""Igbo""
msgstr ""Igbo""

msgid ""Indonesian""
msgstr ""Indonešćina""

msgid ""Interlingua""
msgstr ""Interlingua""

msgid ""Irish""
msgstr ""Iršćina""

msgid ""Italian""
msgstr ""Italšćina""

msgid ""January""
msgstr ""Januar""

msgid ""Japanese""
msgstr ""Japańšćina""

msgid ""July""
msgstr ""Julij""

msgid ""June""
msgstr ""Junij""

msgid ""Kabyle""
msgstr ""Kabylšćina""

msgid ""Kannada""
msgstr ""Kannadišćina""

msgid ""Kazakh""
msgstr ""Kazachšćina""

msgid ""Khmer""
msgstr ""Rěc Khmerow""

msgid ""Korean""
msgstr ""Korejańšćina""

msgid ""Kyrgyz""
msgstr ""Kirgišćina""

msgid ""Latvian""
msgstr ""Letišćina""

msgid ""Lithuanian""
msgstr ""Litawšćina""

msgid ""Lower Sorbian""
msgstr ""Dolnoserbšćina""

msgid ""Luxembourgish""
msgstr ""Luxemburgšćina""

msgid ""Macedonian""
msgstr ""Makedońšćina""

msgid ""Malay""
msgstr ""Malayzišćina""

msgid ""Malayalam""
msgstr ""Malajalam""

msgid ""Marathi""
msgstr ""Marathi""

msgid ""March""
msgstr ""Měrc""

msgid ""May""
msgstr ""Maj""

msgid ""Mexican Spanish""
msgstr ""Mexikańska špańšćina""

msgid ""Mon""
msgstr ""Pón""

msgid ""Monday""
msgstr ""Pónjeźele""

msgid ""Mongolian""
msgstr ""Mongolšćina""

msgid ""Nepali""
msgstr ""Nepalšćina""

msgid ""Nicaraguan Spanish""
msgstr ""Nikaraguaska špańšćina""

msgid ""Norwegian Bokmål""
msgstr ""Norwegski Bokmål""

msgid ""Norwegian Nynorsk""
msgstr ""Norwegski Nynorsk""

msgid ""November""
msgstr ""Nowember""

msgid ""October""
msgstr ""Oktober""

msgid ""Ossetic""
msgstr ""Osetšćina""

msgid ""PM""
msgstr ""wótpołdnja""

msgid ""Persian""
msgstr ""Persišćina""

msgid ""Polish""
msgstr ""Pólšćina""

msgid ""Portuguese""
msgstr ""Portugišćina""

msgid ""Punjabi""
msgstr ""Pundžabi""

msgid ""Romanian""
msgstr ""Rumunšćina""

msgid ""Russian""
msgstr ""Rušćina""

msgid ""Sat""
msgstr ""Sob""

msgid ""Saturday""
msgstr ""Sobota""

msgid ""Scottish Gaelic""
msgstr ""Šotiska gelišćina""

msgid ""September""
msgstr ""September""

msgid ""Serbian""
msgstr ""Serbišćina""

msgid ""Serbian Latin""
msgstr ""Serbišćina, łatyńska""

msgid ""Simplified Chinese""
msgstr ""Zjadnorjona chinšćina""

msgid ""Slovak""
msgstr ""Słowakšćina""

msgid ""Slovenian""
msgstr ""Słowjeńšćina""

msgid ""Spanish""
msgstr ""Špańšćina""

msgid ""Sun""
msgstr ""Nje""

msgid ""Sunday""
msgstr ""Njeźela""

msgid ""Swahili""
msgstr ""Suahelšćina""

msgid ""Swedish""
msgstr ""Šwedšćina""

msgid ""Tajik""
msgstr ""Tadźikišćina""

msgid ""Tamil""
msgstr ""Tamilšćina""

msgid ""Tatar""
msgstr ""Tataršćina""

msgid ""Telugu""
msgstr ""Telugu""

msgid ""Thai""
msgstr ""Thaišćina""

msgid ""Thu""
msgstr ""Stw""

msgid ""Thursday""
msgstr ""Stwórtk""

msgid ""Traditional Chinese""
msgstr ""Tradicionelna chinšćina""

msgid ""Tue""
msgstr ""Wał""

msgid ""Tuesday""
msgstr ""Wałtora""

msgid ""Turkish""
msgstr ""Turkojšćina""

msgid ""Turkmen""
msgstr ""Turkmeńšćina""

msgid ""Udmurt""
msgstr ""Udmurtšćina""

msgid ""Ukrainian""
msgstr ""Ukrainšćina""

msgid ""Upper Sorbian""
msgstr ""Górnoserbšćina""

msgid ""Urdu""
msgstr ""Urdu""

msgid ""Uyghur""
msgstr ""Ujguršćina""

msgid ""Uzbek""
msgstr ""Uzbekšćina""

msgid ""Venezuelan Spanish""
msgstr ""Venezolaniska špańšćina""

msgid ""Vietnamese""
msgstr ""Vietnamšćina""

msgid ""Wed""
msgstr ""Srj""

msgid ""Wednesday""
msgstr ""Srjoda""

msgid ""Welsh""
msgstr ""Kymrišćina""

msgid ""a minute ago""
msgid_plural ""%[1]v minutes ago""
msgstr[0] ""Pśed %[1]v minutu""
msgstr[1] ""Pśed %[1]v minutoma""
msgstr[2] ""Pśed %[1]v minutami""
msgstr[3] ""Pśed %[1]v minutami""

msgid ""a minute from now""
msgid_plural ""%[1]v minutes from now""
msgstr[0] ""za %[1]v minutu""
msgstr[1] ""za %[1]v minuśe""
msgstr[2] ""za %[1]v minuty""
msgstr[3] ""za %[1]v minutow""

msgid ""a second ago""
msgid_plural ""%[1]v seconds ago""
msgstr[0] ""Pśed %[1]v sekundu""
msgstr[1] ""Pśed %[1]v sekundoma""
msgstr[2] ""Pśed %[1]v sekundami""
msgstr[3] ""Pśed %[1]v sekundami""

msgid ""a second from now""
msgid_plural ""%[1]v seconds from now""
msgstr[0] ""za %[1]v sekundu""
msgstr[1] ""za %[1]v sekunźe""
msgstr[2] ""za %[1]v sekundy""
msgstr[3] ""za %[1]v sekundow""

msgid ""a.m.""
msgstr ""dopołdnja""

msgid ""an hour ago""
msgid_plural ""%[1]v hours ago""
msgstr[0] ""Pśed %[1]v góźinu""
msgstr[1] ""Pśed %[1]v góźinoma""
msgstr[2] ""Pśed %[1]v góźinami""
msgstr[3] ""Pśed %[1]v góźinami""

msgid ""an hour from now""
msgid_plural ""%[1]v hours from now""
msgstr[0] ""za %[1]v góźinu""
msgstr[1] ""za %[1]v góźinje""
msgstr[2] ""za %[1]v góźiny""
msgstr[3] ""za %[1]v góźin""

msgid ""apr""
msgstr ""apr""

msgid ""aug""
msgstr ""awg""

msgid ""dec""
msgstr ""dec""

msgid ""eight""
msgstr ""wósym""

msgid ""feb""
msgstr ""feb""

msgid ""five""
msgstr ""pěś""

msgid ""four""
msgstr ""styri""

msgid ""jan""
msgstr ""jan""

msgid ""jul""
msgstr ""jul""

msgid ""jun""
msgstr ""jun""

msgid ""mar""
msgstr ""měr""

msgid ""may""
msgstr ""maj""

msgid ""midnight""
msgstr ""połnoc""

msgid ""nine""
msgstr ""źewjeś""

msgid ""noon""
msgstr ""połdnjo""

msgid ""nov""
msgstr ""now""

msgid ""now""
msgstr ""něnto""

msgid ""oct""
msgstr ""okt""

msgid ""one""
msgstr ""jaden""

msgid ""p.m.""
msgstr ""wótpołdnja""

msgid ""sep""
msgstr ""sep""

msgid ""seven""
msgstr ""sedym""

msgid ""six""
msgstr ""šesć""

msgid ""three""
msgstr ""tśi""

msgid ""today""
msgstr ""źinsa""

msgid ""tomorrow""
msgstr ""witśe""

msgid ""two""
msgstr ""dwa""

msgid ""yesterday""
msgstr ""cora""

msgctxt ""abbrev. month""
msgid ""April""
msgstr ""Apryl""

msgctxt ""abbrev. month""
msgid ""Aug.""
msgstr ""Awg.""

msgctxt ""abbrev. month""
msgid ""Dec.""
msgstr ""Dec.""

msgctxt ""abbrev. month""
msgid ""Feb.""
msgstr ""Feb.""

msgctxt ""abbrev. month""
msgid ""Jan.""
msgstr ""Jan.""

msgctxt ""abbrev. month""
msgid ""July""
msgstr ""Julij""

msgctxt ""abbrev. month""
msgid ""June""
msgstr ""Junij""

msgctxt ""abbrev. month""
msgid ""March""
msgstr ""Měrc""

msgctxt ""abbrev. month""
msgid ""May""
msgstr ""Maj""

msgctxt ""abbrev. month""
msgid ""Nov.""
msgstr ""Now.""

msgctxt ""abbrev. month""
msgid ""Oct.""
msgstr ""Okt.""

msgctxt ""abbrev. month""
msgid ""Sept.""
msgstr ""Sept.""

msgctxt ""alt. month""
msgid ""April""
msgstr ""Apryl""

msgctxt ""alt. month""
msgid ""August""
msgstr ""Awgust""

msgctxt ""alt. month""
msgid ""December""
msgstr ""December""

msgctxt ""alt. month""
msgid ""February""
msgstr ""Februar""

msgctxt ""alt. month""
msgid ""January""
msgstr ""Januar""

msgctxt ""alt. month""
msgid ""July""
msgstr ""Julij""

msgctxt ""alt. month""
msgid ""June""
msgstr ""Junij""

msgctxt ""alt. month""
msgid ""March""
msgstr ""Měrc""

msgctxt ""alt. month""
msgid ""May""
msgstr ""Maj""

msgctxt ""alt. month""
msgid ""November""
msgstr ""Nowember""

msgctxt ""alt. month""
msgid ""October""
msgstr ""Oktober""

msgctxt ""alt. month""
msgid ""September""
msgstr ""September""

msgctxt ""naturaltime-future""
msgid ""%[1]v day""
msgid_plural ""%[1]v days""
msgstr[0] ""%[1]v źeń""
msgstr[1] ""%[1]v dnja""
msgstr[2] ""%[1]v dny""
msgstr[3] ""%[1]v dnjow""

msgctxt ""naturaltime-future""
msgid ""%[1]v hour""
msgid_plural ""%[1]v hours""
msgstr[0] ""%[1]v góźina""
msgstr[1] ""%[1]v góźinje""
msgstr[2] ""%[1]v góźiny""
msgstr[3] ""%[1]v góźin""

msgctxt ""naturaltime-future""
msgid ""%[1]v minute""
msgid_plural ""%[1]v minutes""
msgstr[0] ""%[1]v minuta""
msgstr[1] ""%[1]v minuśe""
msgstr[2] ""%[1]v minuty""
msgstr[3] ""%[1]v minutow""

msgctxt ""naturaltime-future""
msgid ""%[1]v month""
msgid_plural ""%[1]v months""
msgstr[0] ""%[1]v mjasec""
msgstr[1] ""%[1]v mjaseca""
msgstr[2] ""%[1]v mjasece""
msgstr[3] ""%[1]vmjasecow""

msgctxt ""naturaltime-future""
msgid ""%[1]v week""
msgid_plural ""%[1]v weeks""
msgstr[0] ""%[1]v tyźeń""
msgstr[1] ""%[1]v tyźenja""
msgstr[2] ""%[1]v tyźenje""
msgstr[3] ""%[1]v tyźenjow""

msgctxt ""naturaltime-future""
msgid ""%[1]v year""
msgid_plural ""%[1]v years""
msgstr[0] ""%[1]v lěto""
msgstr[1] ""%[1]v lěśe""
msgstr[2] ""%[1]v lěta""
msgstr[3] ""%[1]v lět""

msgctxt ""naturaltime-past""
msgid ""%[1]v day""
msgid_plural ""%[1]v days""
msgstr[0] ""%[1]v źeń""
msgstr[1] ""%[1]v dnja""
msgstr[2] ""%[1]v dny""
msgstr[3] ""%[1]v dnjow""

msgctxt ""naturaltime-past""
msgid ""%[1]v hour""
msgid_plural ""%[1]v hours""
msgstr[0] ""%[1]v góźina""
msgstr[1] ""%[1]v góźinje""
msgstr[2] ""%[1]v góźiny""
msgstr[3] ""%[1]v góźin""

msgctxt ""naturaltime-past""
msgid ""%[1]v minute""
msgid_plural ""%[1]v minutes""
msgstr[0] ""%[1]v minuta""
msgstr[1] ""%[1]v minuśe""
msgstr[2] ""%[1]v minuty""
msgstr[3] ""%[1]v minutow""

msgctxt ""naturaltime-past""
msgid ""%[1]v month""
msgid_plural ""%[1]v months""
msgstr[0] ""%[1]v mjasec""
msgstr[1] ""%[1]v mjaseca""
msgstr[2] ""%[1]v mjasece""
msgstr[3] ""%[1]vmjasecow""

msgctxt ""naturaltime-past""
msgid ""%[1]v week""
msgid_plural ""%[1]v weeks""
msgstr[0] ""%[1]v tyźeń""
msgstr[1] ""%[1]v tyźenja""
msgstr[2] ""%[1]v tyźenje""
msgstr[3] ""%[1]v tyźenjow""

msgctxt ""naturaltime-past""
msgid ""%[1]v year""
msgid_plural ""%[1]v years""
msgstr[0] ""%[1]v lěto""
msgstr[1] ""%[1]v lěśe""
msgstr[2] ""%[1]v lěta""
msgstr[3] ""%[1]v lět""

msgctxt ""ordinal 0""
msgid ""%vth""
msgstr ""%v.""

msgctxt ""ordinal 1""
msgid ""%vst""
msgstr ""%v.""

msgctxt ""ordinal 11, 12, 13""
msgid ""%vth""
msgstr ""%v.""

msgctxt ""ordinal 2""
msgid ""%vnd""
msgstr ""%v.""

msgctxt ""ordinal 3""
msgid ""%vrd""
msgstr ""%v.""

msgctxt ""ordinal 4""
msgid ""%vth""
msgstr ""%v.""

msgctxt ""ordinal 5""
msgid ""%vth""
msgstr ""%v.""

msgctxt ""ordinal 6""
msgid ""%vth""
msgstr ""%v.""

msgctxt ""ordinal 7""
msgid ""%vth""
msgstr ""%v.""

msgctxt ""ordinal 8""
msgid ""%vth""
msgstr ""%v.""

msgctxt ""ordinal 9""
msgid ""%vth""
msgstr ""%v.""
".
(** humanize/locale/dsb/locale.go (New) *)
Definition loc_dsb : locale_data := LD (bs "dsb") [(bs "django.po", po_dsb)]
  (None).

(** humanize/locale/el/django.po *)
Definition po_el : bytes := bs "# This file is distributed under the same license as the Django package.
# 
# Translators:
# Apostolis Bessas <mpessas+txc@transifex.com>, 2013
# Dimitris Glezos <glezos@transifex.com>, 2011,2013,2017
# Fotis Athineos <fotis@transifex.com>, 2021
# Giannis Meletakis <meletakis@gmail.com>, 2015
# Jannis Leidel <jannis@leidel.info>, 2011
# Nick Mavrakis <mavrakis.n@gmail.com>, 2017-2020
# Nikolas Demiridis <nikolas@demiridis.gr>, 2014
# Nick Mavrakis <mavrakis.n@gmail.com>, 2016
# Pãnoș <panos.laganakos@gmail.com>, 2014
# Pãnoș <panos.laganakos@gmail.com>, 2016
# Serafeim Papastefanos <spapas@gmail.com>, 2016
# Stavros Korokithakis <stavros@korokithakis.net>, 2014,2016
# Yorgos Pagles <y.pagles@gmail.com>, 2011-2012
msgid """"
msgstr """"
""Project-Id-Version: django\n""
""Report-Msgid-Bugs-To: \n""
""POT-Creation-Date: 2021-09-21 10:22+0200\n""
""PO-Revision-Date: 2021-11-18 21:19+0000\n""
""Last-Translator: Transifex Bot <>\n""
""Language-Team: Greek (http://www.transifex.com/django/django/language/el/)\n""
""Language: el\n""
""MIME-Version: 1.0\n""
""Content-Type: text/plain; charset=UTF-8\n""
""Content-Transfer-Encoding: 8bit\n""
""Plural-Forms: nplurals=2; plural=(n != 1);\n""

msgid ""%[1]d byte""
msgid_plural ""%[1]d bytes""
msgstr[0] ""%[1]d bytes""
msgstr[1] ""%[1]d bytes""

msgid ""%[1]s billion""
msgid_plural ""%[1]s billion""
msgstr[0] ""%[1]s δισεκατομμύριο""
msgstr[1] ""%[1]s δισεκατομμύρια""

msgid ""%[1]s decillion""
msgid_plural ""%[1]s decillion""
msgstr[0] ""%[1]s δεκάκις εκατομμύριο""
msgstr[1] ""%[1]s δεκάκις εκατομμύρια""

msgid ""%[1]s googol""
msgid_plural ""%[1]s googol""
msgstr[0] ""%[1]s googol""
msgstr[1] ""%[1]s googol""

msgid ""%[1]s million""
msgid_plural ""%[1]s million""
msgstr[0] "" %[1]s  εκατομμύριο""
msgstr[1] "" %[1]s  εκατομμύρια""

msgid ""%[1]s nonillion""
msgid_plural ""%[1]s nonillion""
msgstr[0] ""%[1]s εννεάκις εκατομμύριο""
msgstr[1] ""%[1]s εννεάκις εκατομμύρια""

msgid ""%[1]s octillion""
msgid_plural ""%[1]s octillion""
msgstr[0] ""%[1]s οκτάκις εκατομμύριο""
msgstr[1] ""%[1]s οκτάκις εκατομμύρια""

msgid ""%[1]s quadrillion""
msgid_plural ""%[1]s quadrillion""
msgstr[0] ""%[1]s τετράκις εκατομμύριο""
msgstr[1] ""%[1]s τετράκις εκατομμύρια""

msgid ""%[1]s quintillion""
msgid_plural ""%[1]s quintillion""
msgstr[0] ""%[1]s πεντάκις εκατομμύριo""
msgstr[1] ""%[1]s πεντάκις εκατομμύρια""

msgid ""%[1]s septillion""
msgid_plural ""%[1]s septillion""
msgstr[0] ""%[1]s επτάκις εκατομμύριο""
msgstr[1] ""%[1]s επτάκις εκατομμύρια""

msgid ""%[1]s sextillion""
msgid_plural ""%[1]s sextillion""
msgstr[0] ""%[1]s εξάκις εκατομμύριo""
msgstr[1] ""%[1]s εξάκις εκατομμύρια""

msgid ""%[1]s trillion""
msgid_plural ""%[1]s trillion""
msgstr[0] ""%[1]s τρισεκατομμύριο""
msgstr[1] ""%[1]s τρισεκατομμύρια""

msgid ""%[1]v ago""
msgstr ""πριν από %[1]v""

msgid ""%[1]v day""
msgid_plural ""%[1]v days""
msgstr[0] """"
msgstr[1] """"

msgid ""%[1]v from now""
msgstr ""σε %[1]v""

msgid ""%[1]v hour""
msgid_plural ""%[1]v hours""
msgstr[0] """"
msgstr[1] """"

msgid ""%[1]v minute""
msgid_plural ""%[1]v minutes""
msgstr[0] """"
msgstr[1] """"

msgid ""%[1]v month""
msgid_plural ""%[1]v months""
msgstr[0] """"
msgstr[1] """"

msgid ""%[1]v week""
msgid_plural ""%[1]v weeks""
msgstr[0] """"
msgstr[1] """"

msgid ""%[1]v year""
msgid_plural ""%[1]v years""
msgstr[0] """"
msgstr[1] """"

msgid ""%s GB""
msgstr ""%s GB""

msgid ""%s KB""
msgstr ""%s KB""

msgid ""%s MB""
msgstr ""%s MB""

msgid ""%s PB""
msgstr ""%s PB""

msgid ""%s TB""
msgstr ""%s TB""

msgid "", ""
msgstr "", ""

msgid ""AM""
msgstr ""ΠΜ""

msgid ""Afrikaans""
msgstr ""Αφρικάνς""

msgid ""Albanian""
msgstr ""Αλβανικά""

msgid ""Algerian Arabic""
msgstr ""Αραβικά Αλγερίας""

msgid ""April""
msgstr ""Απρίλιος""

msgid ""Arabic""
msgstr ""Αραβικά""

msgid ""Argentinian Spanish""
msgstr ""Ισπανικά Αργεντινής""

msgid ""Armenian""
msgstr ""Αρμενικά""

msgid ""Asturian""
msgstr ""Αστούριας""

msgid ""August""
msgstr ""Αύγουστος""

msgid ""Australian English""
msgstr ""Αγγλικά Αυστραλίας""

msgid ""Azerbaijani""
msgstr ""Γλώσσα Αζερμπαϊτζάν""

msgid ""Basque""
msgstr ""Βάσκικα""

msgid ""Belarusian""
msgstr ""Λευκορώσικα""

msgid ""Bengali""
msgstr ""Μπενγκάλι""

msgid ""Bosnian""
msgstr ""Βοσνιακά""

msgid ""Brazilian Portuguese""
msgstr ""Πορτογαλικά - διάλεκτος Βραζιλίας""

msgid ""Breton""
msgstr ""Βρετονικά""

msgid ""British English""
msgstr ""Αγγλικά Βρετανίας""

msgid ""Bulgarian""
msgstr ""Βουλγαρικά""

msgid ""Burmese""
msgstr ""Βιρμανικά""

msgid ""Catalan""
msgstr ""Καταλανικά""

msgid ""Colombian Spanish""
msgstr ""Ισπανικά Κολομβίας""

msgid ""Croatian""
msgstr ""Κροατικά""

msgid ""Czech""
msgstr ""Τσέχικα""

msgid ""Danish""
msgstr ""Δανέζικα""

msgid ""December""
msgstr ""Δεκέμβριος""

msgid ""Dutch""
msgstr ""Ολλανδικά""

msgid ""English""
msgstr ""Αγγλικά""

msgid ""Esperanto""
msgstr ""Εσπεράντο""

msgid ""Estonian""
msgstr ""Εσθονικά""

msgid ""February""
msgstr ""Φεβρουάριος""

msgid ""Finnish""
msgstr ""Φινλανδικά""

msgid ""French""
msgstr ""Γαλλικά""

msgid ""Fri""
msgstr ""Παρ""

msgid ""Friday""
msgstr ""Παρασκευή""

msgid ""Frisian""
msgstr ""Frisian""

msgid ""Galician""
msgstr ""Γαελικά""

msgid ""Georgian""
msgstr ""Γεωργιανά""

msgid ""German""
msgstr ""Γερμανικά""

msgid ""Greek""
msgstr ""Ελληνικά""

msgid ""Hebrew""
msgstr ""Εβραϊκά""

msgid ""Hindi""
msgstr ""Ινδικά""

msgid ""Hungarian""
msgstr ""Ουγγρικά""

msgid ""Icelandic""
msgstr ""Ισλανδικά""

msgid ""Ido""
msgstr ""Ίντο""

msgid ""Igbo""
msgstr ""Ίγκμπο""

msgid ""Indonesian""
msgstr ""Ινδονησιακά""

msgid ""Interlingua""
msgstr ""Ιντερλίνγκουα""

msgid ""Irish""
msgstr ""Ιρλανδικά""

msgid ""Italian""
msgstr ""Ιταλικά""

msgid ""January""
msgstr ""Ιανουάριος""

msgid ""Japanese""
msgstr ""Γιαπωνέζικα""

msgid ""July""
msgstr ""Ιούλιος""

msgid ""June""
msgstr ""Ιούνιος""

msgid ""Kabyle""
msgstr ""Kabyle""

msgid ""Kannada""
msgstr ""Κανάντα""

msgid ""Kazakh""
msgstr ""Καζακστά""

msgid ""Khmer""
msgstr ""Χμερ""

msgid ""Korean""
msgstr ""Κορεάτικα""

msgid ""Kyrgyz""
msgstr ""Κιργιζικά""

msgid ""Latvian""
msgstr ""Λεττονικά""

msgid ""Lithuanian""
msgstr ""Λιθουανικά""

msgid ""Lower Sorbian""
msgstr ""Κάτω Σορβικά""

msgid ""Luxembourgish""
msgstr ""Λουξεμβουργιανά""

msgid ""Macedonian""
msgstr ""Μακεδονικά""

msgid ""Malay""
msgstr """"

msgid ""Malayalam""
msgstr ""Μαλαγιαλάμ""

msgid ""Marathi""
msgstr ""Μαράθι""

msgid ""March""
msgstr ""Μάρτιος""

msgid ""May""
msgstr ""Μάιος""

msgid ""Mexican Spanish""
msgstr ""Μεξικανική διάλεκτος Ισπανικών""

msgid ""Mon""
msgstr ""Δευ""

msgid ""Monday""
msgstr ""Δευτέρα""

msgid ""Mongolian""
msgstr ""Μογγολικά""

msgid ""Nepali""
msgstr ""Νεπαλέζικα""

msgid ""Nicaraguan Spanish""
msgstr ""Ισπανικά Νικαράγουας ""

msgid ""Norwegian Bokmål""
msgstr ""Νορβηγικά Μποκμάλ""

msgid ""Norwegian Nynorsk""
msgstr ""Νορβηγική διάλεκτος Nynorsk - Νεονορβηγική""

msgid ""November""
msgstr ""Νοέμβριος""

msgid ""October""
msgstr ""Οκτώβριος""

msgid ""Ossetic""
msgstr ""Οσσετικά""

msgid ""PM""
msgstr ""ΜΜ""

msgid ""Persian""
msgstr ""Περσικά""

msgid ""Polish""
msgstr ""Πολωνικά""

msgid ""Portuguese""
msgstr ""Πορτογαλικά""

msgid ""Punjabi""
msgstr ""Πουντζάμπι""

msgid ""Romanian""
msgstr ""Ρουμανικά""

msgid ""Russian""
msgstr ""Ρωσικά""

msgid ""Sat""
msgstr ""Σαβ""

msgid ""Saturday""
msgstr ""Σάββατο""

msgid ""Scottish Gaelic""
msgstr ""Σκωτσέζικα Γαελικά""

msgid ""September""
msgstr ""Σεπτέμβριος""

msgid ""Serbian""
msgstr ""Σερβικά""

msgid ""Serbian Latin""
msgstr ""Σέρβικα Λατινικά""

msgid ""Simplified Chinese""
msgstr ""Απλοποιημένα Κινέζικα""

msgid ""Slovak""
msgstr ""Σλοβακικά""

msgid ""Slovenian""
msgstr ""Σλοβενικά""

msgid ""Spanish""
msgstr ""Ισπανικά""

msgid ""Sun""
msgstr ""Κυρ""

msgid ""Sunday""
msgstr ""Κυριακή""

msgid ""Swahili""
msgstr ""Σουαχίλι""

msgid ""Swedish""
msgstr ""Σουηδικά""

msgid ""Tajik""
msgstr ""Τατζικικά""

msgid ""Tamil""
msgstr ""Διάλεκτος Ταμίλ""

msgid ""Tatar""
msgstr ""Ταταρικά""

msgid ""Telugu""
msgstr ""Τελούγκου""

msgid ""Thai""
msgstr ""Ταϊλάνδης""

msgid ""Thu""
msgstr ""Πέμ""

msgid ""Thursday""
msgstr ""Πέμπτη""

msgid ""Traditional Chinese""
msgstr ""Παραδοσιακά Κινέζικα""

msgid ""Tue""
msgstr ""Τρί""

msgid ""Tuesday""
msgstr ""Τρίτη""

msgid ""Turkish""
msgstr ""Τουρκικά""

msgid ""Turkmen""
msgstr ""Τουρκμενικά""

msgid ""Udmurt""
msgstr ""Ουντμουρτικά""

msgid ""Ukrainian""
msgstr ""Ουκρανικά""

msgid ""Upper Sorbian""
msgstr ""Άνω Σορβικά""

msgid ""Urdu""
msgstr ""Urdu""

msgid ""Uzbek""
msgstr ""Ουζμπεκικά""

msgid ""Venezuelan Spanish""
msgstr ""Ισπανικά Βενεζουέλας""

msgid ""Vietnamese""
msgstr ""Βιετναμέζικα""

msgid ""Wed""
msgstr ""Τετ""

msgid ""Wednesday""
msgstr ""Τετάρτη""

msgid ""Welsh""
msgstr ""Ουαλικά""

msgid ""a minute ago""
msgid_plural ""%[1]v minutes ago""
msgstr[0] ""ένα λεπτό πρίν""
msgstr[1] ""%[1]v λεπτά πρίν""

msgid ""a minute from now""
msgid_plural ""%[1]v minutes from now""
msgstr[0] ""ένα λεπτό από τώρα""
msgstr[1] ""%[1]v λεπτά από τώρα""

msgid ""a second ago""
msgid_plural ""%[1]v seconds ago""
msgstr[0] ""ένα δευτερόλεπτο πρίν""
msgstr[1] ""%[1]v δευτερόλεπτα πρίν""

msgid ""a second from now""
msgid_plural ""%[1]v seconds from now""
msgstr[0] ""ένα δευτερόλεπτο από τώρα""
msgstr[1] ""%[1]v δευτερόλεπτα από τώρα""

msgid ""a.m.""
msgstr ""πμ.""

msgid ""an hour ago""
msgid_plural ""%[1]v hours ago""
msgstr[0] ""μια ώρα πρίν""
msgstr[1] ""%[1]v ώρες πρίν""

msgid ""an hour from now""
msgid_plural ""%[1]v hours from now""
msgstr[0] ""μία ώρα από τώρα""
msgstr[1] ""%[1]v ώρες από τώρα""

msgid ""apr""
msgstr ""Απρ""

msgid ""aug""
msgstr ""Αύγ""

msgid ""dec""
msgstr ""Δεκ""

msgid ""eight""
msgstr ""οκτώ""

msgid ""feb""
msgstr ""Φεβ""

msgid ""five""
msgstr ""πέντε""

msgid ""four""
msgstr ""τέσσερα""

msgid ""jan""
msgstr ""Ιαν""

msgid ""jul""
msgstr ""Ιούλ""

msgid ""jun""
msgstr ""Ιούν""

msgid ""mar""
msgstr ""Μάρ""

msgid ""may""
msgstr ""Μάι""

msgid ""midnight""
msgstr ""μεσάνυχτα""

msgid ""nine""
msgstr ""εννιά""

msgid ""noon""
msgstr ""μεσημέρι""

msgid ""nov""
msgstr ""Νοέ""

msgid ""now""
msgstr ""τώρα""

msgid ""oct""
msgstr ""Οκτ""

msgid ""one""
msgstr ""ένα""

msgid ""p.m.""
msgstr ""μμ.""

msgid ""sep""
msgstr ""Σεπ""

msgid ""seven""
msgstr ""εφτά""

msgid ""six""
msgstr ""έξι""

msgid ""three""
msgstr ""τρία""

msgid ""today""
msgstr ""σήμερα""

msgid ""tomorrow""
msgstr ""αύριο""

msgid ""two""
msgstr ""δύο""

msgid ""yesterday""
msgstr ""χθες""

msgctxt ""abbrev. month""
msgid ""April""
msgstr ""Απρίλ.""

msgctxt ""abbrev. month""
msgid ""Aug.""
msgstr ""Αύγ.""

msgctxt ""abbrev. month""
msgid ""Dec.""
msgstr ""Δεκ.""

msgctxt ""abbrev. month""
msgid ""Feb.""
msgstr ""Φεβ.""

msgctxt ""abbrev. month""
msgid ""Jan.""
msgstr ""Ιαν.""

msgctxt ""abbrev. month""
msgid ""July""
msgstr ""Ιούλ.""

msgctxt ""abbrev. month""
msgid ""June""
msgstr ""Ιούν.""

msgctxt ""abbrev. month""
msgid ""March""
msgstr ""Μάρτιος""

msgctxt ""abbrev. month""
msgid ""May""
msgstr ""Μάιος""

msgctxt ""abbrev. month""
msgid ""Nov.""
msgstr ""Νοέμ.""

msgctxt ""abbrev. month""
msgid ""Oct.""
msgstr ""Οκτ.""

msgctxt ""abbrev. month""
msgid ""Sept.""
msgstr ""Σεπτ.""

msgctxt ""alt. month""
msgid ""April""
msgstr ""Απριλίου""

msgctxt ""alt. month""
msgid ""August""
msgstr ""Αυγούστου""

msgctxt ""alt. month""
msgid ""December""
msgstr ""Δεκεμβρίου""

msgctxt ""alt. month""
msgid ""February""
msgstr ""Φεβρουαρίου""

msgctxt ""alt. month""
msgid ""January""
msgstr ""Ιανουαρίου""

msgctxt ""alt. month""
msgid ""July""
msgstr ""Ιουλίου""

msgctxt ""alt. month""
msgid ""June""
msgstr ""Ιουνίου""

msgctxt ""alt. month""
msgid ""March""
msgstr ""Μαρτίου""

msgctxt ""alt. month""
msgid ""May""
msgstr ""Μαΐου""

msgctxt ""alt. month""
msgid ""November""
msgstr ""Νοεμβρίου""

msgctxt ""alt. month""
msgid ""October""
msgstr ""Οκτωβρίου""

msgctxt ""alt. month""
msgid ""September""
msgstr ""Σεπτεμβρίου""

msgctxt ""ordinal 0""
msgid ""%vth""
msgstr ""%vο""

msgctxt ""ordinal 1""
msgid ""%vst""
msgstr ""%vο""

msgctxt ""ordinal 11, 12, 13""
msgid ""%vth""
msgstr ""%vο""

msgctxt ""ordinal 2""
msgid ""%vnd""
msgstr ""%vο""

msgctxt ""ordinal 3""
msgid ""%vrd""
msgstr ""%vο""

msgctxt ""ordinal 4""
msgid ""%vth""
msgstr ""%vο""

msgctxt ""ordinal 5""
msgid ""%vth""
msgstr ""%vο""

msgctxt ""ordinal 6""
msgid ""%vth""
msgstr ""%vο""

msgctxt ""ordinal 7""
msgid ""%vth""
msgstr ""%vο""

msgctxt ""ordinal 8""
msgid ""%vth""
msgstr ""%vο""

msgctxt ""ordinal 9""
msgid ""%vth""
msgstr ""%vο""
".
(** humanize/locale/el/locale.go (New) *)
Definition loc_el : locale_data := LD (bs "el") [(bs "django.po", po_el)]
  (Some (FD (bs "d/m/Y") (bs "P") (bs "d/m/Y P") (bs "F Y") (bs "j F") (bs "d/m/Y") (bs "d/m/Y P"))).

(** humanize/locale/enAU/django.po *)
Definition po_enAU : bytes := bs "# This file is distributed under the same license as the Django package.
# 
# Translators:
# Tom Fifield <tom@tomfifield.net>, 2014
# Tom Fifield <tom@tomfifield.net>, 2021
msgid """"
msgstr """"
""Project-Id-Version: django\n""
""Report-Msgid-Bugs-To: \n""
""POT-Creation-Date: 2021-09-21 10:22+0200\n""
""PO-Revision-Date: 2021-11-18 21:19+0000\n""
""Last-Translator: Transifex Bot <>\n""
""Language-Team: English (Australia) (http://www.transifex.com/django/django/language/en_AU/)\n""
""Language: en_AU\n""
""MIME-Version: 1.0\n""
""Content-Type: text/plain; charset=UTF-8\n""
""Content-Transfer-Encoding: 8bit\n""
""Plural-Forms: nplurals=2; plural=(n != 1);\n""

msgid ""%[1]d byte""
msgid_plural ""%[1]d bytes""
msgstr[0] ""%[1]d byte""
msgstr[1] ""%[1]d bytes""

msgid ""%[1]s billion""
msgid_plural ""%[1]s billion""
msgstr[0] """"
msgstr[1] """"

msgid ""%[1]s decillion""
msgid_plural ""%[1]s decillion""
msgstr[0] """"
msgstr[1] """"

msgid ""%[1]s googol""
msgid_plural ""%[1]s googol""
msgstr[0] """"
msgstr[1] """"

msgid ""%[1]s million""
msgid_plural ""%[1]s million""
msgstr[0] """"
msgstr[1] """"

msgid ""%[1]s nonillion""
msgid_plural ""%[1]s nonillion""
msgstr[0] """"
msgstr[1] """"

msgid ""%[1]s octillion""
msgid_plural ""%[1]s octillion""
msgstr[0] """"
msgstr[1] """"

msgid ""%[1]s quadrillion""
msgid_plural ""%[1]s quadrillion""
msgstr[0] """"
msgstr[1] """"

msgid ""%[1]s quintillion""
msgid_plural ""%[1]s quintillion""
msgstr[0] """"
msgstr[1] """"

msgid ""%[1]s septillion""
msgid_plural ""%[1]s septillion""
msgstr[0] """"
msgstr[1] """"

msgid ""%[1]s sextillion""
msgid_plural ""%[1]s sextillion""
msgstr[0] """"
msgstr[1] """"

msgid ""%[1]s trillion""
msgid_plural ""%[1]s trillion""
msgstr[0] """"
msgstr[1] """"

msgid ""%[1]v ago""
msgstr """"

msgid ""%[1]v day""
msgid_plural ""%[1]v days""
msgstr[0] """"
msgstr[1] """"

msgid ""%[1]v from now""
msgstr """"

msgid ""%[1]v hour""
msgid_plural ""%[1]v hours""
msgstr[0] """"
msgstr[1] """"

msgid ""%[1]v minute""
msgid_plural ""%[1]v minutes""
msgstr[0] """"
msgstr[1] """"

msgid ""%[1]v month""
msgid_plural ""%[1]v months""
msgstr[0] """"
msgstr[1] """"

msgid ""%[1]v week""
msgid_plural ""%[1]v weeks""
msgstr[0] """"
msgstr[1] """"

msgid ""%[1]v year""
msgid_plural ""%[1]v years""
msgstr[0] """"
msgstr[1] """"

msgid ""%s GB""
msgstr ""%s GB""

msgid ""%s KB""
msgstr ""%s KB""

msgid ""%s MB""
msgstr ""%s MB""

msgid ""%s PB""
msgstr ""%s PB""

msgid ""%s TB""
msgstr ""%s TB""

msgid "", ""
msgstr "", ""

msgid ""AM""
msgstr ""AM""

msgid ""Afrikaans""
msgstr ""Afrikaans""

msgid ""Albanian""
msgstr ""Albanian""

msgid ""Algerian Arabic""
msgstr ""Algerian Arabic""

msgid ""April""
msgstr ""April""

msgid ""Arabic""
msgstr ""Arabic""

msgid ""Argentinian Spanish""
msgstr ""Argentinian Spanish""

msgid ""Armenian""
msgstr ""Armenian""

msgid ""Asturian""
msgstr ""Asturian""

msgid ""August""
msgstr ""August""

msgid ""Australian English""
msgstr ""Australian English""

msgid ""Azerbaijani""
msgstr ""Azerbaijani""

msgid ""Basque""
msgstr ""Basque""

msgid ""Belarusian""
msgstr ""Belarusian""

msgid ""Bengali""
msgstr ""Bengali""

msgid ""Bosnian""
msgstr ""Bosnian""

msgid ""Brazilian Portuguese""
msgstr ""Brazilian Portuguese""

msgid ""Breton""
msgstr ""Breton""

msgid ""British English""
msgstr ""British English""

msgid ""Bulgarian""
msgstr ""Bulgarian""

msgid ""Burmese""
msgstr ""Burmese""

msgid ""Catalan""
msgstr ""Catalan""

msgid ""Colombian Spanish""
msgstr ""Colombian Spanish""

msgid ""Croatian""
msgstr ""Croatian""

msgid ""Czech""
msgstr ""Czech""

msgid ""Danish""
msgstr ""Danish""

msgid ""December""
msgstr ""December""

msgid ""Dutch""
msgstr ""Dutch""

msgid ""English""
msgstr ""English""

msgid ""Esperanto""
msgstr ""Esperanto""

msgid ""Estonian""
msgstr ""Estonian""

msgid ""February""
msgstr ""February""

msgid ""Finnish""
msgstr ""Finnish""

msgid ""French""
msgstr ""French""

msgid ""Fri""
msgstr ""Fri""

msgid ""Friday""
msgstr ""Friday""

msgid ""Frisian""
msgstr ""Frisian""

msgid ""Galician""
msgstr ""Galician""

msgid ""Georgian""
msgstr ""Georgian""

msgid ""German""
msgstr ""German""

msgid ""Greek""
msgstr ""Greek""

msgid ""Hebrew""
msgstr ""Hebrew""

msgid ""Hindi""
msgstr ""Hindi""

msgid ""Hungarian""
msgstr ""Hungarian""

msgid ""Icelandic""
msgstr ""Icelandic""

msgid ""Ido""
msgstr ""Ido""

msgid ""Igbo""
msgstr ""Igbo""

msgid ""Indonesian""
msgstr ""Indonesian""

msgid ""Interlingua""
msgstr ""Interlingua""

msgid ""Irish""
msgstr ""Irish""

msgid ""Italian""
msgstr ""Italian""

msgid ""January""
msgstr ""January""

msgid ""Japanese""
msgstr ""Japanese""

msgid ""July""
msgstr ""July""

msgid ""June""
msgstr ""June""

msgid ""Kabyle""
msgstr ""Kabyle""

msgid ""Kannada""
msgstr ""Kannada""

msgid ""Kazakh""
msgstr ""Kazakh""

msgid ""Khmer""
msgstr ""Khmer""

msgid ""Korean""
msgstr ""Korean""

msgid ""Kyrgyz""
msgstr ""Kyrgyz""

msgid ""Latvian""
msgstr ""Latvian""

msgid ""Lithuanian""
msgstr ""Lithuanian""

msgid ""Lower Sorbian""
msgstr ""Lower Sorbian""

msgid ""Luxembourgish""
msgstr ""Luxembourgish""

msgid ""Macedonian""
msgstr ""Macedonian""

msgid ""Malay""
msgstr """"

msgid ""Malayalam""
msgstr ""Malayalam""

msgid ""Marathi""
msgstr ""Marathi""

msgid ""March""
msgstr ""March""

msgid ""May""
msgstr ""May""

msgid ""Mexican Spanish""
msgstr ""Mexican Spanish""

msgid ""Mon""
msgstr ""Mon""

msgid ""Monday""
msgstr ""Monday""

msgid ""Mongolian""
msgstr ""Mongolian""

msgid ""Nepali""
msgstr ""Nepali""

msgid ""Nicaraguan Spanish""
msgstr ""Nicaraguan Spanish""

msgid ""Norwegian Bokmål""
msgstr ""Norwegian Bokmål""

msgid ""Norwegian Nynorsk""
msgstr ""Norwegian Nynorsk""

msgid ""November""
msgstr ""November""

msgid ""October""
msgstr ""October""

msgid ""Ossetic""
msgstr ""Ossetic""

msgid ""PM""
msgstr ""PM""

msgid ""Persian""
msgstr ""Persian""

msgid ""Polish""
msgstr ""Polish""

msgid ""Portuguese""
msgstr ""Portuguese""

msgid ""Punjabi""
msgstr ""Punjabi""

msgid ""Romanian""
msgstr ""Romanian""

msgid ""Russian""
msgstr ""Russian""

msgid ""Sat""
msgstr ""Sat""

msgid ""Saturday""
msgstr ""Saturday""

msgid ""Scottish Gaelic""
msgstr ""Scottish Gaelic""

msgid ""September""
msgstr ""September""

msgid ""Serbian""
msgstr ""Serbian""

msgid ""Serbian Latin""
msgstr ""Serbian Latin""

msgid ""Simplified Chinese""
msgstr ""Simplified Chinese""

msgid ""Slovak""
msgstr ""Slovak""

msgid ""Slovenian""
msgstr ""Slovenian""

msgid ""Spanish""
msgstr ""Spanish""

msgid ""Sun""
msgstr ""Sun""

msgid ""Sunday""
msgstr ""Sunday""

msgid ""Swahili""
msgstr ""Swahili""

msgid ""Swedish""
msgstr ""Swedish""

msgid ""Tajik""
msgstr ""Tajik""

msgid ""Tamil""
msgstr ""Tamil""

msgid ""Tatar""
msgstr ""Tatar""

msgid ""Telugu""
msgstr ""Telugu""

msgid ""Thai""
msgstr ""Thai""

msgid ""Thu""
msgstr ""Thu""

msgid ""Thursday""
msgstr ""Thursday""

msgid ""Traditional Chinese""
msgstr ""Traditional Chinese""

msgid ""Tue""
msgstr ""Tue""

msgid ""Tuesday""
msgstr ""Tuesday""

msgid ""Turkish""
msgstr ""Turkish""

msgid ""Turkmen""
msgstr ""Turkmen""

msgid ""Udmurt""
msgstr ""Udmurt""

msgid ""Ukrainian""
msgstr ""Ukrainian""

msgid ""Upper Sorbian""
msgstr ""Upper Sorbian""

msgid ""Urdu""
msgstr ""Urdu""

msgid ""Uzbek""
msgstr ""Uzbek""

msgid ""Venezuelan Spanish""
msgstr ""Venezuelan Spanish""

msgid ""Vietnamese""
msgstr ""Vietnamese""

msgid ""Wed""
msgstr ""Wed""

msgid ""Wednesday""
msgstr ""Wednesday""

msgid ""Welsh""
msgstr ""Welsh""

msgid ""a minute ago""
msgid_plural ""%[1]v minutes ago""
msgstr[0] """"
msgstr[1] """"

msgid ""a minute from now""
msgid_plural ""%[1]v minutes from now""
msgstr[0] """"
msgstr[1] """"

msgid ""a second ago""
msgid_plural ""%[1]v seconds ago""
msgstr[0] """"
msgstr[1] """"

msgid ""a second from now""
msgid_plural ""%[1]v seconds from now""
msgstr[0] """"
msgstr[1] """"

msgid ""a.m.""
msgstr ""a.m.""

msgid ""an hour ago""
msgid_plural ""%[1]v hours ago""
msgstr[0] """"
msgstr[1] """"

msgid ""an hour from now""
msgid_plural ""%[1]v hours from now""
msgstr[0] """"
msgstr[1] """"

msgid ""apr""
msgstr ""apr""

msgid ""aug""
msgstr ""aug""

msgid ""dec""
msgstr ""dec""

msgid ""eight""
msgstr """"

msgid ""feb""
msgstr ""feb""

msgid ""five""
msgstr """"

msgid ""four""
msgstr """"

msgid ""jan""
msgstr ""jan""

msgid ""jul""
msgstr ""jul""

msgid ""jun""
msgstr ""jun""

msgid ""mar""
msgstr ""mar""

msgid ""may""
msgstr ""may""

msgid ""midnight""
msgstr ""midnight""

msgid ""nine""
msgstr """"

msgid ""noon""
msgstr ""noon""

msgid ""nov""
msgstr ""nov""

msgid ""now""
msgstr """"

msgid ""oct""
msgstr ""oct""

msgid ""one""
msgstr """"

msgid ""p.m.""
msgstr ""p.m.""

msgid ""sep""
msgstr ""sep""

msgid ""seven""
msgstr """"

msgid ""six""
msgstr """"

msgid ""three""
msgstr """"

msgid ""today""
msgstr """"

msgid ""tomorrow""
msgstr """"

msgid ""two""
msgstr """"

msgid ""yesterday""
msgstr """"

msgctxt ""abbrev. month""
msgid ""April""
msgstr ""April""

msgctxt ""abbrev. month""
msgid ""Aug.""
msgstr ""Aug.""

msgctxt ""abbrev. month""
msgid ""Dec.""
msgstr ""Dec.""

msgctxt ""abbrev. month""
msgid ""Feb.""
msgstr ""Feb.""

msgctxt ""abbrev. month""
msgid ""Jan.""
msgstr ""Jan.""

msgctxt ""abbrev. month""
msgid ""July""
msgstr ""July""

msgctxt ""abbrev. month""
msgid ""June""
msgstr ""June""

msgctxt ""abbrev. month""
msgid ""March""
msgstr ""March""

msgctxt ""abbrev. month""
msgid ""May""
msgstr ""May""

msgctxt ""abbrev. month""
msgid ""Nov.""
msgstr ""Nov.""

msgctxt ""abbrev. month""
msgid ""Oct.""
msgstr ""Oct.""

msgctxt ""abbrev. month""
msgid ""Sept.""
msgstr ""Sept.""

msgctxt ""alt. month""
msgid ""April""
msgstr ""April""

msgctxt ""alt. month""
msgid ""August""
msgstr ""August""

msgctxt ""alt. month""
msgid ""December""
msgstr ""December""

msgctxt ""alt. month""
msgid ""February""
msgstr ""February""

msgctxt ""alt. month""
msgid ""January""
msgstr ""January""

msgctxt ""alt. month""
msgid ""July""
msgstr ""July""

msgctxt ""alt. month""
msgid ""June""
msgstr ""June""

msgctxt ""alt. month""
msgid ""March""
msgstr ""March""

msgctxt ""alt. month""
msgid ""May""
msgstr ""May""

msgctxt ""alt. month""
msgid ""November""
msgstr ""November""

msgctxt ""alt. month""
msgid ""October""
msgstr ""October""

msgctxt ""alt. month""
msgid ""September""
msgstr ""September""

msgctxt ""naturaltime-future""
msgid ""%[1]v day""
msgid_plural ""%[1]v days""
msgstr[0] """"
msgstr[1] """"

msgctxt ""naturaltime-future""
msgid ""%[1]v hour""
msgid_plural ""%[1]v hours""
msgstr[0] """"
msgstr[1] """"

msgctxt ""naturaltime-future""
msgid ""%[1]v minute""
msgid_plural ""%[1]v minutes""
msgstr[0] """"
msgstr[1] """"

msgctxt ""naturaltime-future""
msgid ""%[1]v month""
msgid_plural ""%[1]v months""
msgstr[0] """"
msgstr[1] """"

msgctxt ""naturaltime-future""
msgid ""%[1]v week""
msgid_plural ""%[1]v weeks""
msgstr[0] """"
msgstr[1] """"

msgctxt ""naturaltime-future""
msgid ""%[1]v year""
msgid_plural ""%[1]v years""
msgstr[0] """"
msgstr[1] """"

msgctxt ""naturaltime-past""
msgid ""%[1]v day""
msgid_plural ""%[1]v days""
msgstr[0] """"
msgstr[1] """"

msgctxt ""naturaltime-past""
msgid ""%[1]v hour""
msgid_plural ""%[1]v hours""
msgstr[0] """"
msgstr[1] """"

msgctxt ""naturaltime-past""
msgid ""%[1]v minute""
msgid_plural ""%[1]v minutes""
msgstr[0] """"
msgstr[1] """"

msgctxt ""naturaltime-past""
msgid ""%[1]v month""
msgid_plural ""%[1]v months""
msgstr[0] """"
msgstr[1] """"

msgctxt ""naturaltime-past""
msgid ""%[1]v week""
msgid_plural ""%[1]v weeks""
msgstr[0] """"
msgstr[1] """"

msgctxt ""naturaltime-past""
msgid ""%[1]v year""
msgid_plural ""%[1]v years""
msgstr[0] """"
msgstr[1] """"

msgctxt ""ordinal 0""
msgid ""%vth""
msgstr ""%vth""

msgctxt ""ordinal 1""
msgid ""%vst""
msgstr ""%vst""

msgctxt ""ordinal 11, 12, 13""
msgid ""%vth""
msgstr ""%vth""

msgctxt ""ordinal 2""
msgid ""%vnd""
msgstr ""%vnd""

msgctxt ""ordinal 3""
msgid ""%vrd""
msgstr ""%vrd""

msgctxt ""ordinal 4""
msgid ""%vth""
msgstr ""%vth""

msgctxt ""ordinal 5""
msgid ""%vth""
msgstr ""%vth""

msgctxt ""ordinal 6""
msgid ""%vth""
msgstr ""%vth""

msgctxt ""ordinal 7""
msgid ""%vth""
msgstr ""%vth""

msgctxt ""ordinal 8""
msgid ""%vth""
msgstr ""%vth""

msgctxt ""ordinal 9""
msgid ""%vth""
msgstr ""%vth""
".
(** humanize/locale/enAU/locale.go (New) *)
Definition loc_enAU : locale_data := LD (bs "en-AU") [(bs "django.po", po_enAU)]
  (Some (FD (bs "j M Y") (bs "P") (bs "j M Y, P") (bs "F Y") (bs "j F") (bs "d/m/Y") (bs "d/m/Y P"))).

(** humanize/locale/enGB/django.po *)
Definition po_enGB : bytes := bs "# This file is distributed under the same license as the Django package.
# 
# Translators:
# Jannis Leidel <jannis@leidel.info>, 2011
# jon_atkinson <jon@jonatkinson.co.uk>, 2011-2012
# Ross Poulton <ross@rossp.org>, 2011-2012
msgid """"
msgstr """"
""Project-Id-Version: django\n""
""Report-Msgid-Bugs-To: \n""
""POT-Creation-Date: 2019-09-27 22:40+0200\n""
""PO-Revision-Date: 2019-11-05 00:38+0000\n""
""Last-Translator: Ramiro Morales\n""
""Language-Team: English (United Kingdom) (http://www.transifex.com/django/django/language/en_GB/)\n""
""Language: en_GB\n""
""MIME-Version: 1.0\n""
""Content-Type: text/plain; charset=UTF-8\n""
""Content-Transfer-Encoding: 8bit\n""
""Plural-Forms: nplurals=2; plural=(n != 1);\n""

msgid ""%[1]d byte""
msgid_plural ""%[1]d bytes""
msgstr[0] ""%[1]d byte""
msgstr[1] ""%[1]d bytes""

msgid ""%[1]s billion""
msgid_plural ""%[1]s billion""
msgstr[0] ""%[1]s billion""
msgstr[1] ""%[1]s billion""

msgid ""%[1]s decillion""
msgid_plural ""%[1]s decillion""
msgstr[0] ""%[1]s decillion""
msgstr[1] ""%[1]s decillion""

msgid ""%[1]s googol""
msgid_plural ""%[1]s googol""
msgstr[0] ""%[1]s googol""
msgstr[1] ""%[1]s googol""

msgid ""%[1]s million""
msgid_plural ""%[1]s million""
msgstr[0] ""%[1]s million""
msgstr[1] ""%[1]s million""

msgid ""%[1]s nonillion""
msgid_plural ""%[1]s nonillion""
msgstr[0] ""%[1]s nonillion""
msgstr[1] ""%[1]s nonillion""

msgid ""%[1]s octillion""
msgid_plural ""%[1]s octillion""
msgstr[0] ""%[1]s octillion""
msgstr[1] ""%[1]s octillion""

msgid ""%[1]s quadrillion""
msgid_plural ""%[1]s quadrillion""
msgstr[0] ""%[1]s quadrillion""
msgstr[1] ""%[1]s quadrillion""

msgid ""%[1]s quintillion""
msgid_plural ""%[1]s quintillion""
msgstr[0] ""%[1]s quintillion""
msgstr[1] ""%[1]s quintillion""

msgid ""%[1]s septillion""
msgid_plural ""%[1]s septillion""
msgstr[0] ""%[1]s septillion""
msgstr[1] ""%[1]s septillion""

msgid ""%[1]s sextillion""
msgid_plural ""%[1]s sextillion""
msgstr[0] ""%[1]s sextillion""
msgstr[1] ""%[1]s sextillion""

msgid ""%[1]s trillion""
msgid_plural ""%[1]s trillion""
msgstr[0] ""%[1]s trillion""
msgstr[1] ""%[1]s trillion""

msgid ""%s GB""
msgstr ""%s GB""

msgid ""%s KB""
msgstr ""%s KB""

msgid ""%s MB""
msgstr ""%s MB""

msgid ""%s PB""
msgstr ""%s PB""

msgid ""%s TB""
msgstr ""%s TB""

msgid "", ""
msgstr "", ""

msgid ""AM""
msgstr ""AM""

msgid ""Afrikaans""
msgstr """"

msgid ""Albanian""
msgstr ""Albanian""

msgid ""April""
msgstr ""April""

msgid ""Arabic""
msgstr ""Arabic""

msgid ""Argentinian Spanish""
msgstr ""Argentinian Spanish""

msgid ""Armenian""
msgstr """"

msgid ""Asturian""
msgstr """"

msgid ""August""
msgstr ""August""

msgid ""Australian English""
msgstr """"

msgid ""Azerbaijani""
msgstr ""Azerbaijani""

msgid ""Basque""
msgstr ""Basque""

msgid ""Belarusian""
msgstr """"

msgid ""Bengali""
msgstr ""Bengali""

msgid ""Bosnian""
msgstr ""Bosnian""

msgid ""Brazilian Portuguese""
msgstr ""Brazilian Portuguese""

msgid ""Breton""
msgstr """"

msgid ""British English""
msgstr ""British English""

msgid ""Bulgarian""
msgstr ""Bulgarian""

msgid ""Burmese""
msgstr """"

msgid ""Catalan""
msgstr ""Catalan""

msgid ""Colombian Spanish""
msgstr """"

msgid ""Croatian""
msgstr ""Croatian""

msgid ""Czech""
msgstr ""Czech""

msgid ""Danish""
msgstr ""Danish""

msgid ""December""
msgstr ""December""

msgid ""Dutch""
msgstr ""Dutch""

msgid ""English""
msgstr ""English""

msgid ""Esperanto""
msgstr ""Esperanto""

msgid ""Estonian""
msgstr ""Estonian""

msgid ""February""
msgstr ""February""

msgid ""Finnish""
msgstr ""Finnish""

msgid ""French""
msgstr ""French""

msgid ""Fri""
msgstr ""Fri""

msgid ""Friday""
msgstr ""Friday""

msgid ""Frisian""
msgstr ""Frisian""

msgid ""Galician""
msgstr ""Galician""

msgid ""Georgian""
msgstr ""Georgian""

msgid ""German""
msgstr ""German""

msgid ""Greek""
msgstr ""Greek""

msgid ""Hebrew""
msgstr ""Hebrew""

msgid ""Hindi""
msgstr ""Hindi""

msgid ""Hungarian""
msgstr ""Hungarian""

msgid ""Icelandic""
msgstr ""Icelandic""

msgid ""Ido""
msgstr """"

msgid ""Indonesian""
msgstr ""Indonesian""

msgid ""Interlingua""
msgstr """"

msgid ""Irish""
msgstr ""Irish""

msgid ""Italian""
msgstr ""Italian""

msgid ""January""
msgstr ""January""

msgid ""Japanese""
msgstr ""Japanese""

msgid ""July""
msgstr ""July""

msgid ""June""
msgstr ""June""

msgid ""Kabyle""
msgstr """"

msgid ""Kannada""
msgstr ""Kannada""

msgid ""Kazakh""
msgstr ""Kazakh""

msgid ""Khmer""
msgstr ""Khmer""

msgid ""Korean""
msgstr ""Korean""

msgid ""Latvian""
msgstr ""Latvian""

msgid ""Lithuanian""
msgstr ""Lithuanian""

msgid ""Lower Sorbian""
msgstr """"

msgid ""Luxembourgish""
msgstr """"

msgid ""Macedonian""
msgstr ""Macedonian""

msgid ""Malayalam""
msgstr ""Malayalam""

msgid ""Marathi""
msgstr """"

msgid ""March""
msgstr ""March""

msgid ""May""
msgstr ""May""

msgid ""Mexican Spanish""
msgstr ""Mexican Spanish""

msgid ""Mon""
msgstr ""Mon""

msgid ""Monday""
msgstr ""Monday""

msgid ""Mongolian""
msgstr ""Mongolian""

msgid ""Nepali""
msgstr ""Nepali""

msgid ""Nicaraguan Spanish""
msgstr ""Nicaraguan Spanish""

msgid ""Norwegian Bokmål""
msgstr """"

msgid ""Norwegian Nynorsk""
msgstr ""Norwegian Nynorsk""

msgid ""November""
msgstr ""November""

msgid ""October""
msgstr ""October""

msgid ""Ossetic""
msgstr """"

msgid ""PM""
msgstr ""PM""

msgid ""Persian""
msgstr ""Persian""

msgid ""Polish""
msgstr ""Polish""

msgid ""Portuguese""
msgstr ""Portuguese""

msgid ""Punjabi""
msgstr ""Punjabi""

msgid ""Romanian""
msgstr ""Romanian""

msgid ""Russian""
msgstr ""Russian""

msgid ""Sat""
msgstr ""Sat""

msgid ""Saturday""
msgstr ""Saturday""

msgid ""Scottish Gaelic""
msgstr """"

msgid ""September""
msgstr ""September""

msgid ""Serbian""
msgstr ""Serbian""

msgid ""Serbian Latin""
msgstr ""Serbian Latin""

msgid ""Simplified Chinese""
msgstr ""Simplified Chinese""

msgid ""Slovak""
msgstr ""Slovak""

msgid ""Slovenian""
msgstr ""Slovenian""

msgid ""Spanish""
msgstr ""Spanish""

msgid ""Sun""
msgstr ""Sun""

msgid ""Sunday""
msgstr ""Sunday""

msgid ""Swahili""
msgstr ""Swahili""

msgid ""Swedish""
msgstr ""Swedish""

msgid ""Tamil""
msgstr ""Tamil""

msgid ""Tatar""
msgstr ""Tatar""

msgid ""Telugu""
msgstr ""Telugu""

msgid ""Thai""
msgstr ""Thai""

msgid ""Thu""
msgstr ""Thu""

msgid ""Thursday""
msgstr ""Thursday""

msgid ""Traditional Chinese""
msgstr ""Traditional Chinese""

msgid ""Tue""
msgstr ""Tue""

msgid ""Tuesday""
msgstr ""Tuesday""

msgid ""Turkish""
msgstr ""Turkish""

msgid ""Udmurt""
msgstr """"

msgid ""Ukrainian""
msgstr ""Ukrainian""

msgid ""Upper Sorbian""
msgstr """"

msgid ""Urdu""
msgstr ""Urdu""

msgid ""Uzbek""
msgstr """"

msgid ""Venezuelan Spanish""
msgstr """"

msgid ""Vietnamese""
msgstr ""Vietnamese""

msgid ""Wed""
msgstr ""Wed""

msgid ""Wednesday""
msgstr ""Wednesday""

msgid ""Welsh""
msgstr ""Welsh""

msgid ""a minute ago""
msgid_plural ""%[1]v minutes ago""
msgstr[0] """"
msgstr[1] """"

msgid ""a minute from now""
msgid_plural ""%[1]v minutes from now""
msgstr[0] """"
msgstr[1] """"

msgid ""a second ago""
msgid_plural ""%[1]v seconds ago""
msgstr[0] """"
msgstr[1] """"

msgid ""a second from now""
msgid_plural ""%[1]v seconds from now""
msgstr[0] """"
msgstr[1] """"

msgid ""a.m.""
msgstr ""a.m.""

msgid ""an hour ago""
msgid_plural ""%[1]v hours ago""
msgstr[0] """"
msgstr[1] """"

msgid ""an hour from now""
msgid_plural ""%[1]v hours from now""
msgstr[0] """"
msgstr[1] """"

msgid ""apr""
msgstr ""apr""

msgid ""aug""
msgstr ""aug""

msgid ""dec""
msgstr ""dec""

msgid ""eight""
msgstr ""eight""

msgid ""feb""
msgstr ""feb""

msgid ""five""
msgstr ""five""

msgid ""four""
msgstr ""four""

msgid ""jan""
msgstr ""jan""

msgid ""jul""
msgstr ""jul""

msgid ""jun""
msgstr ""jun""

msgid ""mar""
msgstr ""mar""

msgid ""may""
msgstr ""may""

msgid ""midnight""
msgstr ""midnight""

msgid ""nine""
msgstr ""nine""

msgid ""noon""
msgstr ""noon""

msgid ""nov""
msgstr ""nov""

msgid ""now""
msgstr ""now""

msgid ""oct""
msgstr ""oct""

msgid ""one""
msgstr ""one""

msgid ""p.m.""
msgstr ""p.m.""

msgid ""sep""
msgstr ""sep""

msgid ""seven""
msgstr ""seven""

msgid ""six""
msgstr ""six""

msgid ""three""
msgstr ""three""

msgid ""today""
msgstr ""today""

msgid ""tomorrow""
msgstr ""tomorrow""

msgid ""two""
msgstr ""two""

msgid ""yesterday""
msgstr ""yesterday""

msgctxt ""abbrev. month""
msgid ""April""
msgstr ""April""

msgctxt ""abbrev. month""
msgid ""Aug.""
msgstr ""Aug.""

msgctxt ""abbrev. month""
msgid ""Dec.""
msgstr ""Dec.""

msgctxt ""abbrev. month""
msgid ""Feb.""
msgstr ""Feb.""

msgctxt ""abbrev. month""
msgid ""Jan.""
msgstr ""Jan.""

msgctxt ""abbrev. month""
msgid ""July""
msgstr ""July""

msgctxt ""abbrev. month""
msgid ""June""
msgstr ""June""

msgctxt ""abbrev. month""
msgid ""March""
msgstr ""March""

msgctxt ""abbrev. month""
msgid ""May""
msgstr ""May""

msgctxt ""abbrev. month""
msgid ""Nov.""
msgstr ""Nov.""

msgctxt ""abbrev. month""
msgid ""Oct.""
msgstr ""Oct.""

msgctxt ""abbrev. month""
msgid ""Sept.""
msgstr ""Sept.""

msgctxt ""alt. month""
msgid ""April""
msgstr ""April""

msgctxt ""alt. month""
msgid ""August""
msgstr ""August""

msgctxt ""alt. month""
msgid ""December""
msgstr ""December""

msgctxt ""alt. month""
msgid ""February""
msgstr ""February""

msgctxt ""alt. month""
msgid ""January""
msgstr ""January""

msgctxt ""alt. month""
msgid ""July""
msgstr ""July""

msgctxt ""alt. month""
msgid ""June""
msgstr ""June""

msgctxt ""alt. month""
msgid ""March""
msgstr ""March""

msgctxt ""alt. month""
msgid ""May""
msgstr ""May""

msgctxt ""alt. month""
msgid ""November""
msgstr ""November""

msgctxt ""alt. month""
msgid ""October""
msgstr ""October""

msgctxt ""alt. month""
msgid ""September""
msgstr ""September""
".
(** humanize/locale/enGB/locale.go (New) *)
Definition loc_enGB : locale_data := LD (bs "en-GB") [(bs "django.po", po_enGB)]
  (Some (FD (bs "j M Y") (bs "P") (bs "j M Y, P") (bs "F Y") (bs "j F") (bs "d/m/Y") (bs "d/m/Y P"))).

Definition shipped_2 : list (bytes * locale_data) :=
  [(bs "ca", loc_ca);
   (bs "ckb", loc_ckb);
   (bs "cs", loc_cs);
   (bs "cy", loc_cy);
   (bs "da", loc_da);
   (bs "de", loc_de);
   (bs "dsb", loc_dsb);
   (bs "el", loc_el);
   (bs "enAU", loc_enAU);
   (bs "enGB", loc_enGB)].
