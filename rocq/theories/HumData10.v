(** Translations and formats that come with humanize, part 10: generated by
    tools/gen_humdata.py from /repo/humanize/locale, django.po and the Go file of
    each package. *)
From Coq Require Import String Ascii List.
From Verif Require Import Base DfmtModel HumLocModel.
Import ListNotations.

(** humanize/locale/ug/django.po *)
Definition po_ug : bytes := bs "# This file is distributed under the same license as the Django package.
# 
# Translators:
# abdl erkin <84247764@qq.com>, 2018
# Abduqadir Abliz <sahranbay@gmail.com>, 2023-2024
# Abduqadir Abliz <sahranbay@gmail.com>, 2023
# Azat, 2023,2025
# Murat Orhun <oku.orhun@gmail.com>, 2023
# Natalia, 2025
msgid """"
msgstr """"
""Project-Id-Version: django\n""
""Report-Msgid-Bugs-To: \n""
""POT-Creation-Date: 2025-03-19 11:30-0500\n""
""PO-Revision-Date: 2025-09-17 06:49+0000\n""
""Last-Translator: Natalia, 2025\n""
""Language-Team: Uyghur (http://app.transifex.com/django/django/language/ug/)\n""
""Language: ug\n""
""MIME-Version: 1.0\n""
""Content-Type: text/plain; charset=UTF-8\n""
""Content-Transfer-Encoding: 8bit\n""
""Plural-Forms: nplurals=2; plural=(n != 1);\n""

msgid ""%[1]d byte""
msgid_plural ""%[1]d bytes""
msgstr[0] ""%[1]d بايىت""
msgstr[1] ""%[1]d بايىت""

msgid ""%[1]s billion""
msgid_plural ""%[1]s billion""
msgstr[0] ""%[1]s مىليارد""
msgstr[1] ""%[1]s مىليارد""

msgid ""%[1]s decillion""
msgid_plural ""%[1]s decillion""
msgstr[0] ""%[1]s دېكىللىيون""
msgstr[1] ""%[1]s دېكىللىيون""

msgid ""%[1]s googol""
msgid_plural ""%[1]s googol""
msgstr[0] ""%[1]s گۇگول ""
msgstr[1] ""%[1]s گۇگول""

msgid ""%[1]s million""
msgid_plural ""%[1]s million""
msgstr[0] ""%[1]s مىليون""
msgstr[1] ""%[1]s مىليون""

msgid ""%[1]s nonillion""
msgid_plural ""%[1]s nonillion""
msgstr[0] ""%[1]s نونىللىيون""
msgstr[1] ""%[1]s نونىللىيون""

msgid ""%[1]s octillion""
msgid_plural ""%[1]s octillion""
msgstr[0] ""%[1]s ئوكتىلىيون""
msgstr[1] ""%[1]s ئوكتىلىيون""

msgid ""%[1]s quadrillion""
msgid_plural ""%[1]s quadrillion""
msgstr[0] ""%[1]s كۋادىرىللىيۇن""
msgstr[1] ""%[1]s كۋادىرىللىيۇن""

msgid ""%[1]s quintillion""
msgid_plural ""%[1]s quintillion""
msgstr[0] ""%[1]s كۈيىنتىللىيون""
msgstr[1] ""%[1]s كۈيىنتىللىيون""

msgid ""%[1]s septillion""
msgid_plural ""%[1]s septillion""
msgstr[0] ""%[1]s سېكستىللىيون""
msgstr[1] ""%[1]s سېكستىللىيون""

msgid ""%[1]s sextillion""
msgid_plural ""%[1]s sextillion""
msgstr[0] ""%[1]s سېكستىللىيون""
msgstr[1] ""%[1]s سېكستىللىيون""

msgid ""%[1]s trillion""
msgid_plural ""%[1]s trillion""
msgstr[0] ""%[1]s تىرىليون""
msgstr[1] ""%[1]s تىرىليون""

msgid ""%[1]v ago""
msgstr ""%[1]v ئىلگىرى""

msgid ""%[1]v day""
msgid_plural ""%[1]v days""
msgstr[0] ""%[1]v كۈن""
msgstr[1] ""%[1]v كۈن""

msgid ""%[1]v from now""
msgstr ""%[1]v دىن كېيىن""

msgid ""%[1]v hour""
msgid_plural ""%[1]v hours""
msgstr[0] ""%[1]v سائەت""
msgstr[1] ""%[1]v سائەت""

msgid ""%[1]v minute""
msgid_plural ""%[1]v minutes""
msgstr[0] ""%[1]v مىنۇت""
msgstr[1] ""%[1]v مىنۇت""

msgid ""%[1]v month""
msgid_plural ""%[1]v months""
msgstr[0] ""%[1]v ئاي""
msgstr[1] ""%[1]v ئاي""

msgid ""%[1]v week""
msgid_plural ""%[1]v weeks""
msgstr[0] ""%[1]v ھەپتە""
msgstr[1] ""%[1]v ھەپتە""

msgid ""%[1]v year""
msgid_plural ""%[1]v years""
msgstr[0] ""%[1]v يىل""
msgstr[1] ""%[1]v يىل""

msgid ""%s GB""
msgstr ""%sگىگا بايىت""

msgid ""%s KB""
msgstr ""%s كىلوبايت""

msgid ""%s MB""
msgstr ""%sمېگا بايىت""

msgid ""%s PB""
msgstr ""%s پېتا بايىت""

msgid ""%s TB""
msgstr ""%s تېرا بايت""

msgid "", ""
msgstr ""،""

msgid ""AM""
msgstr ""AM""

msgid ""Afrikaans""
msgstr ""ئافرىكانسچە""

msgid ""Albanian""
msgstr ""ئالبانىيەچە""

msgid ""Algerian Arabic""
msgstr ""ئالجىرىيە ئەرەپچىسى""

msgid ""April""
msgstr ""ئاپرىل""

msgid ""Arabic""
msgstr ""ئەرەبچە""

msgid ""Argentinian Spanish""
msgstr ""ئارگېنتىنا ئىسپانچىسى""

msgid ""Armenian""
msgstr ""ئارمىنىيەچە""

msgid ""Asturian""
msgstr ""ئاستۇرىچە""

msgid ""August""
msgstr ""ئاۋغۇست""

msgid ""Australian English""
msgstr """"
""ئاۋىستىرالىيە ئىنگلزچىسى\n""
"" ""

msgid ""Azerbaijani""
msgstr ""ئەزەربەيجانچە""

msgid ""Basque""
msgstr ""بەسىكچە""

msgid ""Belarusian""
msgstr ""بېلورۇسىچە""

msgid ""Bengali""
msgstr ""بېنگالچە""

msgid ""Bosnian""
msgstr ""بوسنىيەچە""

msgid ""Brazilian Portuguese""
msgstr ""بىرازىلىيە پورتۇگالچىسى""

msgid ""Breton""
msgstr ""بىرېتونچە""

msgid ""British English""
msgstr ""ئەنگىلىيە ئىنگىلىزچىسى""

msgid ""Bulgarian""
msgstr ""بۇلغارچە""

msgid ""Burmese""
msgstr ""بېرمىچە""

msgid ""Catalan""
msgstr ""كاتالانچە""

msgid ""Central Kurdish (Sorani)""
msgstr ""مەركىزى كۇردچە ( سورانى) ""

msgid ""Colombian Spanish""
msgstr ""كولۇمبىيە ئىسپانچىسى""

msgid ""Croatian""
msgstr ""كىرودىيەچە""

msgid ""Czech""
msgstr ""چېخچە""

msgid ""Danish""
msgstr ""دانىشچە""

msgid ""December""
msgstr ""دىكابىر""

msgid ""Dutch""
msgstr ""گوللاندىيەچە""

msgid ""English""
msgstr ""ئىنگلىزچە""

msgid ""Esperanto""
msgstr ""دۇنيا تىلى""

msgid ""Estonian""
msgstr ""ئېستونىيەچە""

msgid ""February""
msgstr ""فېۋرال""

msgid ""Finnish""
msgstr ""ڧىنلانىدچە""

msgid ""French""
msgstr ""ڧىرانسۇزچە""

msgid ""Fri""
msgstr ""جۈ""

msgid ""Friday""
msgstr ""جۈمە""

msgid ""Frisian""
msgstr ""فىرىزىيەچە""

msgid ""Galician""
msgstr ""گالىچىيەچە""

msgid ""Georgian""
msgstr ""گرۇزىيەچە""

msgid ""German""
msgstr ""گىرمانچە""

msgid ""Greek""
msgstr ""گىرېكچە""

msgid ""Hebrew""
msgstr ""ئىبرانىچە""

msgid ""Hindi""
msgstr ""ھىندىچە""

msgid ""Hungarian""
msgstr ""ماجارچە""

msgid ""Icelandic""
msgstr ""ئىسلاندىيەچە""

msgid ""Ido""
msgstr ""ئىيدوچە""

msgid ""Igbo""
msgstr ""ئىبوچە""

msgid ""Indonesian""
msgstr ""ھىندىنوزىيەچە""

msgid ""Interlingua""
msgstr ""خەلقئارالىق تىل""

msgid ""Irish""
msgstr ""ئىرېلاندىيەچە""

msgid ""Italian""
msgstr ""ئىتالىيەچە""

msgid ""January""
msgstr ""يانۋار""

msgid ""Japanese""
msgstr ""ياپونچە""

msgid ""July""
msgstr ""ئىيۇل""

msgid ""June""
msgstr ""ئىيۇن""

msgid ""Kabyle""
msgstr ""كەبىيلچە""

msgid ""Kannada""
msgstr ""كانناداچە""

msgid ""Kazakh""
msgstr ""قازاقچە""

msgid ""Khmer""
msgstr ""كامىيرچە""

msgid ""Korean""
msgstr ""كورىيەچە""

msgid ""Kyrgyz""
msgstr ""قىرغىزچە""

msgid ""Latvian""
msgstr ""لاتۋىيەچە""

msgid ""Lithuanian""
msgstr ""لىتۋاچە""

msgid ""Lower Sorbian""
msgstr ""تۆۋەن سوربچە""

msgid ""Luxembourgish""
msgstr ""لىيۇكسېمبۇرگچە""

msgid ""Macedonian""
msgstr ""ماكېدونىيەچە""

msgid ""Malay""
msgstr ""مالايچە""

msgid ""Malayalam""
msgstr ""مالىيالامچە""

msgid ""Marathi""
msgstr ""ماراتىچە""

msgid ""March""
msgstr ""مارت""

msgid ""May""
msgstr ""ماي""

msgid ""Mexican Spanish""
msgstr ""مېكسىكا ئىسپانچىسى""

msgid ""Mon""
msgstr ""دۈش""

msgid ""Monday""
msgstr ""دۈشەنبە""

msgid ""Mongolian""
msgstr ""مۇڭغۇلچە""

msgid ""Nepali""
msgstr ""نېپالچە""

msgid ""Nicaraguan Spanish""
msgstr ""نىكاراگۇئا ئىسپاچىسى""

msgid ""Norwegian Bokmål""
msgstr ""نورۋېگىيە بوكمىلچىسى""

msgid ""Norwegian Nynorsk""
msgstr ""نورۋېگىيە نىنورسكچىسى""

msgid ""November""
msgstr ""نويابىر""

msgid ""October""
msgstr ""ئۆكتەبىر""

msgid ""Ossetic""
msgstr ""ئوسېتچە""

msgid ""PM""
msgstr ""PM""

msgid ""Persian""
msgstr ""پارىسچە""

msgid ""Polish""
msgstr ""پولشاچە""

msgid ""Portuguese""
msgstr ""پورتۇگالچە""

msgid ""Punjabi""
msgstr ""پۇنجابىچە""

msgid ""Romanian""
msgstr ""رومەينىيەچە""

msgid ""Russian""
msgstr ""رۇسچە""

msgid ""Sat""
msgstr ""شەن""

msgid ""Saturday""
msgstr ""شەنبە""

msgid ""Scottish Gaelic""
msgstr ""شوتلاندىيەچە""

msgid ""September""
msgstr ""سىنتەبىر""

msgid ""Serbian""
msgstr ""سېربىيەچە""

msgid ""Serbian Latin""
msgstr ""سېربىيە لاتىنچىسى""

msgid ""Simplified Chinese""
msgstr ""خەنزۇچە""

msgid ""Slovak""
msgstr ""سلوۋاكىيەچە""

msgid ""Slovenian""
msgstr ""سىلوۋېنىيەچە""

msgid ""Spanish""
msgstr ""ئىسپانچە""

msgid ""Sun""
msgstr ""يەك""

msgid ""Sunday""
msgstr ""يەكشەنبە""

msgid ""Swahili""
msgstr ""سۋاھىلچە""

msgid ""Swedish""
msgstr ""شىۋىتسىيەچە""

msgid ""Tajik""
msgstr ""تاجىكچە""

msgid ""Tamil""
msgstr ""تامىلچە""

msgid ""Tatar""
msgstr ""تاتارچە""

msgid ""Telugu""
msgstr ""تېلۇگۇ""

msgid ""Thai""
msgstr ""تايلاندچە""

msgid ""Thu""
msgstr ""پەي""

msgid ""Thursday""
msgstr ""پەيشەمبە""

msgid ""Traditional Chinese""
msgstr ""ئەنئەنىۋى خەنزۇچىسى""

msgid ""Tue""
msgstr ""سەي""

msgid ""Tuesday""
msgstr ""سەيشەنبە""

msgid ""Turkish""
msgstr ""تۈركچە""

msgid ""Turkmen""
msgstr ""تۈركمەنچە""

msgid ""Udmurt""
msgstr ""ئۇدمۇرتچە""

msgid ""Ukrainian""
msgstr ""ئۇكرائىنچە""

msgid ""Upper Sorbian""
msgstr ""يۇقىرى سوربچە""

msgid ""Urdu""
msgstr ""ئوردۇچە""

msgid ""Uyghur""
msgstr ""ئۇيغۇرچە""

msgid ""Uzbek""
msgstr ""ئۆزبەكچە""

msgid ""Venezuelan Spanish""
msgstr ""ۋېنېزۇئېلا ئىسپانچىسى""

msgid ""Vietnamese""
msgstr ""ۋېيتنامچە""

msgid ""Wed""
msgstr ""چار""

msgid ""Wednesday""
msgstr ""چارشەمبە""

msgid ""Welsh""
msgstr ""ۋېلشچە""

msgid ""a minute ago""
msgid_plural ""%[1]v minutes ago""
msgstr[0] ""1 مىنۇت ئىلگىرى""
msgstr[1] ""%[1]v مىنۇت ئىلگىرى""

msgid ""a minute from now""
msgid_plural ""%[1]v minutes from now""
msgstr[0] ""1 مىنۇتتىن كېيىن""
msgstr[1] ""%[1]v مىنۇتتىن كېيىن""

msgid ""a second ago""
msgid_plural ""%[1]v seconds ago""
msgstr[0] ""1 سېكۇنت ئىلگىرى""
msgstr[1] ""%[1]v سېكۇنت ئىلگىرى""

msgid ""a second from now""
msgid_plural ""%[1]v seconds from now""
msgstr[0] ""1 سېكۇنتتىن كېيىن""
msgstr[1] ""%[1]v سېكۇنتتىن كېيىن""

msgid ""a.m.""
msgstr ""a.m.""

msgid ""an hour ago""
msgid_plural ""%[1]v hours ago""
msgstr[0] ""1 سائەت ئىلگىرى""
msgstr[1] ""%[1]v سائەت ئىلگىرى""

msgid ""an hour from now""
msgid_plural ""%[1]v hours from now""
msgstr[0] ""1 سائەتتىن كېيىن""
msgstr[1] ""%[1]v سائەتتىن كېيىن""

msgid ""apr""
msgstr ""ئاپ""

msgid ""aug""
msgstr ""ئاۋ""

msgid ""dec""
msgstr ""دىك""

msgid ""eight""
msgstr ""سەككىز""

msgid ""feb""
msgstr ""فېۋ""

msgid ""five""
msgstr ""بەش""

msgid ""four""
msgstr ""تۆت""

msgid ""jan""
msgstr ""يان""

msgid ""jul""
msgstr ""ئىيۇل""

msgid ""jun""
msgstr ""ئ‍ىيۇن""

msgid ""mar""
msgstr ""مار""

msgid ""may""
msgstr ""ماي""

msgid ""midnight""
msgstr ""يېرىم كېچىدە""

msgid ""nine""
msgstr ""توققۇز""

msgid ""noon""
msgstr ""چۈشتە""

msgid ""nov""
msgstr ""نوي""

msgid ""now""
msgstr ""ھازىر""

msgid ""oct""
msgstr ""ئۆك""

msgid ""one""
msgstr ""بىر""

msgid ""p.m.""
msgstr ""p.m.""

msgid ""sep""
msgstr ""سېن""

msgid ""seven""
msgstr ""يەتتە""

msgid ""six""
msgstr ""ئالتە""

msgid ""three""
msgstr ""ئۈچ""

msgid ""today""
msgstr ""بۈگۈن""

msgid ""tomorrow""
msgstr ""ئەتە""

msgid ""two""
msgstr ""ئىككى""

msgid ""yesterday""
msgstr ""تۈنۈگۈن""

msgctxt ""abbrev. month""
msgid ""April""
msgstr ""ئاپرىل""

msgctxt ""abbrev. month""
msgid ""Aug.""
msgstr ""ئاۋغۇست""

msgctxt ""abbrev. month""
msgid ""Dec.""
msgstr ""دىكابىر""

msgctxt ""abbrev. month""
msgid ""Feb.""
msgstr ""فېۋرال""

msgctxt ""abbrev. month""
msgid ""Jan.""
msgstr ""يانۋار""

msgctxt ""abbrev. month""
msgid ""July""
msgstr ""ئىيۇل""

msgctxt ""abbrev. month""
msgid ""June""
msgstr ""ئىيۇن""

msgctxt ""abbrev. month""
msgid ""March""
msgstr ""مارت""

msgctxt ""abbrev. month""
msgid ""May""
msgstr ""ماي""

msgctxt ""abbrev. month""
msgid ""Nov.""
msgstr ""نويابىر""

msgctxt ""abbrev. month""
msgid ""Oct.""
msgstr ""ئۆكتەبىر""

msgctxt ""abbrev. month""
msgid ""Sept.""
msgstr ""سېنتەبىر""

msgctxt ""alt. month""
msgid ""April""
msgstr ""ئاپرىل""

msgctxt ""alt. month""
msgid ""August""
msgstr ""ئاۋغۇست""

msgctxt ""alt. month""
msgid ""December""
msgstr ""دىكابىر""

msgctxt ""alt. month""
msgid ""February""
msgstr ""فېۋرال""

msgctxt ""alt. month""
msgid ""January""
msgstr ""يانۋار""

msgctxt ""alt. month""
msgid ""July""
msgstr ""ئىيۇل""

msgctxt ""alt. month""
msgid ""June""
msgstr ""ئىيۇن""

msgctxt ""alt. month""
msgid ""March""
msgstr ""مارت""

msgctxt ""alt. month""
msgid ""May""
msgstr ""ماي""

msgctxt ""alt. month""
msgid ""November""
msgstr ""نويابىر""

msgctxt ""alt. month""
msgid ""October""
msgstr ""ئۆكتەبىر""

msgctxt ""alt. month""
msgid ""September""
msgstr ""سىنتەبىر""

msgctxt ""naturaltime-future""
msgid ""%[1]v day""
msgid_plural ""%[1]v days""
msgstr[0] ""%[1]v كۈن""
msgstr[1] ""%[1]v كۈن""

msgctxt ""naturaltime-future""
msgid ""%[1]v hour""
msgid_plural ""%[1]v hours""
msgstr[0] ""%[1]v سائەت""
msgstr[1] ""%[1]v سائەت""

msgctxt ""naturaltime-future""
msgid ""%[1]v minute""
msgid_plural ""%[1]v minutes""
msgstr[0] ""%[1]v مىنۇت""
msgstr[1] ""%[1]v مىنۇت""

msgctxt ""naturaltime-future""
msgid ""%[1]v month""
msgid_plural ""%[1]v months""
msgstr[0] ""%[1]v ئاي""
msgstr[1] ""%[1]v ئاي""

msgctxt ""naturaltime-future""
msgid ""%[1]v week""
msgid_plural ""%[1]v weeks""
msgstr[0] ""%[1]v ھەپتە""
msgstr[1] ""%[1]v ھەپتە""

msgctxt ""naturaltime-future""
msgid ""%[1]v year""
msgid_plural ""%[1]v years""
msgstr[0] ""%[1]v يىل""
msgstr[1] ""%[1]v يىل""

msgctxt ""naturaltime-past""
msgid ""%[1]v day""
msgid_plural ""%[1]v days""
msgstr[0] ""%[1]v كۈن""
msgstr[1] ""%[1]v كۈن""

msgctxt ""naturaltime-past""
msgid ""%[1]v hour""
msgid_plural ""%[1]v hours""
msgstr[0] ""%[1]v سائەت""
msgstr[1] ""%[1]v سائەت""

msgctxt ""naturaltime-past""
msgid ""%[1]v minute""
msgid_plural ""%[1]v minutes""
msgstr[0] ""%[1]v مىنۇت""
msgstr[1] ""%[1]v مىنۇت""

msgctxt ""naturaltime-past""
msgid ""%[1]v month""
msgid_plural ""%[1]v months""
msgstr[0] ""%[1]v ئاي""
msgstr[1] ""%[1]v ئاي""

msgctxt ""naturaltime-past""
msgid ""%[1]v week""
msgid_plural ""%[1]v weeks""
msgstr[0] ""%[1]v ھەپتە""
msgstr[1] ""%[1]v ھەپتە""

msgctxt ""naturaltime-past""
msgid ""%[1]v year""
msgid_plural ""%[1]v years""
msgstr[0] ""%[1]v يىل""
msgstr[1] ""%[1]v يىل""

msgctxt ""ordinal 0""
msgid ""%vth""
msgstr ""%vجى""

msgctxt ""ordinal 1""
msgid ""%vst""
msgstr ""%vجى""

msgctxt ""ordinal 11, 12, 13""
msgid ""%vth""
msgstr ""%vجى""

msgctxt ""ordinal 2""
msgid ""%vnd""
msgstr ""%vجى""

msgctxt ""ordinal 3""
msgid ""%vrd""
msgstr ""%vجى""

msgctxt ""ordinal 4""
msgid ""%vth""
msgstr ""%vجى""

msgctxt ""ordinal 5""
msgid ""%vth""
msgstr ""%vجى""

msgctxt ""ordinal 6""
msgid ""%vth""
msgstr ""%vجى""

msgctxt ""ordinal 7""
msgid ""%vth""
msgstr ""%vجى""

msgctxt ""ordinal 8""
msgid ""%vth""
msgstr ""%vجى""

msgctxt ""ordinal 9""
msgid ""%vth""
msgstr ""%vجى""
".
(** humanize/locale/ug/locale.go (New) *)
Definition loc_ug : locale_data := LD (bs "ug") [(bs "django.po", po_ug)]
  (Some (FD (bs "j F, Y") (bs "G:i") (bs "") (bs "F Y") (bs "j F") (bs "Y/m/d") (bs "Y/m/d G:i"))).

(** humanize/locale/uk/django.po *)
Definition po_uk : bytes := bs "# This file is distributed under the same license as the Django package.
# 
# Translators:
# Oleksandr Chernihov <o.chernihov@gmail.com>, 2014
# Boryslav Larin <brabadu@gmail.com>, 2011,2022
# Denys Pidlisnyi <haos616@gmail.com>, 2016
# Igor Melnyk, 2014-2015,2017
# Illia Volochii <illia.volochii@gmail.com>, 2019,2021-2023,2025
# Jannis Leidel <jannis@leidel.info>, 2011
# Kirill Gagarski <gagarin.gtn@gmail.com>, 2014
# Max V. Stotsky <transifex@ms.pereslavl.ru>, 2014
# Mikhail Kolesnik <mike@openbunker.org>, 2015
# Mykola Zamkovoi <nickzam@gmail.com>, 2014
# Natalia, 2024
# Alex Bolotov <oleksandr.bolotov@gmail.com>, 2013-2014
# Roman Kozlovskyi <krzroman@gmail.com>, 2012
# Sergiy Kuzmenko <s.kuzmenko@gmail.com>, 2011
# tarasyyyk <taras.korzhak96@gmail.com>, 2018
# tarasyyyk <taras.korzhak96@gmail.com>, 2019
# Zoriana Zaiats, 2016-2017
msgid """"
msgstr """"
""Project-Id-Version: django\n""
""Report-Msgid-Bugs-To: \n""
""POT-Creation-Date: 2025-03-19 11:30-0500\n""
""PO-Revision-Date: 2025-04-01 15:04-0500\n""
""Last-Translator: Illia Volochii <illia.volochii@gmail.com>, 2019,2021-2023,2025\n""
""Language-Team: Ukrainian (http://app.transifex.com/django/django/language/uk/)\n""
""Language: uk\n""
""MIME-Version: 1.0\n""
""Content-Type: text/plain; charset=UTF-8\n""
""Content-Transfer-Encoding: 8bit\n""
""Plural-Forms: nplurals=4; plural=(n % 1 == 0 && n % 10 == 1 && n % 100 != 11 ? 0 : n % 1 == 0 && n % 10 >= 2 && n % 10 <= 4 && (n % 100 < 12 || n % 100 > 14) ? 1 : n % 1 == 0 && (n % 10 ==0 || (n % 10 >=5 && n % 10 <=9) || (n % 100 >=11 && n % 100 <=14 )) ? 2: 3);\n""

msgid ""%[1]d byte""
msgid_plural ""%[1]d bytes""
msgstr[0] ""%[1]d байт""
msgstr[1] ""%[1]d байти""
msgstr[2] ""%[1]d байтів""
msgstr[3] ""%[1]d байтів""

msgid ""%[1]s billion""
msgid_plural ""%[1]s billion""
msgstr[0] ""%[1]s мільярд""
msgstr[1] ""%[1]s мільярди""
msgstr[2] ""%[1]s мільярдів""
msgstr[3] ""%[1]s мільярдів""

msgid ""%[1]s decillion""
msgid_plural ""%[1]s decillion""
msgstr[0] ""%[1]s децильйон""
msgstr[1] ""%[1]s децильйони""
msgstr[2] ""%[1]s децильйонів""
msgstr[3] ""%[1]s децильйонів""

msgid ""%[1]s googol""
msgid_plural ""%[1]s googol""
msgstr[0] ""%[1]s гугол""
msgstr[1] ""%[1]s гуголи""
msgstr[2] ""%[1]s гуголів""
msgstr[3] ""%[1]s гуголів""

msgid ""%[1]s million""
msgid_plural ""%[1]s million""
msgstr[0] ""%[1]s мільйон""
msgstr[1] ""%[1]s мільйони""
msgstr[2] ""%[1]s мільйонів""
msgstr[3] ""%[1]s мільйонів""

msgid ""%[1]s nonillion""
msgid_plural ""%[1]s nonillion""
msgstr[0] ""%[1]s нонільйон""
msgstr[1] ""%[1]s нонільйони""
msgstr[2] ""%[1]s нонільйонів""
msgstr[3] ""%[1]s нонільйонів""

msgid ""%[1]s octillion""
msgid_plural ""%[1]s octillion""
msgstr[0] ""%[1]s октильйон""
msgstr[1] ""%[1]s октильйони""
msgstr[2] ""%[1]s октильйонів""
msgstr[3] ""%[1]s октильйонів""

msgid ""%[1]s quadrillion""
msgid_plural ""%[1]s quadrillion""
msgstr[0] ""%[1]s квадрильйон""
msgstr[1] ""%[1]s квадрильйони""
msgstr[2] ""%[1]s квадрильйонів""
msgstr[3] ""%[1]s квадрильйонів""

msgid ""%[1]s quintillion""
msgid_plural ""%[1]s quintillion""
msgstr[0] ""%[1]s квінтильйон""
msgstr[1] ""%[1]s квінтильйони""
msgstr[2] ""%[1]s квінтильйонів""
msgstr[3] ""%[1]s квінтильйонів""

msgid ""%[1]s septillion""
msgid_plural ""%[1]s septillion""
msgstr[0] ""%[1]s септильйон""
msgstr[1] ""%[1]s септильйони""
msgstr[2] ""%[1]s септильйонів""
msgstr[3] ""%[1]s септильйонів""

msgid ""%[1]s sextillion""
msgid_plural ""%[1]s sextillion""
msgstr[0] ""%[1]s секстильйон""
msgstr[1] ""%[1]s секстильйони""
msgstr[2] ""%[1]s секстильйонів""
msgstr[3] ""%[1]s секстильйонів""

msgid ""%[1]s trillion""
msgid_plural ""%[1]s trillion""
msgstr[0] ""%[1]s трильйон""
msgstr[1] ""%[1]s трильйони""
msgstr[2] ""%[1]s трильйонів""
msgstr[3] ""%[1]s трильйонів""

msgid ""%[1]v ago""
msgstr ""%[1]v тому""

msgid ""%[1]v day""
msgid_plural ""%[1]v days""
msgstr[0] ""%[1]v день""
msgstr[1] ""%[1]v дні""
msgstr[2] ""%[1]v днів""
msgstr[3] ""%[1]v днів""

msgid ""%[1]v from now""
msgstr ""через %[1]v""

msgid ""%[1]v hour""
msgid_plural ""%[1]v hours""
msgstr[0] ""%[1]v година""
msgstr[1] ""%[1]v години""
msgstr[2] ""%[1]v годин""
msgstr[3] ""%[1]v годин""

msgid ""%[1]v minute""
msgid_plural ""%[1]v minutes""
msgstr[0] ""%[1]v хвилина""
msgstr[1] ""%[1]v хвилини""
msgstr[2] ""%[1]v хвилин""
msgstr[3] ""%[1]v хвилин""

msgid ""%[1]v month""
msgid_plural ""%[1]v months""
msgstr[0] ""%[1]v місяць""
msgstr[1] ""%[1]v місяці""
msgstr[2] ""%[1]v місяців""
msgstr[3] ""%[1]v місяців""

msgid ""%[1]v week""
msgid_plural ""%[1]v weeks""
msgstr[0] ""%[1]v тиждень""
msgstr[1] ""%[1]v тижні""
msgstr[2] ""%[1]v тижнів""
msgstr[3] ""%[1]v тижнів""

msgid ""%[1]v year""
msgid_plural ""%[1]v years""
msgstr[0] ""%[1]v рік""
msgstr[1] ""%[1]v роки""
msgstr[2] ""%[1]v років""
msgstr[3] ""%[1]v років""

msgid ""%s GB""
msgstr ""%s Гб""

msgid ""%s KB""
msgstr ""%s Кб""

msgid ""%s MB""
msgstr ""%s Мб""

msgid ""%s PB""
msgstr ""%s Пб""

msgid ""%s TB""
msgstr ""%s Тб""

msgid "", ""
msgstr "", ""

msgid ""AM""
msgstr ""до полудня""

msgid ""Afrikaans""
msgstr ""Африканська""

msgid ""Albanian""
msgstr ""Албанська""

msgid ""Algerian Arabic""
msgstr ""Алжирська арабська""

msgid ""April""
msgstr ""Квітень""

msgid ""Arabic""
msgstr ""Арабська""

msgid ""Argentinian Spanish""
msgstr ""Іспанська (Аргентина)""

msgid ""Armenian""
msgstr ""Вірменська""

msgid ""Asturian""
msgstr ""Астурійська""

msgid ""August""
msgstr ""Серпень""

msgid ""Australian English""
msgstr ""Австралійська англійська""

msgid ""Azerbaijani""
msgstr ""Азербайджанська""

msgid ""Basque""
msgstr ""Баскська""

msgid ""Belarusian""
msgstr ""Білоруська""

msgid ""Bengali""
msgstr ""Бенгальська""

msgid ""Bosnian""
msgstr ""Боснійська""

msgid ""Brazilian Portuguese""
msgstr ""Бразильська португальська""

msgid ""Breton""
msgstr ""Бретонська""

msgid ""British English""
msgstr ""Англійська (Великобританія)""

msgid ""Bulgarian""
msgstr ""Болгарська""

msgid ""Burmese""
msgstr ""Бірманська""

msgid ""Catalan""
msgstr ""Каталонська""

msgid ""Central Kurdish (Sorani)""
msgstr ""Центральнокурдська (сорані)""

msgid ""Colombian Spanish""
msgstr ""Колумбійська іспанська""

msgid ""Croatian""
msgstr ""Хорватська""

msgid ""Czech""
msgstr ""Чеська""

msgid ""Danish""
msgstr ""Датська""

msgid ""December""
msgstr ""Грудень""

msgid ""Dutch""
msgstr ""Голландська""

msgid ""English""
msgstr ""Англійська""

msgid ""Esperanto""
msgstr ""Есперанто""

msgid ""Estonian""
msgstr ""Естонська""

msgid ""February""
msgstr ""Лютий""

msgid ""Finnish""
msgstr ""Фінська""

msgid ""French""
msgstr ""Французька""

msgid ""Fri""
msgstr ""Пт""

msgid ""Friday""
msgstr ""П'ятниця""

msgid ""Frisian""
msgstr ""Фризька""

msgid ""Galician""
msgstr ""Галіційська""

msgid ""Georgian""
msgstr ""Грузинська""

msgid ""German""
msgstr ""Німецька""

msgid ""Greek""
msgstr ""Грецька""

msgid ""Hebrew""
msgstr ""Іврит""

msgid ""Hindi""
msgstr ""Хінді""

msgid ""Hungarian""
msgstr ""Угорська""

msgid ""Icelandic""
msgstr ""Ісландська""

msgid ""Ido""
msgstr ""Ідо""

msgid ""Igbo""
msgstr ""Ігбо""

msgid ""Indonesian""
msgstr ""Індонезійська""

msgid ""Interlingua""
msgstr ""Інтерлінгва""

msgid ""Irish""
msgstr ""Ірландська""

msgid ""Italian""
msgstr ""Італійська""

msgid ""January""
msgstr ""Січень""

msgid ""Japanese""
msgstr ""Японська""

msgid ""July""
msgstr ""Липень""

msgid ""June""
msgstr ""Червень""

msgid ""Kabyle""
msgstr ""Кабіли""

msgid ""Kannada""
msgstr ""Каннадська""

msgid ""Kazakh""
msgstr ""Казахська""

msgid ""Khmer""
msgstr ""Кхмерська""

msgid ""Korean""
msgstr ""Корейська""

msgid ""Kyrgyz""
msgstr ""Киргизька""

msgid ""Latvian""
msgstr ""Латвійська""

msgid ""Lithuanian""
msgstr ""Литовська""

msgid ""Lower Sorbian""
msgstr ""Нижньолужицька""

msgid ""Luxembourgish""
msgstr ""Люксембурзька""

msgid ""Macedonian""
msgstr ""Македонська""

msgid ""Malay""
msgstr ""Малайська""

msgid ""Malayalam""
msgstr ""Малаялам""

msgid ""Marathi""
msgstr ""Маратхі""

msgid ""March""
msgstr ""Березень""

msgid ""May""
msgstr ""Травень""

msgid ""Mexican Spanish""
msgstr ""Мексиканська іспанська""

msgid ""Mon""
msgstr ""Пн""

msgid ""Monday""
msgstr ""Понеділок""

msgid ""Mongolian""
msgstr ""Монгольська""

msgid ""Nepali""
msgstr ""Непальська""

msgid ""Nicaraguan Spanish""
msgstr ""Нікарагуанська іспанська""

msgid ""Norwegian Bokmål""
msgstr ""Норвезька (Букмол)""

msgid ""Norwegian Nynorsk""
msgstr ""Норвезька (Нюнорськ)""

msgid ""November""
msgstr ""Листопад""

msgid ""October""
msgstr ""Жовтень""

msgid ""Ossetic""
msgstr ""Осетинська""

msgid ""PM""
msgstr ""після полудня""

msgid ""Persian""
msgstr ""Перська""

msgid ""Polish""
msgstr ""Польська""

msgid ""Portuguese""
msgstr ""Португальська""

msgid ""Punjabi""
msgstr ""Панджабі""

msgid ""Romanian""
msgstr ""Румунська""

msgid ""Russian""
msgstr ""Російська""

msgid ""Sat""
msgstr ""Сб""

msgid ""Saturday""
msgstr ""Субота""

msgid ""Scottish Gaelic""
msgstr ""Шотландська ґельська""

msgid ""September""
msgstr ""Вересень""

msgid ""Serbian""
msgstr ""Сербська""

msgid ""Serbian Latin""
msgstr ""Сербська (латинська)""

msgid ""Simplified Chinese""
msgstr ""Китайська спрощена""

msgid ""Slovak""
msgstr ""Словацька""

msgid ""Slovenian""
msgstr ""Словенська""

msgid ""Spanish""
msgstr ""Іспанська""

msgid ""Sun""
msgstr ""Нд""

msgid ""Sunday""
msgstr ""Неділя""

msgid ""Swahili""
msgstr ""Суахілі""

msgid ""Swedish""
msgstr ""Шведська""

msgid ""Tajik""
msgstr ""Таджицька""

msgid ""Tamil""
msgstr ""Тамільська""

msgid ""Tatar""
msgstr ""Татарська""

msgid ""Telugu""
msgstr ""Телугу""

msgid ""Thai""
msgstr ""Тайська""

msgid ""Thu""
msgstr ""Чт""

msgid ""Thursday""
msgstr ""Четвер""

msgid ""Traditional Chinese""
msgstr ""Китайська традиційна""

msgid ""Tue""
msgstr ""Вт""

msgid ""Tuesday""
msgstr ""Вівторок""

msgid ""Turkish""
msgstr ""Турецька""

msgid ""Turkmen""
msgstr ""Туркменська""

msgid ""Udmurt""
msgstr ""Удмуртська""

msgid ""Ukrainian""
msgstr ""Українська""

msgid ""Upper Sorbian""
msgstr ""Верхньолужицька""

msgid ""Urdu""
msgstr ""Урду""

msgid ""Uyghur""
msgstr "" Уйгурська""

msgid ""Uzbek""
msgstr ""Узбецька""

msgid ""Venezuelan Spanish""
msgstr ""Венесуельська іспанська""

msgid ""Vietnamese""
msgstr ""В'єтнамська""

msgid ""Wed""
msgstr ""Ср""

msgid ""Wednesday""
msgstr ""Середа""

msgid ""Welsh""
msgstr ""Валлійська""

msgid ""a minute ago""
msgid_plural ""%[1]v minutes ago""
msgstr[0] ""%[1]v хвилину тому""
msgstr[1] ""%[1]v хвилини тому""
msgstr[2] ""%[1]v хвилин тому""
msgstr[3] ""%[1]v хвилин тому""

msgid ""a minute from now""
msgid_plural ""%[1]v minutes from now""
msgstr[0] ""%[1]v хвилина від цього часу""
msgstr[1] ""%[1]v хвилини від цього часу""
msgstr[2] ""%[1]v хвилин від цього часу""
msgstr[3] ""%[1]v хвилин від цього часу""

msgid ""a second ago""
msgid_plural ""%[1]v seconds ago""
msgstr[0] ""%[1]v секунду тому""
msgstr[1] ""%[1]v секунди тому""
msgstr[2] ""%[1]v секунд тому""
msgstr[3] ""%[1]v секунд тому""

msgid ""a second from now""
msgid_plural ""%[1]v seconds from now""
msgstr[0] ""%[1]v секунда від цього часу""
msgstr[1] ""%[1]v секунди від цього часу""
msgstr[2] ""%[1]v секунд від цього часу""
msgstr[3] ""%[1]v секунд від цього часу""

msgid ""a.m.""
msgstr ""до полудня""

msgid ""an hour ago""
msgid_plural ""%[1]v hours ago""
msgstr[0] ""%[1]v годину тому""
msgstr[1] ""%[1]v години тому""
msgstr[2] ""%[1]v годин тому""
msgstr[3] ""%[1]v годин тому""

msgid ""an hour from now""
msgid_plural ""%[1]v hours from now""
msgstr[0] ""%[1]v година від цього часу""
msgstr[1] ""%[1]v години від цього часу""
msgstr[2] ""%[1]v годин від цього часу""
msgstr[3] ""%[1]v годин від цього часу""

msgid ""apr""
msgstr ""кві""

msgid ""aug""
msgstr ""сер""

msgid ""dec""
msgstr ""гру""

msgid ""eight""
msgstr ""вісім""

msgid ""feb""
msgstr ""лют""

msgid ""five""
msgstr ""п'ять""

msgid ""four""
msgstr ""чотири""

msgid ""jan""
msgstr ""січ""

msgid ""jul""
msgstr ""лип""

msgid ""jun""
msgstr ""чер""

msgid ""mar""
msgstr ""бер""

msgid ""may""
msgstr ""тра""

msgid ""midnight""
msgstr ""північ""

msgid ""nine""
msgstr ""дев'ять""

msgid ""noon""
msgstr ""полудень""

msgid ""nov""
msgstr ""лис""

msgid ""now""
msgstr ""зараз""

msgid ""oct""
msgstr ""жов""

msgid ""one""
msgstr ""один""

msgid ""p.m.""
msgstr ""після полудня""

msgid ""sep""
msgstr ""вер""

msgid ""seven""
msgstr ""сім""

msgid ""six""
msgstr ""шість""

msgid ""three""
msgstr ""три""

msgid ""today""
msgstr ""сьогодні""

msgid ""tomorrow""
msgstr ""завтра""

msgid ""two""
msgstr ""два""

msgid ""yesterday""
msgstr ""вчора""

msgctxt ""abbrev. month""
msgid ""April""
msgstr ""Квітень""

msgctxt ""abbrev. month""
msgid ""Aug.""
msgstr ""Сер.""

msgctxt ""abbrev. month""
msgid ""Dec.""
msgstr ""Гру.""

msgctxt ""abbrev. month""
msgid ""Feb.""
msgstr ""Лют.""

msgctxt ""abbrev. month""
msgid ""Jan.""
msgstr ""Січ.""

msgctxt ""abbrev. month""
msgid ""July""
msgstr ""Липень""

msgctxt ""abbrev. month""
msgid ""June""
msgstr ""Червень""

msgctxt ""abbrev. month""
msgid ""March""
msgstr ""Березень""

msgctxt ""abbrev. month""
msgid ""May""
msgstr ""Травень""

msgctxt ""abbrev. month""
msgid ""Nov.""
msgstr ""Лис.""

msgctxt ""abbrev. month""
msgid ""Oct.""
msgstr ""Жов.""

msgctxt ""abbrev. month""
msgid ""Sept.""
msgstr ""Вер.""

msgctxt ""alt. month""
msgid ""April""
msgstr ""квітня""

msgctxt ""alt. month""
msgid ""August""
msgstr ""серпня""

msgctxt ""alt. month""
msgid ""December""
msgstr ""грудня""

msgctxt ""alt. month""
msgid ""February""
msgstr ""лютого""

msgctxt ""alt. month""
msgid ""January""
msgstr ""січня""

msgctxt ""alt. month""
msgid ""July""
msgstr ""липня""

msgctxt ""alt. month""
msgid ""June""
msgstr ""червня""

msgctxt ""alt. month""
msgid ""March""
msgstr ""березня""

msgctxt ""alt. month""
msgid ""May""
msgstr ""травня""

msgctxt ""alt. month""
msgid ""November""
msgstr ""листопада""

msgctxt ""alt. month""
msgid ""October""
msgstr ""жовтня""

msgctxt ""alt. month""
msgid ""September""
msgstr ""вересня""

msgctxt ""naturaltime-future""
msgid ""%[1]v day""
msgid_plural ""%[1]v days""
msgstr[0] ""%[1]v день""
msgstr[1] ""%[1]v дні""
msgstr[2] ""%[1]v днів""
msgstr[3] ""%[1]v днів""

msgctxt ""naturaltime-future""
msgid ""%[1]v hour""
msgid_plural ""%[1]v hours""
msgstr[0] ""%[1]v година""
msgstr[1] ""%[1]v години""
msgstr[2] ""%[1]v годин""
msgstr[3] ""%[1]v годин""

msgctxt ""naturaltime-future""
msgid ""%[1]v minute""
msgid_plural ""%[1]v minutes""
msgstr[0] ""%[1]v хвилина""
msgstr[1] ""%[1]v хвилини""
msgstr[2] ""%[1]v хвилин""
msgstr[3] ""%[1]v хвилин""

msgctxt ""naturaltime-future""
msgid ""%[1]v month""
msgid_plural ""%[1]v months""
msgstr[0] ""%[1]v місяць""
msgstr[1] ""%[1]v місяці""
msgstr[2] ""%[1]v місяців""
msgstr[3] ""%[1]v місяців""

msgctxt ""naturaltime-future""
msgid ""%[1]v week""
msgid_plural ""%[1]v weeks""
msgstr[0] ""%[1]v тиждень""
msgstr[1] ""%[1]v тижні""
msgstr[2] ""%[1]v тижнів""
msgstr[3] ""%[1]v тижнів""

msgctxt ""naturaltime-future""
msgid ""%[1]v year""
msgid_plural ""%[1]v years""
msgstr[0] ""%[1]v рік""
msgstr[1] ""%[1]v роки""
msgstr[2] ""%[1]v років""
msgstr[3] ""%[1]v років""

msgctxt ""naturaltime-past""
msgid ""%[1]v day""
msgid_plural ""%[1]v days""
msgstr[0] ""%[1]v день""
msgstr[1] ""%[1]v дні""
msgstr[2] ""%[1]v днів""
msgstr[3] ""%[1]v днів""

msgctxt ""naturaltime-past""
msgid ""%[1]v hour""
msgid_plural ""%[1]v hours""
msgstr[0] ""%[1]v година""
msgstr[1] ""%[1]v години""
msgstr[2] ""%[1]v годин""
msgstr[3] ""%[1]v годин""

msgctxt ""naturaltime-past""
msgid ""%[1]v minute""
msgid_plural ""%[1]v minutes""
msgstr[0] ""%[1]v хвилина""
msgstr[1] ""%[1]v хвилини""
msgstr[2] ""%[1]v хвилин""
msgstr[3] ""%[1]v хвилин""

msgctxt ""naturaltime-past""
msgid ""%[1]v month""
msgid_plural ""%[1]v months""
msgstr[0] ""%[1]v місяць""
msgstr[1] ""%[1]v місяці""
msgstr[2] ""%[1]v місяців""
msgstr[3] ""%[1]v місяців""

msgctxt ""naturaltime-past""
msgid ""%[1]v week""
msgid_plural ""%[1]v weeks""
msgstr[0] ""%[1]v тиждень""
msgstr[1] ""%[1]v тижні""
msgstr[2] ""%[1]v тижнів""
msgstr[3] ""%[1]v тижнів""

msgctxt ""naturaltime-past""
msgid ""%[1]v year""
msgid_plural ""%[1]v years""
msgstr[0] ""%[1]v рік""
msgstr[1] ""%[1]v роки""
msgstr[2] ""%[1]v років""
msgstr[3] ""%[1]v років""

msgctxt ""ordinal 0""
msgid ""%vth""
msgstr ""%vть""

msgctxt ""ordinal 1""
msgid ""%vst""
msgstr ""%vий""

msgctxt ""ordinal 11, 12, 13""
msgid ""%vth""
msgstr ""%vий""

msgctxt ""ordinal 2""
msgid ""%vnd""
msgstr ""%vий""

msgctxt ""ordinal 3""
msgid ""%vrd""
msgstr ""%vій""

msgctxt ""ordinal 4""
msgid ""%vth""
msgstr ""%vий""

msgctxt ""ordinal 5""
msgid ""%vth""
msgstr ""%vий""

msgctxt ""ordinal 6""
msgid ""%vth""
msgstr ""%vий""

msgctxt ""ordinal 7""
msgid ""%vth""
msgstr ""%vий""

msgctxt ""ordinal 8""
msgid ""%vth""
msgstr ""%vий""

msgctxt ""ordinal 9""
msgid ""%vth""
msgstr ""%vий""
".
(** humanize/locale/uk/locale.go (New) *)
Definition loc_uk : locale_data := LD (bs "uk") [(bs "django.po", po_uk)]
  (Some (FD (bs "d E Y р.") (bs "H:i") (bs "d E Y р. H:i") (bs "F Y") (bs "d F") (bs "d.m.Y") (bs "d.m.Y H:i"))).

(** humanize/locale/ur/django.po *)
Definition po_ur : bytes := bs "# This file is distributed under the same license as the Django package.
# 
# Translators:
# Mansoor Ul Haq <mnsrknp@gmail.com>, 2011
# Natalia, 2025
msgid """"
msgstr """"
""Project-Id-Version: django\n""
""Report-Msgid-Bugs-To: \n""
""POT-Creation-Date: 2025-03-19 11:30-0500\n""
""PO-Revision-Date: 2025-09-17 06:49+0000\n""
""Last-Translator: Natalia, 2025\n""
""Language-Team: Urdu (http://app.transifex.com/django/django/language/ur/)\n""
""Language: ur\n""
""MIME-Version: 1.0\n""
""Content-Type: text/plain; charset=UTF-8\n""
""Content-Transfer-Encoding: 8bit\n""
""Plural-Forms: nplurals=2; plural=(n != 1);\n""

msgid ""%[1]d byte""
msgid_plural ""%[1]d bytes""
msgstr[0] ""%[1]d بائٹ""
msgstr[1] ""%[1]d بائٹس""

msgid ""%[1]s billion""
msgid_plural ""%[1]s billion""
msgstr[0] """"
msgstr[1] """"

msgid ""%[1]s decillion""
msgid_plural ""%[1]s decillion""
msgstr[0] """"
msgstr[1] """"

msgid ""%[1]s googol""
msgid_plural ""%[1]s googol""
msgstr[0] """"
msgstr[1] """"

msgid ""%[1]s million""
msgid_plural ""%[1]s million""
msgstr[0] """"
msgstr[1] """"

msgid ""%[1]s nonillion""
msgid_plural ""%[1]s nonillion""
msgstr[0] """"
msgstr[1] """"

msgid ""%[1]s octillion""
msgid_plural ""%[1]s octillion""
msgstr[0] """"
msgstr[1] """"

msgid ""%[1]s quadrillion""
msgid_plural ""%[1]s quadrillion""
msgstr[0] """"
msgstr[1] """"

msgid ""%[1]s quintillion""
msgid_plural ""%[1]s quintillion""
msgstr[0] """"
msgstr[1] """"

msgid ""%[1]s septillion""
msgid_plural ""%[1]s septillion""
msgstr[0] """"
msgstr[1] """"

msgid ""%[1]s sextillion""
msgid_plural ""%[1]s sextillion""
msgstr[0] """"
msgstr[1] """"

msgid ""%[1]s trillion""
msgid_plural ""%[1]s trillion""
msgstr[0] """"
msgstr[1] """"

msgid ""%[1]v day""
msgid_plural ""%[1]v days""
msgstr[0] """"
msgstr[1] """"

msgid ""%[1]v hour""
msgid_plural ""%[1]v hours""
msgstr[0] """"
msgstr[1] """"

msgid ""%[1]v minute""
msgid_plural ""%[1]v minutes""
msgstr[0] """"
msgstr[1] """"

msgid ""%[1]v month""
msgid_plural ""%[1]v months""
msgstr[0] """"
msgstr[1] """"

msgid ""%[1]v week""
msgid_plural ""%[1]v weeks""
msgstr[0] """"
msgstr[1] """"

msgid ""%[1]v year""
msgid_plural ""%[1]v years""
msgstr[0] """"
msgstr[1] """"

msgid ""%s GB""
msgstr ""%s ج ۔ ب""

msgid ""%s KB""
msgstr ""%s ک ۔ ب""

msgid ""%s MB""
msgstr ""%s م ۔ ب""

msgid ""%s PB""
msgstr ""%s پ ۔ پ""

msgid ""%s TB""
msgstr ""%s ٹ ۔ ب""

msgid "", ""
msgstr ""،""

msgid ""AM""
msgstr ""صبح""

msgid ""Afrikaans""
msgstr """"

msgid ""Albanian""
msgstr ""البانوی""

msgid ""Algerian Arabic""
msgstr """"

msgid ""April""
msgstr ""اپریل""

msgid ""Arabic""
msgstr ""عربی""

msgid ""Argentinian Spanish""
msgstr ""ارجنٹائنی سپینش""

msgid ""Armenian""
msgstr """"

msgid ""Asturian""
msgstr """"

msgid ""August""
msgstr ""اگست""

msgid ""Australian English""
msgstr """"

msgid ""Azerbaijani""
msgstr """"

msgid ""Basque""
msgstr ""باسک""

msgid ""Belarusian""
msgstr """"

msgid ""Bengali""
msgstr ""بنگالی""

msgid ""Bosnian""
msgstr ""بوسنیائی""

msgid ""Brazilian Portuguese""
msgstr ""برازیلی پورتگیز""

msgid ""Breton""
msgstr """"

msgid ""British English""
msgstr ""برطانوی انگلش""

msgid ""Bulgarian""
msgstr ""بلغاری""

msgid ""Burmese""
msgstr """"

msgid ""Catalan""
msgstr ""کیٹالانی""

msgid ""Central Kurdish (Sorani)""
msgstr """"

msgid ""Colombian Spanish""
msgstr """"

msgid ""Croatian""
msgstr ""کروشن""

msgid ""Czech""
msgstr ""زیچ""

msgid ""Danish""
msgstr ""ڈینش""

msgid ""December""
msgstr ""دسمبر""

msgid ""Dutch""
msgstr ""ڈچ""

msgid ""English""
msgstr ""انگلش""

msgid ""Esperanto""
msgstr """"

msgid ""Estonian""
msgstr ""اسٹانین""

msgid ""February""
msgstr ""فروری""

msgid ""Finnish""
msgstr ""فنش""

msgid ""French""
msgstr ""فرانسیسی""

msgid ""Fri""
msgstr ""جمعہ""

msgid ""Friday""
msgstr ""جمعہ""

msgid ""Frisian""
msgstr ""فریسی""

msgid ""Galician""
msgstr ""گیلیشین""

msgid ""Georgian""
msgstr ""جارجیائی""

msgid ""German""
msgstr ""جرمن""

msgid ""Greek""
msgstr ""گریک""

msgid ""Hebrew""
msgstr ""عبرانی""

msgid ""Hindi""
msgstr ""ھندی""

msgid ""Hungarian""
msgstr ""ھونگارین""

msgid ""Icelandic""
msgstr ""آئس لینڈک""

msgid ""Ido""
msgstr """"

msgid ""Igbo""
msgstr """"

msgid ""Indonesian""
msgstr ""انڈونیشین""

msgid ""Interlingua""
msgstr """"

msgid ""Irish""
msgstr ""آئرش""

msgid ""Italian""
msgstr ""اطالوی""

msgid ""January""
msgstr ""جنوری""

msgid ""Japanese""
msgstr ""جاپانی""

msgid ""July""
msgstr ""جولائی""

msgid ""June""
msgstr ""جون""

msgid ""Kabyle""
msgstr """"

msgid ""Kannada""
msgstr ""کناڈا""

msgid ""Kazakh""
msgstr """"

msgid ""Khmer""
msgstr ""خمر""

msgid ""Korean""
msgstr ""کوریائی""

msgid ""Kyrgyz""
msgstr """"

msgid ""Latvian""
msgstr ""لتوینی""

msgid ""Lithuanian""
msgstr ""لیتھونیائی""

msgid ""Lower Sorbian""
msgstr """"

msgid ""Luxembourgish""
msgstr """"

msgid ""Macedonian""
msgstr ""میسیڈونین""

msgid ""Malay""
msgstr """"

msgid ""Malayalam""
msgstr ""ملایالم""

msgid ""Marathi""
msgstr """"

msgid ""March""
msgstr ""مارچ""

msgid ""May""
msgstr ""مئی""

msgid ""Mexican Spanish""
msgstr """"

msgid ""Mon""
msgstr ""سوموار""

msgid ""Monday""
msgstr ""سوموار""

msgid ""Mongolian""
msgstr ""منگولین""

msgid ""Nepali""
msgstr """"

msgid ""Nicaraguan Spanish""
msgstr """"

msgid ""Norwegian Bokmål""
msgstr """"

msgid ""Norwegian Nynorsk""
msgstr ""نارویائی نینورسک""

msgid ""November""
msgstr ""نومبر""

msgid ""October""
msgstr ""اکتوبر""

msgid ""Ossetic""
msgstr """"

msgid ""PM""
msgstr ""شام""

msgid ""Persian""
msgstr ""فارسی""

msgid ""Polish""
msgstr ""پولش""

msgid ""Portuguese""
msgstr ""پورتگیز""

msgid ""Punjabi""
msgstr ""پنجابی""

msgid ""Romanian""
msgstr ""رومانی""

msgid ""Russian""
msgstr ""روسی""

msgid ""Sat""
msgstr ""ھفتہ""

msgid ""Saturday""
msgstr ""ھفتہ""

msgid ""Scottish Gaelic""
msgstr """"

msgid ""September""
msgstr ""ستمبر""

msgid ""Serbian""
msgstr ""سربین""

msgid ""Serbian Latin""
msgstr ""سربین لاطینی""

msgid ""Simplified Chinese""
msgstr ""سادی چینی""

msgid ""Slovak""
msgstr ""سلووک""

msgid ""Slovenian""
msgstr ""سلووینین""

msgid ""Spanish""
msgstr ""ھسپانوی""

msgid ""Sun""
msgstr ""اتوار""

msgid ""Sunday""
msgstr ""اتوار""

msgid ""Swahili""
msgstr """"

msgid ""Swedish""
msgstr ""سویڈش""

msgid ""Tajik""
msgstr """"

msgid ""Tamil""
msgstr ""تاملی""

msgid ""Tatar""
msgstr """"

msgid ""Telugu""
msgstr ""تیلگو""

msgid ""Thai""
msgstr ""تھائی""

msgid ""Thu""
msgstr ""جمعرات""

msgid ""Thursday""
msgstr ""جمعرات""

msgid ""Traditional Chinese""
msgstr ""روایتی چینی""

msgid ""Tue""
msgstr ""منگل""

msgid ""Tuesday""
msgstr ""منگل""

msgid ""Turkish""
msgstr ""ترکش""

msgid ""Turkmen""
msgstr """"

msgid ""Udmurt""
msgstr """"

msgid ""Ukrainian""
msgstr ""یوکرائنی""

msgid ""Upper Sorbian""
msgstr """"

msgid ""Urdu""
msgstr """"

msgid ""Uyghur""
msgstr """"

msgid ""Uzbek""
msgstr """"

msgid ""Venezuelan Spanish""
msgstr """"

msgid ""Vietnamese""
msgstr ""ویتنامی""

msgid ""Wed""
msgstr ""بدھ""

msgid ""Wednesday""
msgstr ""بدھ""

msgid ""Welsh""
msgstr ""ویلش""

msgid ""a minute ago""
msgid_plural ""%[1]v minutes ago""
msgstr[0] """"
msgstr[1] """"

msgid ""a minute from now""
msgid_plural ""%[1]v minutes from now""
msgstr[0] """"
msgstr[1] """"

msgid ""a second ago""
msgid_plural ""%[1]v seconds ago""
msgstr[0] """"
msgstr[1] """"

msgid ""a second from now""
msgid_plural ""%[1]v seconds from now""
msgstr[0] """"
msgstr[1] """"

msgid ""a.m.""
msgstr ""صبح""

msgid ""an hour ago""
msgid_plural ""%[1]v hours ago""
msgstr[0] """"
msgstr[1] """"

msgid ""an hour from now""
msgid_plural ""%[1]v hours from now""
msgstr[0] """"
msgstr[1] """"

msgid ""apr""
msgstr ""اپریل""

msgid ""aug""
msgstr ""اگست""

msgid ""dec""
msgstr ""دسمبر""

msgid ""eight""
msgstr ""آتھ""

msgid ""feb""
msgstr ""فروری""

msgid ""five""
msgstr ""پانچ""

msgid ""four""
msgstr ""چار""

msgid ""jan""
msgstr ""جنوری""

msgid ""jul""
msgstr ""جولائی""

msgid ""jun""
msgstr ""جون""

msgid ""mar""
msgstr ""مارچ""

msgid ""may""
msgstr ""مئی""

msgid ""midnight""
msgstr ""نصف رات""

msgid ""nine""
msgstr ""نو""

msgid ""noon""
msgstr ""دوپہر""

msgid ""nov""
msgstr ""نومبر""

msgid ""now""
msgstr """"

msgid ""oct""
msgstr ""اکتوبر""

msgid ""one""
msgstr ""ایک""

msgid ""p.m.""
msgstr ""شام""

msgid ""sep""
msgstr ""ستمبر""

msgid ""seven""
msgstr ""سات""

msgid ""six""
msgstr ""چھ""

msgid ""three""
msgstr ""تین""

msgid ""today""
msgstr ""آج""

msgid ""tomorrow""
msgstr ""آئندہ کل""

msgid ""two""
msgstr ""دو""

msgid ""yesterday""
msgstr ""گزستہ کل""

msgctxt ""abbrev. month""
msgid ""April""
msgstr ""اپریل""

msgctxt ""abbrev. month""
msgid ""Aug.""
msgstr ""اگست""

msgctxt ""abbrev. month""
msgid ""Dec.""
msgstr ""دسمبر""

msgctxt ""abbrev. month""
msgid ""Feb.""
msgstr ""فروری""

msgctxt ""abbrev. month""
msgid ""Jan.""
msgstr ""جنوری""

msgctxt ""abbrev. month""
msgid ""July""
msgstr ""جولائی""

msgctxt ""abbrev. month""
msgid ""June""
msgstr ""جون""

msgctxt ""abbrev. month""
msgid ""March""
msgstr ""مارچ""

msgctxt ""abbrev. month""
msgid ""May""
msgstr ""مئی""

msgctxt ""abbrev. month""
msgid ""Nov.""
msgstr ""نومبر""

msgctxt ""abbrev. month""
msgid ""Oct.""
msgstr ""اکتوبر""

msgctxt ""abbrev. month""
msgid ""Sept.""
msgstr ""ستمبر""

msgctxt ""alt. month""
msgid ""April""
msgstr ""اپریل""

msgctxt ""alt. month""
msgid ""August""
msgstr ""اگست""

msgctxt ""alt. month""
msgid ""December""
msgstr ""دسمبر""

msgctxt ""alt. month""
msgid ""February""
msgstr ""فروری""

msgctxt ""alt. month""
msgid ""January""
msgstr ""جنوری""

msgctxt ""alt. month""
msgid ""July""
msgstr ""جولائی""

msgctxt ""alt. month""
msgid ""June""
msgstr ""جون""

msgctxt ""alt. month""
msgid ""March""
msgstr ""مارچ""

msgctxt ""alt. month""
msgid ""May""
msgstr ""مئی""

msgctxt ""alt. month""
msgid ""November""
msgstr ""نومبر""

msgctxt ""alt. month""
msgid ""October""
msgstr ""اکتوبر""

msgctxt ""alt. month""
msgid ""September""
msgstr ""ستمبر""
".
(** humanize/locale/ur/locale.go (New) *)
Definition loc_ur : locale_data := LD (bs "ur") [(bs "django.po", po_ur)]
  (None).

(** humanize/locale/uz/django.po *)
Definition po_uz : bytes := bs "# This file is distributed under the same license as the Django package.
# 
# Translators:
# Abdulaminkhon Khaydarov <webdasturuz@gmail.com>, 2020
# Bedilbek Khamidov <bedilbek@gmail.com>, 2019
# Claude Paroz <claude@2xlibre.net>, 2020
# Shukrullo Turgunov <shukrullo@umail.uz>, 2023
# Sukhrobbek Ismatov <isukhrobbek@gmail.com>, 2019
msgid """"
msgstr """"
""Project-Id-Version: django\n""
""Report-Msgid-Bugs-To: \n""
""POT-Creation-Date: 2023-09-18 11:41-0300\n""
""PO-Revision-Date: 2023-12-25 06:49+0000\n""
""Last-Translator: Shukrullo Turgunov <shukrullo@umail.uz>, 2023\n""
""Language-Team: Uzbek (http://app.transifex.com/django/django/language/uz/)\n""
""Language: uz\n""
""MIME-Version: 1.0\n""
""Content-Type: text/plain; charset=UTF-8\n""
""Content-Transfer-Encoding: 8bit\n""
""Plural-Forms: nplurals=1; plural=0;\n""

msgid ""%[1]d byte""
msgid_plural ""%[1]d bytes""
msgstr[0] ""%[1]dbayt""
msgstr[1] """"

msgid ""%[1]s billion""
msgid_plural ""%[1]s billion""
msgstr[0] """"
msgstr[1] """"

msgid ""%[1]s decillion""
msgid_plural ""%[1]s decillion""
msgstr[0] """"
msgstr[1] """"

msgid ""%[1]s googol""
msgid_plural ""%[1]s googol""
msgstr[0] """"
msgstr[1] """"

msgid ""%[1]s million""
msgid_plural ""%[1]s million""
msgstr[0] """"
msgstr[1] """"

msgid ""%[1]s nonillion""
msgid_plural ""%[1]s nonillion""
msgstr[0] """"
msgstr[1] """"

msgid ""%[1]s octillion""
msgid_plural ""%[1]s octillion""
msgstr[0] """"
msgstr[1] """"

msgid ""%[1]s quadrillion""
msgid_plural ""%[1]s quadrillion""
msgstr[0] """"
msgstr[1] """"

msgid ""%[1]s quintillion""
msgid_plural ""%[1]s quintillion""
msgstr[0] """"
msgstr[1] """"

msgid ""%[1]s septillion""
msgid_plural ""%[1]s septillion""
msgstr[0] """"
msgstr[1] """"

msgid ""%[1]s sextillion""
msgid_plural ""%[1]s sextillion""
msgstr[0] """"
msgstr[1] """"

msgid ""%[1]s trillion""
msgid_plural ""%[1]s trillion""
msgstr[0] """"
msgstr[1] """"

msgid ""%[1]v ago""
msgstr ""%[1]v oldin""

msgid ""%[1]v day""
msgid_plural ""%[1]v days""
msgstr[0] ""%[1]v kun""
msgstr[1] """"

msgid ""%[1]v from now""
msgstr """"

msgid ""%[1]v hour""
msgid_plural ""%[1]v hours""
msgstr[0] ""%[1]v soat""
msgstr[1] """"

msgid ""%[1]v minute""
msgid_plural ""%[1]v minutes""
msgstr[0] ""%[1]v daqiqa""
msgstr[1] """"

msgid ""%[1]v month""
msgid_plural ""%[1]v months""
msgstr[0] ""%[1]voy""
msgstr[1] """"

msgid ""%[1]v week""
msgid_plural ""%[1]v weeks""
msgstr[0] ""%[1]v hafta""
msgstr[1] """"

msgid ""%[1]v year""
msgid_plural ""%[1]v years""
msgstr[0] ""%[1]v yil""
msgstr[1] """"

msgid ""%s GB""
msgstr ""%s GB""

msgid ""%s KB""
msgstr ""%s KB""

msgid ""%s MB""
msgstr ""%s MB""

msgid ""%s PB""
msgstr ""%s PB""

msgid ""%s TB""
msgstr ""%s TB""

msgid "", ""
msgstr "",""

msgid ""AM""
msgstr ""Ertalab""

msgid ""Afrikaans""
msgstr ""Afrika tili""

msgid ""Albanian""
msgstr ""Alban tili""

msgid ""Algerian Arabic""
msgstr ""Jazoir arab tili""

msgid ""April""
msgstr ""Aprel""

msgid ""Arabic""
msgstr ""Arab tili""

msgid ""Argentinian Spanish""
msgstr ""Argentina Ispan tili""

msgid ""Armenian""
msgstr ""Arman tili""

msgid ""Asturian""
msgstr ""Asturiya tili""

msgid ""August""
msgstr ""Avgust""

msgid ""Australian English""
msgstr ""Avstraliya ingliz tili""

msgid ""Azerbaijani""
msgstr ""Ozarbayjon tili""

msgid ""Basque""
msgstr ""Bask tili""

msgid ""Belarusian""
msgstr ""Belorus tili""

msgid ""Bengali""
msgstr ""Bengal tili""

msgid ""Bosnian""
msgstr ""Bosniya tili""

msgid ""Brazilian Portuguese""
msgstr ""Braziliya Portugal tili""

msgid ""Breton""
msgstr ""Breton tili""

msgid ""British English""
msgstr ""Britan Ingliz tili""

msgid ""Bulgarian""
msgstr ""Bolgar tili""

msgid ""Burmese""
msgstr ""Birma tili""

msgid ""Catalan""
msgstr ""Katalon tili""

msgid ""Central Kurdish (Sorani)""
msgstr """"

msgid ""Colombian Spanish""
msgstr ""Kolumbiya Ispan tili""

msgid ""Croatian""
msgstr ""Xorvat tili""

msgid ""Czech""
msgstr ""Chex tili""

msgid ""Danish""
msgstr ""Daniya tili""

msgid ""December""
msgstr ""Dekabr""

msgid ""Dutch""
msgstr ""Golland tili""

msgid ""English""
msgstr ""Ingliz tili""

msgid ""Esperanto""
msgstr ""Esperanto tili""

msgid ""Estonian""
msgstr ""Estoniya tili""

msgid ""February""
msgstr ""Fevral""

msgid ""Finnish""
msgstr ""Fin tili""

msgid ""French""
msgstr ""Fransuz tili""

msgid ""Fri""
msgstr ""Jum""

msgid ""Friday""
msgstr ""Juma""

msgid ""Frisian""
msgstr ""Friziya tili""

msgid ""Galician""
msgstr ""Galisiya tili""

msgid ""Georgian""
msgstr ""Gruzin tili""

msgid ""German""
msgstr ""Nemis tili""

msgid ""Greek""
msgstr ""Yunon tili""

msgid ""Hebrew""
msgstr ""Ibroniy tili""

msgid ""Hindi""
msgstr ""Hind tili""

msgid ""Hungarian""
msgstr ""Vengriya tili""

msgid ""Icelandic""
msgstr ""Island tili""

msgid ""Ido""
msgstr ""Ido tili""

msgid ""Igbo""
msgstr ""Igbo tili""

msgid ""Indonesian""
msgstr ""Indoneziya tili""

msgid ""Interlingua""
msgstr ""Interlingua tili""

msgid ""Irish""
msgstr ""Irland tili""

msgid ""Italian""
msgstr ""Italyan tili""

msgid ""January""
msgstr ""Yanvar""

msgid ""Japanese""
msgstr ""Yapon tili""

msgid ""July""
msgstr ""Iyul""

msgid ""June""
msgstr ""Iyun""

msgid ""Kabyle""
msgstr ""Kabil tili""

msgid ""Kannada""
msgstr ""Kannada tili""

msgid ""Kazakh""
msgstr ""Qozoq tili""

msgid ""Khmer""
msgstr ""Xmer tili""

msgid ""Korean""
msgstr ""Koreys tili""

msgid ""Kyrgyz""
msgstr ""Qirg'iz tili""

msgid ""Latvian""
msgstr ""Latviya tili""

msgid ""Lithuanian""
msgstr ""Litva tili""

msgid ""Lower Sorbian""
msgstr ""Quyi sorbiya tili""

msgid ""Luxembourgish""
msgstr ""Lyuksemburg tili""

msgid ""Macedonian""
msgstr ""Makedoniya tili""

msgid ""Malay""
msgstr """"

msgid ""Malayalam""
msgstr ""Malayalam tili""

msgid ""Marathi""
msgstr ""Marati tili""

msgid ""March""
msgstr ""Mart""

msgid ""May""
msgstr ""May""

msgid ""Mexican Spanish""
msgstr ""Meksika Ispan tili ""

msgid ""Mon""
msgstr ""Dush""

msgid ""Monday""
msgstr ""Dushanba""

msgid ""Mongolian""
msgstr ""Mo'g'ul tili""

msgid ""Nepali""
msgstr ""Nepal tili""

msgid ""Nicaraguan Spanish""
msgstr ""Nikaragua Ispan tili""

msgid ""Norwegian Bokmål""
msgstr ""Norvegiya Bokmal tili""

msgid ""Norwegian Nynorsk""
msgstr ""Norvegiya Ninorsk tili""

msgid ""November""
msgstr ""Noyabr""

msgid ""October""
msgstr ""Oktabr""

msgid ""Ossetic""
msgstr ""Osetik tili""

msgid ""PM""
msgstr ""Kechqurun""

msgid ""Persian""
msgstr ""Fors tili""

msgid ""Polish""
msgstr ""Polyak tili""

msgid ""Portuguese""
msgstr ""Portugal tili""

msgid ""Punjabi""
msgstr ""Panjob tili""

msgid ""Romanian""
msgstr ""Rumin tili""

msgid ""Russian""
msgstr ""Rus tili""

msgid ""Sat""
msgstr ""Shan""

msgid ""Saturday""
msgstr ""Shanba""

msgid ""Scottish Gaelic""
msgstr ""Shotland Gal tili""

msgid ""September""
msgstr ""Sentabr""

msgid ""Serbian""
msgstr ""Serb tili""

msgid ""Serbian Latin""
msgstr ""Serbiya Lotin tili""

msgid ""Simplified Chinese""
msgstr ""Soddalashtirilgan xitoy tili""

msgid ""Slovak""
msgstr ""Slovak tili""

msgid ""Slovenian""
msgstr ""Slovan tili""

msgid ""Spanish""
msgstr ""Ispan tili""

msgid ""Sun""
msgstr ""Yak""

msgid ""Sunday""
msgstr ""Yakshanba""

msgid ""Swahili""
msgstr ""Suaxili tili""

msgid ""Swedish""
msgstr ""Shved tili""

msgid ""Tajik""
msgstr ""Tojik tili""

msgid ""Tamil""
msgstr ""Tamil tili""

msgid ""Tatar""
msgstr ""Tatar tili""

msgid ""Telugu""
msgstr ""Telugu tili""

msgid ""Thai""
msgstr ""Tay tili""

msgid ""Thu""
msgstr ""Pay""

msgid ""Thursday""
msgstr ""Payshanba""

msgid ""Traditional Chinese""
msgstr ""An'anaviy xitoy tili""

msgid ""Tue""
msgstr ""Sesh""

msgid ""Tuesday""
msgstr ""Seshanba""

msgid ""Turkish""
msgstr ""Turk tili""

msgid ""Turkmen""
msgstr ""Turkman tili""

msgid ""Udmurt""
msgstr ""Udmurt tili""

msgid ""Ukrainian""
msgstr ""Ukrain tili""

msgid ""Upper Sorbian""
msgstr ""Yuqori Sorbiya tili""

msgid ""Urdu""
msgstr ""Urdu tili""

msgid ""Uyghur""
msgstr """"

msgid ""Uzbek""
msgstr ""O'zbek tili""

msgid ""Venezuelan Spanish""
msgstr ""Venesuela Ispan tili""

msgid ""Vietnamese""
msgstr ""Vetnam tili""

msgid ""Wed""
msgstr ""Chor""

msgid ""Wednesday""
msgstr ""Chorshanba""

msgid ""Welsh""
msgstr ""Uels tili""

msgid ""a minute ago""
msgid_plural ""%[1]v minutes ago""
msgstr[0] ""%[1]v daqiqa oldin""
msgstr[1] """"

msgid ""a minute from now""
msgid_plural ""%[1]v minutes from now""
msgstr[0] """"
msgstr[1] """"

msgid ""a second ago""
msgid_plural ""%[1]v seconds ago""
msgstr[0] ""%[1]v soniya oldin""
msgstr[1] """"

msgid ""a second from now""
msgid_plural ""%[1]v seconds from now""
msgstr[0] """"
msgstr[1] """"

msgid ""a.m.""
msgstr ""ertalab""

msgid ""an hour ago""
msgid_plural ""%[1]v hours ago""
msgstr[0] ""%[1]v soat oldin""
msgstr[1] """"

msgid ""an hour from now""
msgid_plural ""%[1]v hours from now""
msgstr[0] """"
msgstr[1] """"

msgid ""apr""
msgstr ""apr""

msgid ""aug""
msgstr ""avg""

msgid ""dec""
msgstr ""dek""

msgid ""eight""
msgstr ""sakkiz""

msgid ""feb""
msgstr ""fev""

msgid ""five""
msgstr ""besh""

msgid ""four""
msgstr ""to'rt""

msgid ""jan""
msgstr ""yan""

msgid ""jul""
msgstr ""iyl""

msgid ""jun""
msgstr ""iyn""

msgid ""mar""
msgstr ""mar""

msgid ""may""
msgstr ""may""

msgid ""midnight""
msgstr ""yarim tunda""

msgid ""nine""
msgstr ""to'qqiz""

msgid ""noon""
msgstr ""peshin""

msgid ""nov""
msgstr ""noy""

msgid ""now""
msgstr ""hozir""

msgid ""oct""
msgstr ""okt""

msgid ""one""
msgstr ""bir""

msgid ""p.m.""
msgstr ""kechqurun""

msgid ""sep""
msgstr ""sen""

msgid ""seven""
msgstr ""yetti""

msgid ""six""
msgstr ""olti""

msgid ""three""
msgstr ""uch""

msgid ""today""
msgstr ""o'n""

msgid ""tomorrow""
msgstr ""ertaga""

msgid ""two""
msgstr ""ikki""

msgid ""yesterday""
msgstr ""kecha""

msgctxt ""abbrev. month""
msgid ""April""
msgstr ""Aprel""

msgctxt ""abbrev. month""
msgid ""Aug.""
msgstr ""Avg.""

msgctxt ""abbrev. month""
msgid ""Dec.""
msgstr ""Dek.""

msgctxt ""abbrev. month""
msgid ""Feb.""
msgstr ""Fev.""

msgctxt ""abbrev. month""
msgid ""Jan.""
msgstr ""Yan,""

msgctxt ""abbrev. month""
msgid ""July""
msgstr ""Iyul""

msgctxt ""abbrev. month""
msgid ""June""
msgstr ""Iyun""

msgctxt ""abbrev. month""
msgid ""March""
msgstr ""Mart""

msgctxt ""abbrev. month""
msgid ""May""
msgstr ""May""

msgctxt ""abbrev. month""
msgid ""Nov.""
msgstr ""Noy.""

msgctxt ""abbrev. month""
msgid ""Oct.""
msgstr ""Okt.""

msgctxt ""abbrev. month""
msgid ""Sept.""
msgstr ""Sen.""

msgctxt ""alt. month""
msgid ""April""
msgstr ""Aprel""

msgctxt ""alt. month""
msgid ""August""
msgstr ""Avgust""

msgctxt ""alt. month""
msgid ""December""
msgstr ""Dekabr""

msgctxt ""alt. month""
msgid ""February""
msgstr ""Fevral""

msgctxt ""alt. month""
msgid ""January""
msgstr ""Yanvar""

msgctxt ""alt. month""
msgid ""July""
msgstr ""Iyul""

msgctxt ""alt. month""
msgid ""June""
msgstr ""Iyun""

msgctxt ""alt. month""
msgid ""March""
msgstr ""Mart""

msgctxt ""alt. month""
msgid ""May""
msgstr ""May""

msgctxt ""alt. month""
msgid ""November""
msgstr ""Noyabr""

msgctxt ""alt. month""
msgid ""October""
msgstr ""Oktabr""

msgctxt ""alt. month""
msgid ""September""
msgstr ""Sentabr""

msgctxt ""ordinal 0""
msgid ""%vth""
msgstr """"

msgctxt ""ordinal 1""
msgid ""%vst""
msgstr """"

msgctxt ""ordinal 11, 12, 13""
msgid ""%vth""
msgstr """"

msgctxt ""ordinal 2""
msgid ""%vnd""
msgstr """"

msgctxt ""ordinal 3""
msgid ""%vrd""
msgstr """"

msgctxt ""ordinal 4""
msgid ""%vth""
msgstr """"

msgctxt ""ordinal 5""
msgid ""%vth""
msgstr """"

msgctxt ""ordinal 6""
msgid ""%vth""
msgstr """"

msgctxt ""ordinal 7""
msgid ""%vth""
msgstr """"

msgctxt ""ordinal 8""
msgid ""%vth""
msgstr """"

msgctxt ""ordinal 9""
msgid ""%vth""
msgstr """"
".
(** humanize/locale/uz/locale.go (New) *)
Definition loc_uz : locale_data := LD (bs "uz") [(bs "django.po", po_uz)]
  (Some (FD (bs "j-E, Y-\y\i\l") (bs "G:i") (bs "j-E, Y-\y\i\l G:i") (bs "F Y-\y\i\l") (bs "j-E") (bs "d.m.Y") (bs "d.m.Y H:i"))).

(** humanize/locale/vi/django.po *)
Definition po_vi : bytes := bs "# This file is distributed under the same license as the Django package.
# 
# Translators:
# Claude Paroz <claude@2xlibre.net>, 2020
# Jannis Leidel <jannis@leidel.info>, 2011
# Anh Phan <vietnamesel10n@gmail.com>, 2013
# Thanh Le Viet <lethanhx2k@gmail.com>, 2013
# Tran <hongdiepkien@gmail.com>, 2011
# Tran Van <vantxm@yahoo.co.uk>, 2011,2013
# Vuong Nguyen <autalpha@gmail.com>, 2011
# xgenvn <xgenvn@gmail.com>, 2014
msgid """"
msgstr """"
""Project-Id-Version: django\n""
""Report-Msgid-Bugs-To: \n""
""POT-Creation-Date: 2020-05-19 20:23+0200\n""
""PO-Revision-Date: 2020-07-14 21:42+0000\n""
""Last-Translator: Transifex Bot <>\n""
""Language-Team: Vietnamese (http://www.transifex.com/django/django/language/vi/)\n""
""Language: vi\n""
""MIME-Version: 1.0\n""
""Content-Type: text/plain; charset=UTF-8\n""
""Content-Transfer-Encoding: 8bit\n""
""Plural-Forms: nplurals=1; plural=0;\n""

msgid ""%[1]d byte""
msgid_plural ""%[1]d bytes""
msgstr[0] ""%[1]d byte""
msgstr[1] """"

msgid ""%[1]s billion""
msgid_plural ""%[1]s billion""
msgstr[0] ""%[1]s tỷ""
msgstr[1] """"

msgid ""%[1]s decillion""
msgid_plural ""%[1]s decillion""
msgstr[0] ""%[1]s triệu tỷ tỷ tỷ""
msgstr[1] """"

msgid ""%[1]s googol""
msgid_plural ""%[1]s googol""
msgstr[0] ""%[1]s tỷ tỷ tỷ tỷ""
msgstr[1] """"

msgid ""%[1]s million""
msgid_plural ""%[1]s million""
msgstr[0] ""%[1]s triệu""
msgstr[1] """"

msgid ""%[1]s nonillion""
msgid_plural ""%[1]s nonillion""
msgstr[0] ""%[1]s nghỉn tỷ tỷ tỷ""
msgstr[1] """"

msgid ""%[1]s octillion""
msgid_plural ""%[1]s octillion""
msgstr[0] ""%[1]s tỷ tỷ tỷ""
msgstr[1] """"

msgid ""%[1]s quadrillion""
msgid_plural ""%[1]s quadrillion""
msgstr[0] ""%[1]s triệu tỷ""
msgstr[1] """"

msgid ""%[1]s quintillion""
msgid_plural ""%[1]s quintillion""
msgstr[0] ""%[1]s tỷ tỷ""
msgstr[1] """"

msgid ""%[1]s septillion""
msgid_plural ""%[1]s septillion""
msgstr[0] ""%[1]s triệu tỷ tỷ""
msgstr[1] """"

msgid ""%[1]s sextillion""
msgid_plural ""%[1]s sextillion""
msgstr[0] ""%[1]s nghỉn tỷ tỷ""
msgstr[1] """"

msgid ""%[1]s trillion""
msgid_plural ""%[1]s trillion""
msgstr[0] ""%[1]s nghìn tỷ""
msgstr[1] """"

msgid ""%s GB""
msgstr ""%s GB""

msgid ""%s KB""
msgstr ""%s KB""

msgid ""%s MB""
msgstr ""%s MB""

msgid ""%s PB""
msgstr ""%s PB""

msgid ""%s TB""
msgstr ""%s TB""

msgid "", ""
msgstr "", ""

msgid ""AM""
msgstr ""sáng""

msgid ""Afrikaans""
msgstr ""Afrikaans""

msgid ""Albanian""
msgstr ""Tiếng Albania""

msgid ""Algerian Arabic""
msgstr """"

msgid ""April""
msgstr ""Tháng 4""

msgid ""Arabic""
msgstr ""Tiếng Ả Rập""

msgid ""Argentinian Spanish""
msgstr ""Argentinian Spanish""

msgid ""Armenian""
msgstr """"

msgid ""Asturian""
msgstr ""Asturian""

msgid ""August""
msgstr ""Tháng 8""

msgid ""Australian English""
msgstr ""Tiếng Anh ở Úc""

msgid ""Azerbaijani""
msgstr ""Tiếng Azerbaijan""

msgid ""Basque""
msgstr ""Tiếng Baxcơ""

msgid ""Belarusian""
msgstr ""Tiếng Bê-la-rút""

msgid ""Bengali""
msgstr ""Tiếng Bengal""

msgid ""Bosnian""
msgstr ""Tiếng Bosnia""

msgid ""Brazilian Portuguese""
msgstr ""Brazilian Portuguese""

msgid ""Breton""
msgstr ""Tiếng Breton""

msgid ""British English""
msgstr ""British English""

msgid ""Bulgarian""
msgstr ""Tiếng Bun-ga-ri""

msgid ""Burmese""
msgstr ""My-an-ma""

msgid ""Catalan""
msgstr ""Tiếng Catala""

msgid ""Colombian Spanish""
msgstr """"

msgid ""Croatian""
msgstr ""Tiếng Croatia""

msgid ""Czech""
msgstr ""Tiếng Séc""

msgid ""Danish""
msgstr ""Tiếng Đan Mạch""

msgid ""December""
msgstr ""Tháng 12""

msgid ""Dutch""
msgstr ""Tiếng Hà Lan""

msgid ""English""
msgstr ""Tiếng Anh""

msgid ""Esperanto""
msgstr ""Quốc Tế Ngữ""

msgid ""Estonian""
msgstr ""Tiếng Estonia""

msgid ""February""
msgstr ""Tháng 2""

msgid ""Finnish""
msgstr ""Tiếng Phần Lan""

msgid ""French""
msgstr ""Tiếng Pháp""

msgid ""Fri""
msgstr ""Thứ 6""

msgid ""Friday""
msgstr ""Thứ 6""

msgid ""Frisian""
msgstr ""Tiếng Frisco""

msgid ""Galician""
msgstr ""Tiếng Pháp cổ""

msgid ""Georgian""
msgstr ""Georgian""

msgid ""German""
msgstr ""Tiếng Đức""

msgid ""Greek""
msgstr ""Tiếng Hy Lạp""

msgid ""Hebrew""
msgstr ""Tiếng Do Thái cổ""

msgid ""Hindi""
msgstr ""Tiếng Hindi""

msgid ""Hungarian""
msgstr ""Tiếng Hung-ga-ri""

msgid ""Icelandic""
msgstr ""Tiếng Aixơlen""

msgid ""Ido""
msgstr ""Ido""

msgid ""Igbo""
msgstr """"

msgid ""Indonesian""
msgstr ""Tiếng In-đô-nê-xi-a""

msgid ""Interlingua""
msgstr ""Tiếng Khoa học Quốc tế""

msgid ""Irish""
msgstr ""Tiếng Ai-len""

msgid ""Italian""
msgstr ""Tiếng Ý""

msgid ""January""
msgstr ""Tháng 1""

msgid ""Japanese""
msgstr ""Tiếng Nhật Bản""

msgid ""July""
msgstr ""Tháng 7""

msgid ""June""
msgstr ""Tháng 6""

msgid ""Kabyle""
msgstr """"

msgid ""Kannada""
msgstr ""Tiếng Kannada""

msgid ""Kazakh""
msgstr ""Tiếng Kazakh""

msgid ""Khmer""
msgstr ""Tiếng Khơ-me""

msgid ""Korean""
msgstr ""Tiếng Hàn Quốc""

msgid ""Kyrgyz""
msgstr """"

msgid ""Latvian""
msgstr ""Ngôn ngữ vùng Bantic""

msgid ""Lithuanian""
msgstr ""Tiếng Lat-vi""

msgid ""Lower Sorbian""
msgstr """"

msgid ""Luxembourgish""
msgstr ""Tiếng Luxembourg""

msgid ""Macedonian""
msgstr ""Tiếng Maxêđôni""

msgid ""Malayalam""
msgstr ""Tiếng Malayalam""

msgid ""Marathi""
msgstr ""Marathi""

msgid ""March""
msgstr ""Tháng 3""

msgid ""May""
msgstr ""Tháng 5""

msgid ""Mexican Spanish""
msgstr ""Mexican Spanish""

msgid ""Mon""
msgstr ""Thứ 2""

msgid ""Monday""
msgstr ""Thứ 2""

msgid ""Mongolian""
msgstr ""Tiếng Mông Cổ""

msgid ""Nepali""
msgstr ""Nê-pan""

msgid ""Nicaraguan Spanish""
msgstr ""Tiếng Tây Ban Nha-Nicaragua""

msgid ""Norwegian Bokmål""
msgstr """"

msgid ""Norwegian Nynorsk""
msgstr ""Tiếng Na Uy Nynorsk""

msgid ""November""
msgstr ""Tháng 11""

msgid ""October""
msgstr ""Tháng 10""

msgid ""Ossetic""
msgstr ""Ô-sét-ti-a""

msgid ""PM""
msgstr ""chiều""

msgid ""Persian""
msgstr ""Tiếng Ba Tư""

msgid ""Polish""
msgstr ""Tiếng Ba lan""

msgid ""Portuguese""
msgstr ""Tiếng Bồ Đào Nha""

msgid ""Punjabi""
msgstr ""Punjabi""

msgid ""Romanian""
msgstr ""Tiếng Ru-ma-ni""

msgid ""Russian""
msgstr ""Tiếng Nga""

msgid ""Sat""
msgstr ""Thứ 7""

msgid ""Saturday""
msgstr ""Thứ 7""

msgid ""Scottish Gaelic""
msgstr """"

msgid ""September""
msgstr ""Tháng 9""

msgid ""Serbian""
msgstr ""Tiếng Xéc-bi""

msgid ""Serbian Latin""
msgstr ""Serbian Latin""

msgid ""Simplified Chinese""
msgstr ""Tiếng Tàu giản thể""

msgid ""Slovak""
msgstr ""Ngôn ngữ Slô-vac""

msgid ""Slovenian""
msgstr ""Tiếng Slôven""

msgid ""Spanish""
msgstr ""Tiếng Tây Ban Nha""

msgid ""Sun""
msgstr ""Chủ nhật""

msgid ""Sunday""
msgstr ""Chủ nhật""

msgid ""Swahili""
msgstr ""Xì-qua-hi-đi thuộc ngôn ngữ Bantu""

msgid ""Swedish""
msgstr ""Tiếng Thụy Điển""

msgid ""Tajik""
msgstr """"

msgid ""Tamil""
msgstr ""Tiếng Ta-min""

msgid ""Tatar""
msgstr ""Tác-ta""

msgid ""Telugu""
msgstr ""Telugu""

msgid ""Thai""
msgstr ""Tiếng Thái""

msgid ""Thu""
msgstr ""Thứ 5""

msgid ""Thursday""
msgstr ""Thứ 5""

msgid ""Traditional Chinese""
msgstr ""Tiếng Tàu truyền thống""

msgid ""Tue""
msgstr ""Thứ 3""

msgid ""Tuesday""
msgstr ""Thứ 3""

msgid ""Turkish""
msgstr ""Tiếng Thổ Nhĩ Kỳ""

msgid ""Turkmen""
msgstr """"

msgid ""Udmurt""
msgstr ""Udmurt""

msgid ""Ukrainian""
msgstr ""Tiếng Ukraina""

msgid ""Upper Sorbian""
msgstr """"

msgid ""Urdu""
msgstr ""Urdu""

msgid ""Uzbek""
msgstr """"

msgid ""Venezuelan Spanish""
msgstr ""Tiếng Vê-nê-du-ê-la""

msgid ""Vietnamese""
msgstr ""Tiếng Việt Nam""

msgid ""Wed""
msgstr ""Thứ 4""

msgid ""Wednesday""
msgstr ""Thứ 4""

msgid ""Welsh""
msgstr ""Xứ Wales""

msgid ""a minute ago""
msgid_plural ""%[1]v minutes ago""
msgstr[0] ""%[1]v phút trước""
msgstr[1] """"

msgid ""a minute from now""
msgid_plural ""%[1]v minutes from now""
msgstr[0] ""%[1]v phút sau""
msgstr[1] """"

msgid ""a second ago""
msgid_plural ""%[1]v seconds ago""
msgstr[0] ""%[1]v giây trước""
msgstr[1] """"

msgid ""a second from now""
msgid_plural ""%[1]v seconds from now""
msgstr[0] ""%[1]v giây sau""
msgstr[1] """"

msgid ""a.m.""
msgstr ""a.m.""

msgid ""an hour ago""
msgid_plural ""%[1]v hours ago""
msgstr[0] ""%[1]v giờ trước""
msgstr[1] """"

msgid ""an hour from now""
msgid_plural ""%[1]v hours from now""
msgstr[0] ""%[1]v giờ sau""
msgstr[1] """"

msgid ""apr""
msgstr ""Tháng 4""

msgid ""aug""
msgstr ""Tháng 8""

msgid ""dec""
msgstr ""Tháng 12""

msgid ""eight""
msgstr ""Tám""

msgid ""feb""
msgstr ""Tháng 2""

msgid ""five""
msgstr ""Năm""

msgid ""four""
msgstr ""Bốn""

msgid ""jan""
msgstr ""Tháng 1""

msgid ""jul""
msgstr ""Tháng 7""

msgid ""jun""
msgstr ""Tháng 6""

msgid ""mar""
msgstr ""Tháng 3""

msgid ""may""
msgstr ""Tháng 5""

msgid ""midnight""
msgstr ""Nửa đêm""

msgid ""nine""
msgstr ""Chín""

msgid ""noon""
msgstr ""Buổi trưa""

msgid ""nov""
msgstr ""Tháng 11""

msgid ""now""
msgstr ""vừa mới đây""

msgid ""oct""
msgstr ""Tháng 10""

msgid ""one""
msgstr ""Một""

msgid ""p.m.""
msgstr ""p.m.""

msgid ""sep""
msgstr ""Tháng 9""

msgid ""seven""
msgstr ""Bảy""

msgid ""six""
msgstr ""Sáu""

msgid ""three""
msgstr ""Ba""

msgid ""today""
msgstr ""Hôm nay""

msgid ""tomorrow""
msgstr ""Ngày mai""

msgid ""two""
msgstr ""Hai""

msgid ""yesterday""
msgstr ""Hôm qua""

msgctxt ""abbrev. month""
msgid ""April""
msgstr ""Tháng tư""

msgctxt ""abbrev. month""
msgid ""Aug.""
msgstr ""Tháng 8.""

msgctxt ""abbrev. month""
msgid ""Dec.""
msgstr ""Tháng 12.""

msgctxt ""abbrev. month""
msgid ""Feb.""
msgstr ""Tháng 2.""

msgctxt ""abbrev. month""
msgid ""Jan.""
msgstr ""Tháng 1.""

msgctxt ""abbrev. month""
msgid ""July""
msgstr ""Tháng bảy""

msgctxt ""abbrev. month""
msgid ""June""
msgstr ""Tháng sáu""

msgctxt ""abbrev. month""
msgid ""March""
msgstr ""Tháng ba""

msgctxt ""abbrev. month""
msgid ""May""
msgstr ""Tháng năm""

msgctxt ""abbrev. month""
msgid ""Nov.""
msgstr ""Tháng 11.""

msgctxt ""abbrev. month""
msgid ""Oct.""
msgstr ""Tháng 10.""

msgctxt ""abbrev. month""
msgid ""Sept.""
msgstr ""Tháng 9.""

msgctxt ""alt. month""
msgid ""April""
msgstr ""Tháng tư""

msgctxt ""alt. month""
msgid ""August""
msgstr ""Tháng tám""

msgctxt ""alt. month""
msgid ""December""
msgstr ""Tháng mười hai""

msgctxt ""alt. month""
msgid ""February""
msgstr ""Tháng hai""

msgctxt ""alt. month""
msgid ""January""
msgstr ""Tháng một""

msgctxt ""alt. month""
msgid ""July""
msgstr ""Tháng bảy""

msgctxt ""alt. month""
msgid ""June""
msgstr ""Tháng sáu""

msgctxt ""alt. month""
msgid ""March""
msgstr ""Tháng ba""

msgctxt ""alt. month""
msgid ""May""
msgstr ""Tháng năm""

msgctxt ""alt. month""
msgid ""November""
msgstr ""Tháng mười một""

msgctxt ""alt. month""
msgid ""October""
msgstr ""Tháng Mười""

msgctxt ""alt. month""
msgid ""September""
msgstr ""Tháng Chín""
".
(** humanize/locale/vi/locale.go (New) *)
Definition loc_vi : locale_data := LD (bs "vi") [(bs "django.po", po_vi)]
  (Some (FD (bs "\N\gà\y d \t\há\n\g n \nă\m Y") (bs "H:i") (bs ":i \N\gà\y d \t\há\n\g n \nă\m Y") (bs "F Y") (bs "j F") (bs "d-m-Y") (bs "H:i d-m-Y"))).

(** humanize/locale/zhHans/django.po *)
Definition po_zhHans : bytes := bs "# This file is distributed under the same license as the Django package.
# 
# Translators:
# HuanCheng Bai白宦成（Bestony） <xiqingongzi@gmail.com>, 2017-2018
# lanbla <lanlinwen@buaa.edu.cn>, 2021
# Daniel Duan <DaNmarner@gmail.com>, 2013
# Fan Xu <xlivevil@aliyun.com>, 2022
# Ford Guo <agile.guo@gmail.com>, 2022
# Huanqun Yang, 2022
# sunfkny, 2023
# jamin M <lxxmbyx@163.com>, 2019
# Jannis Leidel <jannis@leidel.info>, 2011
# Kevin Sze <leiarix@gmail.com>, 2012
# Lele Long <schemacs@gmail.com>, 2011,2015,2017
# Le Yang <youngleocn@qq.com>, 2018
# li beite <lbt012345@gmail.com>, 2020
# Liping Wang <lynn.config@gmail.com>, 2016-2017
# L., 2024
# matthew Yip <yymmatthew@gmail.com>, 2020
# Natalia, 2025
# mozillazg <opensource.mozillazg@gmail.com>, 2016
# Ronald White <tkliuxing@me.com>, 2014
# Lemon Li <leeway1985@gmail.com>, 2013
# Ray Wang <pivstone@gmail.com>, 2017
# slene <vslene@gmail.com>, 2011
# Sun Liwen <sunliwen@gmail.com>, 2014
# Suntravel Chris <chrisfromcn@gmail.com>, 2019
# Veoco <one@nomox.cn>, 2021
# Liping Wang <lynn.config@gmail.com>, 2016
# Wentao Han <wentao.han@gmail.com>, 2018
# wolf ice <warwolf7677@163.com>, 2020
# Xiang Yu <bupt.aswmtjdsj@gmail.com>, 2014
# Jeff Yin <jifeng.yin@gmail.com>, 2013
# Zhengyang Wang <sufforest@gmail.com>, 2017
# ced773123cfad7b4e8b79ca80f736af9, 2011-2012
# Ziya Tang <tcztzy@gmail.com>, 2018
# 付峥 <fuzheng1998@outlook.com>, 2018
# L., 2024
# LatteFang <370358679@qq.com>, 2020
# Kevin Sze <leiarix@gmail.com>, 2012
# 高乐喆 <gaolezhe@outlook.com>, 2023
msgid """"
msgstr """"
""Project-Id-Version: django\n""
""Report-Msgid-Bugs-To: \n""
""POT-Creation-Date: 2025-03-19 11:30-0500\n""
""PO-Revision-Date: 2025-09-17 06:49+0000\n""
""Last-Translator: Natalia, 2025\n""
""Language-Team: Chinese (China) (http://app.transifex.com/django/django/language/zh_CN/)\n""
""Language: zh_CN\n""
""MIME-Version: 1.0\n""
""Content-Type: text/plain; charset=UTF-8\n""
""Content-Transfer-Encoding: 8bit\n""
""Plural-Forms: nplurals=1; plural=0;\n""

msgid ""%[1]d byte""
msgid_plural ""%[1]d bytes""
msgstr[0] ""%[1]d 字节""
msgstr[1] """"

msgid ""%[1]s billion""
msgid_plural ""%[1]s billion""
msgstr[0] ""%[1]s 十亿""
msgstr[1] """"

msgid ""%[1]s decillion""
msgid_plural ""%[1]s decillion""
msgstr[0] ""%[1]s 1000的11次方""
msgstr[1] """"

msgid ""%[1]s googol""
msgid_plural ""%[1]s googol""
msgstr[0] ""%[1]s 10的100次方""
msgstr[1] """"

msgid ""%[1]s million""
msgid_plural ""%[1]s million""
msgstr[0] ""%[1]s 百万""
msgstr[1] """"

msgid ""%[1]s nonillion""
msgid_plural ""%[1]s nonillion""
msgstr[0] ""%[1]s 1000的10次方""
msgstr[1] """"

msgid ""%[1]s octillion""
msgid_plural ""%[1]s octillion""
msgstr[0] ""%[1]s 1000的9次方""
msgstr[1] """"

msgid ""%[1]s quadrillion""
msgid_plural ""%[1]s quadrillion""
msgstr[0] ""%[1]s 1000的5次方""
msgstr[1] """"

msgid ""%[1]s quintillion""
msgid_plural ""%[1]s quintillion""
msgstr[0] ""%[1]s 1000的4次方""
msgstr[1] """"

msgid ""%[1]s septillion""
msgid_plural ""%[1]s septillion""
msgstr[0] ""%[1]s 1000的8次方""
msgstr[1] """"

msgid ""%[1]s sextillion""
msgid_plural ""%[1]s sextillion""
msgstr[0] ""%[1]s 1000的7次方""
msgstr[1] """"

msgid ""%[1]s trillion""
msgid_plural ""%[1]s trillion""
msgstr[0] ""%[1]s 万亿""
msgstr[1] """"

msgid ""%[1]v ago""
msgstr ""%[1]v前""

msgid ""%[1]v day""
msgid_plural ""%[1]v days""
msgstr[0] ""%[1]v 日""
msgstr[1] """"

msgid ""%[1]v from now""
msgstr ""%[1]v之后""

msgid ""%[1]v hour""
msgid_plural ""%[1]v hours""
msgstr[0] ""%[1]v 小时""
msgstr[1] """"

msgid ""%[1]v minute""
msgid_plural ""%[1]v minutes""
msgstr[0] ""%[1]v 分钟""
msgstr[1] """"

msgid ""%[1]v month""
msgid_plural ""%[1]v months""
msgstr[0] ""%[1]v 月""
msgstr[1] """"

msgid ""%[1]v week""
msgid_plural ""%[1]v weeks""
msgstr[0] ""%[1]v 周""
msgstr[1] """"

msgid ""%[1]v year""
msgid_plural ""%[1]v years""
msgstr[0] ""%[1]v 年""
msgstr[1] """"

msgid ""%s GB""
msgstr ""%s GB""

msgid ""%s KB""
msgstr ""%s KB""

msgid ""%s MB""
msgstr ""%s MB""

msgid ""%s PB""
msgstr ""%s PB""

msgid ""%s TB""
msgstr ""%s TB""

msgid "", ""
msgstr ""，""

msgid ""AM""
msgstr ""AM""

msgid ""Afrikaans""
msgstr ""南非荷兰语""

msgid ""Albanian""
msgstr ""阿尔巴尼亚语""

msgid ""Algerian Arabic""
msgstr ""阿尔及利亚的阿拉伯语""

msgid ""April""
msgstr ""四月""

msgid ""Arabic""
msgstr ""阿拉伯语""

msgid ""Argentinian Spanish""
msgstr ""阿根廷西班牙语""

msgid ""Armenian""
msgstr ""亚美尼亚语""

msgid ""Asturian""
msgstr ""阿斯图里亚斯""

msgid ""August""
msgstr ""八月""

msgid ""Australian English""
msgstr ""澳大利亚英语""

msgid ""Azerbaijani""
msgstr ""阿塞拜疆语""

msgid ""Basque""
msgstr ""巴斯克语""

msgid ""Belarusian""
msgstr ""白俄罗斯语""

msgid ""Bengali""
msgstr ""孟加拉语""

msgid ""Bosnian""
msgstr ""波斯尼亚语""

msgid ""Brazilian Portuguese""
msgstr ""巴西葡萄牙语""

msgid ""Breton""
msgstr ""布雷顿""

msgid ""British English""
msgstr ""英国英语""

msgid ""Bulgarian""
msgstr ""保加利亚语""

msgid ""Burmese""
msgstr ""缅甸语""

msgid ""Catalan""
msgstr ""加泰罗尼亚语""

msgid ""Central Kurdish (Sorani)""
msgstr ""中部库尔德语（Sorani）""

msgid ""Colombian Spanish""
msgstr ""哥伦比亚西班牙语""

msgid ""Croatian""
msgstr ""克罗地亚语""

msgid ""Czech""
msgstr ""捷克语""

msgid ""Danish""
msgstr ""丹麦语""

msgid ""December""
msgstr ""十二月""

msgid ""Dutch""
msgstr ""荷兰语""

msgid ""English""
msgstr ""英语""

msgid ""Esperanto""
msgstr ""世界语""

msgid ""Estonian""
msgstr ""爱沙尼亚语""

msgid ""February""
msgstr ""二月""

msgid ""Finnish""
msgstr ""芬兰语""

msgid ""French""
msgstr ""法语""

msgid ""Fri""
msgstr ""星期五""

msgid ""Friday""
msgstr ""星期五""

msgid ""Frisian""
msgstr ""夫里斯兰语""

msgid ""Galician""
msgstr ""加利西亚语""

msgid ""Georgian""
msgstr ""格鲁吉亚语""

msgid ""German""
msgstr ""德语""

msgid ""Greek""
msgstr ""希腊语""

msgid ""Hebrew""
msgstr ""希伯来语""

msgid ""Hindi""
msgstr ""北印度语""

msgid ""Hungarian""
msgstr ""匈牙利语""

msgid ""Icelandic""
msgstr ""冰岛语""

msgid ""Ido""
msgstr ""简化伊多语""

msgid ""Igbo""
msgstr ""伊博""

msgid ""Indonesian""
msgstr ""印尼语""

msgid ""Interlingua""
msgstr ""国际语""

msgid ""Irish""
msgstr ""爱尔兰语""

msgid ""Italian""
msgstr ""意大利语""

msgid ""January""
msgstr ""一月""

msgid ""Japanese""
msgstr ""日语""

msgid ""July""
msgstr ""七月""

msgid ""June""
msgstr ""六月""

msgid ""Kabyle""
msgstr ""卡拜尔语""

msgid ""Kannada""
msgstr ""埃纳德语""

msgid ""Kazakh""
msgstr ""哈萨克语""

msgid ""Khmer""
msgstr ""高棉语""

msgid ""Korean""
msgstr ""韩语""

msgid ""Kyrgyz""
msgstr ""吉尔吉斯坦语""

msgid ""Latvian""
msgstr ""拉脱维亚语""

msgid ""Lithuanian""
msgstr ""立陶宛语""

msgid ""Lower Sorbian""
msgstr ""下索布""

msgid ""Luxembourgish""
msgstr ""卢森堡语""

msgid ""Macedonian""
msgstr ""马其顿语""

msgid ""Malay""
msgstr ""马来语""

msgid ""Malayalam""
msgstr ""马来亚拉姆语""

msgid ""Marathi""
msgstr ""马拉地语""

msgid ""March""
msgstr ""三月""

msgid ""May""
msgstr ""五月""

msgid ""Mexican Spanish""
msgstr ""墨西哥西班牙语""

msgid ""Mon""
msgstr ""星期一""

msgid ""Monday""
msgstr ""星期一""

msgid ""Mongolian""
msgstr ""蒙古语""

msgid ""Nepali""
msgstr ""尼泊尔语""

msgid ""Nicaraguan Spanish""
msgstr ""尼加拉瓜西班牙语""

msgid ""Norwegian Bokmål""
msgstr ""挪威博克马尔""

msgid ""Norwegian Nynorsk""
msgstr ""新挪威语""

msgid ""November""
msgstr ""十一月""

msgid ""October""
msgstr ""十月""

msgid ""Ossetic""
msgstr ""奥塞梯语""

msgid ""PM""
msgstr ""PM""

msgid ""Persian""
msgstr ""波斯语""

msgid ""Polish""
msgstr ""波兰语""

msgid ""Portuguese""
msgstr ""葡萄牙语""

msgid ""Punjabi""
msgstr ""旁遮普语 ""

msgid ""Romanian""
msgstr ""罗马尼亚语""

msgid ""Russian""
msgstr ""俄语""

msgid ""Sat""
msgstr ""星期六""

msgid ""Saturday""
msgstr ""星期六""

msgid ""Scottish Gaelic""
msgstr ""苏格兰盖尔语""

msgid ""September""
msgstr ""九月""

msgid ""Serbian""
msgstr ""塞尔维亚语""

msgid ""Serbian Latin""
msgstr ""塞尔维亚拉丁语""

msgid ""Simplified Chinese""
msgstr ""简体中文""

msgid ""Slovak""
msgstr ""斯洛伐克语""

msgid ""Slovenian""
msgstr ""斯洛文尼亚语""

msgid ""Spanish""
msgstr ""西班牙语""

msgid ""Sun""
msgstr ""星期日""

msgid ""Sunday""
msgstr ""星期日""

msgid ""Swahili""
msgstr ""斯瓦西里语""

msgid ""Swedish""
msgstr ""瑞典语""

msgid ""Tajik""
msgstr ""塔吉克语""

msgid ""Tamil""
msgstr ""泰米尔语""

msgid ""Tatar""
msgstr ""鞑靼语""

msgid ""Telugu""
msgstr ""泰卢固语""

msgid ""Thai""
msgstr ""泰语""

msgid ""Thu""
msgstr ""星期四""

msgid ""Thursday""
msgstr ""星期四""

msgid ""Traditional Chinese""
msgstr ""繁体中文""

msgid ""Tue""
msgstr ""星期二""

msgid ""Tuesday""
msgstr ""星期二""

msgid ""Turkish""
msgstr ""土耳其语""

msgid ""Turkmen""
msgstr ""土库曼人""

msgid ""Udmurt""
msgstr ""乌德穆尔特语""

msgid ""Ukrainian""
msgstr ""乌克兰语""

msgid ""Upper Sorbian""
msgstr ""上索布""

msgid ""Urdu""
msgstr ""乌尔都语""

msgid ""Uyghur""
msgstr ""维吾尔语""

msgid ""Uzbek""
msgstr ""乌兹别克语""

msgid ""Venezuelan Spanish""
msgstr ""委内瑞拉西班牙语""

msgid ""Vietnamese""
msgstr ""越南语""

msgid ""Wed""
msgstr ""星期三""

msgid ""Wednesday""
msgstr ""星期三""

msgid ""Welsh""
msgstr ""威尔士语""

msgid ""a minute ago""
msgid_plural ""%[1]v minutes ago""
msgstr[0] ""%[1]v分钟之前""
msgstr[1] """"

msgid ""a minute from now""
msgid_plural ""%[1]v minutes from now""
msgstr[0] ""%[1]v分钟以后""
msgstr[1] """"

msgid ""a second ago""
msgid_plural ""%[1]v seconds ago""
msgstr[0] ""%[1]v秒之前""
msgstr[1] """"

msgid ""a second from now""
msgid_plural ""%[1]v seconds from now""
msgstr[0] ""%[1]v秒以后""
msgstr[1] """"

msgid ""a.m.""
msgstr ""a.m.""

msgid ""an hour ago""
msgid_plural ""%[1]v hours ago""
msgstr[0] ""%[1]v小时之前""
msgstr[1] """"

msgid ""an hour from now""
msgid_plural ""%[1]v hours from now""
msgstr[0] ""%[1]v小时以后""
msgstr[1] """"

msgid ""apr""
msgstr ""四月""

msgid ""aug""
msgstr ""八月""

msgid ""dec""
msgstr ""十二月""

msgid ""eight""
msgstr ""八""

msgid ""feb""
msgstr ""二月""

msgid ""five""
msgstr ""五""

msgid ""four""
msgstr ""四""

msgid ""jan""
msgstr ""一月""

msgid ""jul""
msgstr ""七月""

msgid ""jun""
msgstr ""六月""

msgid ""mar""
msgstr ""三月""

msgid ""may""
msgstr ""五月""

msgid ""midnight""
msgstr ""午夜""

msgid ""nine""
msgstr ""九""

msgid ""noon""
msgstr ""中午""

msgid ""nov""
msgstr ""十一月""

msgid ""now""
msgstr ""现在""

msgid ""oct""
msgstr ""十月""

msgid ""one""
msgstr ""一""

msgid ""p.m.""
msgstr ""p.m.""

msgid ""sep""
msgstr ""九月""

msgid ""seven""
msgstr ""七""

msgid ""six""
msgstr ""六""

msgid ""three""
msgstr ""三""

msgid ""today""
msgstr ""今天""

msgid ""tomorrow""
msgstr ""明天""

msgid ""two""
msgstr ""二""

msgid ""yesterday""
msgstr ""昨天""

msgctxt ""abbrev. month""
msgid ""April""
msgstr ""四月""

msgctxt ""abbrev. month""
msgid ""Aug.""
msgstr ""八月""

msgctxt ""abbrev. month""
msgid ""Dec.""
msgstr ""十二月""

msgctxt ""abbrev. month""
msgid ""Feb.""
msgstr ""二月""

msgctxt ""abbrev. month""
msgid ""Jan.""
msgstr ""一月""

msgctxt ""abbrev. month""
msgid ""July""
msgstr ""七月""

msgctxt ""abbrev. month""
msgid ""June""
msgstr ""六月""

msgctxt ""abbrev. month""
msgid ""March""
msgstr ""三月""

msgctxt ""abbrev. month""
msgid ""May""
msgstr ""五月""

msgctxt ""abbrev. month""
msgid ""Nov.""
msgstr ""十一月""

msgctxt ""abbrev. month""
msgid ""Oct.""
msgstr ""十月""

msgctxt ""abbrev. month""
msgid ""Sept.""
msgstr ""九月""

msgctxt ""alt. month""
msgid ""April""
msgstr ""四月""

msgctxt ""alt. month""
msgid ""August""
msgstr ""八月""

msgctxt ""alt. month""
msgid ""December""
msgstr ""十二月""

msgctxt ""alt. month""
msgid ""February""
msgstr ""二月""

msgctxt ""alt. month""
msgid ""January""
msgstr ""一月""

msgctxt ""alt. month""
msgid ""July""
msgstr ""七月""

msgctxt ""alt. month""
msgid ""June""
msgstr ""六月""

msgctxt ""alt. month""
msgid ""March""
msgstr ""三月""

msgctxt ""alt. month""
msgid ""May""
msgstr ""五月""

msgctxt ""alt. month""
msgid ""November""
msgstr ""十一月""

msgctxt ""alt. month""
msgid ""October""
msgstr ""十月""

msgctxt ""alt. month""
msgid ""September""
msgstr ""九月""

msgctxt ""naturaltime-future""
msgid ""%[1]v day""
msgid_plural ""%[1]v days""
msgstr[0] ""%[1]v 日""
msgstr[1] """"

msgctxt ""naturaltime-future""
msgid ""%[1]v hour""
msgid_plural ""%[1]v hours""
msgstr[0] ""%[1]v 小时""
msgstr[1] """"

msgctxt ""naturaltime-future""
msgid ""%[1]v minute""
msgid_plural ""%[1]v minutes""
msgstr[0] ""%[1]v 分钟""
msgstr[1] """"

msgctxt ""naturaltime-future""
msgid ""%[1]v month""
msgid_plural ""%[1]v months""
msgstr[0] ""%[1]v 月""
msgstr[1] """"

msgctxt ""naturaltime-future""
msgid ""%[1]v week""
msgid_plural ""%[1]v weeks""
msgstr[0] ""%[1]v 周""
msgstr[1] """"

msgctxt ""naturaltime-future""
msgid ""%[1]v year""
msgid_plural ""%[1]v years""
msgstr[0] ""%[1]v 年""
msgstr[1] """"

msgctxt ""naturaltime-past""
msgid ""%[1]v day""
msgid_plural ""%[1]v days""
msgstr[0] ""%[1]v 日""
msgstr[1] """"

msgctxt ""naturaltime-past""
msgid ""%[1]v hour""
msgid_plural ""%[1]v hours""
msgstr[0] ""%[1]v 小时""
msgstr[1] """"

msgctxt ""naturaltime-past""
msgid ""%[1]v minute""
msgid_plural ""%[1]v minutes""
msgstr[0] ""%[1]v 分钟""
msgstr[1] """"

msgctxt ""naturaltime-past""
msgid ""%[1]v month""
msgid_plural ""%[1]v months""
msgstr[0] ""%[1]v 月""
msgstr[1] """"

msgctxt ""naturaltime-past""
msgid ""%[1]v week""
msgid_plural ""%[1]v weeks""
msgstr[0] ""%[1]v 周""
msgstr[1] """"

msgctxt ""naturaltime-past""
msgid ""%[1]v year""
msgid_plural ""%[1]v years""
msgstr[0] ""%[1]v 年""
msgstr[1] """"

msgctxt ""ordinal 0""
msgid ""%vth""
msgstr ""第%v""

msgctxt ""ordinal 1""
msgid ""%vst""
msgstr ""第%v""

msgctxt ""ordinal 11, 12, 13""
msgid ""%vth""
msgstr ""第%v""

msgctxt ""ordinal 2""
msgid ""%vnd""
msgstr ""第%v""

msgctxt ""ordinal 3""
msgid ""%vrd""
msgstr ""第%v""

msgctxt ""ordinal 4""
msgid ""%vth""
msgstr ""第%v""

msgctxt ""ordinal 5""
msgid ""%vth""
msgstr ""第%v""

msgctxt ""ordinal 6""
msgid ""%vth""
msgstr ""第%v""

msgctxt ""ordinal 7""
msgid ""%vth""
msgstr ""第%v""

msgctxt ""ordinal 8""
msgid ""%vth""
msgstr ""第%v""

msgctxt ""ordinal 9""
msgid ""%vth""
msgstr ""第%v""
".
(** humanize/locale/zhHans/locale.go (New) *)
Definition loc_zhHans : locale_data := LD (bs "zh-Hans") [(bs "django.po", po_zhHans)]
  (Some (FD (bs "Y年n月j日") (bs "H:i") (bs "Y年n月j日 H:i") (bs "Y年n月") (bs "m月j日") (bs "Y年n月j日") (bs "Y年n月j日 H:i"))).

(** humanize/locale/zhHant/django.po *)
Definition po_zhHant : bytes := bs "# This file is distributed under the same license as the Django package.
# 
# Translators:
# Chen Chun-Chia <ccc.larc@gmail.com>, 2015
# yubike, 2024-2025
# Eric Ho <eric913@gmail.com>, 2013
# ilay <ilay@ilay.tw>, 2012
# Jannis Leidel <jannis@leidel.info>, 2011
# mail6543210 <mail6543210@yahoo.com.tw>, 2013
# 0a3cb7bfd0810218facdfb511e592a6d_8d19d07 <c136e508049103f37d35b6c3314e9b1d_5225>, 2011
# Natalia, 2025
# tcc <tcchou@tcchou.org>, 2011
# Tzu-ping Chung <uranusjr@gmail.com>, 2016-2017
# YAO WEN LIANG, 2024
# Yeh-Yung <yyc1217@gmail.com>, 2013
# yubike, 2024
# Yeh-Yung <yyc1217@gmail.com>, 2012
msgid """"
msgstr """"
""Project-Id-Version: django\n""
""Report-Msgid-Bugs-To: \n""
""POT-Creation-Date: 2025-03-19 11:30-0500\n""
""PO-Revision-Date: 2025-09-17 06:49+0000\n""
""Last-Translator: Natalia, 2025\n""
""Language-Team: Chinese (Taiwan) (http://app.transifex.com/django/django/language/zh_TW/)\n""
""Language: zh_TW\n""
""MIME-Version: 1.0\n""
""Content-Type: text/plain; charset=UTF-8\n""
""Content-Transfer-Encoding: 8bit\n""
""Plural-Forms: nplurals=1; plural=0;\n""

msgid ""%[1]d byte""
msgid_plural ""%[1]d bytes""
msgstr[0] ""%[1]d 位元組""
msgstr[1] """"

msgid ""%[1]s billion""
msgid_plural ""%[1]s billion""
msgstr[0] ""%[1]s 十億""
msgstr[1] """"

msgid ""%[1]s decillion""
msgid_plural ""%[1]s decillion""
msgstr[0] ""%[1]s 十溝""
msgstr[1] """"

msgid ""%[1]s googol""
msgid_plural ""%[1]s googol""
msgstr[0] ""%[1]s 穰大數""
msgstr[1] """"

msgid ""%[1]s million""
msgid_plural ""%[1]s million""
msgstr[0] ""%[1]s 百萬""
msgstr[1] """"

msgid ""%[1]s nonillion""
msgid_plural ""%[1]s nonillion""
msgstr[0] ""%[1]s 百穰""
msgstr[1] """"

msgid ""%[1]s octillion""
msgid_plural ""%[1]s octillion""
msgstr[0] ""%[1]s 千秭""
msgstr[1] """"

msgid ""%[1]s quadrillion""
msgid_plural ""%[1]s quadrillion""
msgstr[0] ""%[1]s 千兆""
msgstr[1] """"

msgid ""%[1]s quintillion""
msgid_plural ""%[1]s quintillion""
msgstr[0] ""%[1]s 百京""
msgstr[1] """"

msgid ""%[1]s septillion""
msgid_plural ""%[1]s septillion""
msgstr[0] ""%[1]s 秭""
msgstr[1] """"

msgid ""%[1]s sextillion""
msgid_plural ""%[1]s sextillion""
msgstr[0] ""%[1]s 十垓""
msgstr[1] """"

msgid ""%[1]s trillion""
msgid_plural ""%[1]s trillion""
msgstr[0] ""%[1]s 兆""
msgstr[1] """"

msgid ""%[1]v ago""
msgstr ""%[1]v前""

msgid ""%[1]v day""
msgid_plural ""%[1]v days""
msgstr[0] ""%[1]v 日""
msgstr[1] """"

msgid ""%[1]v from now""
msgstr ""%[1]v後""

msgid ""%[1]v hour""
msgid_plural ""%[1]v hours""
msgstr[0] ""%[1]v 小時""
msgstr[1] """"

msgid ""%[1]v minute""
msgid_plural ""%[1]v minutes""
msgstr[0] ""%[1]v 分""
msgstr[1] """"

msgid ""%[1]v month""
msgid_plural ""%[1]v months""
msgstr[0] ""%[1]v 月""
msgstr[1] """"

msgid ""%[1]v week""
msgid_plural ""%[1]v weeks""
msgstr[0] ""%[1]v 週""
msgstr[1] """"

msgid ""%[1]v year""
msgid_plural ""%[1]v years""
msgstr[0] ""%[1]v 年""
msgstr[1] """"

msgid ""%s GB""
msgstr ""%s GB""

msgid ""%s KB""
msgstr ""%s KB""

msgid ""%s MB""
msgstr ""%s MB""

msgid ""%s PB""
msgstr ""%s PB""

msgid ""%s TB""
msgstr ""%s TB""

msgid "", ""
msgstr "", ""

msgid ""AM""
msgstr ""AM""

msgid ""Afrikaans""
msgstr ""南非語""

msgid ""Albanian""
msgstr ""阿爾巴尼亞語""

msgid ""Algerian Arabic""
msgstr ""阿爾及利亞式阿拉伯語""

msgid ""April""
msgstr ""四月""

msgid ""Arabic""
msgstr ""阿拉伯語""

msgid ""Argentinian Spanish""
msgstr ""阿根廷西班牙語""

msgid ""Armenian""
msgstr ""亞美尼亞語""

msgid ""Asturian""
msgstr ""阿斯圖里亞斯語""

msgid ""August""
msgstr ""八月""

msgid ""Australian English""
msgstr ""澳大利亞英語""

msgid ""Azerbaijani""
msgstr ""亞塞拜然語""

msgid ""Basque""
msgstr ""巴斯克語""

msgid ""Belarusian""
msgstr ""白俄羅斯語""

msgid ""Bengali""
msgstr ""孟加拉語""

msgid ""Bosnian""
msgstr ""波士尼亞語""

msgid ""Brazilian Portuguese""
msgstr ""巴西葡萄牙語""

msgid ""Breton""
msgstr ""布列塔尼語""

msgid ""British English""
msgstr ""英國英語""

msgid ""Bulgarian""
msgstr ""保加利亞語""

msgid ""Burmese""
msgstr ""緬甸語""

msgid ""Catalan""
msgstr ""加泰隆語""

msgid ""Central Kurdish (Sorani)""
msgstr ""中部庫爾德語 (Sorani)""

msgid ""Colombian Spanish""
msgstr ""哥倫比亞西班牙語""

msgid ""Croatian""
msgstr ""克羅埃西亞語""

msgid ""Czech""
msgstr ""捷克語""

msgid ""Danish""
msgstr ""丹麥語""

msgid ""December""
msgstr ""十二月""

msgid ""Dutch""
msgstr ""荷蘭語""

msgid ""English""
msgstr ""英語""

msgid ""Esperanto""
msgstr ""世界語""

msgid ""Estonian""
msgstr ""愛沙尼亞語""

msgid ""February""
msgstr ""二月""

msgid ""Finnish""
msgstr ""芬蘭語""

msgid ""French""
msgstr ""法語""

msgid ""Fri""
msgstr ""星期五""

msgid ""Friday""
msgstr ""星期五""

msgid ""Frisian""
msgstr ""菲士蘭語""

msgid ""Galician""
msgstr ""加利西亞語""

msgid ""Georgian""
msgstr ""喬治亞語""

msgid ""German""
msgstr ""德語""

msgid ""Greek""
msgstr ""希臘語""

msgid ""Hebrew""
msgstr ""希伯來語""

msgid ""Hindi""
msgstr ""印地語""

msgid ""Hungarian""
msgstr ""匈牙利語""

msgid ""Icelandic""
msgstr ""冰島語""

msgid ""Ido""
msgstr ""伊多語""

msgid ""Igbo""
msgstr ""伊博語""

msgid ""Indonesian""
msgstr ""印尼語""

msgid ""Interlingua""
msgstr ""國際語""

msgid ""Irish""
msgstr ""愛爾蘭語""

msgid ""Italian""
msgstr ""義大利語""

msgid ""January""
msgstr ""一月""

msgid ""Japanese""
msgstr ""日語""

msgid ""July""
msgstr ""七月""

msgid ""June""
msgstr ""六月""

msgid ""Kabyle""
msgstr ""卡拜爾語""

msgid ""Kannada""
msgstr ""康納達語""

msgid ""Kazakh""
msgstr ""哈薩克語""

msgid ""Khmer""
msgstr ""高棉語""

msgid ""Korean""
msgstr ""韓語""

msgid ""Kyrgyz""
msgstr ""吉爾吉斯語""

msgid ""Latvian""
msgstr ""拉脫維亞語""

msgid ""Lithuanian""
msgstr ""立陶宛語""

msgid ""Lower Sorbian""
msgstr ""下索布語""

msgid ""Luxembourgish""
msgstr ""盧森堡語""

msgid ""Macedonian""
msgstr ""馬其頓語""

msgid ""Malay""
msgstr ""馬來語""

msgid ""Malayalam""
msgstr ""馬拉雅拉姆語""

msgid ""Marathi""
msgstr ""馬拉提語""

msgid ""March""
msgstr ""三月""

msgid ""May""
msgstr ""五月""

msgid ""Mexican Spanish""
msgstr ""墨西哥西班牙語""

msgid ""Mon""
msgstr ""星期一""

msgid ""Monday""
msgstr ""星期一""

msgid ""Mongolian""
msgstr ""蒙古語""

msgid ""Nepali""
msgstr ""尼泊爾語""

msgid ""Nicaraguan Spanish""
msgstr ""尼加拉瓜西班牙語""

msgid ""Norwegian Bokmål""
msgstr ""書面挪威語""

msgid ""Norwegian Nynorsk""
msgstr ""新挪威語""

msgid ""November""
msgstr ""十一月""

msgid ""October""
msgstr ""十月""

msgid ""Ossetic""
msgstr ""奧塞梯語""

msgid ""PM""
msgstr ""PM""

msgid ""Persian""
msgstr ""波斯語""

msgid ""Polish""
msgstr ""波蘭語""

msgid ""Portuguese""
msgstr ""葡萄牙語""

msgid ""Punjabi""
msgstr ""旁遮普語""

msgid ""Romanian""
msgstr ""羅馬尼亞語""

msgid ""Russian""
msgstr ""俄語""

msgid ""Sat""
msgstr ""星期六""

msgid ""Saturday""
msgstr ""星期六""

msgid ""Scottish Gaelic""
msgstr ""蘇格蘭蓋爾語""

msgid ""September""
msgstr ""九月""

msgid ""Serbian""
msgstr ""塞爾維亞語""

msgid ""Serbian Latin""
msgstr ""塞爾維亞拉丁語""

msgid ""Simplified Chinese""
msgstr ""簡體中文""

msgid ""Slovak""
msgstr ""斯洛伐克語""

msgid ""Slovenian""
msgstr ""斯洛維尼亞語""

msgid ""Spanish""
msgstr ""西班牙語""

msgid ""Sun""
msgstr ""星期日""

msgid ""Sunday""
msgstr ""星期日""

msgid ""Swahili""
msgstr ""斯瓦希里語""

msgid ""Swedish""
msgstr ""瑞典語""

msgid ""Tajik""
msgstr ""塔吉克語""

msgid ""Tamil""
msgstr ""坦米爾語""

msgid ""Tatar""
msgstr ""韃靼語""

msgid ""Telugu""
msgstr ""泰盧固語""

msgid ""Thai""
msgstr ""泰語""

msgid ""Thu""
msgstr ""星期四""

msgid ""Thursday""
msgstr ""星期四""

msgid ""Traditional Chinese""
msgstr ""繁體中文""

msgid ""Tue""
msgstr ""星期二""

msgid ""Tuesday""
msgstr ""星期二""

msgid ""Turkish""
msgstr ""土耳其語""

msgid ""Turkmen""
msgstr ""土庫曼語""

msgid ""Udmurt""
msgstr ""烏德穆爾特語""

msgid ""Ukrainian""
msgstr ""烏克蘭語""

msgid ""Upper Sorbian""
msgstr ""上索布語""

msgid ""Urdu""
msgstr ""烏爾都語""

msgid ""Uyghur""
msgstr ""維吾爾語""

msgid ""Uzbek""
msgstr ""烏茲別克語""

msgid ""Venezuelan Spanish""
msgstr ""委內瑞拉西班牙語""

msgid ""Vietnamese""
msgstr ""越南語""

msgid ""Wed""
msgstr ""星期三""

msgid ""Wednesday""
msgstr ""星期三""

msgid ""Welsh""
msgstr ""威爾斯語""

msgid ""a minute ago""
msgid_plural ""%[1]v minutes ago""
msgstr[0] ""%[1]v 分鐘前""
msgstr[1] """"

msgid ""a minute from now""
msgid_plural ""%[1]v minutes from now""
msgstr[0] ""%[1]v 分鐘後""
msgstr[1] """"

msgid ""a second ago""
msgid_plural ""%[1]v seconds ago""
msgstr[0] ""%[1]v 秒前""
msgstr[1] """"

msgid ""a second from now""
msgid_plural ""%[1]v seconds from now""
msgstr[0] ""%[1]v 秒後""
msgstr[1] """"

msgid ""a.m.""
msgstr ""a.m.""

msgid ""an hour ago""
msgid_plural ""%[1]v hours ago""
msgstr[0] ""%[1]v 小時前""
msgstr[1] """"

msgid ""an hour from now""
msgid_plural ""%[1]v hours from now""
msgstr[0] ""%[1]v 小時後""
msgstr[1] """"

msgid ""apr""
msgstr ""四月""

msgid ""aug""
msgstr ""八月""

msgid ""dec""
msgstr ""十二月""

msgid ""eight""
msgstr ""八""

msgid ""feb""
msgstr ""二月""

msgid ""five""
msgstr ""五""

msgid ""four""
msgstr ""四""

msgid ""jan""
msgstr ""一月""

msgid ""jul""
msgstr ""七月""

msgid ""jun""
msgstr ""六月""

msgid ""mar""
msgstr ""三月""

msgid ""may""
msgstr ""五月""

msgid ""midnight""
msgstr ""午夜""

msgid ""nine""
msgstr ""九""

msgid ""noon""
msgstr ""中午""

msgid ""nov""
msgstr ""十一月""

msgid ""now""
msgstr ""現在""

msgid ""oct""
msgstr ""十月""

msgid ""one""
msgstr ""一""

msgid ""p.m.""
msgstr ""p.m.""

msgid ""sep""
msgstr ""九月""

msgid ""seven""
msgstr ""七""

msgid ""six""
msgstr ""六""

msgid ""three""
msgstr ""三""

msgid ""today""
msgstr ""今天""

msgid ""tomorrow""
msgstr ""明天""

msgid ""two""
msgstr ""二""

msgid ""yesterday""
msgstr ""昨天""

msgctxt ""abbrev. month""
msgid ""April""
msgstr ""四月""

msgctxt ""abbrev. month""
msgid ""Aug.""
msgstr ""八月""

msgctxt ""abbrev. month""
msgid ""Dec.""
msgstr ""十二月""

msgctxt ""abbrev. month""
msgid ""Feb.""
msgstr ""二月""

msgctxt ""abbrev. month""
msgid ""Jan.""
msgstr ""一月""

msgctxt ""abbrev. month""
msgid ""July""
msgstr ""七月""

msgctxt ""abbrev. month""
msgid ""June""
msgstr ""六月""

msgctxt ""abbrev. month""
msgid ""March""
msgstr ""三月""

msgctxt ""abbrev. month""
msgid ""May""
msgstr ""五月""

msgctxt ""abbrev. month""
msgid ""Nov.""
msgstr ""十一月""

msgctxt ""abbrev. month""
msgid ""Oct.""
msgstr ""十月""

msgctxt ""abbrev. month""
msgid ""Sept.""
msgstr ""九月""

msgctxt ""alt. month""
msgid ""April""
msgstr ""四月""

msgctxt ""alt. month""
msgid ""August""
msgstr ""八月""

msgctxt ""alt. month""
msgid ""December""
msgstr ""十二月""

msgctxt ""alt. month""
msgid ""February""
msgstr ""二月""

msgctxt ""alt. month""
msgid ""January""
msgstr ""一月""

msgctxt ""alt. month""
msgid ""July""
msgstr ""七月""

msgctxt ""alt. month""
msgid ""June""
msgstr ""六月""

msgctxt ""alt. month""
msgid ""March""
msgstr ""三月""

msgctxt ""alt. month""
msgid ""May""
msgstr ""五月""

msgctxt ""alt. month""
msgid ""November""
msgstr ""十一月""

msgctxt ""alt. month""
msgid ""October""
msgstr ""十月""

msgctxt ""alt. month""
msgid ""September""
msgstr ""九月""

msgctxt ""naturaltime-future""
msgid ""%[1]v day""
msgid_plural ""%[1]v days""
msgstr[0] ""%[1]v 日""
msgstr[1] """"

msgctxt ""naturaltime-future""
msgid ""%[1]v hour""
msgid_plural ""%[1]v hours""
msgstr[0] ""%[1]v 小時""
msgstr[1] """"

msgctxt ""naturaltime-future""
msgid ""%[1]v minute""
msgid_plural ""%[1]v minutes""
msgstr[0] ""%[1]v 分""
msgstr[1] """"

msgctxt ""naturaltime-future""
msgid ""%[1]v month""
msgid_plural ""%[1]v months""
msgstr[0] ""%[1]v 月""
msgstr[1] """"

msgctxt ""naturaltime-future""
msgid ""%[1]v week""
msgid_plural ""%[1]v weeks""
msgstr[0] ""%[1]v 週""
msgstr[1] """"

msgctxt ""naturaltime-future""
msgid ""%[1]v year""
msgid_plural ""%[1]v years""
msgstr[0] ""%[1]v 年""
msgstr[1] """"

msgctxt ""naturaltime-past""
msgid ""%[1]v day""
msgid_plural ""%[1]v days""
msgstr[0] ""%[1]v 日""
msgstr[1] """"

msgctxt ""naturaltime-past""
msgid ""%[1]v hour""
msgid_plural ""%[1]v hours""
msgstr[0] ""%[1]v 小時""
msgstr[1] """"

msgctxt ""naturaltime-past""
msgid ""%[1]v minute""
msgid_plural ""%[1]v minutes""
msgstr[0] ""%[1]v 分""
msgstr[1] """"

msgctxt ""naturaltime-past""
msgid ""%[1]v month""
msgid_plural ""%[1]v months""
msgstr[0] ""%[1]v 月""
msgstr[1] """"

msgctxt ""naturaltime-past""
msgid ""%[1]v week""
msgid_plural ""%[1]v weeks""
msgstr[0] ""%[1]v 週""
msgstr[1] """"

msgctxt ""naturaltime-past""
msgid ""%[1]v year""
msgid_plural ""%[1]v years""
msgstr[0] ""%[1]v 年""
msgstr[1] """"

msgctxt ""ordinal 0""
msgid ""%vth""
msgstr ""第%v""

msgctxt ""ordinal 1""
msgid ""%vst""
msgstr ""第%v""

msgctxt ""ordinal 11, 12, 13""
msgid ""%vth""
msgstr ""第%v""

msgctxt ""ordinal 2""
msgid ""%vnd""
msgstr ""第%v""

msgctxt ""ordinal 3""
msgid ""%vrd""
msgstr ""第%v""

msgctxt ""ordinal 4""
msgid ""%vth""
msgstr ""第%v""

msgctxt ""ordinal 5""
msgid ""%vth""
msgstr ""第%v""

msgctxt ""ordinal 6""
msgid ""%vth""
msgstr ""第%v""

msgctxt ""ordinal 7""
msgid ""%vth""
msgstr ""第%v""

msgctxt ""ordinal 8""
msgid ""%vth""
msgstr ""第%v""

msgctxt ""ordinal 9""
msgid ""%vth""
msgstr ""第%v""
".
(** humanize/locale/zhHant/locale.go (New) *)
Definition loc_zhHant : locale_data := LD (bs "zh-Hant") [(bs "django.po", po_zhHant)]
  (Some (FD (bs "Y年n月j日") (bs "H:i") (bs "Y年n月j日 H:i") (bs "Y年n月") (bs "m月j日") (bs "Y年n月j日") (bs "Y年n月j日 H:i"))).

Definition shipped_10 : list (bytes * locale_data) :=
  [(bs "ug", loc_ug);
   (bs "uk", loc_uk);
   (bs "ur", loc_ur);
   (bs "uz", loc_uz);
   (bs "vi", loc_vi);
   (bs "zhHans", loc_zhHans);
   (bs "zhHant", loc_zhHant)].
