(** Translations and formats that come with humanize, part 1: generated by
    tools/gen_humdata.py from /repo/humanize/locale, django.po and the Go file of
    each package. *)
From Coq Require Import String Ascii List.
From Verif Require Import Base DfmtModel HumLocModel.
Import ListNotations.

(** humanize/locale/af/django.po *)
Definition po_af : bytes := bs "# This file is distributed under the same license as the Django package.
# 
# Translators:
# F Wolff <friedel@translate.org.za>, 2019-2020,2022-2025
# Stephen Cox <stephencoxmail@gmail.com>, 2011-2012
# unklphil <villiers.strauss@gmail.com>, 2014,2019
msgid """"
msgstr """"
""Project-Id-Version: django\n""
""Report-Msgid-Bugs-To: \n""
""POT-Creation-Date: 2025-03-19 11:30-0500\n""
""PO-Revision-Date: 2025-04-01 15:04-0500\n""
""Last-Translator: F Wolff <friedel@translate.org.za>, 2019-2020,2022-2025\n""
""Language-Team: Afrikaans (http://app.transifex.com/django/django/language/af/)\n""
""Language: af\n""
""MIME-Version: 1.0\n""
""Content-Type: text/plain; charset=UTF-8\n""
""Content-Transfer-Encoding: 8bit\n""
""Plural-Forms: nplurals=2; plural=(n != 1);\n""

msgid ""%[1]d byte""
msgid_plural ""%[1]d bytes""
msgstr[0] ""%[1]d greep""
msgstr[1] ""%[1]d grepe""

msgid ""%[1]s billion""
msgid_plural ""%[1]s billion""
msgstr[0] ""%[1]s miljard""
msgstr[1] ""%[1]s miljard""

msgid ""%[1]s decillion""
msgid_plural ""%[1]s decillion""
msgstr[0] ""%[1]s kwinteljard""
msgstr[1] ""%[1]s kwinteljard""

msgid ""%[1]s googol""
msgid_plural ""%[1]s googol""
msgstr[0] """"
msgstr[1] """"

msgid ""%[1]s million""
msgid_plural ""%[1]s million""
msgstr[0] ""%[1]s miljoen""
msgstr[1] ""%[1]s miljoen""

msgid ""%[1]s nonillion""
msgid_plural ""%[1]s nonillion""
msgstr[0] ""%[1]s kwintiljoen""
msgstr[1] ""%[1]s kwintiljoen""

msgid ""%[1]s octillion""
msgid_plural ""%[1]s octillion""
msgstr[0] ""%[1]s kwadriljard""
msgstr[1] ""%[1]s kwadriljard""

msgid ""%[1]s quadrillion""
msgid_plural ""%[1]s quadrillion""
msgstr[0] ""%[1]s biljard""
msgstr[1] ""%[1]s biljard""

msgid ""%[1]s quintillion""
msgid_plural ""%[1]s quintillion""
msgstr[0] ""%[1]s triljoen""
msgstr[1] ""%[1]s triljoen""

msgid ""%[1]s septillion""
msgid_plural ""%[1]s septillion""
msgstr[0] ""%[1]s kwadriljoen""
msgstr[1] ""%[1]s kwadriljoen""

msgid ""%[1]s sextillion""
msgid_plural ""%[1]s sextillion""
msgstr[0] ""%[1]s triljard""
msgstr[1] ""%[1]s triljard""

msgid ""%[1]s trillion""
msgid_plural ""%[1]s trillion""
msgstr[0] ""%[1]s biljoen""
msgstr[1] ""%[1]s biljoen""

msgid ""%[1]v ago""
msgstr ""%[1]v gelede""

msgid ""%[1]v day""
msgid_plural ""%[1]v days""
msgstr[0] ""%[1]v dag""
msgstr[1] ""%[1]v dae""

msgid ""%[1]v from now""
msgstr ""oor %[1]v""

msgid ""%[1]v hour""
msgid_plural ""%[1]v hours""
msgstr[0] ""%[1]v uur""
msgstr[1] ""%[1]v uur""

msgid ""%[1]v minute""
msgid_plural ""%[1]v minutes""
msgstr[0] ""%[1]v minuut""
msgstr[1] ""%[1]v minute""

msgid ""%[1]v month""
msgid_plural ""%[1]v months""
msgstr[0] ""%[1]v maand""
msgstr[1] ""%[1]v maande""

msgid ""%[1]v week""
msgid_plural ""%[1]v weeks""
msgstr[0] ""%[1]v week""
msgstr[1] ""%[1]v weke""

msgid ""%[1]v year""
msgid_plural ""%[1]v years""
msgstr[0] ""%[1]v jaar""
msgstr[1] ""%[1]v jaar""

msgid ""%s GB""
msgstr ""%s GB""

msgid ""%s KB""
msgstr ""%s KB""

msgid ""%s MB""
msgstr ""%s MB""

msgid ""%s PB""
msgstr ""%s PB""

msgid ""%s TB""
msgstr ""%s TB""

msgid "", ""
msgstr "", ""

msgid ""AM""
msgstr ""VM""

msgid ""Afrikaans""
msgstr ""Afrikaans""

msgid ""Albanian""
msgstr ""Albanees""

msgid ""Algerian Arabic""
msgstr ""Algeriese Arabies""

msgid ""April""
msgstr ""April""

msgid ""Arabic""
msgstr ""Arabies""

msgid ""Argentinian Spanish""
msgstr ""Argentynse Spaans""

msgid ""Armenian""
msgstr ""Armeens""

msgid ""Asturian""
msgstr ""Asturies""

msgid ""August""
msgstr ""Augustus""

msgid ""Australian English""
msgstr ""Australiese Engels""

msgid ""Azerbaijani""
msgstr ""Aserbeidjans""

msgid ""Basque""
msgstr ""Baskies""

msgid ""Belarusian""
msgstr ""Wit-Russies""

msgid ""Bengali""
msgstr ""Bengali""

msgid ""Bosnian""
msgstr ""Bosnies""

msgid ""Brazilian Portuguese""
msgstr ""Brasiliaanse Portugees""

msgid ""Breton""
msgstr ""Bretons""

msgid ""British English""
msgstr ""Britse Engels""

msgid ""Bulgarian""
msgstr ""Bulgaars""

msgid ""Burmese""
msgstr ""Birmaans""

msgid ""Catalan""
msgstr ""Katalaans""

msgid ""Central Kurdish (Sorani)""
msgstr """"

msgid ""Colombian Spanish""
msgstr ""Kolombiaanse Spaans""

msgid ""Croatian""
msgstr ""Kroaties""

msgid ""Czech""
msgstr ""Tsjeggies""

msgid ""Danish""
msgstr ""Deens""

msgid ""December""
msgstr ""Desember""

msgid ""Dutch""
msgstr ""Nederlands""

msgid ""English""
msgstr ""Engels""

msgid ""Esperanto""
msgstr ""Esperanto""

msgid ""Estonian""
msgstr ""Estnies""

msgid ""February""
msgstr ""Februarie""

msgid ""Finnish""
msgstr ""Fins""

msgid ""French""
msgstr ""Fraans""

msgid ""Fri""
msgstr ""Vr""

msgid ""Friday""
msgstr ""Vrydag""

msgid ""Frisian""
msgstr ""Fries""

msgid ""Galician""
msgstr ""Galicies""

msgid ""Georgian""
msgstr ""Georgian""

msgid ""German""
msgstr ""Duits""

msgid ""Greek""
msgstr ""Grieks""

msgid ""Hebrew""
msgstr ""Hebreeus""

msgid ""Hindi""
msgstr ""Hindoe""

msgid ""Hungarian""
msgstr ""Hongaars""

msgid ""Icelandic""
msgstr ""Yslands""

msgid ""Ido""
msgstr ""Ido""

msgid ""Igbo""
msgstr """"

msgid ""Indonesian""
msgstr ""Indonesies""

msgid ""Interlingua""
msgstr ""Interlingua""

msgid ""Irish""
msgstr ""Iers""

msgid ""Italian""
msgstr ""Italiaans""

msgid ""January""
msgstr ""Januarie""

msgid ""Japanese""
msgstr ""Japannees""

msgid ""July""
msgstr ""Julie""

msgid ""June""
msgstr ""Junie""

msgid ""Kabyle""
msgstr ""Kabilies""

msgid ""Kannada""
msgstr ""Kannada""

msgid ""Kazakh""
msgstr ""Kazakh""

msgid ""Khmer""
msgstr ""Khmer""

msgid ""Korean""
msgstr ""Koreaans""

msgid ""Kyrgyz""
msgstr """"

msgid ""Latvian""
msgstr ""Lets""

msgid ""Lithuanian""
msgstr ""Litaus""

msgid ""Lower Sorbian""
msgstr ""Neder-Sorbies""

msgid ""Luxembourgish""
msgstr ""Luxemburgs""

msgid ""Macedonian""
msgstr ""Macedonies""

msgid ""Malay""
msgstr ""Maleisies""

msgid ""Malayalam""
msgstr ""Malabaars""

msgid ""Marathi""
msgstr ""Marathi""

msgid ""March""
msgstr ""Maart""

msgid ""May""
msgstr ""Mei""

msgid ""Mexican Spanish""
msgstr ""Meksikaanse Spaans""

msgid ""Mon""
msgstr ""Ma""

msgid ""Monday""
msgstr ""Maandag""

msgid ""Mongolian""
msgstr ""Mongools""

msgid ""Nepali""
msgstr ""Nepalees""

msgid ""Nicaraguan Spanish""
msgstr ""Nicaraguaanse Spaans""

msgid ""Norwegian Bokmål""
msgstr ""Noorweegse Bokmål""

msgid ""Norwegian Nynorsk""
msgstr ""Noorweegse Nynorsk""

msgid ""November""
msgstr ""November""

msgid ""October""
msgstr ""Oktober""

msgid ""Ossetic""
msgstr ""Osseties""

msgid ""PM""
msgstr ""NM""

msgid ""Persian""
msgstr ""Persies""

msgid ""Polish""
msgstr ""Pools""

msgid ""Portuguese""
msgstr ""Portugees""

msgid ""Punjabi""
msgstr ""Punjabi""

msgid ""Romanian""
msgstr ""Roemeens""

msgid ""Russian""
msgstr ""Russiese""

msgid ""Sat""
msgstr ""Sa""

msgid ""Saturday""
msgstr ""Saterdag""

msgid ""Scottish Gaelic""
msgstr ""Skots-Gaelies""

msgid ""September""
msgstr ""September""

msgid ""Serbian""
msgstr ""Serwies""

msgid ""Serbian Latin""
msgstr ""Serwies Latyns""

msgid ""Simplified Chinese""
msgstr ""Vereenvoudigde Sjinees""

msgid ""Slovak""
msgstr ""Slowaaks""

msgid ""Slovenian""
msgstr ""Sloweens""

msgid ""Spanish""
msgstr ""Spaans""

msgid ""Sun""
msgstr ""So""

msgid ""Sunday""
msgstr ""Sondag""

msgid ""Swahili""
msgstr ""Swahili""

msgid ""Swedish""
msgstr ""Sweeds""

msgid ""Tajik""
msgstr """"

msgid ""Tamil""
msgstr ""Tamil""

msgid ""Tatar""
msgstr ""Tataars""

msgid ""Telugu""
msgstr ""Teloegoe""

msgid ""Thai""
msgstr ""Thai""

msgid ""Thu""
msgstr ""Do""

msgid ""Thursday""
msgstr ""Donderdag""

msgid ""Traditional Chinese""
msgstr ""Tradisionele Sjinees""

msgid ""Tue""
msgstr ""Di""

msgid ""Tuesday""
msgstr ""Dinsdag""

msgid ""Turkish""
msgstr ""Turks""

msgid ""Turkmen""
msgstr """"

msgid ""Udmurt""
msgstr ""Oedmoerts""

msgid ""Ukrainian""
msgstr ""Oekraïens""

msgid ""Upper Sorbian""
msgstr ""Opper-Sorbies""

msgid ""Urdu""
msgstr ""Oerdoe""

msgid ""Uyghur""
msgstr """"

msgid ""Uzbek""
msgstr ""Oesbekies ""

msgid ""Venezuelan Spanish""
msgstr ""Venezolaanse Spaans""

msgid ""Vietnamese""
msgstr ""Viëtnamees""

msgid ""Wed""
msgstr ""Wo""

msgid ""Wednesday""
msgstr ""Woensdag""

msgid ""Welsh""
msgstr ""Wallies""

msgid ""a minute ago""
msgid_plural ""%[1]v minutes ago""
msgstr[0] ""’n minuut gelede""
msgstr[1] ""%[1]v minute gelede""

msgid ""a minute from now""
msgid_plural ""%[1]v minutes from now""
msgstr[0] ""oor ’n minuut""
msgstr[1] ""oor %[1]v minute""

msgid ""a second ago""
msgid_plural ""%[1]v seconds ago""
msgstr[0] ""’n sekonde gelede""
msgstr[1] ""%[1]v sekondes gelede""

msgid ""a second from now""
msgid_plural ""%[1]v seconds from now""
msgstr[0] ""oor ’n sekonde""
msgstr[1] ""oor %[1]v sekondes""

msgid ""a.m.""
msgstr ""vm.""

msgid ""an hour ago""
msgid_plural ""%[1]v hours ago""
msgstr[0] ""’n uur gelede""
msgstr[1] ""%[1]v uur gelede""

msgid ""an hour from now""
msgid_plural ""%[1]v hours from now""
msgstr[0] ""oor ’n uur""
msgstr[1] ""oor %[1]v ure""

msgid ""apr""
msgstr ""apr""

msgid ""aug""
msgstr ""aug""

msgid ""dec""
msgstr ""des""

msgid ""eight""
msgstr ""agt""

msgid ""feb""
msgstr ""feb""

msgid ""five""
msgstr ""vyf""

msgid ""four""
msgstr ""vier""

msgid ""jan""
msgstr ""jan""

msgid ""jul""
msgstr ""jul""

msgid ""jun""
msgstr ""jun""

msgid ""mar""
msgstr ""mrt""

msgid ""may""
msgstr ""mei""

msgid ""midnight""
msgstr ""middernag""

msgid ""nine""
msgstr ""nege""

msgid ""noon""
msgstr ""middag""

msgid ""nov""
msgstr ""nov""

msgid ""now""
msgstr ""nou""

msgid ""oct""
msgstr ""okt""

msgid ""one""
msgstr ""een""

msgid ""p.m.""
msgstr ""nm.""

msgid ""sep""
msgstr ""sept""

msgid ""seven""
msgstr ""sewe""

msgid ""six""
msgstr ""ses""

msgid ""three""
msgstr ""drie""

msgid ""today""
msgstr ""vandag""

msgid ""tomorrow""
msgstr ""môre""

msgid ""two""
msgstr ""twee""

msgid ""yesterday""
msgstr ""gister""

msgctxt ""abbrev. month""
msgid ""April""
msgstr ""April""

msgctxt ""abbrev. month""
msgid ""Aug.""
msgstr ""Aug.""

msgctxt ""abbrev. month""
msgid ""Dec.""
msgstr ""Des.""

msgctxt ""abbrev. month""
msgid ""Feb.""
msgstr ""Feb.""

msgctxt ""abbrev. month""
msgid ""Jan.""
msgstr ""Jan.""

msgctxt ""abbrev. month""
msgid ""July""
msgstr ""Julie""

msgctxt ""abbrev. month""
msgid ""June""
msgstr ""Junie""

msgctxt ""abbrev. month""
msgid ""March""
msgstr ""Maart""

msgctxt ""abbrev. month""
msgid ""May""
msgstr ""Mei""

msgctxt ""abbrev. month""
msgid ""Nov.""
msgstr ""Nov.""

msgctxt ""abbrev. month""
msgid ""Oct.""
msgstr ""Okt.""

msgctxt ""abbrev. month""
msgid ""Sept.""
msgstr ""Sept.""

msgctxt ""alt. month""
msgid ""April""
msgstr ""April""

msgctxt ""alt. month""
msgid ""August""
msgstr ""Augustus""

msgctxt ""alt. month""
msgid ""December""
msgstr ""Desember""

msgctxt ""alt. month""
msgid ""February""
msgstr ""Februarie""

msgctxt ""alt. month""
msgid ""January""
msgstr ""Januarie""

msgctxt ""alt. month""
msgid ""July""
msgstr ""Julie""

msgctxt ""alt. month""
msgid ""June""
msgstr ""Junie""

msgctxt ""alt. month""
msgid ""March""
msgstr ""Maart""

msgctxt ""alt. month""
msgid ""May""
msgstr ""Mei""

msgctxt ""alt. month""
msgid ""November""
msgstr ""November""

msgctxt ""alt. month""
msgid ""October""
msgstr ""Oktober""

msgctxt ""alt. month""
msgid ""September""
msgstr ""September""

msgctxt ""naturaltime-future""
msgid ""%[1]v day""
msgid_plural ""%[1]v days""
msgstr[0] ""%[1]v dag""
msgstr[1] ""%[1]v dae""

msgctxt ""naturaltime-future""
msgid ""%[1]v hour""
msgid_plural ""%[1]v hours""
msgstr[0] ""%[1]v uur""
msgstr[1] ""%[1]v uur""

msgctxt ""naturaltime-future""
msgid ""%[1]v minute""
msgid_plural ""%[1]v minutes""
msgstr[0] ""%[1]v minuut""
msgstr[1] ""%[1]v minute""

msgctxt ""naturaltime-future""
msgid ""%[1]v month""
msgid_plural ""%[1]v months""
msgstr[0] ""%[1]v maand""
msgstr[1] ""%[1]v maande""

msgctxt ""naturaltime-future""
msgid ""%[1]v week""
msgid_plural ""%[1]v weeks""
msgstr[0] ""%[1]v week""
msgstr[1] ""%[1]v weke""

msgctxt ""naturaltime-future""
msgid ""%[1]v year""
msgid_plural ""%[1]v years""
msgstr[0] ""%[1]v jaar""
msgstr[1] ""%[1]v jaar""

msgctxt ""naturaltime-past""
msgid ""%[1]v day""
msgid_plural ""%[1]v days""
msgstr[0] ""%[1]v dag""
msgstr[1] ""%[1]v dae""

msgctxt ""naturaltime-past""
msgid ""%[1]v hour""
msgid_plural ""%[1]v hours""
msgstr[0] ""%[1]v uur""
msgstr[1] ""%[1]v uur""

msgctxt ""naturaltime-past""
msgid ""%[1]v minute""
msgid_plural ""%[1]v minutes""
msgstr[0] ""%[1]v minuut""
msgstr[1] ""%[1]v minute""

msgctxt ""naturaltime-past""
msgid ""%[1]v month""
msgid_plural ""%[1]v months""
msgstr[0] ""%[1]v maand""
msgstr[1] ""%[1]v maande""

msgctxt ""naturaltime-past""
msgid ""%[1]v week""
msgid_plural ""%[1]v weeks""
msgstr[0] ""%[1]v week""
msgstr[1] ""%[1]v weke""

msgctxt ""naturaltime-past""
msgid ""%[1]v year""
msgid_plural ""%[1]v years""
msgstr[0] ""%[1]v jaar""
msgstr[1] ""%[1]v jaar""

msgctxt ""ordinal 0""
msgid ""%vth""
msgstr ""%vste""

msgctxt ""ordinal 1""
msgid ""%vst""
msgstr ""%vste""

msgctxt ""ordinal 11, 12, 13""
msgid ""%vth""
msgstr ""%vde""

msgctxt ""ordinal 2""
msgid ""%vnd""
msgstr ""%vste""

msgctxt ""ordinal 3""
msgid ""%vrd""
msgstr ""%vste""

msgctxt ""ordinal 4""
msgid ""%vth""
msgstr ""%vste""

msgctxt ""ordinal 5""
msgid ""%vth""
msgstr ""%vste""

msgctxt ""ordinal 6""
msgid ""%vth""
msgstr ""%vste""

msgctxt ""ordinal 7""
msgid ""%vth""
msgstr ""%vste""

msgctxt ""ordinal 8""
msgid ""%vth""
msgstr ""%vste""

msgctxt ""ordinal 9""
msgid ""%vth""
msgstr ""%vste""
".
(** humanize/locale/af/locale.go (New) *)
Definition loc_af : locale_data := LD (bs "af") [(bs "django.po", po_af)]
  (None).

(** humanize/locale/ar/django.po *)
Definition po_ar : bytes := bs "# This file is distributed under the same license as the Django package.
# 
# Translators:
# Bashar Al-Abdulhadi, 2015-2016,2020-2021
# Bashar Al-Abdulhadi, 2014
# Eyad Toma <d.eyad.t@gmail.com>, 2013-2014
# Jannis Leidel <jannis@leidel.info>, 2011
# Mariusz Felisiak <felisiak.mariusz@gmail.com>, 2021
# Muaaz Alsaied, 2020
# Omar Al-Ithawi <omar.al.dolaimy@gmail.com>, 2020
# Ossama Khayat <okhayat@gmail.com>, 2011
# Tony xD <tony23dz@gmail.com>, 2020
# صفا الفليج <safaalfulaij@hotmail.com>, 2020
msgid """"
msgstr """"
""Project-Id-Version: django\n""
""Report-Msgid-Bugs-To: \n""
""POT-Creation-Date: 2021-09-21 10:22+0200\n""
""PO-Revision-Date: 2021-11-24 16:27+0000\n""
""Last-Translator: Mariusz Felisiak <felisiak.mariusz@gmail.com>\n""
""Language-Team: Arabic (http://www.transifex.com/django/django/language/ar/)\n""
""Language: ar\n""
""MIME-Version: 1.0\n""
""Content-Type: text/plain; charset=UTF-8\n""
""Content-Transfer-Encoding: 8bit\n""
""Plural-Forms: nplurals=6; plural=n==0 ? 0 : n==1 ? 1 : n==2 ? 2 : n%100>=3 && n%100<=10 ? 3 : n%100>=11 && n%100<=99 ? 4 : 5;\n""

msgid ""%[1]d byte""
msgid_plural ""%[1]d bytes""
msgstr[0] ""%[1]d بايت""
msgstr[1] ""بايت واحد""
msgstr[2] ""بايتان""
msgstr[3] ""%[1]d بايتان""
msgstr[4] ""%[1]d بايت""
msgstr[5] ""%[1]d بايت""

msgid ""%[1]s billion""
msgid_plural ""%[1]s billion""
msgstr[0] ""%[1]s مليار""
msgstr[1] ""%[1]s مليار""
msgstr[2] ""%[1]s مليار""
msgstr[3] ""%[1]s مليار""
msgstr[4] ""%[1]s مليار""
msgstr[5] ""%[1]s مليار""

msgid ""%[1]s decillion""
msgid_plural ""%[1]s decillion""
msgstr[0] ""%[1]s ديسيليون""
msgstr[1] ""%[1]s ديسيليون""
msgstr[2] ""%[1]s ديسيليون""
msgstr[3] ""%[1]s ديسيليون""
msgstr[4] ""%[1]s ديسيليون""
msgstr[5] ""%[1]s ديسيليون""

msgid ""%[1]s googol""
msgid_plural ""%[1]s googol""
msgstr[0] ""%[1]s جوجول""
msgstr[1] ""%[1]s جوجول""
msgstr[2] ""%[1]s جوجول""
msgstr[3] ""%[1]s جوجول""
msgstr[4] ""%[1]s جوجول""
msgstr[5] ""%[1]s جوجول""

msgid ""%[1]s million""
msgid_plural ""%[1]s million""
msgstr[0] ""%[1]s مليون""
msgstr[1] ""%[1]s مليون""
msgstr[2] ""%[1]s مليون""
msgstr[3] ""%[1]s ملايين""
msgstr[4] ""%[1]s مليون""
msgstr[5] ""%[1]s مليون""

msgid ""%[1]s nonillion""
msgid_plural ""%[1]s nonillion""
msgstr[0] ""%[1]s نانليون""
msgstr[1] ""%[1]s نانليون""
msgstr[2] ""%[1]s نانليون""
msgstr[3] ""%[1]s نانليون""
msgstr[4] ""%[1]s نانليون""
msgstr[5] ""%[1]s نانليون""

msgid ""%[1]s octillion""
msgid_plural ""%[1]s octillion""
msgstr[0] ""%[1]s أقتيليون""
msgstr[1] ""%[1]s أقتيليون""
msgstr[2] ""%[1]s أقتيليون""
msgstr[3] ""%[1]s أقتيليون""
msgstr[4] ""%[1]s أقتيليون""
msgstr[5] ""%[1]s أقتيليون""

msgid ""%[1]s quadrillion""
msgid_plural ""%[1]s quadrillion""
msgstr[0] ""%[1]s كوادرليون""
msgstr[1] ""%[1]s كوادرليون""
msgstr[2] ""%[1]s كوادرليون""
msgstr[3] ""%[1]s كوادرليون""
msgstr[4] ""%[1]s كوادرليون""
msgstr[5] ""%[1]s كوادرليون""

msgid ""%[1]s quintillion""
msgid_plural ""%[1]s quintillion""
msgstr[0] ""%[1]s كوينتيليون""
msgstr[1] ""%[1]s كوينتيليون""
msgstr[2] ""%[1]s كوينتيليون""
msgstr[3] ""%[1]s كوينتيليون""
msgstr[4] ""%[1]s كوينتيليون""
msgstr[5] ""%[1]s كوينتيليون""

msgid ""%[1]s septillion""
msgid_plural ""%[1]s septillion""
msgstr[0] ""%[1]s سبتيليون""
msgstr[1] ""%[1]s سبتيليون""
msgstr[2] ""%[1]s سبتيليون""
msgstr[3] ""%[1]s سبتيليون""
msgstr[4] ""%[1]s سبتيليون""
msgstr[5] ""%[1]s سبتيليون""

msgid ""%[1]s sextillion""
msgid_plural ""%[1]s sextillion""
msgstr[0] ""%[1]s سكستيليون""
msgstr[1] ""%[1]s سكستيليون""
msgstr[2] ""%[1]s سكستيليون""
msgstr[3] ""%[1]s سكستيليون""
msgstr[4] ""%[1]s سكستيليون""
msgstr[5] ""%[1]s سكستيليون""

msgid ""%[1]s trillion""
msgid_plural ""%[1]s trillion""
msgstr[0] ""%[1]s ترليون""
msgstr[1] ""%[1]s ترليون""
msgstr[2] ""%[1]s ترليون""
msgstr[3] ""%[1]s ترليون""
msgstr[4] ""%[1]s ترليون""
msgstr[5] ""%[1]s ترليون""

msgid ""%[1]v ago""
msgstr ""%[1]v مضت""

msgid ""%[1]v day""
msgid_plural ""%[1]v days""
msgstr[0] ""%[1]v يوم""
msgstr[1] ""%[1]v يوم""
msgstr[2] ""%[1]v يومين""
msgstr[3] ""%[1]v أيام""
msgstr[4] ""%[1]v يوم""
msgstr[5] ""%[1]v أيام""

msgid ""%[1]v from now""
msgstr ""%[1]v من الآن""

msgid ""%[1]v hour""
msgid_plural ""%[1]v hours""
msgstr[0] ""%[1]v ساعة""
msgstr[1] ""%[1]v ساعة""
msgstr[2] ""%[1]v ساعتين""
msgstr[3] ""%[1]v ساعات""
msgstr[4] ""%[1]v ساعة""
msgstr[5] ""%[1]v ساعات""

msgid ""%[1]v minute""
msgid_plural ""%[1]v minutes""
msgstr[0] ""%[1]v دقيقة""
msgstr[1] ""%[1]v دقيقة""
msgstr[2] ""%[1]v دقيقتين""
msgstr[3] ""%[1]v دقائق""
msgstr[4] ""%[1]v دقيقة""
msgstr[5] ""%[1]v دقيقة""

msgid ""%[1]v month""
msgid_plural ""%[1]v months""
msgstr[0] ""%[1]v شهر""
msgstr[1] ""%[1]v شهر""
msgstr[2] ""%[1]v شهرين""
msgstr[3] ""%[1]v أشهر""
msgstr[4] ""%[1]v أشهر""
msgstr[5] ""%[1]v أشهر""

msgid ""%[1]v week""
msgid_plural ""%[1]v weeks""
msgstr[0] ""%[1]v أسبوع""
msgstr[1] ""%[1]v أسبوع""
msgstr[2] ""%[1]v أسبوعين""
msgstr[3] ""%[1]v أسابيع""
msgstr[4] ""%[1]v أسابيع""
msgstr[5] ""%[1]v أسابيع""

msgid ""%[1]v year""
msgid_plural ""%[1]v years""
msgstr[0] ""%[1]v سنة""
msgstr[1] ""%[1]v سنة""
msgstr[2] ""%[1]v سنتين""
msgstr[3] ""%[1]v سنوات""
msgstr[4] ""%[1]v سنوات""
msgstr[5] ""%[1]v سنوات""

msgid ""%s GB""
msgstr ""%s ج.ب""

msgid ""%s KB""
msgstr ""%s ك.ب""

msgid ""%s MB""
msgstr ""%s م.ب""

msgid ""%s PB""
msgstr ""%s ب.ب""

msgid ""%s TB""
msgstr ""%s ت.ب""

msgid "", ""
msgstr ""، ""

msgid ""AM""
msgstr ""ص""

msgid ""Afrikaans""
msgstr ""الإفريقية""

msgid ""Albanian""
msgstr ""الألبانيّة""

msgid ""Algerian Arabic""
msgstr ""عربي جزائري""

msgid ""April""
msgstr ""إبريل""

msgid ""Arabic""
msgstr ""العربيّة""

msgid ""Argentinian Spanish""
msgstr ""الأسبانية الأرجنتينية""

msgid ""Armenian""
msgstr ""الأرمنية""

msgid ""Asturian""
msgstr ""الأسترية""

msgid ""August""
msgstr ""أغسطس""

msgid ""Australian English""
msgstr ""الإنجليزية الإسترالية""

msgid ""Azerbaijani""
msgstr ""الأذربيجانية""

msgid ""Basque""
msgstr ""الباسك""

msgid ""Belarusian""
msgstr ""البيلاروسية""

msgid ""Bengali""
msgstr ""البنغاليّة""

msgid ""Bosnian""
msgstr ""البوسنيّة""

msgid ""Brazilian Portuguese""
msgstr ""البرتغاليّة البرازيليّة""

msgid ""Breton""
msgstr ""البريتونية""

msgid ""British English""
msgstr ""الإنجليزيّة البريطانيّة""

msgid ""Bulgarian""
msgstr ""البلغاريّة""

msgid ""Burmese""
msgstr ""البورمية""

msgid ""Catalan""
msgstr ""الكتلانيّة""

msgid ""Colombian Spanish""
msgstr ""الكولومبية الإسبانية""

msgid ""Croatian""
msgstr ""الكرواتيّة""

msgid ""Czech""
msgstr ""التشيكيّة""

msgid ""Danish""
msgstr ""الدنماركيّة""

msgid ""December""
msgstr ""ديسمبر""

msgid ""Dutch""
msgstr ""الهولنديّة""

msgid ""English""
msgstr ""الإنجليزيّة""

msgid ""Esperanto""
msgstr ""الاسبرانتو""

msgid ""Estonian""
msgstr ""الإستونيّة""

msgid ""February""
msgstr ""فبراير""

msgid ""Finnish""
msgstr ""الفنلنديّة""

msgid ""French""
msgstr ""الفرنسيّة""

msgid ""Fri""
msgstr ""جمعة""

msgid ""Friday""
msgstr ""الجمعة""

msgid ""Frisian""
msgstr ""الفريزيّة""

msgid ""Galician""
msgstr ""الجليقيّة""

msgid ""Georgian""
msgstr ""الجورجيّة""

msgid ""German""
msgstr ""الألمانيّة""

msgid ""Greek""
msgstr ""اليونانيّة""

msgid ""Hebrew""
msgstr ""العبريّة""

msgid ""Hindi""
msgstr ""الهندية""

msgid ""Hungarian""
msgstr ""الهنغاريّة""

msgid ""Icelandic""
msgstr ""الآيسلنديّة""

msgid ""Ido""
msgstr ""ايدو""

msgid ""Igbo""
msgstr ""الإيبو""

msgid ""Indonesian""
msgstr ""الإندونيسيّة""

msgid ""Interlingua""
msgstr ""اللغة الوسيطة""

msgid ""Irish""
msgstr ""الإيرلنديّة""

msgid ""Italian""
msgstr ""الإيطاليّة""

msgid ""January""
msgstr ""يناير""

msgid ""Japanese""
msgstr ""اليابانيّة""

msgid ""July""
msgstr ""يوليو""

msgid ""June""
msgstr ""يونيو""

msgid ""Kabyle""
msgstr ""القبائل""

msgid ""Kannada""
msgstr ""الهنديّة (كنّادا)""

msgid ""Kazakh""
msgstr ""الكازاخستانية""

msgid ""Khmer""
msgstr ""الخمر""

msgid ""Korean""
msgstr ""الكوريّة""

msgid ""Kyrgyz""
msgstr ""قيرغيز""

msgid ""Latvian""
msgstr ""اللاتفيّة""

msgid ""Lithuanian""
msgstr ""اللتوانيّة""

msgid ""Lower Sorbian""
msgstr ""الصربية السفلى""

msgid ""Luxembourgish""
msgstr ""اللوكسمبرجية""

msgid ""Macedonian""
msgstr ""المقدونيّة""

msgid ""Malay""
msgstr """"

msgid ""Malayalam""
msgstr ""المايالام""

msgid ""Marathi""
msgstr ""المهاراتية""

msgid ""March""
msgstr ""مارس""

msgid ""May""
msgstr ""مايو""

msgid ""Mexican Spanish""
msgstr ""الأسبانية المكسيكية""

msgid ""Mon""
msgstr ""إثنين""

msgid ""Monday""
msgstr ""الاثنين""

msgid ""Mongolian""
msgstr ""المنغوليّة""

msgid ""Nepali""
msgstr ""النيبالية""

msgid ""Nicaraguan Spanish""
msgstr ""الإسبانية النيكاراغوية""

msgid ""Norwegian Bokmål""
msgstr ""النرويجية""

msgid ""Norwegian Nynorsk""
msgstr ""النينورسك نرويجيّة""

msgid ""November""
msgstr ""نوفمبر""

msgid ""October""
msgstr ""أكتوبر""

msgid ""Ossetic""
msgstr ""الأوسيتيكية""

msgid ""PM""
msgstr ""م""

msgid ""Persian""
msgstr ""الفارسيّة""

msgid ""Polish""
msgstr ""البولنديّة""

msgid ""Portuguese""
msgstr ""البرتغاليّة""

msgid ""Punjabi""
msgstr ""البنجابيّة""

msgid ""Romanian""
msgstr ""الرومانيّة""

msgid ""Russian""
msgstr ""الروسيّة""

msgid ""Sat""
msgstr ""سبت""

msgid ""Saturday""
msgstr ""السبت""

msgid ""Scottish Gaelic""
msgstr ""الغيلية الأسكتلندية""

msgid ""September""
msgstr ""سبتمبر""

msgid ""Serbian""
msgstr ""الصربيّة""

msgid ""Serbian Latin""
msgstr ""اللاتينيّة الصربيّة""

msgid ""Simplified Chinese""
msgstr ""الصينيّة المبسطة""

msgid ""Slovak""
msgstr ""السلوفاكيّة""

msgid ""Slovenian""
msgstr ""السلوفانيّة""

msgid ""Spanish""
msgstr ""الإسبانيّة""

msgid ""Sun""
msgstr ""أحد""

msgid ""Sunday""
msgstr ""الأحد""

msgid ""Swahili""
msgstr ""السواحلية""

msgid ""Swedish""
msgstr ""السويديّة""

msgid ""Tajik""
msgstr ""طاجيك""

msgid ""Tamil""
msgstr ""التاميل""

msgid ""Tatar""
msgstr ""التتاريية""

msgid ""Telugu""
msgstr ""التيلوغو""

msgid ""Thai""
msgstr ""التايلنديّة""

msgid ""Thu""
msgstr ""خميس""

msgid ""Thursday""
msgstr ""الخميس""

msgid ""Traditional Chinese""
msgstr ""الصينيّة التقليدية""

msgid ""Tue""
msgstr ""ثلاثاء""

msgid ""Tuesday""
msgstr ""الثلاثاء""

msgid ""Turkish""
msgstr ""التركيّة""

msgid ""Turkmen""
msgstr ""تركمان""

msgid ""Udmurt""
msgstr ""الأدمرتية""

msgid ""Ukrainian""
msgstr ""الأكرانيّة""

msgid ""Upper Sorbian""
msgstr ""الصربية العليا""

msgid ""Urdu""
msgstr ""الأوردو""

msgid ""Uzbek""
msgstr ""الأوزبكي""

msgid ""Venezuelan Spanish""
msgstr ""الإسبانية الفنزويلية""

msgid ""Vietnamese""
msgstr ""الفيتناميّة""

msgid ""Wed""
msgstr ""أربعاء""

msgid ""Wednesday""
msgstr ""الأربعاء""

msgid ""Welsh""
msgstr ""الويلز""

msgid ""a minute ago""
msgid_plural ""%[1]v minutes ago""
msgstr[0] ""منذ %[1]v دقيقة""
msgstr[1] ""منذ دقيقة""
msgstr[2] ""منذ %[1]v دقيقة""
msgstr[3] ""منذ %[1]v دقيقة""
msgstr[4] ""منذ %[1]v دقيقة""
msgstr[5] ""منذ %[1]v دقيقة""

msgid ""a minute from now""
msgid_plural ""%[1]v minutes from now""
msgstr[0] ""%[1]v دقائق من الآن""
msgstr[1] ""منذ دقيقة من الآن""
msgstr[2] ""%[1]v دقائق من الآن""
msgstr[3] ""%[1]v دقائق من الآن""
msgstr[4] ""%[1]v دقائق من الآن""
msgstr[5] ""%[1]v دقائق من الآن""

msgid ""a second ago""
msgid_plural ""%[1]v seconds ago""
msgstr[0] ""منذ %[1]v ثانية""
msgstr[1] ""منذ ثانية""
msgstr[2] ""منذ %[1]v ثانيتين""
msgstr[3] ""منذ %[1]v ثواني""
msgstr[4] ""منذ %[1]v ثانية""
msgstr[5] ""منذ %[1]v ثانية""

msgid ""a second from now""
msgid_plural ""%[1]v seconds from now""
msgstr[0] ""%[1]v ثواني من الآن""
msgstr[1] ""منذ ثانية من الآن""
msgstr[2] ""%[1]v ثواني من الآن""
msgstr[3] ""%[1]v ثواني من الآن""
msgstr[4] ""%[1]v ثواني من الآن""
msgstr[5] ""%[1]v ثواني من الآن""

msgid ""a.m.""
msgstr ""ص""

msgid ""an hour ago""
msgid_plural ""%[1]v hours ago""
msgstr[0] ""منذ %[1]v ساعة""
msgstr[1] ""منذ ساعة""
msgstr[2] ""منذ %[1]v ساعة""
msgstr[3] ""منذ %[1]v ساعة""
msgstr[4] ""منذ %[1]v ساعة""
msgstr[5] ""منذ %[1]v ساعة""

msgid ""an hour from now""
msgid_plural ""%[1]v hours from now""
msgstr[0] ""%[1]v ساعات من الآن""
msgstr[1] ""منذ ساعة من الآن""
msgstr[2] ""%[1]v ساعات من الآن""
msgstr[3] ""%[1]v ساعات من الآن""
msgstr[4] ""%[1]v ساعات من الآن""
msgstr[5] ""%[1]v ساعات من الآن""

msgid ""apr""
msgstr ""إبريل""

msgid ""aug""
msgstr ""أغسطس""

msgid ""dec""
msgstr ""ديسمبر""

msgid ""eight""
msgstr ""ثمانية""

msgid ""feb""
msgstr ""فبراير""

msgid ""five""
msgstr ""خمسة""

msgid ""four""
msgstr ""أربعة""

msgid ""jan""
msgstr ""يناير""

msgid ""jul""
msgstr ""يوليو""

msgid ""jun""
msgstr ""يونيو""

msgid ""mar""
msgstr ""مارس""

msgid ""may""
msgstr ""مايو""

msgid ""midnight""
msgstr ""منتصف الليل""

msgid ""nine""
msgstr ""تسعة""

msgid ""noon""
msgstr ""ظهراً""

msgid ""nov""
msgstr ""نوفمبر""

msgid ""now""
msgstr ""الآن""

msgid ""oct""
msgstr ""أكتوبر""

msgid ""one""
msgstr ""واحد""

msgid ""p.m.""
msgstr ""م""

msgid ""sep""
msgstr ""سبتمبر""

msgid ""seven""
msgstr ""سبعة""

msgid ""six""
msgstr ""ستة""

msgid ""three""
msgstr ""ثلالثة""

msgid ""today""
msgstr ""اليوم""

msgid ""tomorrow""
msgstr ""غداً""

msgid ""two""
msgstr ""إثنان""

msgid ""yesterday""
msgstr ""أمس""

msgctxt ""abbrev. month""
msgid ""April""
msgstr ""إبريل""

msgctxt ""abbrev. month""
msgid ""Aug.""
msgstr ""أغسطس""

msgctxt ""abbrev. month""
msgid ""Dec.""
msgstr ""ديسمبر""

msgctxt ""abbrev. month""
msgid ""Feb.""
msgstr ""فبراير""

msgctxt ""abbrev. month""
msgid ""Jan.""
msgstr ""يناير""

msgctxt ""abbrev. month""
msgid ""July""
msgstr ""يوليو""

msgctxt ""abbrev. month""
msgid ""June""
msgstr ""يونيو""

msgctxt ""abbrev. month""
msgid ""March""
msgstr ""مارس""

msgctxt ""abbrev. month""
msgid ""May""
msgstr ""مايو""

msgctxt ""abbrev. month""
msgid ""Nov.""
msgstr ""نوفمبر""

msgctxt ""abbrev. month""
msgid ""Oct.""
msgstr ""أكتوبر""

msgctxt ""abbrev. month""
msgid ""Sept.""
msgstr ""سبتمبر""

msgctxt ""alt. month""
msgid ""April""
msgstr ""أبريل""

msgctxt ""alt. month""
msgid ""August""
msgstr ""أغسطس""

msgctxt ""alt. month""
msgid ""December""
msgstr ""ديسمبر""

msgctxt ""alt. month""
msgid ""February""
msgstr ""فبراير""

msgctxt ""alt. month""
msgid ""January""
msgstr ""يناير""

msgctxt ""alt. month""
msgid ""July""
msgstr ""يوليو""

msgctxt ""alt. month""
msgid ""June""
msgstr ""يونيو""

msgctxt ""alt. month""
msgid ""March""
msgstr ""مارس""

msgctxt ""alt. month""
msgid ""May""
msgstr ""مايو""

msgctxt ""alt. month""
msgid ""November""
msgstr ""نوفمبر""

msgctxt ""alt. month""
msgid ""October""
msgstr ""أكتوبر""

msgctxt ""alt. month""
msgid ""September""
msgstr ""سبتمبر""

msgctxt ""naturaltime-future""
msgid ""%[1]v day""
msgid_plural ""%[1]v days""
msgstr[0] ""%[1]v يوم""
msgstr[1] ""%[1]v يوم""
msgstr[2] ""%[1]v يومين""
msgstr[3] ""%[1]v أيام""
msgstr[4] ""%[1]v يوم""
msgstr[5] ""%[1]v أيام""

msgctxt ""naturaltime-future""
msgid ""%[1]v hour""
msgid_plural ""%[1]v hours""
msgstr[0] ""%[1]v ساعة""
msgstr[1] ""%[1]v ساعة""
msgstr[2] ""%[1]v ساعتين""
msgstr[3] ""%[1]v ساعات""
msgstr[4] ""%[1]v ساعة""
msgstr[5] ""%[1]v ساعات""

msgctxt ""naturaltime-future""
msgid ""%[1]v minute""
msgid_plural ""%[1]v minutes""
msgstr[0] ""%[1]v دقيقة""
msgstr[1] ""%[1]v دقيقة""
msgstr[2] ""%[1]v دقيقتين""
msgstr[3] ""%[1]v دقائق""
msgstr[4] ""%[1]v دقيقة""
msgstr[5] ""%[1]v دقيقة""

msgctxt ""naturaltime-future""
msgid ""%[1]v month""
msgid_plural ""%[1]v months""
msgstr[0] ""%[1]v شهر""
msgstr[1] ""%[1]v شهر""
msgstr[2] ""%[1]v شهرين""
msgstr[3] ""%[1]v أشهر""
msgstr[4] ""%[1]v شهر""
msgstr[5] ""%[1]v أشهر""

msgctxt ""naturaltime-future""
msgid ""%[1]v week""
msgid_plural ""%[1]v weeks""
msgstr[0] ""%[1]v أسبوع""
msgstr[1] ""%[1]v أسبوع""
msgstr[2] ""%[1]v أسبوعين""
msgstr[3] ""%[1]v أسابيع""
msgstr[4] ""%[1]v أسبوع""
msgstr[5] ""%[1]v أسابيع""

msgctxt ""naturaltime-future""
msgid ""%[1]v year""
msgid_plural ""%[1]v years""
msgstr[0] ""%[1]v سنة""
msgstr[1] ""%[1]v سنة""
msgstr[2] ""%[1]v سنتين""
msgstr[3] ""%[1]v سنوات""
msgstr[4] ""%[1]v سنة""
msgstr[5] ""%[1]v سنوات""

msgctxt ""naturaltime-past""
msgid ""%[1]v day""
msgid_plural ""%[1]v days""
msgstr[0] ""%[1]v يوم""
msgstr[1] ""%[1]v يوم""
msgstr[2] ""%[1]v يومين""
msgstr[3] ""%[1]v أيام""
msgstr[4] ""%[1]v يوم""
msgstr[5] ""%[1]v أيام""

msgctxt ""naturaltime-past""
msgid ""%[1]v hour""
msgid_plural ""%[1]v hours""
msgstr[0] ""%[1]v ساعة""
msgstr[1] ""%[1]v ساعة""
msgstr[2] ""%[1]v ساعتين""
msgstr[3] ""%[1]v ساعات""
msgstr[4] ""%[1]v ساعة""
msgstr[5] ""%[1]v ساعات""

msgctxt ""naturaltime-past""
msgid ""%[1]v minute""
msgid_plural ""%[1]v minutes""
msgstr[0] ""%[1]v دقيقة""
msgstr[1] ""%[1]v دقيقة""
msgstr[2] ""%[1]v دقيقتين""
msgstr[3] ""%[1]v دقائق""
msgstr[4] ""%[1]v دقيقة""
msgstr[5] ""%[1]v دقيقة""

msgctxt ""naturaltime-past""
msgid ""%[1]v month""
msgid_plural ""%[1]v months""
msgstr[0] ""%[1]v شهر""
msgstr[1] ""%[1]v شهر""
msgstr[2] ""%[1]v شهرين""
msgstr[3] ""%[1]v أشهر""
msgstr[4] ""%[1]v أشهر""
msgstr[5] ""%[1]v أشهر""

msgctxt ""naturaltime-past""
msgid ""%[1]v week""
msgid_plural ""%[1]v weeks""
msgstr[0] ""%[1]v أسبوع""
msgstr[1] ""%[1]v أسبوع""
msgstr[2] ""%[1]v أسبوعين""
msgstr[3] ""%[1]v أسابيع""
msgstr[4] ""%[1]v أسبوع""
msgstr[5] ""%[1]v أسابيع""

msgctxt ""naturaltime-past""
msgid ""%[1]v year""
msgid_plural ""%[1]v years""
msgstr[0] ""%[1]v سنة""
msgstr[1] ""%[1]v سنة""
msgstr[2] ""%[1]v سنتين""
msgstr[3] ""%[1]v سنوات""
msgstr[4] ""%[1]v سنوات""
msgstr[5] ""%[1]v سنوات""

msgctxt ""ordinal 0""
msgid ""%vth""
msgstr ""%v""

msgctxt ""ordinal 1""
msgid ""%vst""
msgstr ""%v""

msgctxt ""ordinal 11, 12, 13""
msgid ""%vth""
msgstr ""%v""

msgctxt ""ordinal 2""
msgid ""%vnd""
msgstr ""%v""

msgctxt ""ordinal 3""
msgid ""%vrd""
msgstr ""%v""

msgctxt ""ordinal 4""
msgid ""%vth""
msgstr ""%v""

msgctxt ""ordinal 5""
msgid ""%vth""
msgstr ""%v""

msgctxt ""ordinal 6""
msgid ""%vth""
msgstr ""%v""

msgctxt ""ordinal 7""
msgid ""%vth""
msgstr ""%v""

msgctxt ""ordinal 8""
msgid ""%vth""
msgstr ""%v""

msgctxt ""ordinal 9""
msgid ""%vth""
msgstr ""%v""
".
(** humanize/locale/ar/main.go (New) *)
Definition loc_ar : locale_data := LD (bs "ar") [(bs "django.po", po_ar)]
  (Some (FD (bs "j F، Y") (bs "g:i A") (bs "") (bs "F Y") (bs "j F") (bs "d/m/Y") (bs ""))).

(** humanize/locale/arDZ/django.po *)
Definition po_arDZ : bytes := bs "# This file is distributed under the same license as the Django package.
# 
# Translators:
# Jihad Bahmaid Al-Halki, 2022
# Riterix <infosrabah@gmail.com>, 2019-2020
# Riterix <infosrabah@gmail.com>, 2019
msgid """"
msgstr """"
""Project-Id-Version: django\n""
""Report-Msgid-Bugs-To: \n""
""POT-Creation-Date: 2022-05-17 05:23-0500\n""
""PO-Revision-Date: 2022-07-25 06:49+0000\n""
""Last-Translator: Jihad Bahmaid Al-Halki\n""
""Language-Team: Arabic (Algeria) (http://www.transifex.com/django/django/language/ar_DZ/)\n""
""Language: ar_DZ\n""
""MIME-Version: 1.0\n""
""Content-Type: text/plain; charset=UTF-8\n""
""Content-Transfer-Encoding: 8bit\n""
""Plural-Forms: nplurals=6; plural=n==0 ? 0 : n==1 ? 1 : n==2 ? 2 : n%100>=3 && n%100<=10 ? 3 : n%100>=11 && n%100<=99 ? 4 : 5;\n""

msgid ""%[1]d byte""
msgid_plural ""%[1]d bytes""
msgstr[0] ""%[1]d بايت""
msgstr[1] ""%[1]d بايت واحد ""
msgstr[2] ""%[1]d بايتان""
msgstr[3] ""%[1]d بايت""
msgstr[4] ""%[1]d بايت""
msgstr[5] ""%[1]d بايت""

msgid ""%[1]s billion""
msgid_plural ""%[1]s billion""
msgstr[0] ""%[1]s مليار""
msgstr[1] ""%[1]s مليار""
msgstr[2] ""%[1]s مليار""
msgstr[3] ""%[1]s مليار""
msgstr[4] ""%[1]s مليار""
msgstr[5] ""%[1]s مليار""

msgid ""%[1]s decillion""
msgid_plural ""%[1]s decillion""
msgstr[0] ""%[1]s ديسيليون""
msgstr[1] ""%[1]s ديسيليون""
msgstr[2] ""%[1]s ديسيليون""
msgstr[3] ""%[1]s ديسيليون""
msgstr[4] ""%[1]s ديسيليون""
msgstr[5] ""%[1]s ديسيليون""

msgid ""%[1]s googol""
msgid_plural ""%[1]s googol""
msgstr[0] ""%[1]s جوجول""
msgstr[1] ""%[1]s جوجول""
msgstr[2] ""%[1]s جوجول""
msgstr[3] ""%[1]s جوجول""
msgstr[4] ""%[1]s جوجول""
msgstr[5] ""%[1]s جوجول""

msgid ""%[1]s million""
msgid_plural ""%[1]s million""
msgstr[0] ""%[1]s مليون""
msgstr[1] ""%[1]s مليون""
msgstr[2] ""%[1]s مليون""
msgstr[3] ""%[1]s ملايين""
msgstr[4] ""%[1]s مليون""
msgstr[5] ""%[1]s مليون""

msgid ""%[1]s nonillion""
msgid_plural ""%[1]s nonillion""
msgstr[0] ""%[1]s نانليون""
msgstr[1] ""%[1]s نانليون""
msgstr[2] ""%[1]s نانليون""
msgstr[3] ""%[1]s نانليون""
msgstr[4] ""%[1]s نانليون""
msgstr[5] ""%[1]s نانليون""

msgid ""%[1]s octillion""
msgid_plural ""%[1]s octillion""
msgstr[0] ""%[1]s أقتيليون""
msgstr[1] ""%[1]s أقتيليون""
msgstr[2] ""%[1]s أقتيليون""
msgstr[3] ""%[1]s أقتيليون""
msgstr[4] ""%[1]s أقتيليون""
msgstr[5] ""%[1]s أقتيليون""

msgid ""%[1]s quadrillion""
msgid_plural ""%[1]s quadrillion""
msgstr[0] ""%[1]s كوادرليون""
msgstr[1] ""%[1]s كوادرليون""
msgstr[2] ""%[1]s كوادرليون""
msgstr[3] ""%[1]s كوادرليون""
msgstr[4] ""%[1]s كوادرليون""
msgstr[5] ""%[1]s كوادرليون""

msgid ""%[1]s quintillion""
msgid_plural ""%[1]s quintillion""
msgstr[0] ""%[1]s كوينتيليون""
msgstr[1] ""%[1]s كوينتيليون""
msgstr[2] ""%[1]s كوينتيليون""
msgstr[3] ""%[1]s كوينتيليون""
msgstr[4] ""%[1]s كوينتيليون""
msgstr[5] ""%[1]s كوينتيليون""

msgid ""%[1]s septillion""
msgid_plural ""%[1]s septillion""
msgstr[0] ""%[1]s سبتيليون""
msgstr[1] ""%[1]s سبتيليون""
msgstr[2] ""%[1]s سبتيليون""
msgstr[3] ""%[1]s سبتيليون""
msgstr[4] ""%[1]s سبتيليون""
msgstr[5] ""%[1]s سبتيليون""

msgid ""%[1]s sextillion""
msgid_plural ""%[1]s sextillion""
msgstr[0] ""%[1]s سكستيليون""
msgstr[1] ""%[1]s سكستيليون""
msgstr[2] ""%[1]s سكستيليون""
msgstr[3] ""%[1]s سكستيليون""
msgstr[4] ""%[1]s سكستيليون""
msgstr[5] ""%[1]s سكستيليون""

msgid ""%[1]s trillion""
msgid_plural ""%[1]s trillion""
msgstr[0] ""%[1]s ترليون""
msgstr[1] ""%[1]s ترليون""
msgstr[2] ""%[1]s ترليون""
msgstr[3] ""%[1]s ترليون""
msgstr[4] ""%[1]s ترليون""
msgstr[5] ""%[1]s ترليون""

msgid ""%[1]v ago""
msgstr ""%[1]v مضت""

msgid ""%[1]v day""
msgid_plural ""%[1]v days""
msgstr[0] """"
msgstr[1] """"
msgstr[2] """"
msgstr[3] """"
msgstr[4] """"
msgstr[5] """"

msgid ""%[1]v from now""
msgstr ""%[1]v من الآن""

msgid ""%[1]v hour""
msgid_plural ""%[1]v hours""
msgstr[0] """"
msgstr[1] """"
msgstr[2] """"
msgstr[3] """"
msgstr[4] """"
msgstr[5] """"

msgid ""%[1]v minute""
msgid_plural ""%[1]v minutes""
msgstr[0] """"
msgstr[1] """"
msgstr[2] """"
msgstr[3] """"
msgstr[4] """"
msgstr[5] """"

msgid ""%[1]v month""
msgid_plural ""%[1]v months""
msgstr[0] """"
msgstr[1] """"
msgstr[2] """"
msgstr[3] """"
msgstr[4] """"
msgstr[5] """"

msgid ""%[1]v week""
msgid_plural ""%[1]v weeks""
msgstr[0] """"
msgstr[1] """"
msgstr[2] """"
msgstr[3] """"
msgstr[4] """"
msgstr[5] """"

msgid ""%[1]v year""
msgid_plural ""%[1]v years""
msgstr[0] """"
msgstr[1] """"
msgstr[2] """"
msgstr[3] """"
msgstr[4] """"
msgstr[5] """"

msgid ""%s GB""
msgstr ""%s ج.ب""

msgid ""%s KB""
msgstr ""%s ك.ب""

msgid ""%s MB""
msgstr ""%s م.ب""

msgid ""%s PB""
msgstr ""%s ب.ب""

msgid ""%s TB""
msgstr ""%s ت.ب""

msgid "", ""
msgstr ""، ""

msgid ""AM""
msgstr ""ص""

msgid ""Afrikaans""
msgstr ""الإفريقية""

msgid ""Albanian""
msgstr ""الألبانية""

msgid ""Algerian Arabic""
msgstr ""العربية الجزائرية""

msgid ""April""
msgstr ""أفريل""

msgid ""Arabic""
msgstr ""العربية""

msgid ""Argentinian Spanish""
msgstr ""الأسبانية الأرجنتينية""

msgid ""Armenian""
msgstr ""الأرمنية""

msgid ""Asturian""
msgstr ""الأسترية""

msgid ""August""
msgstr ""أوت""

msgid ""Australian English""
msgstr ""الإنجليزية الإسترالية""

msgid ""Azerbaijani""
msgstr ""الأذربيجانية""

msgid ""Basque""
msgstr ""الباسك""

msgid ""Belarusian""
msgstr ""البيلاروسية""

msgid ""Bengali""
msgstr ""البنغالية""

msgid ""Bosnian""
msgstr ""البوسنية""

msgid ""Brazilian Portuguese""
msgstr ""البرتغالية البرازيلية""

msgid ""Breton""
msgstr ""البريتونية""

msgid ""British English""
msgstr ""الإنجليزية البريطانية""

msgid ""Bulgarian""
msgstr ""البلغارية""

msgid ""Burmese""
msgstr ""البورمية""

msgid ""Catalan""
msgstr ""الكتلانية""

msgid ""Colombian Spanish""
msgstr ""الكولومبية الإسبانية""

msgid ""Croatian""
msgstr ""الكرواتية""

msgid ""Czech""
msgstr ""التشيكية""

msgid ""Danish""
msgstr ""الدنماركية""

msgid ""December""
msgstr ""ديسمبر""

msgid ""Dutch""
msgstr ""الهولندية""

msgid ""English""
msgstr ""الإنجليزية""

msgid ""Esperanto""
msgstr ""الاسبرانتو""

msgid ""Estonian""
msgstr ""الإستونية""

msgid ""February""
msgstr ""فيفري""

msgid ""Finnish""
msgstr ""الفنلندية""

msgid ""French""
msgstr ""الفرنسية""

msgid ""Fri""
msgstr ""جمعة""

msgid ""Friday""
msgstr ""الجمعة""

msgid ""Frisian""
msgstr ""الفريزية""

msgid ""Galician""
msgstr ""الجليقية""

msgid ""Georgian""
msgstr ""الجورجية""

msgid ""German""
msgstr ""الألمانية""

msgid ""Greek""
msgstr ""اليونانية""

msgid ""Hebrew""
msgstr ""العبرية""

msgid ""Hindi""
msgstr ""الهندية""

msgid ""Hungarian""
msgstr ""الهنغارية""

msgid ""Icelandic""
msgstr ""الآيسلندية""

msgid ""Ido""
msgstr ""ايدو""

msgid ""Igbo""
msgstr ""إيبو""

msgid ""Indonesian""
msgstr ""الإندونيسية""

msgid ""Interlingua""
msgstr ""اللغة الوسيطة""

msgid ""Irish""
msgstr ""الإيرلندية""

msgid ""Italian""
msgstr ""الإيطالية""

msgid ""January""
msgstr ""جانفي""

msgid ""Japanese""
msgstr ""اليابانية""

msgid ""July""
msgstr ""جويليه""

msgid ""June""
msgstr ""جوان""

msgid ""Kabyle""
msgstr ""القبائلية""

msgid ""Kannada""
msgstr ""الهندية (كنّادا)""

msgid ""Kazakh""
msgstr ""الكازاخستانية""

msgid ""Khmer""
msgstr ""الخمر""

msgid ""Korean""
msgstr ""الكورية""

msgid ""Kyrgyz""
msgstr ""القيرغيزية""

msgid ""Latvian""
msgstr ""اللاتفية""

msgid ""Lithuanian""
msgstr ""اللتوانية""

msgid ""Lower Sorbian""
msgstr ""الصربية السفلى""

msgid ""Luxembourgish""
msgstr ""اللوكسمبرجية""

msgid ""Macedonian""
msgstr ""المقدونية""

msgid ""Malay""
msgstr ""ملاي""

msgid ""Malayalam""
msgstr ""المايالام""

msgid ""Marathi""
msgstr ""المهاراتية""

msgid ""March""
msgstr ""مارس""

msgid ""May""
msgstr ""ماي""

msgid ""Mexican Spanish""
msgstr ""الأسبانية المكسيكية""

msgid ""Mon""
msgstr ""إثنين""

msgid ""Monday""
msgstr ""الاثنين""

msgid ""Mongolian""
msgstr ""المنغولية""

msgid ""Nepali""
msgstr ""النيبالية""

msgid ""Nicaraguan Spanish""
msgstr ""الإسبانية النيكاراغوية""

msgid ""Norwegian Bokmål""
msgstr ""النرويجية""

msgid ""Norwegian Nynorsk""
msgstr ""النينورسك نرويجية""

msgid ""November""
msgstr ""نوفمبر""

msgid ""October""
msgstr ""أكتوبر""

msgid ""Ossetic""
msgstr ""الأوسيتيكية""

msgid ""PM""
msgstr ""م""

msgid ""Persian""
msgstr ""الفارسية""

msgid ""Polish""
msgstr ""البولندية""

msgid ""Portuguese""
msgstr ""البرتغالية""

msgid ""Punjabi""
msgstr ""البنجابية""

msgid ""Romanian""
msgstr ""الرومانية""

msgid ""Russian""
msgstr ""الروسية""

msgid ""Sat""
msgstr ""سبت""

msgid ""Saturday""
msgstr ""السبت""

msgid ""Scottish Gaelic""
msgstr ""الغيلية الأسكتلندية""

msgid ""September""
msgstr ""سبتمبر""

msgid ""Serbian""
msgstr ""الصربية""

msgid ""Serbian Latin""
msgstr ""اللاتينية الصربية""

msgid ""Simplified Chinese""
msgstr ""الصينية المبسطة""

msgid ""Slovak""
msgstr ""السلوفاكية""

msgid ""Slovenian""
msgstr ""السلوفانية""

msgid ""Spanish""
msgstr ""الإسبانية""

msgid ""Sun""
msgstr ""أحد""

msgid ""Sunday""
msgstr ""الأحد""

msgid ""Swahili""
msgstr ""السواحلية""

msgid ""Swedish""
msgstr ""السويدية""

msgid ""Tajik""
msgstr ""الطاجيكية""

msgid ""Tamil""
msgstr ""التاميل""

msgid ""Tatar""
msgstr ""التتاريية""

msgid ""Telugu""
msgstr ""التيلوغو""

msgid ""Thai""
msgstr ""التايلندية""

msgid ""Thu""
msgstr ""خميس""

msgid ""Thursday""
msgstr ""الخميس""

msgid ""Traditional Chinese""
msgstr ""الصينية التقليدية""

msgid ""Tue""
msgstr ""ثلاثاء""

msgid ""Tuesday""
msgstr ""الثلاثاء""

msgid ""Turkish""
msgstr ""التركية""

msgid ""Turkmen""
msgstr """"

msgid ""Udmurt""
msgstr ""الأدمرتية""

msgid ""Ukrainian""
msgstr ""الأكرانية""

msgid ""Upper Sorbian""
msgstr ""الصربية العليا""

msgid ""Urdu""
msgstr ""الأوردو""

msgid ""Uzbek""
msgstr ""الأوزبكية""

msgid ""Venezuelan Spanish""
msgstr ""الإسبانية الفنزويلية""

msgid ""Vietnamese""
msgstr ""الفيتنامية""

msgid ""Wed""
msgstr ""أربعاء""

msgid ""Wednesday""
msgstr ""الأربعاء""

msgid ""Welsh""
msgstr ""الويلز""

msgid ""a minute ago""
msgid_plural ""%[1]v minutes ago""
msgstr[0] ""منذ %[1]v دقيقة""
msgstr[1] ""منذ دقيقة""
msgstr[2] ""منذ %[1]v دقيقة""
msgstr[3] ""منذ %[1]v دقيقة""
msgstr[4] ""منذ %[1]v دقيقة""
msgstr[5] ""منذ %[1]v دقيقة""

msgid ""a minute from now""
msgid_plural ""%[1]v minutes from now""
msgstr[0] ""%[1]v دقائق من الآن""
msgstr[1] ""منذ دقيقة من الآن""
msgstr[2] ""%[1]v دقائق من الآن""
msgstr[3] ""%[1]v دقائق من الآن""
msgstr[4] ""%[1]v دقائق من الآن""
msgstr[5] ""%[1]v دقائق من الآن""

msgid ""a second ago""
msgid_plural ""%[1]v seconds ago""
msgstr[0] ""منذ %[1]v ثانية""
msgstr[1] ""منذ ثانية""
msgstr[2] ""منذ %[1]v ثانيتين""
msgstr[3] ""منذ %[1]v ثواني""
msgstr[4] ""منذ %[1]v ثانية""
msgstr[5] ""منذ %[1]v ثانية""

msgid ""a second from now""
msgid_plural ""%[1]v seconds from now""
msgstr[0] ""%[1]v ثواني من الآن""
msgstr[1] ""منذ ثانية من الآن""
msgstr[2] ""%[1]v ثواني من الآن""
msgstr[3] ""%[1]v ثواني من الآن""
msgstr[4] ""%[1]v ثواني من الآن""
msgstr[5] ""%[1]v ثواني من الآن""

msgid ""a.m.""
msgstr ""ص""

msgid ""an hour ago""
msgid_plural ""%[1]v hours ago""
msgstr[0] ""منذ %[1]v ساعة""
msgstr[1] ""منذ ساعة""
msgstr[2] ""منذ %[1]v ساعة""
msgstr[3] ""منذ %[1]v ساعة""
msgstr[4] ""منذ %[1]v ساعة""
msgstr[5] ""منذ %[1]v ساعة""

msgid ""an hour from now""
msgid_plural ""%[1]v hours from now""
msgstr[0] ""%[1]v ساعات من الآن""
msgstr[1] ""منذ ساعة من الآن""
msgstr[2] ""%[1]v ساعات من الآن""
msgstr[3] ""%[1]v ساعات من الآن""
msgstr[4] ""%[1]v ساعات من الآن""
msgstr[5] ""%[1]v ساعات من الآن""

msgid ""apr""
msgstr ""أفريل""

msgid ""aug""
msgstr ""أوت""

msgid ""dec""
msgstr ""ديسمبر""

msgid ""eight""
msgstr ""ثمانية""

msgid ""feb""
msgstr ""فيفري""

msgid ""five""
msgstr ""خمسة""

msgid ""four""
msgstr ""أربعة""

msgid ""jan""
msgstr ""جانفي""

msgid ""jul""
msgstr ""جويليه""

msgid ""jun""
msgstr ""جوان""

msgid ""mar""
msgstr ""مارس""

msgid ""may""
msgstr ""ماي""

msgid ""midnight""
msgstr ""منتصف الليل""

msgid ""nine""
msgstr ""تسعة""

msgid ""noon""
msgstr ""ظهراً""

msgid ""nov""
msgstr ""نوفمبر""

msgid ""now""
msgstr ""الآن""

msgid ""oct""
msgstr ""أكتوبر""

msgid ""one""
msgstr ""واحد""

msgid ""p.m.""
msgstr ""م""

msgid ""sep""
msgstr ""سبتمبر""

msgid ""seven""
msgstr ""سبعة""

msgid ""six""
msgstr ""ستة""

msgid ""three""
msgstr ""ثلالثة""

msgid ""today""
msgstr ""اليوم""

msgid ""tomorrow""
msgstr ""غداً""

msgid ""two""
msgstr ""إثنان""

msgid ""yesterday""
msgstr ""أمس""

msgctxt ""abbrev. month""
msgid ""April""
msgstr ""أفريل""

msgctxt ""abbrev. month""
msgid ""Aug.""
msgstr ""أوت""

msgctxt ""abbrev. month""
msgid ""Dec.""
msgstr ""ديسمبر""

msgctxt ""abbrev. month""
msgid ""Feb.""
msgstr ""فيفري""

msgctxt ""abbrev. month""
msgid ""Jan.""
msgstr ""جانفي""

msgctxt ""abbrev. month""
msgid ""July""
msgstr ""جويليه""

msgctxt ""abbrev. month""
msgid ""June""
msgstr ""جوان""

msgctxt ""abbrev. month""
msgid ""March""
msgstr ""مارس""

msgctxt ""abbrev. month""
msgid ""May""
msgstr ""ماي""

msgctxt ""abbrev. month""
msgid ""Nov.""
msgstr ""نوفمبر""

msgctxt ""abbrev. month""
msgid ""Oct.""
msgstr ""أكتوبر""

msgctxt ""abbrev. month""
msgid ""Sept.""
msgstr ""سبتمبر""

msgctxt ""alt. month""
msgid ""April""
msgstr ""أفريل""

msgctxt ""alt. month""
msgid ""August""
msgstr ""أوت""

msgctxt ""alt. month""
msgid ""December""
msgstr ""ديسمبر""

msgctxt ""alt. month""
msgid ""February""
msgstr ""فيفري""

msgctxt ""alt. month""
msgid ""January""
msgstr ""جانفي""

msgctxt ""alt. month""
msgid ""July""
msgstr ""جويليه""

msgctxt ""alt. month""
msgid ""June""
msgstr ""جوان""

msgctxt ""alt. month""
msgid ""March""
msgstr ""مارس""

msgctxt ""alt. month""
msgid ""May""
msgstr ""ماي""

msgctxt ""alt. month""
msgid ""November""
msgstr ""نوفمبر""

msgctxt ""alt. month""
msgid ""October""
msgstr ""أكتوبر""

msgctxt ""alt. month""
msgid ""September""
msgstr ""سبتمبر""

msgctxt ""ordinal 0""
msgid ""%vth""
msgstr """"

msgctxt ""ordinal 1""
msgid ""%vst""
msgstr """"

msgctxt ""ordinal 11, 12, 13""
msgid ""%vth""
msgstr """"

msgctxt ""ordinal 2""
msgid ""%vnd""
msgstr """"

msgctxt ""ordinal 3""
msgid ""%vrd""
msgstr """"

msgctxt ""ordinal 4""
msgid ""%vth""
msgstr """"

msgctxt ""ordinal 5""
msgid ""%vth""
msgstr """"

msgctxt ""ordinal 6""
msgid ""%vth""
msgstr """"

msgctxt ""ordinal 7""
msgid ""%vth""
msgstr """"

msgctxt ""ordinal 8""
msgid ""%vth""
msgstr """"

msgctxt ""ordinal 9""
msgid ""%vth""
msgstr """"
".
(** humanize/locale/arDZ/main.go (New) *)
Definition loc_arDZ : locale_data := LD (bs "ar-DZ") [(bs "django.po", po_arDZ)]
  (Some (FD (bs "j F Y") (bs "H:i") (bs "j F Y H:i") (bs "F Y") (bs "j F") (bs "j F Y") (bs "j F Y H:i"))).

(** humanize/locale/ast/django.po *)
Definition po_ast : bytes := bs "# This file is distributed under the same license as the Django package.
# 
# Translators:
# Ḷḷumex03 <tornes@opmbx.org>, 2014
msgid """"
msgstr """"
""Project-Id-Version: django\n""
""Report-Msgid-Bugs-To: \n""
""POT-Creation-Date: 2019-09-27 22:40+0200\n""
""PO-Revision-Date: 2019-11-05 00:38+0000\n""
""Last-Translator: Ramiro Morales\n""
""Language-Team: Asturian (http://www.transifex.com/django/django/language/ast/)\n""
""Language: ast\n""
""MIME-Version: 1.0\n""
""Content-Type: text/plain; charset=UTF-8\n""
""Content-Transfer-Encoding: 8bit\n""
""Plural-Forms: nplurals=2; plural=(n != 1);\n""

msgid ""%[1]d byte""
msgid_plural ""%[1]d bytes""
msgstr[0] ""%[1]d byte""
msgstr[1] ""%[1]d bytes""

msgid ""%[1]s billion""
msgid_plural ""%[1]s billion""
msgstr[0] ""%[1]s billón""
msgstr[1] ""%[1]s billones""

msgid ""%[1]s decillion""
msgid_plural ""%[1]s decillion""
msgstr[0] ""%[1]s decillón""
msgstr[1] ""%[1]s decillones""

msgid ""%[1]s googol""
msgid_plural ""%[1]s googol""
msgstr[0] ""%[1]s gúgol""
msgstr[1] ""%[1]s gúgol""

msgid ""%[1]s million""
msgid_plural ""%[1]s million""
msgstr[0] ""%[1]s millón""
msgstr[1] ""%[1]s millones""

msgid ""%[1]s nonillion""
msgid_plural ""%[1]s nonillion""
msgstr[0] ""%[1]s nonillón""
msgstr[1] ""%[1]s nonillones""

msgid ""%[1]s octillion""
msgid_plural ""%[1]s octillion""
msgstr[0] ""%[1]s octillón""
msgstr[1] ""%[1]s octillones""

msgid ""%[1]s quadrillion""
msgid_plural ""%[1]s quadrillion""
msgstr[0] ""%[1]s cuatrillón""
msgstr[1] ""%[1]s cuatrillones""

msgid ""%[1]s quintillion""
msgid_plural ""%[1]s quintillion""
msgstr[0] ""%[1]s quintillón""
msgstr[1] ""%[1]s quintillones""

msgid ""%[1]s septillion""
msgid_plural ""%[1]s septillion""
msgstr[0] ""%[1]s septillón""
msgstr[1] ""%[1]s septillones""

msgid ""%[1]s sextillion""
msgid_plural ""%[1]s sextillion""
msgstr[0] ""%[1]s sextillón""
msgstr[1] ""%[1]s sextillones""

msgid ""%[1]s trillion""
msgid_plural ""%[1]s trillion""
msgstr[0] ""%[1]s trillón""
msgstr[1] ""%[1]s trillones""

msgid ""%s GB""
msgstr ""%s GB""

msgid ""%s KB""
msgstr ""%s KB""

msgid ""%s MB""
msgstr ""%s MB""

msgid ""%s PB""
msgstr ""%s PB""

msgid ""%s TB""
msgstr ""%s TB""

msgid "", ""
msgstr "", ""

msgid ""AM""
msgstr ""AM""

msgid ""Afrikaans""
msgstr ""Afrikáans""

msgid ""Albanian""
msgstr ""Albanu""

msgid ""April""
msgstr ""Abril""

msgid ""Arabic""
msgstr ""Árabe""

msgid ""Argentinian Spanish""
msgstr ""Español arxentín""

msgid ""Armenian""
msgstr """"

msgid ""Asturian""
msgstr """"

msgid ""August""
msgstr ""Agostu""

msgid ""Australian English""
msgstr """"

msgid ""Azerbaijani""
msgstr ""Azerbaixanu""

msgid ""Basque""
msgstr ""Vascu""

msgid ""Belarusian""
msgstr ""Bielorrusu""

msgid ""Bengali""
msgstr ""Bengalí""

msgid ""Bosnian""
msgstr ""Bosniu""

msgid ""Brazilian Portuguese""
msgstr ""Portugués brasileñu""

msgid ""Breton""
msgstr ""Bretón""

msgid ""British English""
msgstr ""Inglés británicu""

msgid ""Bulgarian""
msgstr ""Búlgaru""

msgid ""Burmese""
msgstr ""Birmanu""

msgid ""Catalan""
msgstr ""Catalán""

msgid ""Colombian Spanish""
msgstr """"

msgid ""Croatian""
msgstr ""Croata""

msgid ""Czech""
msgstr ""Checu""

msgid ""Danish""
msgstr ""Danés""

msgid ""December""
msgstr ""Avientu""

msgid ""Dutch""
msgstr ""Holandés""

msgid ""English""
msgstr ""Inglés""

msgid ""Esperanto""
msgstr ""Esperantu""

msgid ""Estonian""
msgstr ""Estoniu""

msgid ""February""
msgstr ""Febreru""

msgid ""Finnish""
msgstr ""Finés""

msgid ""French""
msgstr ""Francés""

msgid ""Fri""
msgstr ""Vie""

msgid ""Friday""
msgstr ""Vienres""

msgid ""Frisian""
msgstr ""Frisón""

msgid ""Galician""
msgstr ""Gallegu""

msgid ""Georgian""
msgstr ""Xeorxanu""

msgid ""German""
msgstr ""Alemán""

msgid ""Greek""
msgstr ""Griegu""

msgid ""Hebrew""
msgstr ""Hebréu""

msgid ""Hindi""
msgstr ""Hindi""

msgid ""Hungarian""
msgstr ""Húngaru""

msgid ""Icelandic""
msgstr ""Islandés""

msgid ""Ido""
msgstr """"

msgid ""Indonesian""
msgstr ""Indonesiu""

msgid ""Interlingua""
msgstr ""Interlingua""

msgid ""Irish""
msgstr ""Irlandés""

msgid ""Italian""
msgstr ""Italianu""

msgid ""January""
msgstr ""Xineru""

msgid ""Japanese""
msgstr ""Xaponés""

msgid ""July""
msgstr ""Xunetu""

msgid ""June""
msgstr ""Xunu""

msgid ""Kabyle""
msgstr """"

msgid ""Kannada""
msgstr ""Canarés""

msgid ""Kazakh""
msgstr ""Kazakh""

msgid ""Khmer""
msgstr ""Khmer""

msgid ""Korean""
msgstr ""Coreanu""

msgid ""Latvian""
msgstr ""Letón""

msgid ""Lithuanian""
msgstr ""Lituanu""

msgid ""Lower Sorbian""
msgstr """"

msgid ""Luxembourgish""
msgstr ""Luxemburgués""

msgid ""Macedonian""
msgstr ""Macedoniu""

msgid ""Malayalam""
msgstr ""Malayalam""

msgid ""Marathi""
msgstr """"

msgid ""March""
msgstr ""Marzu""

msgid ""May""
msgstr ""Mayu""

msgid ""Mexican Spanish""
msgstr ""Español mexicanu""

msgid ""Mon""
msgstr ""LLu""

msgid ""Monday""
msgstr ""Llunes""

msgid ""Mongolian""
msgstr ""Mongol""

msgid ""Nepali""
msgstr ""Nepalí""

msgid ""Nicaraguan Spanish""
msgstr ""Español nicaraguanu""

msgid ""Norwegian Bokmål""
msgstr """"

msgid ""Norwegian Nynorsk""
msgstr ""Nynorsk noruegu""

msgid ""November""
msgstr ""Payares""

msgid ""October""
msgstr ""Ochobre""

msgid ""Ossetic""
msgstr ""Osetiu""

msgid ""PM""
msgstr ""PM""

msgid ""Persian""
msgstr ""Persa""

msgid ""Polish""
msgstr ""Polacu""

msgid ""Portuguese""
msgstr ""Portugués""

msgid ""Punjabi""
msgstr ""Punjabi""

msgid ""Romanian""
msgstr ""Rumanu""

msgid ""Russian""
msgstr ""Rusu""

msgid ""Sat""
msgstr ""Sáb""

msgid ""Saturday""
msgstr ""Sábadu""

msgid ""Scottish Gaelic""
msgstr """"

msgid ""September""
msgstr ""Setiembre""

msgid ""Serbian""
msgstr ""Serbiu""

msgid ""Serbian Latin""
msgstr ""Serbiu llatín""

msgid ""Simplified Chinese""
msgstr ""Chinu simplificáu""

msgid ""Slovak""
msgstr ""Eslovacu""

msgid ""Slovenian""
msgstr ""Eslovenu""

msgid ""Spanish""
msgstr ""Castellán""

msgid ""Sun""
msgstr ""Dom""

msgid ""Sunday""
msgstr ""Domingu""

msgid ""Swahili""
msgstr ""Suaḥili""

msgid ""Swedish""
msgstr ""Suecu""

msgid ""Tamil""
msgstr ""Tamil""

msgid ""Tatar""
msgstr ""Tatar""

msgid ""Telugu""
msgstr ""Telugu""

msgid ""Thai""
msgstr ""Tailandés""

msgid ""Thu""
msgstr ""Xue""

msgid ""Thursday""
msgstr ""Xueves""

msgid ""Traditional Chinese""
msgstr ""Chinu tradicional""

msgid ""Tue""
msgstr ""Mar""

msgid ""Tuesday""
msgstr ""Martes""

msgid ""Turkish""
msgstr ""Turcu""

msgid ""Udmurt""
msgstr ""Udmurtu""

msgid ""Ukrainian""
msgstr ""Ucranianu""

msgid ""Upper Sorbian""
msgstr """"

msgid ""Urdu""
msgstr ""Urdu""

msgid ""Uzbek""
msgstr """"

msgid ""Venezuelan Spanish""
msgstr ""Español venezolanu""

msgid ""Vietnamese""
msgstr ""Vietnamita""

msgid ""Wed""
msgstr ""Mie""

msgid ""Wednesday""
msgstr ""Miércoles""

msgid ""Welsh""
msgstr ""Galés""

msgid ""a minute ago""
msgid_plural ""%[1]v minutes ago""
msgstr[0] """"
msgstr[1] """"

msgid ""a minute from now""
msgid_plural ""%[1]v minutes from now""
msgstr[0] """"
msgstr[1] """"

msgid ""a second ago""
msgid_plural ""%[1]v seconds ago""
msgstr[0] """"
msgstr[1] """"

msgid ""a second from now""
msgid_plural ""%[1]v seconds from now""
msgstr[0] """"
msgstr[1] """"

msgid ""a.m.""
msgstr ""a.m.""

msgid ""an hour ago""
msgid_plural ""%[1]v hours ago""
msgstr[0] """"
msgstr[1] """"

msgid ""an hour from now""
msgid_plural ""%[1]v hours from now""
msgstr[0] """"
msgstr[1] """"

msgid ""apr""
msgstr ""abr""

msgid ""aug""
msgstr ""ago""

msgid ""dec""
msgstr ""avi""

msgid ""eight""
msgstr ""ocho""

msgid ""feb""
msgstr ""feb""

msgid ""five""
msgstr ""cinco""

msgid ""four""
msgstr ""cuatro""

msgid ""jan""
msgstr ""xin""

msgid ""jul""
msgstr ""xnt""

msgid ""jun""
msgstr ""xun""

msgid ""mar""
msgstr ""mar""

msgid ""may""
msgstr ""may""

msgid ""midnight""
msgstr ""Media nueche""

msgid ""nine""
msgstr ""nueve""

msgid ""noon""
msgstr ""Meudía""

msgid ""nov""
msgstr ""pay""

msgid ""now""
msgstr ""agora""

msgid ""oct""
msgstr ""och""

msgid ""one""
msgstr ""un""

msgid ""p.m.""
msgstr ""p.m.""

msgid ""sep""
msgstr ""set""

msgid ""seven""
msgstr ""siete""

msgid ""six""
msgstr ""seis""

msgid ""three""
msgstr ""trés""

msgid ""today""
msgstr ""güei""

msgid ""tomorrow""
msgstr ""mañana""

msgid ""two""
msgstr ""dos""

msgid ""yesterday""
msgstr ""ayeri""

msgctxt ""abbrev. month""
msgid ""April""
msgstr ""Abr.""

msgctxt ""abbrev. month""
msgid ""Aug.""
msgstr ""Ago.""

msgctxt ""abbrev. month""
msgid ""Dec.""
msgstr ""Avi.""

msgctxt ""abbrev. month""
msgid ""Feb.""
msgstr ""Feb.""

msgctxt ""abbrev. month""
msgid ""Jan.""
msgstr ""Xin.""

msgctxt ""abbrev. month""
msgid ""July""
msgstr ""Xnt.""

msgctxt ""abbrev. month""
msgid ""June""
msgstr ""Xun.""

msgctxt ""abbrev. month""
msgid ""March""
msgstr ""Mar.""

msgctxt ""abbrev. month""
msgid ""May""
msgstr ""May.""

msgctxt ""abbrev. month""
msgid ""Nov.""
msgstr ""Pay.""

msgctxt ""abbrev. month""
msgid ""Oct.""
msgstr ""Och.""

msgctxt ""abbrev. month""
msgid ""Sept.""
msgstr ""Set.""

msgctxt ""alt. month""
msgid ""April""
msgstr ""Abril""

msgctxt ""alt. month""
msgid ""August""
msgstr ""Agostu""

msgctxt ""alt. month""
msgid ""December""
msgstr ""Avientu""

msgctxt ""alt. month""
msgid ""February""
msgstr ""Febreru""

msgctxt ""alt. month""
msgid ""January""
msgstr ""Xineru""

msgctxt ""alt. month""
msgid ""July""
msgstr ""Xunetu""

msgctxt ""alt. month""
msgid ""June""
msgstr ""Xunu""

msgctxt ""alt. month""
msgid ""March""
msgstr ""Marzu""

msgctxt ""alt. month""
msgid ""May""
msgstr ""Mayu""

msgctxt ""alt. month""
msgid ""November""
msgstr ""Payares""

msgctxt ""alt. month""
msgid ""October""
msgstr ""Ochobre""

msgctxt ""alt. month""
msgid ""September""
msgstr ""Setiembre""
".
(** humanize/locale/ast/main.go (New) *)
Definition loc_ast : locale_data := LD (bs "ast") [(bs "django.po", po_ast)]
  (None).

(** humanize/locale/az/django.po *)
Definition po_az : bytes := bs "# This file is distributed under the same license as the Django package.
# 
# Translators:
# Emin Mastizada <emin@linux.com>, 2018,2020
# Emin Mastizada <emin@linux.com>, 2015-2016
# Metin Amiroff <amiroff@gmail.com>, 2011
# Nicat Məmmədov <n1c4t97@gmail.com>, 2022
# Nijat Mammadov, 2024-2025
# Sevdimali <sevdimaliisayev@mail.ru>, 2024
msgid """"
msgstr """"
""Project-Id-Version: django\n""
""Report-Msgid-Bugs-To: \n""
""POT-Creation-Date: 2025-03-19 11:30-0500\n""
""PO-Revision-Date: 2025-09-17 06:49+0000\n""
""Last-Translator: Nijat Mammadov, 2024-2025\n""
""Language-Team: Azerbaijani (http://app.transifex.com/django/django/language/az/)\n""
""Language: az\n""
""MIME-Version: 1.0\n""
""Content-Type: text/plain; charset=UTF-8\n""
""Content-Transfer-Encoding: 8bit\n""
""Plural-Forms: nplurals=2; plural=(n != 1);\n""

msgid ""%[1]d byte""
msgid_plural ""%[1]d bytes""
msgstr[0] ""%[1]d bayt""
msgstr[1] ""%[1]d bayt""

msgid ""%[1]s billion""
msgid_plural ""%[1]s billion""
msgstr[0] ""%[1]s milyard""
msgstr[1] ""%[1]s milyard""

msgid ""%[1]s decillion""
msgid_plural ""%[1]s decillion""
msgstr[0] ""%[1]s deçilyon""
msgstr[1] ""%[1]s deçilyon""

msgid ""%[1]s googol""
msgid_plural ""%[1]s googol""
msgstr[0] ""%[1]s quqol""
msgstr[1] ""%[1]s quqol""

msgid ""%[1]s million""
msgid_plural ""%[1]s million""
msgstr[0] ""%[1]s milyon""
msgstr[1] ""%[1]s milyon""

msgid ""%[1]s nonillion""
msgid_plural ""%[1]s nonillion""
msgstr[0] ""%[1]s nonilyon""
msgstr[1] ""%[1]s nonilyon""

msgid ""%[1]s octillion""
msgid_plural ""%[1]s octillion""
msgstr[0] ""%[1]s oktilyon""
msgstr[1] ""%[1]s oktilyon""

msgid ""%[1]s quadrillion""
msgid_plural ""%[1]s quadrillion""
msgstr[0] ""%[1]s kvadrilyon""
msgstr[1] ""%[1]s kvadrilyon""

msgid ""%[1]s quintillion""
msgid_plural ""%[1]s quintillion""
msgstr[0] ""%[1]s kvintilyon""
msgstr[1] ""%[1]s kvintilyon""

msgid ""%[1]s septillion""
msgid_plural ""%[1]s septillion""
msgstr[0] ""%[1]s septilyon""
msgstr[1] ""%[1]s septilyon""

msgid ""%[1]s sextillion""
msgid_plural ""%[1]s sextillion""
msgstr[0] ""%[1]s sekstilyon""
msgstr[1] ""%[1]s sekstilyon""

msgid ""%[1]s trillion""
msgid_plural ""%[1]s trillion""
msgstr[0] ""%[1]s trilyon""
msgstr[1] ""%[1]s trilyon""

msgid ""%[1]v ago""
msgstr ""%[1]v əvvəl""

msgid ""%[1]v day""
msgid_plural ""%[1]v days""
msgstr[0] ""%[1]v gün""
msgstr[1] ""%[1]v gün""

msgid ""%[1]v from now""
msgstr ""%[1]v bundan sonra""

msgid ""%[1]v hour""
msgid_plural ""%[1]v hours""
msgstr[0] ""%[1]v saat""
msgstr[1] ""%[1]v saat""

msgid ""%[1]v minute""
msgid_plural ""%[1]v minutes""
msgstr[0] ""%[1]v dəqiqə""
msgstr[1] ""%[1]v dəqiqə""

msgid ""%[1]v month""
msgid_plural ""%[1]v months""
msgstr[0] ""%[1]v ay""
msgstr[1] ""%[1]v ay""

msgid ""%[1]v week""
msgid_plural ""%[1]v weeks""
msgstr[0] ""%[1]v həftə""
msgstr[1] ""%[1]v həftə""

msgid ""%[1]v year""
msgid_plural ""%[1]v years""
msgstr[0] ""%[1]v il""
msgstr[1] ""%[1]v il""

msgid ""%s GB""
msgstr ""%s QB""

msgid ""%s KB""
msgstr ""%s KB""

msgid ""%s MB""
msgstr ""%s MB""

msgid ""%s PB""
msgstr ""%s PB""

msgid ""%s TB""
msgstr ""%s TB""

msgid "", ""
msgstr "", ""

msgid ""AM""
msgstr ""GƏ""

msgid ""Afrikaans""
msgstr ""Afrikaans""

msgid ""Albanian""
msgstr ""Alban""

msgid ""Algerian Arabic""
msgstr ""Əlcəzair Ərəbcəsi""

msgid ""April""
msgstr ""Aprel""

msgid ""Arabic""
msgstr ""Ərəb""

msgid ""Argentinian Spanish""
msgstr ""Argentina İspancası""

msgid ""Armenian""
msgstr ""Erməni""

msgid ""Asturian""
msgstr ""Asturiya""

msgid ""August""
msgstr ""Avqust""

msgid ""Australian English""
msgstr ""Avstraliya İngiliscəsi""

msgid ""Azerbaijani""
msgstr ""Azərbaycan""

msgid ""Basque""
msgstr ""Bask""

msgid ""Belarusian""
msgstr ""Belarus""

msgid ""Bengali""
msgstr ""Benqal""

msgid ""Bosnian""
msgstr ""Bosniya""

msgid ""Brazilian Portuguese""
msgstr ""Braziliya Portuqalcası""

msgid ""Breton""
msgstr ""Breton""

msgid ""British English""
msgstr ""Britaniya İngiliscəsi""

msgid ""Bulgarian""
msgstr ""Bolqar""

msgid ""Burmese""
msgstr ""Birman""

msgid ""Catalan""
msgstr ""Katalon""

msgid ""Central Kurdish (Sorani)""
msgstr ""Mərkəzi Kürd dili (Sorani)""

msgid ""Colombian Spanish""
msgstr ""Kolumbia İspancası""

msgid ""Croatian""
msgstr ""Xorvat""

msgid ""Czech""
msgstr ""Çex""

msgid ""Danish""
msgstr ""Danimarka""

msgid ""December""
msgstr ""Dekabr""

msgid ""Dutch""
msgstr ""Niderland""

msgid ""English""
msgstr ""İngilis""

msgid ""Esperanto""
msgstr ""Esperanto""

msgid ""Estonian""
msgstr ""Eston""

msgid ""February""
msgstr ""Fevral""

msgid ""Finnish""
msgstr ""Fin""

msgid ""French""
msgstr ""Fransız""

msgid ""Fri""
msgstr ""Cüm""

msgid ""Friday""
msgstr ""Cümə""

msgid ""Frisian""
msgstr ""Fris""

msgid ""Galician""
msgstr ""Qalisiya""

msgid ""Georgian""
msgstr ""Gürcü""

msgid ""German""
msgstr ""Alman""

msgid ""Greek""
msgstr ""Yunan""

msgid ""Hebrew""
msgstr ""İvrit""

msgid ""Hindi""
msgstr ""Hind""

msgid ""Hungarian""
msgstr ""Macar""

msgid ""Icelandic""
msgstr ""İsland""

msgid ""Ido""
msgstr ""İdo""

msgid ""Igbo""
msgstr ""İqbo""

msgid ""Indonesian""
msgstr ""İndoneziya dili""

msgid ""Interlingua""
msgstr ""İnterlinqua""

msgid ""Irish""
msgstr ""İrland""

msgid ""Italian""
msgstr ""İtalyan""

msgid ""January""
msgstr ""Yanvar""

msgid ""Japanese""
msgstr ""Yapon""

msgid ""July""
msgstr ""İyul""

msgid ""June""
msgstr ""İyun""

msgid ""Kabyle""
msgstr ""Kabile""

msgid ""Kannada""
msgstr ""Kannada""

msgid ""Kazakh""
msgstr ""Qazax""

msgid ""Khmer""
msgstr ""Xmer""

msgid ""Korean""
msgstr ""Koreya""

msgid ""Kyrgyz""
msgstr ""Qırğız""

msgid ""Latvian""
msgstr ""Latış""

msgid ""Lithuanian""
msgstr ""Litva""

msgid ""Lower Sorbian""
msgstr ""Aşağı Sorb""

msgid ""Luxembourgish""
msgstr ""Lüksemburq""

msgid ""Macedonian""
msgstr ""Makedon""

msgid ""Malay""
msgstr ""Malay""

msgid ""Malayalam""
msgstr ""Malayam""

msgid ""Marathi""
msgstr ""Marathi""

msgid ""March""
msgstr ""Mart""

msgid ""May""
msgstr ""May""

msgid ""Mexican Spanish""
msgstr ""Meksika İspancası""

msgid ""Mon""
msgstr ""B.e""

msgid ""Monday""
msgstr ""Bazar ertəsi""

msgid ""Mongolian""
msgstr ""Monqol""

msgid ""Nepali""
msgstr ""Nepal""

msgid ""Nicaraguan Spanish""
msgstr ""Nikaraqua İspancası""

msgid ""Norwegian Bokmål""
msgstr ""Norveç Bukmolcası""

msgid ""Norwegian Nynorsk""
msgstr ""Norveç Nyunorskcası""

msgid ""November""
msgstr ""Noyabr""

msgid ""October""
msgstr ""Oktyabr""

msgid ""Ossetic""
msgstr ""Osetin""

msgid ""PM""
msgstr ""GS""

msgid ""Persian""
msgstr ""Fars""

msgid ""Polish""
msgstr ""Polyak""

msgid ""Portuguese""
msgstr ""Portuqal""

msgid ""Punjabi""
msgstr ""Pəncab""

msgid ""Romanian""
msgstr ""Rumın""

msgid ""Russian""
msgstr ""Rus""

msgid ""Sat""
msgstr ""Şnb""

msgid ""Saturday""
msgstr ""Şənbə""

msgid ""Scottish Gaelic""
msgstr ""Şotland Keltcəsi""

msgid ""September""
msgstr ""Sentyabr""

msgid ""Serbian""
msgstr ""Serb""

msgid ""Serbian Latin""
msgstr ""Serb (Latın)""

msgid ""Simplified Chinese""
msgstr ""Sadələşdirilmiş Çin dili""

msgid ""Slovak""
msgstr ""Slovak""

msgid ""Slovenian""
msgstr ""Sloven""

msgid ""Spanish""
msgstr ""İspan""

msgid ""Sun""
msgstr ""Bzr""

msgid ""Sunday""
msgstr ""Bazar""

msgid ""Swahili""
msgstr ""Suahili""

msgid ""Swedish""
msgstr ""İsveç""

msgid ""Tajik""
msgstr ""Tacik""

msgid ""Tamil""
msgstr ""Tamil""

msgid ""Tatar""
msgstr ""Tatar""

msgid ""Telugu""
msgstr ""Teluqu""

msgid ""Thai""
msgstr ""Tay""

msgid ""Thu""
msgstr ""C.a""

msgid ""Thursday""
msgstr ""Cümə axşamı""

msgid ""Traditional Chinese""
msgstr ""Ənənəvi Çin dili""

msgid ""Tue""
msgstr ""Ç.a""

msgid ""Tuesday""
msgstr ""Çərşənbə axşamı""

msgid ""Turkish""
msgstr ""Türk""

msgid ""Turkmen""
msgstr ""Türkmən""

msgid ""Udmurt""
msgstr ""Udmurt""

msgid ""Ukrainian""
msgstr ""Ukrayn""

msgid ""Upper Sorbian""
msgstr ""Yuxarı Sorb""

msgid ""Urdu""
msgstr ""Urdu""

msgid ""Uyghur""
msgstr ""Uyğur""

msgid ""Uzbek""
msgstr ""Özbək""

msgid ""Venezuelan Spanish""
msgstr ""Venesuela İspancası""

msgid ""Vietnamese""
msgstr ""Vyetnam""

msgid ""Wed""
msgstr ""Çrş""

msgid ""Wednesday""
msgstr ""Çərşənbə""

msgid ""Welsh""
msgstr ""Uels""

msgid ""a minute ago""
msgid_plural ""%[1]v minutes ago""
msgstr[0] ""bir dəqiqə əvvəl""
msgstr[1] ""%[1]v dəqiqə əvvəl""

msgid ""a minute from now""
msgid_plural ""%[1]v minutes from now""
msgstr[0] ""bir dəqiqə sonra""
msgstr[1] ""%[1]v dəqiqə sonra""

msgid ""a second ago""
msgid_plural ""%[1]v seconds ago""
msgstr[0] ""bir saniyə əvvəl""
msgstr[1] ""%[1]v saniyə əvvəl""

msgid ""a second from now""
msgid_plural ""%[1]v seconds from now""
msgstr[0] ""bir saniyə sonra""
msgstr[1] ""%[1]v saniyə sonra""

msgid ""a.m.""
msgstr ""g.ə.""

msgid ""an hour ago""
msgid_plural ""%[1]v hours ago""
msgstr[0] ""bir saat əvvəl""
msgstr[1] ""%[1]v saat əvvəl""

msgid ""an hour from now""
msgid_plural ""%[1]v hours from now""
msgstr[0] ""bir saat sonra""
msgstr[1] ""%[1]v saat sonra""

msgid ""apr""
msgstr ""apr""

msgid ""aug""
msgstr ""avq""

msgid ""dec""
msgstr ""dek""

msgid ""eight""
msgstr ""səkkiz""

msgid ""feb""
msgstr ""fvr""

msgid ""five""
msgstr ""beş""

msgid ""four""
msgstr ""dörd""

msgid ""jan""
msgstr ""ynv""

msgid ""jul""
msgstr ""iyl""

msgid ""jun""
msgstr ""iyn""

msgid ""mar""
msgstr ""mar""

msgid ""may""
msgstr ""may""

msgid ""midnight""
msgstr ""gecə yarısı""

msgid ""nine""
msgstr ""doqquz""

msgid ""noon""
msgstr ""günorta""

msgid ""nov""
msgstr ""noy""

msgid ""now""
msgstr ""indi""

msgid ""oct""
msgstr ""okt""

msgid ""one""
msgstr ""bir""

msgid ""p.m.""
msgstr ""g.s.""

msgid ""sep""
msgstr ""snt""

msgid ""seven""
msgstr ""yeddi""

msgid ""six""
msgstr ""altı""

msgid ""three""
msgstr ""üç""

msgid ""today""
msgstr ""bu gün""

msgid ""tomorrow""
msgstr ""sabah""

msgid ""two""
msgstr ""iki""

msgid ""yesterday""
msgstr ""dünən""

msgctxt ""abbrev. month""
msgid ""April""
msgstr ""Aprel""

msgctxt ""abbrev. month""
msgid ""Aug.""
msgstr ""Avq.""

msgctxt ""abbrev. month""
msgid ""Dec.""
msgstr ""Dek.""

msgctxt ""abbrev. month""
msgid ""Feb.""
msgstr ""Fev.""

msgctxt ""abbrev. month""
msgid ""Jan.""
msgstr ""Yan.""

msgctxt ""abbrev. month""
msgid ""July""
msgstr ""İyul""

msgctxt ""abbrev. month""
msgid ""June""
msgstr ""İyun""

msgctxt ""abbrev. month""
msgid ""March""
msgstr ""Mart""

msgctxt ""abbrev. month""
msgid ""May""
msgstr ""May""

msgctxt ""abbrev. month""
msgid ""Nov.""
msgstr ""Noy.""

msgctxt ""abbrev. month""
msgid ""Oct.""
msgstr ""Okt.""

msgctxt ""abbrev. month""
msgid ""Sept.""
msgstr ""Sen.""

msgctxt ""alt. month""
msgid ""April""
msgstr ""Aprel""

msgctxt ""alt. month""
msgid ""August""
msgstr ""Avqust""

msgctxt ""alt. month""
msgid ""December""
msgstr ""Dekabr""

msgctxt ""alt. month""
msgid ""February""
msgstr ""Fevral""

msgctxt ""alt. month""
msgid ""January""
msgstr ""Yanvar""

msgctxt ""alt. month""
msgid ""July""
msgstr ""İyul""

msgctxt ""alt. month""
msgid ""June""
msgstr ""İyun""

msgctxt ""alt. month""
msgid ""March""
msgstr ""Mart""

msgctxt ""alt. month""
msgid ""May""
msgstr ""May""

msgctxt ""alt. month""
msgid ""November""
msgstr ""Noyabr""

msgctxt ""alt. month""
msgid ""October""
msgstr ""Oktyabr""

msgctxt ""alt. month""
msgid ""September""
msgstr ""Sentyabr""

msgctxt ""naturaltime-future""
msgid ""%[1]v day""
msgid_plural ""%[1]v days""
msgstr[0] ""%[1]v gün""
msgstr[1] ""%[1]v gün""

msgctxt ""naturaltime-future""
msgid ""%[1]v hour""
msgid_plural ""%[1]v hours""
msgstr[0] ""%[1]v saat""
msgstr[1] ""%[1]v saat""

msgctxt ""naturaltime-future""
msgid ""%[1]v minute""
msgid_plural ""%[1]v minutes""
msgstr[0] ""%[1]v dəqiqə""
msgstr[1] ""%[1]v dəqiqə""

msgctxt ""naturaltime-future""
msgid ""%[1]v month""
msgid_plural ""%[1]v months""
msgstr[0] ""%[1]v ay""
msgstr[1] ""%[1]v ay""

msgctxt ""naturaltime-future""
msgid ""%[1]v week""
msgid_plural ""%[1]v weeks""
msgstr[0] ""%[1]v həftə""
msgstr[1] ""%[1]v həftə""

msgctxt ""naturaltime-future""
msgid ""%[1]v year""
msgid_plural ""%[1]v years""
msgstr[0] ""%[1]v il""
msgstr[1] ""%[1]v il""

msgctxt ""naturaltime-past""
msgid ""%[1]v day""
msgid_plural ""%[1]v days""
msgstr[0] ""%[1]v gün""
msgstr[1] ""%[1]v gün""

msgctxt ""naturaltime-past""
msgid ""%[1]v hour""
msgid_plural ""%[1]v hours""
msgstr[0] ""%[1]v saat""
msgstr[1] ""%[1]v saat""

msgctxt ""naturaltime-past""
msgid ""%[1]v minute""
msgid_plural ""%[1]v minutes""
msgstr[0] ""%[1]v dəqiqə""
msgstr[1] ""%[1]v dəqiqə""

msgctxt ""naturaltime-past""
msgid ""%[1]v month""
msgid_plural ""%[1]v months""
msgstr[0] ""%[1]v ay""
msgstr[1] ""%[1]v ay""

msgctxt ""naturaltime-past""
msgid ""%[1]v week""
msgid_plural ""%[1]v weeks""
msgstr[0] ""%[1]v həftə""
msgstr[1] ""%[1]v həftə""

msgctxt ""naturaltime-past""
msgid ""%[1]v year""
msgid_plural ""%[1]v years""
msgstr[0] ""%[1]v il""
msgstr[1] ""%[1]v il""

msgctxt ""ordinal 0""
msgid ""%vth""
msgstr ""%v.""

msgctxt ""ordinal 1""
msgid ""%vst""
msgstr ""%v.""

msgctxt ""ordinal 11, 12, 13""
msgid ""%vth""
msgstr ""%v.""

msgctxt ""ordinal 2""
msgid ""%vnd""
msgstr ""%v.""

msgctxt ""ordinal 3""
msgid ""%vrd""
msgstr ""%v.""

msgctxt ""ordinal 4""
msgid ""%vth""
msgstr ""%v.""

msgctxt ""ordinal 5""
msgid ""%vth""
msgstr ""%v.""

msgctxt ""ordinal 6""
msgid ""%vth""
msgstr ""%v.""

msgctxt ""ordinal 7""
msgid ""%vth""
msgstr ""%v.""

msgctxt ""ordinal 8""
msgid ""%vth""
msgstr ""%v.""

msgctxt ""ordinal 9""
msgid ""%vth""
msgstr ""%v.""
".
(** humanize/locale/az/main.go (New) *)
Definition loc_az : locale_data := LD (bs "az") [(bs "django.po", po_az)]
  (Some (FD (bs "j E Y") (bs "G:i") (bs "j E Y, G:i") (bs "F Y") (bs "j F") (bs "d.m.Y") (bs "d.m.Y H:i"))).

(** humanize/locale/be/django.po *)
Definition po_be : bytes := bs "# This file is distributed under the same license as the Django package.
# 
# Translators:
# Viktar Palstsiuk <vipals@gmail.com>, 2014-2015
# znotdead <zhirafchik@gmail.com>, 2016-2017,2019-2021,2023-2025
# Bobsans <mr.bobsans@gmail.com>, 2016
msgid """"
msgstr """"
""Project-Id-Version: django\n""
""Report-Msgid-Bugs-To: \n""
""POT-Creation-Date: 2025-03-19 11:30-0500\n""
""PO-Revision-Date: 2025-09-17 06:49+0000\n""
""Last-Translator: znotdead <zhirafchik@gmail.com>, 2016-2017,2019-2021,2023-2025\n""
""Language-Team: Belarusian (http://app.transifex.com/django/django/language/be/)\n""
""Language: be\n""
""MIME-Version: 1.0\n""
""Content-Type: text/plain; charset=UTF-8\n""
""Content-Transfer-Encoding: 8bit\n""
""Plural-Forms: nplurals=4; plural=(n%10==1 && n%100!=11 ? 0 : n%10>=2 && n%10<=4 && (n%100<12 || n%100>14) ? 1 : n%10==0 || (n%10>=5 && n%10<=9) || (n%100>=11 && n%100<=14)? 2 : 3);\n""

msgid ""%[1]d byte""
msgid_plural ""%[1]d bytes""
msgstr[0] ""%[1]d байт""
msgstr[1] ""%[1]d байты""
msgstr[2] ""%[1]d байтаў""
msgstr[3] ""%[1]d байтаў""

msgid ""%[1]s billion""
msgid_plural ""%[1]s billion""
msgstr[0] ""%(value).s мільярд""
msgstr[1] ""%[1]s мільярды""
msgstr[2] ""%[1]s мільярдаў""
msgstr[3] ""%[1]s мільярдаў""

msgid ""%[1]s decillion""
msgid_plural ""%[1]s decillion""
msgstr[0] ""%[1]s дэцыльён""
msgstr[1] ""%[1]s дэцыльёны""
msgstr[2] ""%[1]s дэцыльёнаў""
msgstr[3] ""%[1]s дэцыльёнаў""

msgid ""%[1]s googol""
msgid_plural ""%[1]s googol""
msgstr[0] ""%[1]s ґуґал""
msgstr[1] ""%[1]s ґуґлы""
msgstr[2] ""%[1]s ґуґлаў""
msgstr[3] ""%[1]s ґуґлаў""

msgid ""%[1]s million""
msgid_plural ""%[1]s million""
msgstr[0] ""%[1]s мільён""
msgstr[1] ""%[1]s мільёны""
msgstr[2] ""%[1]s мільёнаў""
msgstr[3] ""%[1]s мільёнаў""

msgid ""%[1]s nonillion""
msgid_plural ""%[1]s nonillion""
msgstr[0] ""%[1]s нанільён""
msgstr[1] ""%[1]s нанільёны""
msgstr[2] ""%[1]s нанільёнаў""
msgstr[3] ""%[1]s нанільёнаў""

msgid ""%[1]s octillion""
msgid_plural ""%[1]s octillion""
msgstr[0] ""%[1]s актыльён""
msgstr[1] ""%[1]s актыльёны""
msgstr[2] ""%[1]s актыльёнаў""
msgstr[3] ""%[1]s актыльёнаў""

msgid ""%[1]s quadrillion""
msgid_plural ""%[1]s quadrillion""
msgstr[0] ""%[1]s квадрыльён""
msgstr[1] ""%[1]s квадрыльёны""
msgstr[2] ""%[1]s квадрыльёнаў""
msgstr[3] ""%[1]s квадрыльёнаў""

msgid ""%[1]s quintillion""
msgid_plural ""%[1]s quintillion""
msgstr[0] ""%[1]s квінтыльён""
msgstr[1] ""%[1]s квінтыльёны""
msgstr[2] ""%[1]s квінтыльёнаў""
msgstr[3] ""%[1]s квінтыльёнаў""

msgid ""%[1]s septillion""
msgid_plural ""%[1]s septillion""
msgstr[0] ""%[1]s сэптыльён""
msgstr[1] ""%[1]s сэптыльёны""
msgstr[2] ""%[1]s сэптыльёнаў""
msgstr[3] ""%[1]s сэптыльёнаў""

msgid ""%[1]s sextillion""
msgid_plural ""%[1]s sextillion""
msgstr[0] ""%[1]s сэкстыльён""
msgstr[1] ""%[1]s сэкстыльёны""
msgstr[2] ""%[1]s сэкстыльёнаў""
msgstr[3] ""%[1]s сэкстыльёнаў""

msgid ""%[1]s trillion""
msgid_plural ""%[1]s trillion""
msgstr[0] ""%[1]s трыльён""
msgstr[1] ""%[1]s трыльёны""
msgstr[2] ""%[1]s трыльёнаў""
msgstr[3] ""%[1]s трыльёнаў""

msgid ""%[1]v ago""
msgstr ""%[1]v таму""

msgid ""%[1]v day""
msgid_plural ""%[1]v days""
msgstr[0] ""%[1]v дзень""
msgstr[1] ""%[1]v  дзён""
msgstr[2] ""%[1]v  дзён""
msgstr[3] ""%[1]v дзён""

msgid ""%[1]v from now""
msgstr ""праз %[1]v""

msgid ""%[1]v hour""
msgid_plural ""%[1]v hours""
msgstr[0] ""%[1]v гадзіна""
msgstr[1] ""%[1]v гадзін""
msgstr[2] ""%[1]v гадзін""
msgstr[3] ""%[1]v гадзін""

msgid ""%[1]v minute""
msgid_plural ""%[1]v minutes""
msgstr[0] ""%[1]v хвіліна""
msgstr[1] ""%[1]v хвілін""
msgstr[2] ""%[1]v хвілін""
msgstr[3] ""%[1]v хвілін""

msgid ""%[1]v month""
msgid_plural ""%[1]v months""
msgstr[0] ""%[1]v месяц""
msgstr[1] ""%[1]v месяцаў""
msgstr[2] ""%[1]v месяцаў""
msgstr[3] ""%[1]v месяцаў""

msgid ""%[1]v week""
msgid_plural ""%[1]v weeks""
msgstr[0] ""%[1]v тыдзень""
msgstr[1] ""%[1]v тыдняў""
msgstr[2] ""%[1]v тыдняў""
msgstr[3] ""%[1]v тыдняў""

msgid ""%[1]v year""
msgid_plural ""%[1]v years""
msgstr[0] ""%[1]v год""
msgstr[1] ""%[1]v гадоў""
msgstr[2] ""%[1]v гадоў""
msgstr[3] ""%[1]v гадоў""

msgid ""%s GB""
msgstr ""%s ҐБ""

msgid ""%s KB""
msgstr ""%s КБ""

msgid ""%s MB""
msgstr ""%s МБ""

msgid ""%s PB""
msgstr ""%s ПБ""

msgid ""%s TB""
msgstr ""%s ТБ""

msgid "", ""
msgstr "", ""

msgid ""AM""
msgstr ""папоўначы""

msgid ""Afrikaans""
msgstr ""Афрыкаанс""

msgid ""Albanian""
msgstr ""Альбанская""

msgid ""Algerian Arabic""
msgstr ""Алжырская арабская""

msgid ""April""
msgstr ""красавіка""

msgid ""Arabic""
msgstr ""Арабская""

msgid ""Argentinian Spanish""
msgstr ""Гішпанская (Арґентына)""

msgid ""Armenian""
msgstr ""Армянскі""

msgid ""Asturian""
msgstr ""Астурыйская""

msgid ""August""
msgstr ""жніўня""

msgid ""Australian English""
msgstr ""Анґельская (Аўстралія)""

msgid ""Azerbaijani""
msgstr ""Азэрбайджанская""

msgid ""Basque""
msgstr ""Басконская""

msgid ""Belarusian""
msgstr ""Беларуская""

msgid ""Bengali""
msgstr ""Бэнґальская""

msgid ""Bosnian""
msgstr ""Басьнійская""

msgid ""Brazilian Portuguese""
msgstr ""Партуґальская (Бразылія)""

msgid ""Breton""
msgstr ""Брэтонская""

msgid ""British English""
msgstr ""Анґельская (Брытанская)""

msgid ""Bulgarian""
msgstr ""Баўгарская""

msgid ""Burmese""
msgstr ""Бірманская""

msgid ""Catalan""
msgstr ""Каталёнская""

msgid ""Central Kurdish (Sorani)""
msgstr ""Цэнтральнакурдская (сарані)""

msgid ""Colombian Spanish""
msgstr ""Гішпанская (Калумбія)""

msgid ""Croatian""
msgstr ""Харвацкая""

msgid ""Czech""
msgstr ""Чэская""

msgid ""Danish""
msgstr ""Дацкая""

msgid ""December""
msgstr ""сьнежня""

msgid ""Dutch""
msgstr ""Галяндзкая""

msgid ""English""
msgstr ""Анґельская""

msgid ""Esperanto""
msgstr ""Эспэранта""

msgid ""Estonian""
msgstr ""Эстонская""

msgid ""February""
msgstr ""лютага""

msgid ""Finnish""
msgstr ""Фінская""

msgid ""French""
msgstr ""Француская""

msgid ""Fri""
msgstr ""Пт""

msgid ""Friday""
msgstr ""Пятніца""

msgid ""Frisian""
msgstr ""Фрызкая""

msgid ""Galician""
msgstr ""Ґальская""

msgid ""Georgian""
msgstr ""Грузінская""

msgid ""German""
msgstr ""Нямецкая""

msgid ""Greek""
msgstr ""Грэцкая""

msgid ""Hebrew""
msgstr ""Габрэйская""

msgid ""Hindi""
msgstr ""Гінды""

msgid ""Hungarian""
msgstr ""Вугорская""

msgid ""Icelandic""
msgstr ""Ісьляндзкая""

msgid ""Ido""
msgstr ""Іда""

msgid ""Igbo""
msgstr ""Ігба""

msgid ""Indonesian""
msgstr ""Інданэзійская""

msgid ""Interlingua""
msgstr ""Інтэрлінгва""

msgid ""Irish""
msgstr ""Ірляндзкая""

msgid ""Italian""
msgstr ""Італьянская""

msgid ""January""
msgstr ""студзеня""

msgid ""Japanese""
msgstr ""Японская""

msgid ""July""
msgstr ""ліпеня""

msgid ""June""
msgstr ""чэрвеня""

msgid ""Kabyle""
msgstr ""Кабільскі""

msgid ""Kannada""
msgstr ""Каннада""

msgid ""Kazakh""
msgstr ""Казаская""

msgid ""Khmer""
msgstr ""Кхмерская""

msgid ""Korean""
msgstr ""Карэйская""

msgid ""Kyrgyz""
msgstr ""Кіргізская""

msgid ""Latvian""
msgstr ""Латыская""

msgid ""Lithuanian""
msgstr ""Літоўская""

msgid ""Lower Sorbian""
msgstr ""Ніжнелужыцкая""

msgid ""Luxembourgish""
msgstr ""Люксэмбургская""

msgid ""Macedonian""
msgstr ""Македонская""

msgid ""Malay""
msgstr ""Малайская""

msgid ""Malayalam""
msgstr ""Малаялам""

msgid ""Marathi""
msgstr ""Маратхі""

msgid ""March""
msgstr ""сакавік""

msgid ""May""
msgstr ""траўня""

msgid ""Mexican Spanish""
msgstr ""Гішпанская (Мэксыка)""

msgid ""Mon""
msgstr ""Пн""

msgid ""Monday""
msgstr ""Панядзелак""

msgid ""Mongolian""
msgstr ""Манґольская""

msgid ""Nepali""
msgstr ""Нэпальская""

msgid ""Nicaraguan Spanish""
msgstr ""Гішпанская (Нікараґуа)""

msgid ""Norwegian Bokmål""
msgstr ""Нарвэская букмал""

msgid ""Norwegian Nynorsk""
msgstr ""Нарвэская нюнорск""

msgid ""November""
msgstr ""лістапада""

msgid ""October""
msgstr ""кастрычніка""

msgid ""Ossetic""
msgstr ""Асяцінская""

msgid ""PM""
msgstr ""папаўдні""

msgid ""Persian""
msgstr ""Фарсі""

msgid ""Polish""
msgstr ""Польская""

msgid ""Portuguese""
msgstr ""Партуґальская""

msgid ""Punjabi""
msgstr ""Панджабі""

msgid ""Romanian""
msgstr ""Румынская""

msgid ""Russian""
msgstr ""Расейская""

msgid ""Sat""
msgstr ""Сб""

msgid ""Saturday""
msgstr ""Субота""

msgid ""Scottish Gaelic""
msgstr ""Гэльская шатляндзкая""

msgid ""September""
msgstr ""верасьня""

msgid ""Serbian""
msgstr ""Сэрбская""

msgid ""Serbian Latin""
msgstr ""Сэрбская (лацінка)""

msgid ""Simplified Chinese""
msgstr ""Кітайская (спрошчаная)""

msgid ""Slovak""
msgstr ""Славацкая""

msgid ""Slovenian""
msgstr ""Славенская""

msgid ""Spanish""
msgstr ""Гішпанская""

msgid ""Sun""
msgstr ""Нд""

msgid ""Sunday""
msgstr ""Нядзеля""

msgid ""Swahili""
msgstr ""Суахілі""

msgid ""Swedish""
msgstr ""Швэдзкая""

msgid ""Tajik""
msgstr ""Таджыкскі""

msgid ""Tamil""
msgstr ""Тамільская""

msgid ""Tatar""
msgstr ""Татарская""

msgid ""Telugu""
msgstr ""Тэлуґу""

msgid ""Thai""
msgstr ""Тайская""

msgid ""Thu""
msgstr ""Чц""

msgid ""Thursday""
msgstr ""Чацьвер""

msgid ""Traditional Chinese""
msgstr ""Кітайская (звычайная)""

msgid ""Tue""
msgstr ""Аў""

msgid ""Tuesday""
msgstr ""Аўторак""

msgid ""Turkish""
msgstr ""Турэцкая""

msgid ""Turkmen""
msgstr ""Туркменская""

msgid ""Udmurt""
msgstr ""Удмурцкая""

msgid ""Ukrainian""
msgstr ""Украінская""

msgid ""Upper Sorbian""
msgstr ""Верхнелужыцкая""

msgid ""Urdu""
msgstr ""Урду""

msgid ""Uyghur""
msgstr ""Уйгурскі""

msgid ""Uzbek""
msgstr ""Узбецкі""

msgid ""Venezuelan Spanish""
msgstr ""Іспанская (Вэнэсуэла)""

msgid ""Vietnamese""
msgstr ""Віетнамская""

msgid ""Wed""
msgstr ""Ср""

msgid ""Wednesday""
msgstr ""Серада""

msgid ""Welsh""
msgstr ""Валійская""

msgid ""a minute ago""
msgid_plural ""%[1]v minutes ago""
msgstr[0] ""%[1]v хвіліну таму""
msgstr[1] ""%[1]v хвіліны таму""
msgstr[2] ""%[1]v хвілінаў таму""
msgstr[3] ""%[1]v хвілінаў таму""

msgid ""a minute from now""
msgid_plural ""%[1]v minutes from now""
msgstr[0] ""праз %[1]v хвіліну""
msgstr[1] ""праз %[1]v хвіліны""
msgstr[2] ""праз %[1]v хвілінаў""
msgstr[3] ""праз %[1]v хвілінаў""

msgid ""a second ago""
msgid_plural ""%[1]v seconds ago""
msgstr[0] ""%[1]v сэкунду таму""
msgstr[1] ""%[1]v сэкунды таму""
msgstr[2] ""%[1]v сэкундаў таму""
msgstr[3] ""%[1]v сэкундаў таму""

msgid ""a second from now""
msgid_plural ""%[1]v seconds from now""
msgstr[0] ""праз %[1]v сэкунду""
msgstr[1] ""праз %[1]v сэкунды""
msgstr[2] ""праз %[1]v сэкундаў""
msgstr[3] ""праз %[1]v сэкундаў""

msgid ""a.m.""
msgstr ""папоўначы""

msgid ""an hour ago""
msgid_plural ""%[1]v hours ago""
msgstr[0] ""%[1]v гадзіну таму""
msgstr[1] ""%[1]v гадзіны таму""
msgstr[2] ""%[1]v гадзінаў таму""
msgstr[3] ""%[1]v гадзінаў таму""

msgid ""an hour from now""
msgid_plural ""%[1]v hours from now""
msgstr[0] ""праз %[1]v гадзіну""
msgstr[1] ""праз %[1]v гадзіны""
msgstr[2] ""праз %[1]v гадзінаў""
msgstr[3] ""праз %[1]v гадзінаў""

msgid ""apr""
msgstr ""кра""

msgid ""aug""
msgstr ""жні""

msgid ""dec""
msgstr ""сьн""

msgid ""eight""
msgstr ""восем""

msgid ""feb""
msgstr ""лют""

msgid ""five""
msgstr ""пяць""

msgid ""four""
msgstr ""чатыры""

msgid ""jan""
msgstr ""сту""

msgid ""jul""
msgstr ""ліп""

msgid ""jun""
msgstr ""чэр""

msgid ""mar""
msgstr ""сак""

msgid ""may""
msgstr ""тра""

msgid ""midnight""
msgstr ""поўнач""

msgid ""nine""
msgstr ""дзевяць""

msgid ""noon""
msgstr ""поўдзень""

msgid ""nov""
msgstr ""ліс""

msgid ""now""
msgstr ""зараз""

msgid ""oct""
msgstr ""кас""

msgid ""one""
msgstr ""адзін""

msgid ""p.m.""
msgstr ""папаўдні""

msgid ""sep""
msgstr ""вер""

msgid ""seven""
msgstr ""сем""

msgid ""six""
msgstr ""шэсьць""

msgid ""three""
msgstr ""тры""

msgid ""today""
msgstr ""сёньня""

msgid ""tomorrow""
msgstr ""заўтра""

msgid ""two""
msgstr ""два""

msgid ""yesterday""
msgstr ""ўчора""

msgctxt ""abbrev. month""
msgid ""April""
msgstr ""красавіка""

msgctxt ""abbrev. month""
msgid ""Aug.""
msgstr ""Жні.""

msgctxt ""abbrev. month""
msgid ""Dec.""
msgstr ""Сьн.""

msgctxt ""abbrev. month""
msgid ""Feb.""
msgstr ""Люты""

msgctxt ""abbrev. month""
msgid ""Jan.""
msgstr ""Сту.""

msgctxt ""abbrev. month""
msgid ""July""
msgstr ""ліпеня""

msgctxt ""abbrev. month""
msgid ""June""
msgstr ""чэрвеня""

msgctxt ""abbrev. month""
msgid ""March""
msgstr ""сакавік""

msgctxt ""abbrev. month""
msgid ""May""
msgstr ""траўня""

msgctxt ""abbrev. month""
msgid ""Nov.""
msgstr ""Ліс.""

msgctxt ""abbrev. month""
msgid ""Oct.""
msgstr ""Кас.""

msgctxt ""abbrev. month""
msgid ""Sept.""
msgstr ""Вер.""

msgctxt ""alt. month""
msgid ""April""
msgstr ""красавіка""

msgctxt ""alt. month""
msgid ""August""
msgstr ""жніўня""

msgctxt ""alt. month""
msgid ""December""
msgstr ""сьнежня""

msgctxt ""alt. month""
msgid ""February""
msgstr ""лютага""

msgctxt ""alt. month""
msgid ""January""
msgstr ""студзеня""

msgctxt ""alt. month""
msgid ""July""
msgstr ""ліпеня""

msgctxt ""alt. month""
msgid ""June""
msgstr ""чэрвеня""

msgctxt ""alt. month""
msgid ""March""
msgstr ""сакавік""

msgctxt ""alt. month""
msgid ""May""
msgstr ""траўня""

msgctxt ""alt. month""
msgid ""November""
msgstr ""лістапада""

msgctxt ""alt. month""
msgid ""October""
msgstr ""кастрычніка""

msgctxt ""alt. month""
msgid ""September""
msgstr ""верасьня""

msgctxt ""naturaltime-future""
msgid ""%[1]v day""
msgid_plural ""%[1]v days""
msgstr[0] ""%[1]v дзень""
msgstr[1] ""%[1]v дзён""
msgstr[2] ""%[1]v дзён""
msgstr[3] ""%[1]v дзён""

msgctxt ""naturaltime-future""
msgid ""%[1]v hour""
msgid_plural ""%[1]v hours""
msgstr[0] ""%[1]v гадзіна""
msgstr[1] ""%[1]v гадзін""
msgstr[2] ""%[1]v гадзін""
msgstr[3] ""%[1]v гадзін""

msgctxt ""naturaltime-future""
msgid ""%[1]v minute""
msgid_plural ""%[1]v minutes""
msgstr[0] ""%[1]v хвіліна""
msgstr[1] ""%[1]v хвілін""
msgstr[2] ""%[1]v хвілін""
msgstr[3] ""%[1]v хвілін""

msgctxt ""naturaltime-future""
msgid ""%[1]v month""
msgid_plural ""%[1]v months""
msgstr[0] ""%[1]v месяц""
msgstr[1] ""%[1]v месяцаў""
msgstr[2] ""%[1]v месяцаў""
msgstr[3] ""%[1]v месяцаў""

msgctxt ""naturaltime-future""
msgid ""%[1]v week""
msgid_plural ""%[1]v weeks""
msgstr[0] ""%[1]v тыдзень""
msgstr[1] ""%[1]v тыдняў""
msgstr[2] ""%[1]v тыдняў""
msgstr[3] ""%[1]v тыдняў""

msgctxt ""naturaltime-future""
msgid ""%[1]v year""
msgid_plural ""%[1]v years""
msgstr[0] ""%[1]v год""
msgstr[1] ""%[1]v гадоў""
msgstr[2] ""%[1]v гадоў""
msgstr[3] ""%[1]v гадоў""

msgctxt ""naturaltime-past""
msgid ""%[1]v day""
msgid_plural ""%[1]v days""
msgstr[0] ""%[1]v дзень""
msgstr[1] ""%[1]v дзён""
msgstr[2] ""%[1]v дзён""
msgstr[3] ""%[1]v дзён""

msgctxt ""naturaltime-past""
msgid ""%[1]v hour""
msgid_plural ""%[1]v hours""
msgstr[0] ""%[1]v гадзіна""
msgstr[1] ""%[1]v гадзін""
msgstr[2] ""%[1]v гадзін""
msgstr[3] ""%[1]v гадзін""

msgctxt ""naturaltime-past""
msgid ""%[1]v minute""
msgid_plural ""%[1]v minutes""
msgstr[0] ""%[1]v хвіліна""
msgstr[1] ""%[1]v хвілін""
msgstr[2] ""%[1]v хвілін""
msgstr[3] ""%[1]v хвілін""

msgctxt ""naturaltime-past""
msgid ""%[1]v month""
msgid_plural ""%[1]v months""
msgstr[0] ""%[1]v месяц""
msgstr[1] ""%[1]v месяцаў""
msgstr[2] ""%[1]v месяцаў""
msgstr[3] ""%[1]v месяцаў""

msgctxt ""naturaltime-past""
msgid ""%[1]v week""
msgid_plural ""%[1]v weeks""
msgstr[0] ""%[1]v тыдзень""
msgstr[1] ""%[1]v тыдняў""
msgstr[2] ""%[1]v тыдняў""
msgstr[3] ""%[1]v тыдняў""

msgctxt ""naturaltime-past""
msgid ""%[1]v year""
msgid_plural ""%[1]v years""
msgstr[0] ""%[1]v год""
msgstr[1] ""%[1]v гадоў""
msgstr[2] ""%[1]v гадоў""
msgstr[3] ""%[1]v гадоў""

msgctxt ""ordinal 0""
msgid ""%vth""
msgstr ""%vы""

msgctxt ""ordinal 1""
msgid ""%vst""
msgstr ""%vы""

msgctxt ""ordinal 11, 12, 13""
msgid ""%vth""
msgstr ""%vы""

msgctxt ""ordinal 2""
msgid ""%vnd""
msgstr ""%vі""

msgctxt ""ordinal 3""
msgid ""%vrd""
msgstr ""%vі""

msgctxt ""ordinal 4""
msgid ""%vth""
msgstr ""%vы""

msgctxt ""ordinal 5""
msgid ""%vth""
msgstr ""%vы""

msgctxt ""ordinal 6""
msgid ""%vth""
msgstr ""%vы""

msgctxt ""ordinal 7""
msgid ""%vth""
msgstr ""%vы""

msgctxt ""ordinal 8""
msgid ""%vth""
msgstr ""%vы""

msgctxt ""ordinal 9""
msgid ""%vth""
msgstr ""%vы""
".
(** humanize/locale/be/main.go (New) *)
Definition loc_be : locale_data := LD (bs "be") [(bs "django.po", po_be)]
  (None).

(** humanize/locale/bg/django.po *)
Definition po_bg : bytes := bs "# This file is distributed under the same license as the Django package.
# 
# Translators:
# arneatec <arneatec@gmail.com>, 2022-2024
# Boris Chervenkov <office@sentido.bg>, 2012
# Claude Paroz <claude@2xlibre.net>, 2020
# Jannis Leidel <jannis@leidel.info>, 2011
# Lyuboslav  Petrov <petrov.lyuboslav@gmail.com>, 2014
# Mariusz Felisiak <felisiak.mariusz@gmail.com>, 2023
# Todor Lubenov <tlubenov@gmail.com>, 2013-2015
# Venelin Stoykov <vkstoykov@gmail.com>, 2015-2017
# vestimir <vestimir@gmail.com>, 2014
# Alexander Atanasov <aatanasov@gmail.com>, 2012
msgid """"
msgstr """"
""Project-Id-Version: django\n""
""Report-Msgid-Bugs-To: \n""
""POT-Creation-Date: 2024-05-22 11:46-0300\n""
""PO-Revision-Date: 2024-08-07 06:49+0000\n""
""Last-Translator: arneatec <arneatec@gmail.com>, 2022-2024\n""
""Language-Team: Bulgarian (http://app.transifex.com/django/django/language/bg/)\n""
""Language: bg\n""
""MIME-Version: 1.0\n""
""Content-Type: text/plain; charset=UTF-8\n""
""Content-Transfer-Encoding: 8bit\n""
""Plural-Forms: nplurals=2; plural=(n != 1);\n""

msgid ""%[1]d byte""
msgid_plural ""%[1]d bytes""
msgstr[0] ""%[1]d, байт""
msgstr[1] ""%[1]d байта""

msgid ""%[1]s billion""
msgid_plural ""%[1]s billion""
msgstr[0] ""%[1]s милиард""
msgstr[1] ""%[1]s милиарда""

msgid ""%[1]s decillion""
msgid_plural ""%[1]s decillion""
msgstr[0] ""%[1]s децилион""
msgstr[1] ""%[1]s децилиона""

msgid ""%[1]s googol""
msgid_plural ""%[1]s googol""
msgstr[0] ""%[1]s гугол""
msgstr[1] ""%[1]s гугола""

msgid ""%[1]s million""
msgid_plural ""%[1]s million""
msgstr[0] ""%[1]s милион""
msgstr[1] ""%[1]s милиона""

msgid ""%[1]s nonillion""
msgid_plural ""%[1]s nonillion""
msgstr[0] ""%[1]s нонилион""
msgstr[1] ""%[1]s нонилиона""

msgid ""%[1]s octillion""
msgid_plural ""%[1]s octillion""
msgstr[0] ""%[1]s октилион""
msgstr[1] ""%[1]s октилиона""

msgid ""%[1]s quadrillion""
msgid_plural ""%[1]s quadrillion""
msgstr[0] ""%[1]s квадрилион""
msgstr[1] ""%[1]s квадрилиона""

msgid ""%[1]s quintillion""
msgid_plural ""%[1]s quintillion""
msgstr[0] ""%[1]s квинтилион""
msgstr[1] ""%[1]s квинтилиона""

msgid ""%[1]s septillion""
msgid_plural ""%[1]s septillion""
msgstr[0] ""%[1]s септилион""
msgstr[1] ""%[1]s септилиона""

msgid ""%[1]s sextillion""
msgid_plural ""%[1]s sextillion""
msgstr[0] ""%[1]s секстилион""
msgstr[1] ""%[1]s секстилиона""

msgid ""%[1]s trillion""
msgid_plural ""%[1]s trillion""
msgstr[0] ""%[1]s трилион""
msgstr[1] ""%[1]s трилиона""

msgid ""%[1]v ago""
msgstr ""преди %[1]v""

msgid ""%[1]v day""
msgid_plural ""%[1]v days""
msgstr[0] ""%[1]v ден""
msgstr[1] ""%[1]v дни""

msgid ""%[1]v from now""
msgstr ""след %[1]v""

msgid ""%[1]v hour""
msgid_plural ""%[1]v hours""
msgstr[0] ""%[1]v час""
msgstr[1] ""%[1]v часа""

msgid ""%[1]v minute""
msgid_plural ""%[1]v minutes""
msgstr[0] ""%[1]v минута""
msgstr[1] ""%[1]v минути""

msgid ""%[1]v month""
msgid_plural ""%[1]v months""
msgstr[0] ""%[1]v месец""
msgstr[1] ""%[1]v месеца""

msgid ""%[1]v week""
msgid_plural ""%[1]v weeks""
msgstr[0] ""%[1]v седмица""
msgstr[1] ""%[1]v седмици""

msgid ""%[1]v year""
msgid_plural ""%[1]v years""
msgstr[0] ""%[1]v година""
msgstr[1] ""%[1]v години""

msgid ""%s GB""
msgstr ""%s ГБ""

msgid ""%s KB""
msgstr ""%s KБ""

msgid ""%s MB""
msgstr ""%s МБ""

msgid ""%s PB""
msgstr ""%s ПБ""

msgid ""%s TB""
msgstr ""%s ТБ""

msgid "", ""
msgstr "", ""

msgid ""AM""
msgstr ""преди обяд""

msgid ""Afrikaans""
msgstr ""африкаански""

msgid ""Albanian""
msgstr ""албански""

msgid ""Algerian Arabic""
msgstr ""алжирски арабски""

msgid ""April""
msgstr ""Април""

msgid ""Arabic""
msgstr ""арабски език""

msgid ""Argentinian Spanish""
msgstr ""кастилски""

msgid ""Armenian""
msgstr ""арменски""

msgid ""Asturian""
msgstr ""Астурийски""

msgid ""August""
msgstr ""Август""

msgid ""Australian English""
msgstr ""австралийски английски""

msgid ""Azerbaijani""
msgstr ""Азербайджански език""

msgid ""Basque""
msgstr ""баски""

msgid ""Belarusian""
msgstr ""Беларуски""

msgid ""Bengali""
msgstr ""бенгалски език""

msgid ""Bosnian""
msgstr ""босненски език""

msgid ""Brazilian Portuguese""
msgstr ""бразилски португалски""

msgid ""Breton""
msgstr ""Бретон""

msgid ""British English""
msgstr ""британски английски""

msgid ""Bulgarian""
msgstr ""български език""

msgid ""Burmese""
msgstr ""бирмански""

msgid ""Catalan""
msgstr ""каталански""

msgid ""Central Kurdish (Sorani)""
msgstr ""Кюрдски, централен (Сорани)""

msgid ""Colombian Spanish""
msgstr ""колумбийски испански""

msgid ""Croatian""
msgstr ""хърватски""

msgid ""Czech""
msgstr ""чешки""

msgid ""Danish""
msgstr ""датски""

msgid ""December""
msgstr ""Декември""

msgid ""Dutch""
msgstr ""нидерландски""

msgid ""English""
msgstr ""английски""

msgid ""Esperanto""
msgstr ""есперанто""

msgid ""Estonian""
msgstr ""естонски""

msgid ""February""
msgstr ""Февруари""

msgid ""Finnish""
msgstr ""финландски""

msgid ""French""
msgstr ""френски""

msgid ""Fri""
msgstr ""Пет""

msgid ""Friday""
msgstr ""петък""

msgid ""Frisian""
msgstr ""фризийски""

msgid ""Galician""
msgstr ""галицейски""

msgid ""Georgian""
msgstr ""грузински""

msgid ""German""
msgstr ""немски""

msgid ""Greek""
msgstr ""гръцки""

msgid ""Hebrew""
msgstr ""иврит""

msgid ""Hindi""
msgstr ""хинди""

msgid ""Hungarian""
msgstr ""унгарски""

msgid ""Icelandic""
msgstr ""исландски""

msgid ""Ido""
msgstr ""идо""

msgid ""Igbo""
msgstr ""игбо""

msgid ""Indonesian""
msgstr ""индонезийски""

msgid ""Interlingua""
msgstr ""интерлингва""

msgid ""Irish""
msgstr ""ирландски""

msgid ""Italian""
msgstr ""италиански""

msgid ""January""
msgstr ""Януари""

msgid ""Japanese""
msgstr ""японски""

msgid ""July""
msgstr ""Юли""

msgid ""June""
msgstr ""Юни""

msgid ""Kabyle""
msgstr ""кабилски""

msgid ""Kannada""
msgstr ""каннада""

msgid ""Kazakh""
msgstr ""казахски""

msgid ""Khmer""
msgstr ""кхмерски""

msgid ""Korean""
msgstr ""корейски""

msgid ""Kyrgyz""
msgstr ""киргизки""

msgid ""Latvian""
msgstr ""латвийски""

msgid ""Lithuanian""
msgstr ""литовски""

msgid ""Lower Sorbian""
msgstr ""долносорбски""

msgid ""Luxembourgish""
msgstr ""люксембургски""

msgid ""Macedonian""
msgstr ""македонски""

msgid ""Malay""
msgstr ""малайски""

msgid ""Malayalam""
msgstr ""малаялам""

msgid ""Marathi""
msgstr ""марати""

msgid ""March""
msgstr ""Март""

msgid ""May""
msgstr ""Май""

msgid ""Mexican Spanish""
msgstr ""мексикански испански""

msgid ""Mon""
msgstr ""Пон""

msgid ""Monday""
msgstr ""понеделник""

msgid ""Mongolian""
msgstr ""монголски""

msgid ""Nepali""
msgstr ""непалски""

msgid ""Nicaraguan Spanish""
msgstr ""никарагуански испански""

msgid ""Norwegian Bokmål""
msgstr ""норвежки букмол""

msgid ""Norwegian Nynorsk""
msgstr ""съвременен норвежки""

msgid ""November""
msgstr ""Ноември""

msgid ""October""
msgstr ""Октомври""

msgid ""Ossetic""
msgstr ""осетски""

msgid ""PM""
msgstr ""след обяд""

msgid ""Persian""
msgstr ""персийски""

msgid ""Polish""
msgstr ""полски""

msgid ""Portuguese""
msgstr ""португалски""

msgid ""Punjabi""
msgstr ""панджабски""

msgid ""Romanian""
msgstr ""румънски""

msgid ""Russian""
msgstr ""руски""

msgid ""Sat""
msgstr ""Съб""

msgid ""Saturday""
msgstr ""събота""

msgid ""Scottish Gaelic""
msgstr ""шотландски галски""

msgid ""September""
msgstr ""Септември""

msgid ""Serbian""
msgstr ""сръбски""

msgid ""Serbian Latin""
msgstr ""сръбски - латиница""

msgid ""Simplified Chinese""
msgstr ""китайски""

msgid ""Slovak""
msgstr ""словашки""

msgid ""Slovenian""
msgstr ""словенски""

msgid ""Spanish""
msgstr ""испански""

msgid ""Sun""
msgstr ""Нед""

msgid ""Sunday""
msgstr ""неделя""

msgid ""Swahili""
msgstr ""суахили""

msgid ""Swedish""
msgstr ""шведски""

msgid ""Tajik""
msgstr ""таджикски""

msgid ""Tamil""
msgstr ""тамилски""

msgid ""Tatar""
msgstr ""татарски""

msgid ""Telugu""
msgstr ""телугу""

msgid ""Thai""
msgstr ""тайландски""

msgid ""Thu""
msgstr ""Чет""

msgid ""Thursday""
msgstr ""четвъртък""

msgid ""Traditional Chinese""
msgstr ""традиционен китайски""

msgid ""Tue""
msgstr ""Вт""

msgid ""Tuesday""
msgstr ""вторник""

msgid ""Turkish""
msgstr ""турски""

msgid ""Turkmen""
msgstr ""туркменски""

msgid ""Udmurt""
msgstr ""удмурт""

msgid ""Ukrainian""
msgstr ""украински""

msgid ""Upper Sorbian""
msgstr ""горносорбски""

msgid ""Urdu""
msgstr ""урду""

msgid ""Uyghur""
msgstr ""Уйгурски""

msgid ""Uzbek""
msgstr ""узбекски""

msgid ""Venezuelan Spanish""
msgstr ""венецуелски испански""

msgid ""Vietnamese""
msgstr ""виетнамски""

msgid ""Wed""
msgstr ""Ср""

msgid ""Wednesday""
msgstr ""сряда""

msgid ""Welsh""
msgstr ""уелски""

msgid ""a minute ago""
msgid_plural ""%[1]v minutes ago""
msgstr[0] ""преди минута""
msgstr[1] ""преди %[1]v минути""

msgid ""a minute from now""
msgid_plural ""%[1]v minutes from now""
msgstr[0] ""след минута""
msgstr[1] ""след %[1]v минути""

msgid ""a second ago""
msgid_plural ""%[1]v seconds ago""
msgstr[0] ""преди секунда""
msgstr[1] ""преди %[1]v секунди""

msgid ""a second from now""
msgid_plural ""%[1]v seconds from now""
msgstr[0] ""след секунда""
msgstr[1] ""след %[1]v секунди""

msgid ""a.m.""
msgstr ""преди обяд""

msgid ""an hour ago""
msgid_plural ""%[1]v hours ago""
msgstr[0] ""преди един час""
msgstr[1] ""преди %[1]v часа""

msgid ""an hour from now""
msgid_plural ""%[1]v hours from now""
msgstr[0] ""след един час""
msgstr[1] ""след %[1]v часа""

msgid ""apr""
msgstr ""апр""

msgid ""aug""
msgstr ""авг""

msgid ""dec""
msgstr ""дек""

msgid ""eight""
msgstr ""осем""

msgid ""feb""
msgstr ""фев""

msgid ""five""
msgstr ""пет""

msgid ""four""
msgstr ""четири""

msgid ""jan""
msgstr ""ян""

msgid ""jul""
msgstr ""юли""

msgid ""jun""
msgstr ""юни""

msgid ""mar""
msgstr ""мар""

msgid ""may""
msgstr ""май""

msgid ""midnight""
msgstr ""полунощ""

msgid ""nine""
msgstr ""девет""

msgid ""noon""
msgstr ""обяд""

msgid ""nov""
msgstr ""ноем""

msgid ""now""
msgstr ""сега""

msgid ""oct""
msgstr ""окт""

msgid ""one""
msgstr ""един""

msgid ""p.m.""
msgstr ""след обяд""

msgid ""sep""
msgstr ""сеп""

msgid ""seven""
msgstr ""седем""

msgid ""six""
msgstr ""шест""

msgid ""three""
msgstr ""три""

msgid ""today""
msgstr ""днес""

msgid ""tomorrow""
msgstr ""утре""

msgid ""two""
msgstr ""два""

msgid ""yesterday""
msgstr ""вчера""

msgctxt ""abbrev. month""
msgid ""April""
msgstr ""Апр.""

msgctxt ""abbrev. month""
msgid ""Aug.""
msgstr ""Авг.""

msgctxt ""abbrev. month""
msgid ""Dec.""
msgstr ""Дек.""

msgctxt ""abbrev. month""
msgid ""Feb.""
msgstr ""Фев.""

msgctxt ""abbrev. month""
msgid ""Jan.""
msgstr ""Ян.""

msgctxt ""abbrev. month""
msgid ""July""
msgstr ""Юли""

msgctxt ""abbrev. month""
msgid ""June""
msgstr ""Юни""

msgctxt ""abbrev. month""
msgid ""March""
msgstr ""Март""

msgctxt ""abbrev. month""
msgid ""May""
msgstr ""Май""

msgctxt ""abbrev. month""
msgid ""Nov.""
msgstr ""Ноем.""

msgctxt ""abbrev. month""
msgid ""Oct.""
msgstr ""Окт.""

msgctxt ""abbrev. month""
msgid ""Sept.""
msgstr ""Септ.""

msgctxt ""alt. month""
msgid ""April""
msgstr ""Април""

msgctxt ""alt. month""
msgid ""August""
msgstr ""Август""

msgctxt ""alt. month""
msgid ""December""
msgstr ""Декември""

msgctxt ""alt. month""
msgid ""February""
msgstr ""Февруари""

msgctxt ""alt. month""
msgid ""January""
msgstr ""Януари""

msgctxt ""alt. month""
msgid ""July""
msgstr ""Юли""

msgctxt ""alt. month""
msgid ""June""
msgstr ""Юни""

msgctxt ""alt. month""
msgid ""March""
msgstr ""Март""

msgctxt ""alt. month""
msgid ""May""
msgstr ""Май""

msgctxt ""alt. month""
msgid ""November""
msgstr ""Ноември""

msgctxt ""alt. month""
msgid ""October""
msgstr ""Октомври""

msgctxt ""alt. month""
msgid ""September""
msgstr ""Септември""

msgctxt ""naturaltime-future""
msgid ""%[1]v day""
msgid_plural ""%[1]v days""
msgstr[0] ""%[1]v ден""
msgstr[1] ""%[1]v дни""

msgctxt ""naturaltime-future""
msgid ""%[1]v hour""
msgid_plural ""%[1]v hours""
msgstr[0] ""%[1]v час""
msgstr[1] ""%[1]v часа""

msgctxt ""naturaltime-future""
msgid ""%[1]v minute""
msgid_plural ""%[1]v minutes""
msgstr[0] ""%[1]v минута""
msgstr[1] ""%[1]v минути""

msgctxt ""naturaltime-future""
msgid ""%[1]v month""
msgid_plural ""%[1]v months""
msgstr[0] ""%[1]v месец""
msgstr[1] ""%[1]v месеца""

msgctxt ""naturaltime-future""
msgid ""%[1]v week""
msgid_plural ""%[1]v weeks""
msgstr[0] ""%[1]v седмица""
msgstr[1] ""%[1]v седмици""

msgctxt ""naturaltime-future""
msgid ""%[1]v year""
msgid_plural ""%[1]v years""
msgstr[0] ""%[1]v година""
msgstr[1] ""%[1]v години""

msgctxt ""naturaltime-past""
msgid ""%[1]v day""
msgid_plural ""%[1]v days""
msgstr[0] ""%[1]v ден""
msgstr[1] ""%[1]v дни""

msgctxt ""naturaltime-past""
msgid ""%[1]v hour""
msgid_plural ""%[1]v hours""
msgstr[0] ""%[1]v час""
msgstr[1] ""%[1]v часа""

msgctxt ""naturaltime-past""
msgid ""%[1]v minute""
msgid_plural ""%[1]v minutes""
msgstr[0] ""%[1]v минута""
msgstr[1] ""%[1]v минути""

msgctxt ""naturaltime-past""
msgid ""%[1]v month""
msgid_plural ""%[1]v months""
msgstr[0] ""%[1]v месец""
msgstr[1] ""%[1]v месеца""

msgctxt ""naturaltime-past""
msgid ""%[1]v week""
msgid_plural ""%[1]v weeks""
msgstr[0] ""%[1]v седмица""
msgstr[1] ""%[1]v седмици""

msgctxt ""naturaltime-past""
msgid ""%[1]v year""
msgid_plural ""%[1]v years""
msgstr[0] ""%[1]v година""
msgstr[1] ""%[1]v години""

msgctxt ""ordinal 0""
msgid ""%vth""
msgstr ""%vен""

msgctxt ""ordinal 1""
msgid ""%vst""
msgstr ""%vви""

msgctxt ""ordinal 11, 12, 13""
msgid ""%vth""
msgstr ""%vти""

msgctxt ""ordinal 2""
msgid ""%vnd""
msgstr ""%vри""

msgctxt ""ordinal 3""
msgid ""%vrd""
msgstr ""%vти""

msgctxt ""ordinal 4""
msgid ""%vth""
msgstr ""%vти""

msgctxt ""ordinal 5""
msgid ""%vth""
msgstr ""%vти""

msgctxt ""ordinal 6""
msgid ""%vth""
msgstr ""%vти""

msgctxt ""ordinal 7""
msgid ""%vth""
msgstr ""%vми""

msgctxt ""ordinal 8""
msgid ""%vth""
msgstr ""%vми""

msgctxt ""ordinal 9""
msgid ""%vth""
msgstr ""%vти""
".
(** humanize/locale/bg/locale.go (New) *)
Definition loc_bg : locale_data := LD (bs "bg") [(bs "django.po", po_bg)]
  (Some (FD (bs "d F Y") (bs "H:i") (bs "") (bs "") (bs "j F") (bs "d.m.Y") (bs ""))).

(** humanize/locale/bn/django.po *)
Definition po_bn : bytes := bs "# This file is distributed under the same license as the Django package.
# 
# Translators:
# Jannis Leidel <jannis@leidel.info>, 2011
# M Nasimul Haque <nasim.haque@gmail.com>, 2013
# Tahmid Rafi <rafi.tahmid@gmail.com>, 2012-2013
# Tahmid Rafi <rafi.tahmid@gmail.com>, 2013
msgid """"
msgstr """"
""Project-Id-Version: django\n""
""Report-Msgid-Bugs-To: \n""
""POT-Creation-Date: 2019-09-27 22:40+0200\n""
""PO-Revision-Date: 2019-11-05 00:38+0000\n""
""Last-Translator: Ramiro Morales\n""
""Language-Team: Bengali (http://www.transifex.com/django/django/language/bn/)\n""
""Language: bn\n""
""MIME-Version: 1.0\n""
""Content-Type: text/plain; charset=UTF-8\n""
""Content-Transfer-Encoding: 8bit\n""
""Plural-Forms: nplurals=2; plural=(n != 1);\n""

msgid ""%[1]d byte""
msgid_plural ""%[1]d bytes""
msgstr[0] ""%[1]d বাইট""
msgstr[1] ""%[1]d বাইট""

msgid ""%[1]s billion""
msgid_plural ""%[1]s billion""
msgstr[0] ""%[1]s বিলিয়ন""
msgstr[1] ""%[1]s বিলিয়ন""

msgid ""%[1]s decillion""
msgid_plural ""%[1]s decillion""
msgstr[0] ""%[1]s ডেসিলিয়ন""
msgstr[1] ""%[1]s ডেসিলিয়ন""

msgid ""%[1]s googol""
msgid_plural ""%[1]s googol""
msgstr[0] ""%[1]s গোগোল""
msgstr[1] ""%[1]s গোগোল""

msgid ""%[1]s million""
msgid_plural ""%[1]s million""
msgstr[0] ""%[1]s মিলিয়ন""
msgstr[1] ""%[1]s মিলিয়ন""

msgid ""%[1]s nonillion""
msgid_plural ""%[1]s nonillion""
msgstr[0] ""%[1]s ননিলিয়ন""
msgstr[1] ""%[1]s ননিলিয়ন""

msgid ""%[1]s octillion""
msgid_plural ""%[1]s octillion""
msgstr[0] ""%[1]s অক্টিলিয়ন""
msgstr[1] ""%[1]s অক্টিলিয়ন""

msgid ""%[1]s quadrillion""
msgid_plural ""%[1]s quadrillion""
msgstr[0] ""%[1]s কোয়াড্রিলিয়ন""
msgstr[1] ""%[1]s কোয়াড্রিলিয়ন""

msgid ""%[1]s quintillion""
msgid_plural ""%[1]s quintillion""
msgstr[0] ""%[1]s কুইন্টিলিয়ন""
msgstr[1] ""%[1]s কুইন্টিলিয়ন""

msgid ""%[1]s septillion""
msgid_plural ""%[1]s septillion""
msgstr[0] ""%[1]s সেপ্টিলিয়ন""
msgstr[1] ""%[1]s সেপ্টিলিয়ন""

msgid ""%[1]s sextillion""
msgid_plural ""%[1]s sextillion""
msgstr[0] ""%[1]s সেক্সটিলিয়ন""
msgstr[1] ""%[1]s সেক্সটিলিয়ন""

msgid ""%[1]s trillion""
msgid_plural ""%[1]s trillion""
msgstr[0] ""%[1]s ট্রিলিয়ন""
msgstr[1] ""%[1]s ট্রিলিয়ন""

msgid ""%s GB""
msgstr ""%s গিগাবাইট""

msgid ""%s KB""
msgstr ""%s কিলোবাইট""

msgid ""%s MB""
msgstr ""%s মেগাবাইট""

msgid ""%s PB""
msgstr ""%s পেটাবাইট""

msgid ""%s TB""
msgstr ""%s টেরাবাইট""

msgid "", ""
msgstr "",""

msgid ""AM""
msgstr ""পূর্বাহ্ন""

msgid ""Afrikaans""
msgstr ""আফ্রিকার অন্যতম সরকারি ভাষা""

msgid ""Albanian""
msgstr ""আলবেনীয়ান""

msgid ""April""
msgstr ""এপ্রিল""

msgid ""Arabic""
msgstr ""আরবী""

msgid ""Argentinian Spanish""
msgstr ""আর্জেন্টিনিয়ান স্প্যানিশ""

msgid ""Armenian""
msgstr """"

msgid ""Asturian""
msgstr """"

msgid ""August""
msgstr ""আগস্ট""

msgid ""Australian English""
msgstr """"

msgid ""Azerbaijani""
msgstr ""আজারবাইজানি""

msgid ""Basque""
msgstr ""বাস্ক""

msgid ""Belarusian""
msgstr ""বেলারুশীয়""

msgid ""Bengali""
msgstr ""বাংলা""

msgid ""Bosnian""
msgstr ""বসনিয়ান""

msgid ""Brazilian Portuguese""
msgstr ""ব্রাজিলিয়ান পর্তুগীজ""

msgid ""Breton""
msgstr ""ব্রেটন""

msgid ""British English""
msgstr ""বৃটিশ ইংলিশ""

msgid ""Bulgarian""
msgstr ""বুলগেরিয়ান""

msgid ""Burmese""
msgstr ""বার্মিজ""

msgid ""Catalan""
msgstr ""ক্যাটালান""

msgid ""Colombian Spanish""
msgstr """"

msgid ""Croatian""
msgstr ""ক্রোয়েশিয়ান""

msgid ""Czech""
msgstr ""চেক""

msgid ""Danish""
msgstr ""ড্যানিশ""

msgid ""December""
msgstr ""ডিসেম্বর""

msgid ""Dutch""
msgstr ""ডাচ""

msgid ""English""
msgstr ""ইংলিশ""

msgid ""Esperanto""
msgstr ""আন্তর্জাতিক ভাষা""

msgid ""Estonian""
msgstr ""এস্তোনিয়ান""

msgid ""February""
msgstr ""ফেব্রুয়ারি""

msgid ""Finnish""
msgstr ""ফিনিশ""

msgid ""French""
msgstr ""ফ্রেঞ্চ""

msgid ""Fri""
msgstr ""শুক্র""

msgid ""Friday""
msgstr ""শুক্রবার""

msgid ""Frisian""
msgstr ""ফ্রিজ্ল্যানডের ভাষা""

msgid ""Galician""
msgstr ""গ্যালিসিয়ান""

msgid ""Georgian""
msgstr ""জর্জিয়ান""

msgid ""German""
msgstr ""জার্মান""

msgid ""Greek""
msgstr ""গ্রিক""

msgid ""Hebrew""
msgstr ""হিব্রু""

msgid ""Hindi""
msgstr ""হিন্দী""

msgid ""Hungarian""
msgstr ""হাঙ্গেরিয়ান""

msgid ""Icelandic""
msgstr ""আইসল্যান্ডিক""

msgid ""Ido""
msgstr """"

msgid ""Indonesian""
msgstr ""ইন্দোনেশিয়ান""

msgid ""Interlingua""
msgstr """"

msgid ""Irish""
msgstr ""আইরিশ""

msgid ""Italian""
msgstr ""ইটালিয়ান""

msgid ""January""
msgstr ""জানুয়ারি""

msgid ""Japanese""
msgstr ""জাপানিজ""

msgid ""July""
msgstr ""জুলাই""

msgid ""June""
msgstr ""জুন""

msgid ""Kabyle""
msgstr """"

msgid ""Kannada""
msgstr ""কান্নাড়া""

msgid ""Kazakh""
msgstr ""কাজাখ""

msgid ""Khmer""
msgstr ""খমার""

msgid ""Korean""
msgstr ""কোরিয়ান""

msgid ""Latvian""
msgstr ""লাটভিয়ান""

msgid ""Lithuanian""
msgstr ""লিথুয়ানিয়ান""

msgid ""Lower Sorbian""
msgstr """"

msgid ""Luxembourgish""
msgstr ""লুক্সেমবার্গীয়""

msgid ""Macedonian""
msgstr ""ম্যাসাডোনিয়ান""

msgid ""Malayalam""
msgstr ""মালায়ালম""

msgid ""Marathi""
msgstr """"

msgid ""March""
msgstr ""মার্চ""

msgid ""May""
msgstr ""মে""

msgid ""Mexican Spanish""
msgstr ""মেক্সিকান স্প্যানিশ""

msgid ""Mon""
msgstr ""সোম""

msgid ""Monday""
msgstr ""সোমবার""

msgid ""Mongolian""
msgstr ""মঙ্গোলিয়ান""

msgid ""Nepali""
msgstr ""নেপালি""

msgid ""Nicaraguan Spanish""
msgstr ""নিকারাগুয়ান স্প্যানিশ""

msgid ""Norwegian Bokmål""
msgstr """"

msgid ""Norwegian Nynorsk""
msgstr ""নরওয়েজীয়ান নিনর্স্ক""

msgid ""November""
msgstr ""নভেম্বর""

msgid ""October""
msgstr ""অক্টোবর""

msgid ""Ossetic""
msgstr ""অসেটিক""

msgid ""PM""
msgstr ""অপরাহ্ন""

msgid ""Persian""
msgstr ""ফারসি""

msgid ""Polish""
msgstr ""পোলিশ""

msgid ""Portuguese""
msgstr ""পর্তুগীজ""

msgid ""Punjabi""
msgstr ""পাঞ্জাবী""

msgid ""Romanian""
msgstr ""রোমানিয়ান""

msgid ""Russian""
msgstr ""রাশান""

msgid ""Sat""
msgstr ""শনি""

msgid ""Saturday""
msgstr ""শনিবার""

msgid ""Scottish Gaelic""
msgstr """"

msgid ""September""
msgstr ""সেপ্টেম্বর""

msgid ""Serbian""
msgstr ""সার্বিয়ান""

msgid ""Serbian Latin""
msgstr ""সার্বিয়ান ল্যাটিন""

msgid ""Simplified Chinese""
msgstr ""সরলীকৃত চাইনীজ""

msgid ""Slovak""
msgstr ""স্লোভাক""

msgid ""Slovenian""
msgstr ""স্লোভেনিয়ান""

msgid ""Spanish""
msgstr ""স্প্যানিশ""

msgid ""Sun""
msgstr ""রবি""

msgid ""Sunday""
msgstr ""রবিবার""

msgid ""Swahili""
msgstr ""সোয়াহিলি""

msgid ""Swedish""
msgstr ""সুইডিশ""

msgid ""Tamil""
msgstr ""তামিল""

msgid ""Tatar""
msgstr ""তাতারদেশীয়""

msgid ""Telugu""
msgstr ""তেলেগু""

msgid ""Thai""
msgstr ""থাই""

msgid ""Thu""
msgstr ""বৃহঃ""

msgid ""Thursday""
msgstr ""বৃহস্পতিবার""

msgid ""Traditional Chinese""
msgstr ""প্রচলিত চাইনীজ""

msgid ""Tue""
msgstr ""মঙ্গল""

msgid ""Tuesday""
msgstr ""মঙ্গলবার""

msgid ""Turkish""
msgstr ""তুর্কি""

msgid ""Udmurt""
msgstr """"

msgid ""Ukrainian""
msgstr ""ইউক্রেনিয়ান""

msgid ""Upper Sorbian""
msgstr """"

msgid ""Urdu""
msgstr ""উর্দু""

msgid ""Uzbek""
msgstr """"

msgid ""Venezuelan Spanish""
msgstr ""ভেনেজুয়েলার স্প্যানিশ""

msgid ""Vietnamese""
msgstr ""ভিয়েতনামিজ""

msgid ""Wed""
msgstr ""বুধ""

msgid ""Wednesday""
msgstr ""বুধবার""

msgid ""Welsh""
msgstr ""ওয়েল্স""

msgid ""a minute ago""
msgid_plural ""%[1]v minutes ago""
msgstr[0] ""এক মিনিট আগে""
msgstr[1] ""%[1]v মিনিট আগে""

msgid ""a minute from now""
msgid_plural ""%[1]v minutes from now""
msgstr[0] ""এখন থেকে এক মিনিট পরে""
msgstr[1] ""এখন থেকে %[1]v মিনিট পরে""

msgid ""a second ago""
msgid_plural ""%[1]v seconds ago""
msgstr[0] ""এক সেকেন্ড আগে""
msgstr[1] ""%[1]v সেকেন্ড আগে""

msgid ""a second from now""
msgid_plural ""%[1]v seconds from now""
msgstr[0] ""এখন থেকে এক সেকেন্ড পরে""
msgstr[1] ""এখন থেকে %[1]v সেকেন্ড পরে""

msgid ""a.m.""
msgstr ""পূর্বাহ্ন""

msgid ""an hour ago""
msgid_plural ""%[1]v hours ago""
msgstr[0] ""এক ঘন্টা আগে""
msgstr[1] ""%[1]v  ঘন্টা আগে""

msgid ""an hour from now""
msgid_plural ""%[1]v hours from now""
msgstr[0] ""এখন থেকে এক ঘন্টা পরে""
msgstr[1] ""এখন থেকে %[1]v ঘন্টা পরে""

msgid ""apr""
msgstr ""এপ্রি.""

msgid ""aug""
msgstr ""আগ.""

msgid ""dec""
msgstr ""ডিসে.""

msgid ""eight""
msgstr ""আট""

msgid ""feb""
msgstr ""ফেব.""

msgid ""five""
msgstr ""পাঁচ""

msgid ""four""
msgstr ""চার""

msgid ""jan""
msgstr ""জান.""

msgid ""jul""
msgstr ""জুল.""

msgid ""jun""
msgstr ""জুন""

msgid ""mar""
msgstr ""মার্চ""

msgid ""may""
msgstr ""মে""

msgid ""midnight""
msgstr ""মধ্যরাত""

msgid ""nine""
msgstr ""নয়""

msgid ""noon""
msgstr ""দুপুর""

msgid ""nov""
msgstr ""নভে.""

msgid ""now""
msgstr ""এখন""

msgid ""oct""
msgstr ""অক্টো.""

msgid ""one""
msgstr ""এক""

msgid ""p.m.""
msgstr ""অপরাহ্ন""

msgid ""sep""
msgstr ""সেপ্টে.""

msgid ""seven""
msgstr ""সাত""

msgid ""six""
msgstr ""ছয়""

msgid ""three""
msgstr ""তিন""

msgid ""today""
msgstr ""আজ""

msgid ""tomorrow""
msgstr ""আগামীকাল""

msgid ""two""
msgstr ""দুই""

msgid ""yesterday""
msgstr ""গতকাল""

msgctxt ""abbrev. month""
msgid ""April""
msgstr ""এপ্রিল""

msgctxt ""abbrev. month""
msgid ""Aug.""
msgstr ""আগ.""

msgctxt ""abbrev. month""
msgid ""Dec.""
msgstr ""ডিসে.""

msgctxt ""abbrev. month""
msgid ""Feb.""
msgstr ""ফেব্রু.""

msgctxt ""abbrev. month""
msgid ""Jan.""
msgstr ""জানু.""

msgctxt ""abbrev. month""
msgid ""July""
msgstr ""জুলাই""

msgctxt ""abbrev. month""
msgid ""June""
msgstr ""জুন""

msgctxt ""abbrev. month""
msgid ""March""
msgstr ""মার্চ""

msgctxt ""abbrev. month""
msgid ""May""
msgstr ""মে""

msgctxt ""abbrev. month""
msgid ""Nov.""
msgstr ""নভে.""

msgctxt ""abbrev. month""
msgid ""Oct.""
msgstr ""অক্টো.""

msgctxt ""abbrev. month""
msgid ""Sept.""
msgstr ""সেপ্ট.""

msgctxt ""alt. month""
msgid ""April""
msgstr ""এপ্রিল""

msgctxt ""alt. month""
msgid ""August""
msgstr ""আগস্ট""

msgctxt ""alt. month""
msgid ""December""
msgstr ""ডিসেম্বর""

msgctxt ""alt. month""
msgid ""February""
msgstr ""ফেব্রুয়ারি""

msgctxt ""alt. month""
msgid ""January""
msgstr ""জানুয়ারি""

msgctxt ""alt. month""
msgid ""July""
msgstr ""জুলাই""

msgctxt ""alt. month""
msgid ""June""
msgstr ""জুন""

msgctxt ""alt. month""
msgid ""March""
msgstr ""মার্চ""

msgctxt ""alt. month""
msgid ""May""
msgstr ""মে""

msgctxt ""alt. month""
msgid ""November""
msgstr ""নভেম্বর""

msgctxt ""alt. month""
msgid ""October""
msgstr ""অক্টোবর""

msgctxt ""alt. month""
msgid ""September""
msgstr ""সেপ্টেম্বর""
".
(** humanize/locale/bn/locale.go (New) *)
Definition loc_bn : locale_data := LD (bs "bn") [(bs "django.po", po_bn)]
  (Some (FD (bs "j F, Y") (bs "g:i A") (bs "") (bs "F Y") (bs "j F") (bs "j M, Y") (bs ""))).

(** humanize/locale/br/django.po *)
Definition po_br : bytes := bs "# This file is distributed under the same license as the Django package.
# 
# Translators:
# Claude Paroz <claude@2xlibre.net>, 2020
# Ewen <ewenak@gmx.com>, 2021
# Fulup <fulup.jakez@gmail.com>, 2012,2014
msgid """"
msgstr """"
""Project-Id-Version: django\n""
""Report-Msgid-Bugs-To: \n""
""POT-Creation-Date: 2021-09-21 10:22+0200\n""
""PO-Revision-Date: 2021-11-18 21:19+0000\n""
""Last-Translator: Transifex Bot <>\n""
""Language-Team: Breton (http://www.transifex.com/django/django/language/br/)\n""
""Language: br\n""
""MIME-Version: 1.0\n""
""Content-Type: text/plain; charset=UTF-8\n""
""Content-Transfer-Encoding: 8bit\n""
""Plural-Forms: nplurals=5; plural=((n%10 == 1) && (n%100 != 11) && (n%100 !=71) && (n%100 !=91) ? 0 :(n%10 == 2) && (n%100 != 12) && (n%100 !=72) && (n%100 !=92) ? 1 :(n%10 ==3 || n%10==4 || n%10==9) && (n%100 < 10 || n% 100 > 19) && (n%100 < 70 || n%100 > 79) && (n%100 < 90 || n%100 > 99) ? 2 :(n != 0 && n % 1000000 == 0) ? 3 : 4);\n""

msgid ""%[1]d byte""
msgid_plural ""%[1]d bytes""
msgstr[0] ""%[1]d okted""
msgstr[1] ""%[1]d okted""
msgstr[2] ""%[1]d okted""
msgstr[3] ""%[1]d okted""
msgstr[4] ""%[1]d okted""

msgid ""%[1]s billion""
msgid_plural ""%[1]s billion""
msgstr[0] ""%[1]s miliard""
msgstr[1] ""%[1]s miliard""
msgstr[2] ""%[1]s miliard""
msgstr[3] ""%[1]s miliard""
msgstr[4] ""%[1]s miliard""

msgid ""%[1]s decillion""
msgid_plural ""%[1]s decillion""
msgstr[0] ""%[1]s dekilion""
msgstr[1] ""%[1]s dekilion""
msgstr[2] ""%[1]s dekilion""
msgstr[3] ""%[1]s dekilion""
msgstr[4] ""%[1]s dekilion""

msgid ""%[1]s googol""
msgid_plural ""%[1]s googol""
msgstr[0] ""%[1]s gogol""
msgstr[1] ""%[1]s gogol""
msgstr[2] ""%[1]s gogol""
msgstr[3] ""%[1]s gogol""
msgstr[4] ""%[1]s gogol""

msgid ""%[1]s million""
msgid_plural ""%[1]s million""
msgstr[0] ""%[1]s million""
msgstr[1] ""%[1]s million""
msgstr[2] ""%[1]s million""
msgstr[3] ""%[1]s million""
msgstr[4] ""%[1]s million""

msgid ""%[1]s nonillion""
msgid_plural ""%[1]s nonillion""
msgstr[0] ""%[1]s nonilion""
msgstr[1] ""%[1]s nonilion""
msgstr[2] ""%[1]s nonilion""
msgstr[3] ""%[1]s nonilion""
msgstr[4] ""%[1]s nonilion""

msgid ""%[1]s octillion""
msgid_plural ""%[1]s octillion""
msgstr[0] ""%[1]s oktilion""
msgstr[1] ""%[1]s oktilion""
msgstr[2] ""%[1]s oktilion""
msgstr[3] ""%[1]s oktilion""
msgstr[4] ""%[1]s oktilion""

msgid ""%[1]s quadrillion""
msgid_plural ""%[1]s quadrillion""
msgstr[0] ""%[1]s c'hadrilion""
msgstr[1] ""%[1]s kadrilion""
msgstr[2] ""%[1]s kadrilion""
msgstr[3] ""%[1]s kadrilion""
msgstr[4] ""%[1]s kadrilion""

msgid ""%[1]s quintillion""
msgid_plural ""%[1]s quintillion""
msgstr[0] ""%[1]s c'hintilion""
msgstr[1] ""%[1]s kintilion""
msgstr[2] ""%[1]s kintilion""
msgstr[3] ""%[1]s kintilion""
msgstr[4] ""%[1]s kintilion""

msgid ""%[1]s septillion""
msgid_plural ""%[1]s septillion""
msgstr[0] ""%[1]s septilion""
msgstr[1] ""%[1]s septilion""
msgstr[2] ""%[1]s septilion""
msgstr[3] ""%[1]s septilion""
msgstr[4] ""%[1]s septilion""

msgid ""%[1]s sextillion""
msgid_plural ""%[1]s sextillion""
msgstr[0] ""%[1]s sekstilion""
msgstr[1] ""%[1]s sekstilion""
msgstr[2] ""%[1]s sekstilion""
msgstr[3] ""%[1]s sekstilion""
msgstr[4] ""%[1]s sekstilion""

msgid ""%[1]s trillion""
msgid_plural ""%[1]s trillion""
msgstr[0] ""%[1]s bilion""
msgstr[1] ""%[1]s bilion""
msgstr[2] ""%[1]s bilion""
msgstr[3] ""%[1]s bilion""
msgstr[4] ""%[1]s bilion""

msgid ""%[1]v ago""
msgstr """"

msgid ""%[1]v day""
msgid_plural ""%[1]v days""
msgstr[0] """"
msgstr[1] """"
msgstr[2] """"
msgstr[3] """"
msgstr[4] """"

msgid ""%[1]v from now""
msgstr """"

msgid ""%[1]v hour""
msgid_plural ""%[1]v hours""
msgstr[0] """"
msgstr[1] """"
msgstr[2] """"
msgstr[3] """"
msgstr[4] """"

msgid ""%[1]v minute""
msgid_plural ""%[1]v minutes""
msgstr[0] """"
msgstr[1] """"
msgstr[2] """"
msgstr[3] """"
msgstr[4] """"

msgid ""%[1]v month""
msgid_plural ""%[1]v months""
msgstr[0] """"
msgstr[1] """"
msgstr[2] """"
msgstr[3] """"
msgstr[4] """"

msgid ""%[1]v week""
msgid_plural ""%[1]v weeks""
msgstr[0] """"
msgstr[1] """"
msgstr[2] """"
msgstr[3] """"
msgstr[4] """"

msgid ""%[1]v year""
msgid_plural ""%[1]v years""
msgstr[0] """"
msgstr[1] """"
msgstr[2] """"
msgstr[3] """"
msgstr[4] """"

msgid ""%s GB""
msgstr ""%s GB""

msgid ""%s KB""
msgstr ""%s KB""

msgid ""%s MB""
msgstr ""%s MB""

msgid ""%s PB""
msgstr ""%s PB""

msgid ""%s TB""
msgstr ""%s TB""

msgid "", ""
msgstr "",""

msgid ""AM""
msgstr ""Mintin""

msgid ""Afrikaans""
msgstr ""Afrikaneg""

msgid ""Albanian""
msgstr ""Albaneg""

msgid ""Algerian Arabic""
msgstr """"

msgid ""April""
msgstr ""Ebrel""

msgid ""Arabic""
msgstr ""Arabeg""

msgid ""Argentinian Spanish""
msgstr ""Spagnoleg Arc'hantina""

msgid ""Armenian""
msgstr """"

msgid ""Asturian""
msgstr ""Astureg""

msgid ""August""
msgstr ""Eost""

msgid ""Australian English""
msgstr ""Saozneg Aostralia""

msgid ""Azerbaijani""
msgstr ""Azeri""

msgid ""Basque""
msgstr ""Euskareg""

msgid ""Belarusian""
msgstr ""Belaruseg""

msgid ""Bengali""
msgstr ""Bengaleg""

msgid ""Bosnian""
msgstr ""Bosneg""

msgid ""Brazilian Portuguese""
msgstr ""Portugaleg Brazil""

msgid ""Breton""
msgstr ""Brezhoneg""

msgid ""British English""
msgstr ""Saozneg Breizh-Veur""

msgid ""Bulgarian""
msgstr ""Bulgareg""

msgid ""Burmese""
msgstr ""Burmeg""

msgid ""Catalan""
msgstr ""Katalaneg""

msgid ""Colombian Spanish""
msgstr ""Spagnoleg Kolombia""

msgid ""Croatian""
msgstr ""Kroateg""

msgid ""Czech""
msgstr ""Tchekeg""

msgid ""Danish""
msgstr ""Daneg""

msgid ""December""
msgstr ""Kerzu""

msgid ""Dutch""
msgstr ""Nederlandeg""

msgid ""English""
msgstr ""Saozneg""

msgid ""Esperanto""
msgstr ""Esperanteg""

msgid ""Estonian""
msgstr ""Estoneg""

msgid ""February""
msgstr ""C'hwevrer""

msgid ""Finnish""
msgstr ""Finneg""

msgid ""French""
msgstr ""Galleg""

msgid ""Fri""
msgstr ""Gwe""

msgid ""Friday""
msgstr ""Gwener""

msgid ""Frisian""
msgstr ""Frizeg""

msgid ""Galician""
msgstr ""Galizeg""

msgid ""Georgian""
msgstr ""Jorjianeg""

msgid ""German""
msgstr ""Alamaneg""

msgid ""Greek""
msgstr ""Gresianeg""

msgid ""Hebrew""
msgstr ""Hebraeg""

msgid ""Hindi""
msgstr ""Hindi""

msgid ""Hungarian""
msgstr ""Hungareg""

msgid ""Icelandic""
msgstr ""Islandeg""

msgid ""Ido""
msgstr ""Ido""

msgid ""Igbo""
msgstr """"

msgid ""Indonesian""
msgstr ""Indonezeg""

msgid ""Interlingua""
msgstr ""Interlingua""

msgid ""Irish""
msgstr ""Iwerzhoneg""

msgid ""Italian""
msgstr ""Italianeg""

msgid ""January""
msgstr ""Genver""

msgid ""Japanese""
msgstr ""Japaneg""

msgid ""July""
msgstr ""Gouere""

msgid ""June""
msgstr ""Mezheven""

msgid ""Kabyle""
msgstr """"

msgid ""Kannada""
msgstr ""Kannata""

msgid ""Kazakh""
msgstr ""kazak""

msgid ""Khmer""
msgstr ""Khmer""

msgid ""Korean""
msgstr ""Koreaneg""

msgid ""Kyrgyz""
msgstr """"

msgid ""Latvian""
msgstr ""Latveg""

msgid ""Lithuanian""
msgstr ""Lituaneg""

msgid ""Lower Sorbian""
msgstr """"

msgid ""Luxembourgish""
msgstr ""Luksembourgeg""

msgid ""Macedonian""
msgstr ""Makedoneg""

msgid ""Malay""
msgstr """"

msgid ""Malayalam""
msgstr ""Malayalam""

msgid ""Marathi""
msgstr ""Marathi""

msgid ""March""
msgstr ""Meurzh""

msgid ""May""
msgstr ""Mae""

msgid ""Mexican Spanish""
msgstr ""Spagnoleg Mec'hiko""

msgid ""Mon""
msgstr ""Lun""

msgid ""Monday""
msgstr ""Lun""

msgid ""Mongolian""
msgstr ""Mongoleg""

msgid ""Nepali""
msgstr ""nepaleg""

msgid ""Nicaraguan Spanish""
msgstr ""Spagnoleg Nicaragua""

msgid ""Norwegian Bokmål""
msgstr """"

msgid ""Norwegian Nynorsk""
msgstr ""Norvegeg Nynorsk""

msgid ""November""
msgstr ""Du""

msgid ""October""
msgstr ""Here""

msgid ""Ossetic""
msgstr ""Oseteg""

msgid ""PM""
msgstr ""G.M.""

msgid ""Persian""
msgstr ""Perseg""

msgid ""Polish""
msgstr ""Poloneg""

msgid ""Portuguese""
msgstr ""Portugaleg""

msgid ""Punjabi""
msgstr ""Punjabeg""

msgid ""Romanian""
msgstr ""Roumaneg""

msgid ""Russian""
msgstr ""Rusianeg""

msgid ""Sat""
msgstr ""Sad""

msgid ""Saturday""
msgstr ""Sadorn""

msgid ""Scottish Gaelic""
msgstr """"

msgid ""September""
msgstr ""Gwengolo""

msgid ""Serbian""
msgstr ""Serbeg""

msgid ""Serbian Latin""
msgstr ""Serbeg e lizherennoù latin""

msgid ""Simplified Chinese""
msgstr ""Sinaeg eeunaet""

msgid ""Slovak""
msgstr ""Slovakeg""

msgid ""Slovenian""
msgstr ""Sloveneg""

msgid ""Spanish""
msgstr ""Spagnoleg""

msgid ""Sun""
msgstr ""Sul""

msgid ""Sunday""
msgstr ""Sul""

msgid ""Swahili""
msgstr ""swahileg""

msgid ""Swedish""
msgstr ""Svedeg""

msgid ""Tajik""
msgstr """"

msgid ""Tamil""
msgstr ""Tamileg""

msgid ""Tatar""
msgstr ""tatar""

msgid ""Telugu""
msgstr ""Telougou""

msgid ""Thai""
msgstr ""Thai""

msgid ""Thu""
msgstr ""Yao""

msgid ""Thursday""
msgstr ""Yaou""

msgid ""Traditional Chinese""
msgstr ""Sinaeg hengounel""

msgid ""Tue""
msgstr ""Meu""

msgid ""Tuesday""
msgstr ""Meurzh""

msgid ""Turkish""
msgstr ""Turkeg""

msgid ""Turkmen""
msgstr """"

msgid ""Udmurt""
msgstr ""Oudmourteg""

msgid ""Ukrainian""
msgstr ""Ukraineg""

msgid ""Upper Sorbian""
msgstr """"

msgid ""Urdu""
msgstr ""Ourdou""

msgid ""Uzbek""
msgstr """"

msgid ""Venezuelan Spanish""
msgstr ""Spagnoleg Venezuela""

msgid ""Vietnamese""
msgstr ""Vietnameg""

msgid ""Wed""
msgstr ""Mer""

msgid ""Wednesday""
msgstr ""Merc'her""

msgid ""Welsh""
msgstr ""Kembraeg""

msgid ""a minute ago""
msgid_plural ""%[1]v minutes ago""
msgstr[0] ""%[1]v munud zo""
msgstr[1] ""%[1]v munud zo""
msgstr[2] ""%[1]v munud zo""
msgstr[3] ""%[1]v munud zo""
msgstr[4] ""%[1]v munud zo""

msgid ""a minute from now""
msgid_plural ""%[1]v minutes from now""
msgstr[0] ""a-benn %[1]v munud""
msgstr[1] ""a-benn %[1]v munud""
msgstr[2] ""a-benn %[1]v munud""
msgstr[3] ""a-benn %[1]v munud""
msgstr[4] ""a-benn %[1]v munud""

msgid ""a second ago""
msgid_plural ""%[1]v seconds ago""
msgstr[0] ""%[1]v eilenn zo""
msgstr[1] ""%[1]v eilenn zo""
msgstr[2] ""%[1]v eilenn zo""
msgstr[3] ""%[1]v eilenn zo""
msgstr[4] ""%[1]v eilenn zo""

msgid ""a second from now""
msgid_plural ""%[1]v seconds from now""
msgstr[0] ""a-benn %[1]v eilenn""
msgstr[1] ""a-benn %[1]v eilenn""
msgstr[2] ""a-benn %[1]v eilenn""
msgstr[3] ""a-benn %[1]v eilenn""
msgstr[4] ""a-benn %[1]v eilenn""

msgid ""a.m.""
msgstr ""mintin""

msgid ""an hour ago""
msgid_plural ""%[1]v hours ago""
msgstr[0] ""%[1]v eurvezh zo""
msgstr[1] ""%[1]v eurvezh zo""
msgstr[2] ""%[1]v eurvezh zo""
msgstr[3] ""%[1]v eurvezh zo""
msgstr[4] ""%[1]v eurvezh zo""

msgid ""an hour from now""
msgid_plural ""%[1]v hours from now""
msgstr[0] ""a-benn %[1]v eurvezh""
msgstr[1] ""a-benn %[1]v eurvezh""
msgstr[2] ""a-benn %[1]v eurvezh""
msgstr[3] ""a-benn %[1]v eurvezh""
msgstr[4] ""a-benn %[1]v eurvezh""

msgid ""apr""
msgstr ""Ebr""

msgid ""aug""
msgstr ""Eos""

msgid ""dec""
msgstr ""Kzu""

msgid ""eight""
msgstr ""eizh""

msgid ""feb""
msgstr ""C'hwe""

msgid ""five""
msgstr ""pemp""

msgid ""four""
msgstr ""pevar""

msgid ""jan""
msgstr ""Gen""

msgid ""jul""
msgstr ""Gou""

msgid ""jun""
msgstr ""Mez""

msgid ""mar""
msgstr ""Meu""

msgid ""may""
msgstr ""Mae""

msgid ""midnight""
msgstr ""hanternoz""

msgid ""nine""
msgstr ""nav""

msgid ""noon""
msgstr ""kreisteiz""

msgid ""nov""
msgstr ""Du""

msgid ""now""
msgstr ""bremañ""

msgid ""oct""
msgstr ""Her""

msgid ""one""
msgstr ""unan""

msgid ""p.m.""
msgstr ""g.m.""

msgid ""sep""
msgstr ""Gwe""

msgid ""seven""
msgstr ""seizh""

msgid ""six""
msgstr ""c'hwec'h""

msgid ""three""
msgstr ""tri""

msgid ""today""
msgstr ""hiziv""

msgid ""tomorrow""
msgstr ""warc'hoazh""

msgid ""two""
msgstr ""daou""

msgid ""yesterday""
msgstr ""dec'h""

msgctxt ""abbrev. month""
msgid ""April""
msgstr ""Ebr.""

msgctxt ""abbrev. month""
msgid ""Aug.""
msgstr ""Eos.""

msgctxt ""abbrev. month""
msgid ""Dec.""
msgstr ""Kzu""

msgctxt ""abbrev. month""
msgid ""Feb.""
msgstr ""C'hwe.""

msgctxt ""abbrev. month""
msgid ""Jan.""
msgstr ""Gen.""

msgctxt ""abbrev. month""
msgid ""July""
msgstr ""Gou.""

msgctxt ""abbrev. month""
msgid ""June""
msgstr ""Mez.""

msgctxt ""abbrev. month""
msgid ""March""
msgstr ""Meu.""

msgctxt ""abbrev. month""
msgid ""May""
msgstr ""Mae""

msgctxt ""abbrev. month""
msgid ""Nov.""
msgstr ""Du""

msgctxt ""abbrev. month""
msgid ""Oct.""
msgstr ""Her.""

msgctxt ""abbrev. month""
msgid ""Sept.""
msgstr ""Gwe.""

msgctxt ""alt. month""
msgid ""April""
msgstr ""Ebrel""

msgctxt ""alt. month""
msgid ""August""
msgstr ""Eost""

msgctxt ""alt. month""
msgid ""December""
msgstr ""Kerzu""

msgctxt ""alt. month""
msgid ""February""
msgstr ""C'hwevrer""

msgctxt ""alt. month""
msgid ""January""
msgstr ""Genver""

msgctxt ""alt. month""
msgid ""July""
msgstr ""Gouere""

msgctxt ""alt. month""
msgid ""June""
msgstr ""Mezheven""

msgctxt ""alt. month""
msgid ""March""
msgstr ""Meurzh""

msgctxt ""alt. month""
msgid ""May""
msgstr ""Mae""

msgctxt ""alt. month""
msgid ""November""
msgstr ""Du""

msgctxt ""alt. month""
msgid ""October""
msgstr ""Here""

msgctxt ""alt. month""
msgid ""September""
msgstr ""Gwengolo""

msgctxt ""ordinal 0""
msgid ""%vth""
msgstr """"

msgctxt ""ordinal 1""
msgid ""%vst""
msgstr """"

msgctxt ""ordinal 11, 12, 13""
msgid ""%vth""
msgstr """"

msgctxt ""ordinal 2""
msgid ""%vnd""
msgstr """"

msgctxt ""ordinal 3""
msgid ""%vrd""
msgstr """"

msgctxt ""ordinal 4""
msgid ""%vth""
msgstr """"

msgctxt ""ordinal 5""
msgid ""%vth""
msgstr """"

msgctxt ""ordinal 6""
msgid ""%vth""
msgstr """"

msgctxt ""ordinal 7""
msgid ""%vth""
msgstr """"

msgctxt ""ordinal 8""
msgid ""%vth""
msgstr """"

msgctxt ""ordinal 9""
msgid ""%vth""
msgstr """"
".
(** humanize/locale/br/locale.go (New) *)
Definition loc_br : locale_data := LD (bs "br") [(bs "django.po", po_br)]
  (None).

(** humanize/locale/bs/django.po *)
Definition po_bs : bytes := bs "# This file is distributed under the same license as the Django package.
# 
# Translators:
# Filip Dupanović <filip.dupanovic@gmail.com>, 2011
# Jannis Leidel <jannis@leidel.info>, 2011
msgid """"
msgstr """"
""Project-Id-Version: django\n""
""Report-Msgid-Bugs-To: \n""
""POT-Creation-Date: 2019-09-27 22:40+0200\n""
""PO-Revision-Date: 2019-11-05 00:38+0000\n""
""Last-Translator: Ramiro Morales\n""
""Language-Team: Bosnian (http://www.transifex.com/django/django/language/bs/)\n""
""Language: bs\n""
""MIME-Version: 1.0\n""
""Content-Type: text/plain; charset=UTF-8\n""
""Content-Transfer-Encoding: 8bit\n""
""Plural-Forms: nplurals=3; plural=(n%10==1 && n%100!=11 ? 0 : n%10>=2 && n%10<=4 && (n%100<10 || n%100>=20) ? 1 : 2);\n""

msgid ""%[1]d byte""
msgid_plural ""%[1]d bytes""
msgstr[0] """"
msgstr[1] """"
msgstr[2] """"

msgid ""%[1]s billion""
msgid_plural ""%[1]s billion""
msgstr[0] """"
msgstr[1] """"
msgstr[2] """"

msgid ""%[1]s decillion""
msgid_plural ""%[1]s decillion""
msgstr[0] """"
msgstr[1] """"
msgstr[2] """"

msgid ""%[1]s googol""
msgid_plural ""%[1]s googol""
msgstr[0] """"
msgstr[1] """"
msgstr[2] """"

msgid ""%[1]s million""
msgid_plural ""%[1]s million""
msgstr[0] """"
msgstr[1] """"
msgstr[2] """"

msgid ""%[1]s nonillion""
msgid_plural ""%[1]s nonillion""
msgstr[0] """"
msgstr[1] """"
msgstr[2] """"

msgid ""%[1]s octillion""
msgid_plural ""%[1]s octillion""
msgstr[0] """"
msgstr[1] """"
msgstr[2] """"

msgid ""%[1]s quadrillion""
msgid_plural ""%[1]s quadrillion""
msgstr[0] """"
msgstr[1] """"
msgstr[2] """"

msgid ""%[1]s quintillion""
msgid_plural ""%[1]s quintillion""
msgstr[0] """"
msgstr[1] """"
msgstr[2] """"

msgid ""%[1]s septillion""
msgid_plural ""%[1]s septillion""
msgstr[0] """"
msgstr[1] """"
msgstr[2] """"

msgid ""%[1]s sextillion""
msgid_plural ""%[1]s sextillion""
msgstr[0] """"
msgstr[1] """"
msgstr[2] """"

msgid ""%[1]s trillion""
msgid_plural ""%[1]s trillion""
msgstr[0] """"
msgstr[1] """"
msgstr[2] """"

msgid ""%s GB""
msgstr ""%s GB""

msgid ""%s KB""
msgstr ""%s KB""

msgid ""%s MB""
msgstr ""%s MB""

msgid ""%s PB""
msgstr ""%s PB""

msgid ""%s TB""
msgstr ""%s TB""

msgid "", ""
msgstr "", ""

msgid ""AM""
msgstr ""AM""

msgid ""Afrikaans""
msgstr """"

msgid ""Albanian""
msgstr ""albanski""

msgid ""April""
msgstr ""april""

msgid ""Arabic""
msgstr ""arapski""

msgid ""Argentinian Spanish""
msgstr ""Argentinski španski""

msgid ""Armenian""
msgstr """"

msgid ""Asturian""
msgstr """"

msgid ""August""
msgstr ""august""

msgid ""Australian English""
msgstr """"

msgid ""Azerbaijani""
msgstr ""Azerbejdžanski""

msgid ""Basque""
msgstr ""baskijski""

msgid ""Belarusian""
msgstr """"

msgid ""Bengali""
msgstr ""bengalski""

msgid ""Bosnian""
msgstr ""bosanski""

msgid ""Brazilian Portuguese""
msgstr ""brazilski portugalski""

msgid ""Breton""
msgstr """"

msgid ""British English""
msgstr ""Britanski engleski""

msgid ""Bulgarian""
msgstr ""bugarski""

msgid ""Burmese""
msgstr """"

msgid ""Catalan""
msgstr ""katalonski""

msgid ""Colombian Spanish""
msgstr """"

msgid ""Croatian""
msgstr ""hrvatski""

msgid ""Czech""
msgstr ""češki""

msgid ""Danish""
msgstr ""danski""

msgid ""December""
msgstr ""decembar""

msgid ""Dutch""
msgstr ""holandski""

msgid ""English""
msgstr ""engleski""

msgid ""Esperanto""
msgstr """"

msgid ""Estonian""
msgstr ""estonski""

msgid ""February""
msgstr ""februar""

msgid ""Finnish""
msgstr ""finski""

msgid ""French""
msgstr ""francuski""

msgid ""Fri""
msgstr ""pet.""

msgid ""Friday""
msgstr ""petak""

msgid ""Frisian""
msgstr ""frišanski""

msgid ""Galician""
msgstr ""galski""

msgid ""Georgian""
msgstr ""gruzijski""

msgid ""German""
msgstr ""njemački""

msgid ""Greek""
msgstr ""grčki""

msgid ""Hebrew""
msgstr ""hebrejski""

msgid ""Hindi""
msgstr ""hindi""

msgid ""Hungarian""
msgstr ""mađarski""

msgid ""Icelandic""
msgstr ""islandski""

msgid ""Ido""
msgstr """"

msgid ""Indonesian""
msgstr ""Indonežanski""

msgid ""Interlingua""
msgstr """"

msgid ""Irish""
msgstr ""irski""

msgid ""Italian""
msgstr ""italijanski""

msgid ""January""
msgstr ""januar""

msgid ""Japanese""
msgstr ""japanski""

msgid ""July""
msgstr ""juli""

msgid ""June""
msgstr ""juni""

msgid ""Kabyle""
msgstr """"

msgid ""Kannada""
msgstr ""kanada""

msgid ""Kazakh""
msgstr """"

msgid ""Khmer""
msgstr ""kambođanski""

msgid ""Korean""
msgstr ""korejski""

msgid ""Latvian""
msgstr ""latvijski""

msgid ""Lithuanian""
msgstr ""litvanski""

msgid ""Lower Sorbian""
msgstr """"

msgid ""Luxembourgish""
msgstr """"

msgid ""Macedonian""
msgstr ""makedonski""

msgid ""Malayalam""
msgstr ""Malajalamski""

msgid ""Marathi""
msgstr """"

msgid ""March""
msgstr ""mart""

msgid ""May""
msgstr ""maj""

msgid ""Mexican Spanish""
msgstr ""Meksički španski""

msgid ""Mon""
msgstr ""pon.""

msgid ""Monday""
msgstr ""ponedjeljak""

msgid ""Mongolian""
msgstr ""Mongolski""

msgid ""Nepali""
msgstr """"

msgid ""Nicaraguan Spanish""
msgstr ""Nikuaraganski španski""

msgid ""Norwegian Bokmål""
msgstr """"

msgid ""Norwegian Nynorsk""
msgstr ""Norveški novi""

msgid ""November""
msgstr ""novembar""

msgid ""October""
msgstr ""oktobar""

msgid ""Ossetic""
msgstr """"

msgid ""PM""
msgstr ""PM""

msgid ""Persian""
msgstr ""persijski""

msgid ""Polish""
msgstr ""poljski""

msgid ""Portuguese""
msgstr ""portugalski""

msgid ""Punjabi""
msgstr ""Pandžabi""

msgid ""Romanian""
msgstr ""rumunski""

msgid ""Russian""
msgstr ""ruski""

msgid ""Sat""
msgstr ""sub.""

msgid ""Saturday""
msgstr ""subota""

msgid ""Scottish Gaelic""
msgstr """"

msgid ""September""
msgstr ""septembar""

msgid ""Serbian""
msgstr ""srpski""

msgid ""Serbian Latin""
msgstr ""srpski latinski""

msgid ""Simplified Chinese""
msgstr ""novokineski""

msgid ""Slovak""
msgstr ""slovački""

msgid ""Slovenian""
msgstr ""slovenački""

msgid ""Spanish""
msgstr ""španski""

msgid ""Sun""
msgstr ""ned.""

msgid ""Sunday""
msgstr ""nedjelja""

msgid ""Swahili""
msgstr """"

msgid ""Swedish""
msgstr ""švedski""

msgid ""Tamil""
msgstr ""tamilski""

msgid ""Tatar""
msgstr """"

msgid ""Telugu""
msgstr ""telugu""

msgid ""Thai""
msgstr ""tajlandski""

msgid ""Thu""
msgstr ""čet.""

msgid ""Thursday""
msgstr ""četvrtak""

msgid ""Traditional Chinese""
msgstr ""starokineski""

msgid ""Tue""
msgstr ""uto.""

msgid ""Tuesday""
msgstr ""utorak""

msgid ""Turkish""
msgstr ""turski""

msgid ""Udmurt""
msgstr """"

msgid ""Ukrainian""
msgstr ""ukrajinski""

msgid ""Upper Sorbian""
msgstr """"

msgid ""Urdu""
msgstr ""Urdu""

msgid ""Uzbek""
msgstr """"

msgid ""Venezuelan Spanish""
msgstr """"

msgid ""Vietnamese""
msgstr ""vijetnamežanski""

msgid ""Wed""
msgstr ""sri.""

msgid ""Wednesday""
msgstr ""srijeda""

msgid ""Welsh""
msgstr ""velški""

msgid ""a minute ago""
msgid_plural ""%[1]v minutes ago""
msgstr[0] """"
msgstr[1] """"
msgstr[2] """"

msgid ""a minute from now""
msgid_plural ""%[1]v minutes from now""
msgstr[0] """"
msgstr[1] """"
msgstr[2] """"

msgid ""a second ago""
msgid_plural ""%[1]v seconds ago""
msgstr[0] """"
msgstr[1] """"
msgstr[2] """"

msgid ""a second from now""
msgid_plural ""%[1]v seconds from now""
msgstr[0] """"
msgstr[1] """"
msgstr[2] """"

msgid ""a.m.""
msgstr ""prije p.""

msgid ""an hour ago""
msgid_plural ""%[1]v hours ago""
msgstr[0] """"
msgstr[1] """"
msgstr[2] """"

msgid ""an hour from now""
msgid_plural ""%[1]v hours from now""
msgstr[0] """"
msgstr[1] """"
msgstr[2] """"

msgid ""apr""
msgstr ""apr.""

msgid ""aug""
msgstr ""aug.""

msgid ""dec""
msgstr ""dec.""

msgid ""eight""
msgstr ""osam""

msgid ""feb""
msgstr ""feb.""

msgid ""five""
msgstr ""pet""

msgid ""four""
msgstr ""četiri""

msgid ""jan""
msgstr ""jan.""

msgid ""jul""
msgstr ""jul.""

msgid ""jun""
msgstr ""jun.""

msgid ""mar""
msgstr ""mar.""

msgid ""may""
msgstr ""maj.""

msgid ""midnight""
msgstr ""ponoć""

msgid ""nine""
msgstr ""devet""

msgid ""noon""
msgstr ""podne""

msgid ""nov""
msgstr ""nov.""

msgid ""now""
msgstr """"

msgid ""oct""
msgstr ""okt.""

msgid ""one""
msgstr ""jedan""

msgid ""p.m.""
msgstr ""po p.""

msgid ""sep""
msgstr ""sep.""

msgid ""seven""
msgstr ""sedam""

msgid ""six""
msgstr ""šest""

msgid ""three""
msgstr ""tri""

msgid ""today""
msgstr ""deset""

msgid ""tomorrow""
msgstr ""sutra""

msgid ""two""
msgstr ""dva""

msgid ""yesterday""
msgstr ""jučer""

msgctxt ""abbrev. month""
msgid ""April""
msgstr ""April""

msgctxt ""abbrev. month""
msgid ""Aug.""
msgstr ""august""

msgctxt ""abbrev. month""
msgid ""Dec.""
msgstr ""decembar""

msgctxt ""abbrev. month""
msgid ""Feb.""
msgstr ""Feb.""

msgctxt ""abbrev. month""
msgid ""Jan.""
msgstr ""Jan.""

msgctxt ""abbrev. month""
msgid ""July""
msgstr ""juli""

msgctxt ""abbrev. month""
msgid ""June""
msgstr ""Juni""

msgctxt ""abbrev. month""
msgid ""March""
msgstr ""Mart""

msgctxt ""abbrev. month""
msgid ""May""
msgstr ""Maj""

msgctxt ""abbrev. month""
msgid ""Nov.""
msgstr ""novembar""

msgctxt ""abbrev. month""
msgid ""Oct.""
msgstr ""oktobar""

msgctxt ""abbrev. month""
msgid ""Sept.""
msgstr ""septembar""

msgctxt ""alt. month""
msgid ""April""
msgstr ""april""

msgctxt ""alt. month""
msgid ""August""
msgstr ""august""

msgctxt ""alt. month""
msgid ""December""
msgstr ""decembar""

msgctxt ""alt. month""
msgid ""February""
msgstr ""februar""

msgctxt ""alt. month""
msgid ""January""
msgstr ""januar""

msgctxt ""alt. month""
msgid ""July""
msgstr ""juli""

msgctxt ""alt. month""
msgid ""June""
msgstr ""juni""

msgctxt ""alt. month""
msgid ""March""
msgstr ""mart""

msgctxt ""alt. month""
msgid ""May""
msgstr ""maj""

msgctxt ""alt. month""
msgid ""November""
msgstr ""Novembar""

msgctxt ""alt. month""
msgid ""October""
msgstr ""oktobar""

msgctxt ""alt. month""
msgid ""September""
msgstr ""septembar""
".
(** humanize/locale/bs/locale.go (New) *)
Definition loc_bs : locale_data := LD (bs "bs") [(bs "django.po", po_bs)]
  (Some (FD (bs "j. N Y.") (bs "G:i") (bs "j. N. Y. G:i T") (bs "F Y.") (bs "j. F") (bs "Y M j") (bs ""))).

Definition shipped_1 : list (bytes * locale_data) :=
  [(bs "af", loc_af);
   (bs "ar", loc_ar);
   (bs "arDZ", loc_arDZ);
   (bs "ast", loc_ast);
   (bs "az", loc_az);
   (bs "be", loc_be);
   (bs "bg", loc_bg);
   (bs "bn", loc_bn);
   (bs "br", loc_br);
   (bs "bs", loc_bs)].
