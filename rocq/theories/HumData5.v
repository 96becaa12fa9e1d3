(** Translations and formats that come with humanize, part 5: generated by
    tools/gen_humdata.py from /repo/humanize/locale, django.po and the Go file of
    each package. *)
From Coq Require Import String Ascii List.
From Verif Require Import Base DfmtModel HumLocModel.
Import ListNotations.

(** humanize/locale/hy/django.po *)
Definition po_hy : bytes := bs "# This file is distributed under the same license as the Django package.
# 
# Translators:
# Սմբատ Պետրոսյան <smbatpetrosyan@gmail.com>, 2014
msgid """"
msgstr """"
""Project-Id-Version: django\n""
""Report-Msgid-Bugs-To: \n""
""POT-Creation-Date: 2019-09-27 22:40+0200\n""
""PO-Revision-Date: 2019-11-05 00:38+0000\n""
""Last-Translator: Ramiro Morales\n""
""Language-Team: Armenian (http://www.transifex.com/django/django/language/hy/)\n""
""Language: hy\n""
""MIME-Version: 1.0\n""
""Content-Type: text/plain; charset=UTF-8\n""
""Content-Transfer-Encoding: 8bit\n""
""Plural-Forms: nplurals=2; plural=(n != 1);\n""

msgid ""%[1]d byte""
msgid_plural ""%[1]d bytes""
msgstr[0] ""%[1]d բայթ""
msgstr[1] ""%[1]d բայթ""

msgid ""%[1]s billion""
msgid_plural ""%[1]s billion""
msgstr[0] ""%[1]s միլիարդ""
msgstr[1] ""%[1]s միլիարդ""

msgid ""%[1]s decillion""
msgid_plural ""%[1]s decillion""
msgstr[0] """"
msgstr[1] """"

msgid ""%[1]s googol""
msgid_plural ""%[1]s googol""
msgstr[0] """"
msgstr[1] """"

msgid ""%[1]s million""
msgid_plural ""%[1]s million""
msgstr[0] ""%[1]s միլիոն""
msgstr[1] ""%[1]s միլիոն""

msgid ""%[1]s nonillion""
msgid_plural ""%[1]s nonillion""
msgstr[0] """"
msgstr[1] """"

msgid ""%[1]s octillion""
msgid_plural ""%[1]s octillion""
msgstr[0] """"
msgstr[1] """"

msgid ""%[1]s quadrillion""
msgid_plural ""%[1]s quadrillion""
msgstr[0] ""%[1]s կվադրիլիոն""
msgstr[1] ""%[1]s կվադրիլիոն""

msgid ""%[1]s quintillion""
msgid_plural ""%[1]s quintillion""
msgstr[0] """"
msgstr[1] """"

msgid ""%[1]s septillion""
msgid_plural ""%[1]s septillion""
msgstr[0] """"
msgstr[1] """"

msgid ""%[1]s sextillion""
msgid_plural ""%[1]s sextillion""
msgstr[0] """"
msgstr[1] """"

msgid ""%[1]s trillion""
msgid_plural ""%[1]s trillion""
msgstr[0] ""%[1]s տրիլիոն""
msgstr[1] ""%[1]s տրիլիոն""

msgid ""%[1]v ago""
msgstr ""%[1]v առաջ""

msgid ""%[1]v from now""
msgstr ""%[1]v հետո""

msgid ""%s GB""
msgstr ""%s ԳԲ""

msgid ""%s KB""
msgstr ""%s ԿԲ""

msgid ""%s MB""
msgstr ""%s ՄԲ""

msgid ""%s PB""
msgstr ""%s ՊԲ""

msgid ""%s TB""
msgstr ""%s ՏԲ""

msgid "", ""
msgstr "", ""

msgid ""AM""
msgstr ""AM""

msgid ""Afrikaans""
msgstr ""Աֆրիկաանս""

msgid ""Albanian""
msgstr ""Ալբաներեն""

msgid ""April""
msgstr ""Ապրիլ""

msgid ""Arabic""
msgstr ""Արաբերեն""

msgid ""Argentinian Spanish""
msgstr ""Արգենտինական իսպաներեն""

msgid ""Armenian""
msgstr """"

msgid ""Asturian""
msgstr ""Աստուրերեն""

msgid ""August""
msgstr ""Օգոստոս""

msgid ""Australian English""
msgstr ""Ավստրալական Անգլերեն""

msgid ""Azerbaijani""
msgstr ""Ադրբեջաներեն""

msgid ""Basque""
msgstr ""Բասկերեն""

msgid ""Belarusian""
msgstr ""Բելոռուսերեն""

msgid ""Bengali""
msgstr ""Բենգալերեն""

msgid ""Bosnian""
msgstr ""Բոսնիերեն""

msgid ""Brazilian Portuguese""
msgstr ""Բրազիլական պորտուգալերեն""

msgid ""Breton""
msgstr ""Բրետոներեն""

msgid ""British English""
msgstr ""Բրիտանական Անգլերեն""

msgid ""Bulgarian""
msgstr ""Բուլղարերեն""

msgid ""Burmese""
msgstr ""Բիրմաներեն""

msgid ""Catalan""
msgstr ""Կատալաներեն""

msgid ""Colombian Spanish""
msgstr ""Կոլումբիական իսպաներեն""

msgid ""Croatian""
msgstr ""Խորվաթերեն""

msgid ""Czech""
msgstr ""Չեխերեն""

msgid ""Danish""
msgstr ""Դանիերեն""

msgid ""December""
msgstr ""Դեկտեմբեր""

msgid ""Dutch""
msgstr ""Հոլանդերեն""

msgid ""English""
msgstr ""Անգլերեն""

msgid ""Esperanto""
msgstr ""Էսպերանտո""

msgid ""Estonian""
msgstr ""Էստոներեն""

msgid ""February""
msgstr ""Փետրվար""

msgid ""Finnish""
msgstr ""Ֆիներեն""

msgid ""French""
msgstr ""Ֆրանսերեն""

msgid ""Fri""
msgstr ""Ուրբ""

msgid ""Friday""
msgstr ""Ուրբաթ""

msgid ""Frisian""
msgstr ""Ֆրիզերեն""

msgid ""Galician""
msgstr ""Գալիսերեն""

msgid ""Georgian""
msgstr ""Վրացերեն""

msgid ""German""
msgstr ""Գերմաներեն""

msgid ""Greek""
msgstr ""Հունարեն""

msgid ""Hebrew""
msgstr ""Եբրայերեն""

msgid ""Hindi""
msgstr ""Հինդի""

msgid ""Hungarian""
msgstr ""Հունգարերեն""

msgid ""Icelandic""
msgstr ""Իսլանդերեն""

msgid ""Ido""
msgstr ""Իդո""

msgid ""Indonesian""
msgstr ""Ինդոնեզերեն""

msgid ""Interlingua""
msgstr ""Ինտերլինգուա""

msgid ""Irish""
msgstr ""Իռլանդերեն""

msgid ""Italian""
msgstr ""Իտալերեն""

msgid ""January""
msgstr ""Հունվար""

msgid ""Japanese""
msgstr ""Ճապոներեն""

msgid ""July""
msgstr ""Հուլիս""

msgid ""June""
msgstr ""Հունիս""

msgid ""Kabyle""
msgstr """"

msgid ""Kannada""
msgstr ""Կանադա""

msgid ""Kazakh""
msgstr ""Ղազախերեն""

msgid ""Khmer""
msgstr ""Քեմերերեն""

msgid ""Korean""
msgstr ""Կորեերեն""

msgid ""Latvian""
msgstr ""Լատիշերեն""

msgid ""Lithuanian""
msgstr ""Լիտվերեն""

msgid ""Lower Sorbian""
msgstr """"

msgid ""Luxembourgish""
msgstr ""Լյուքսեմբուրգերեն""

msgid ""Macedonian""
msgstr ""Մակեդոներեն""

msgid ""Malayalam""
msgstr ""Մալայալամ""

msgid ""Marathi""
msgstr ""Մարատխի""

msgid ""March""
msgstr ""Մարտ""

msgid ""May""
msgstr ""Մայիս""

msgid ""Mexican Spanish""
msgstr ""Մեքսիկական իսպաներեն""

msgid ""Mon""
msgstr ""Երկ""

msgid ""Monday""
msgstr ""Երկուշաբթի""

msgid ""Mongolian""
msgstr ""Մոնղոլերեն""

msgid ""Nepali""
msgstr ""Նեպալերեն""

msgid ""Nicaraguan Spanish""
msgstr ""Նիկարագուական իսպաներեն""

msgid ""Norwegian Bokmål""
msgstr """"

msgid ""Norwegian Nynorsk""
msgstr ""Նորվեգերեն (Նյունորսկ)""

msgid ""November""
msgstr ""Նոյեմբեր""

msgid ""October""
msgstr ""Հոկտեմբեր""

msgid ""Ossetic""
msgstr ""Օսերեն""

msgid ""PM""
msgstr ""PM""

msgid ""Persian""
msgstr ""Պարսկերեն""

msgid ""Polish""
msgstr ""Լեհերեն""

msgid ""Portuguese""
msgstr ""Պորտուգալերեն""

msgid ""Punjabi""
msgstr ""Փանջաբի""

msgid ""Romanian""
msgstr ""Ռումիներեն""

msgid ""Russian""
msgstr ""Ռուսերեն""

msgid ""Sat""
msgstr ""Շբթ""

msgid ""Saturday""
msgstr ""Շաբաթ""

msgid ""Scottish Gaelic""
msgstr ""Գելական շոտլանդերեն""

msgid ""September""
msgstr ""Սեպտեմբեր""

msgid ""Serbian""
msgstr ""Սերբերեն""

msgid ""Serbian Latin""
msgstr ""Սերբերեն (լատինատառ)""

msgid ""Simplified Chinese""
msgstr ""Հեշտացված չինարեն""

msgid ""Slovak""
msgstr ""Սլովակերեն""

msgid ""Slovenian""
msgstr ""Սլովեներեն""

msgid ""Spanish""
msgstr ""Իսպաներեն""

msgid ""Sun""
msgstr ""Կիր""

msgid ""Sunday""
msgstr ""Կիրակի""

msgid ""Swahili""
msgstr ""Սվահիլի""

msgid ""Swedish""
msgstr ""Շվեդերեն""

msgid ""Tamil""
msgstr ""Թամիլերեն""

msgid ""Tatar""
msgstr ""Թաթարերեն""

msgid ""Telugu""
msgstr ""Թելուգու""

msgid ""Thai""
msgstr ""Թայերեն""

msgid ""Thu""
msgstr ""Հնգ""

msgid ""Thursday""
msgstr ""Հինգշաբթի""

msgid ""Traditional Chinese""
msgstr ""Ավանդական չինարեն""

msgid ""Tue""
msgstr ""Երք""

msgid ""Tuesday""
msgstr ""Երեքշաբթի""

msgid ""Turkish""
msgstr ""Թուրքերեն""

msgid ""Udmurt""
msgstr ""Ումուրտերեն""

msgid ""Ukrainian""
msgstr ""Ուկրաիներեն""

msgid ""Upper Sorbian""
msgstr """"

msgid ""Urdu""
msgstr ""Ուրդու""

msgid ""Uzbek""
msgstr """"

msgid ""Venezuelan Spanish""
msgstr ""Վենեսուելլական իսպաներեն""

msgid ""Vietnamese""
msgstr ""Վիետնամերեն""

msgid ""Wed""
msgstr ""Չրք""

msgid ""Wednesday""
msgstr ""Չորեքշաբթի""

msgid ""Welsh""
msgstr ""Վալլիերեն""

msgid ""a minute ago""
msgid_plural ""%[1]v minutes ago""
msgstr[0] ""մեկ րոպե առաջ""
msgstr[1] ""%[1]v րոպե առաջ""

msgid ""a minute from now""
msgid_plural ""%[1]v minutes from now""
msgstr[0] ""մեկ րոպե անց""
msgstr[1] ""%[1]v րոպե անց""

msgid ""a second ago""
msgid_plural ""%[1]v seconds ago""
msgstr[0] ""մեկ վայրկյան առաջ""
msgstr[1] ""%[1]v վայրկյան առաջ""

msgid ""a second from now""
msgid_plural ""%[1]v seconds from now""
msgstr[0] ""մեկ վայրկյանից""
msgstr[1] ""%[1]v վայրկյանից""

msgid ""a.m.""
msgstr ""a.m.""

msgid ""an hour ago""
msgid_plural ""%[1]v hours ago""
msgstr[0] ""մեկ ժամ առաջ""
msgstr[1] ""%[1]v ժամ առաջ""

msgid ""an hour from now""
msgid_plural ""%[1]v hours from now""
msgstr[0] ""մեկ ժամ հետո""
msgstr[1] ""%[1]v ժամ հետո""

msgid ""apr""
msgstr ""ապր""

msgid ""aug""
msgstr ""օգտ""

msgid ""dec""
msgstr ""դեկ""

msgid ""eight""
msgstr ""ութ""

msgid ""feb""
msgstr ""փետ""

msgid ""five""
msgstr ""հինգ""

msgid ""four""
msgstr ""չորս""

msgid ""jan""
msgstr ""հուն""

msgid ""jul""
msgstr ""հուլ""

msgid ""jun""
msgstr ""հուն""

msgid ""mar""
msgstr ""մար""

msgid ""may""
msgstr ""մայ""

msgid ""midnight""
msgstr ""կեսգիշեր""

msgid ""nine""
msgstr ""ինը""

msgid ""noon""
msgstr ""կեսօր""

msgid ""nov""
msgstr ""նոյ""

msgid ""now""
msgstr ""հիմա""

msgid ""oct""
msgstr ""հոկ""

msgid ""one""
msgstr ""մեկ""

msgid ""p.m.""
msgstr ""p.m.""

msgid ""sep""
msgstr ""սեպ""

msgid ""seven""
msgstr ""յոթ""

msgid ""six""
msgstr ""վեց""

msgid ""three""
msgstr ""երեք""

msgid ""today""
msgstr ""այսօր""

msgid ""tomorrow""
msgstr ""վաղը""

msgid ""two""
msgstr ""երկու""

msgid ""yesterday""
msgstr ""երեկ""

msgctxt ""abbrev. month""
msgid ""April""
msgstr ""Մարտ""

msgctxt ""abbrev. month""
msgid ""Aug.""
msgstr ""Օգոստ․""

msgctxt ""abbrev. month""
msgid ""Dec.""
msgstr ""Դեկ․""

msgctxt ""abbrev. month""
msgid ""Feb.""
msgstr ""Փետ․""

msgctxt ""abbrev. month""
msgid ""Jan.""
msgstr ""Հուն․""

msgctxt ""abbrev. month""
msgid ""July""
msgstr ""Հուլիս""

msgctxt ""abbrev. month""
msgid ""June""
msgstr ""Հունիս""

msgctxt ""abbrev. month""
msgid ""March""
msgstr ""Մարտ""

msgctxt ""abbrev. month""
msgid ""May""
msgstr ""Մայիս""

msgctxt ""abbrev. month""
msgid ""Nov.""
msgstr ""Նոյ․""

msgctxt ""abbrev. month""
msgid ""Oct.""
msgstr ""Հոկտ․""

msgctxt ""abbrev. month""
msgid ""Sept.""
msgstr ""Սեպտ․""

msgctxt ""alt. month""
msgid ""April""
msgstr ""Ապրիլ""

msgctxt ""alt. month""
msgid ""August""
msgstr ""Օգոստոս""

msgctxt ""alt. month""
msgid ""December""
msgstr ""Դեկտեմբեր""

msgctxt ""alt. month""
msgid ""February""
msgstr ""Փետրվար""

msgctxt ""alt. month""
msgid ""January""
msgstr ""Հունվար""

msgctxt ""alt. month""
msgid ""July""
msgstr ""Հուլիս""

msgctxt ""alt. month""
msgid ""June""
msgstr ""Հունիս""

msgctxt ""alt. month""
msgid ""March""
msgstr ""Մարտ""

msgctxt ""alt. month""
msgid ""May""
msgstr ""Մայիս""

msgctxt ""alt. month""
msgid ""November""
msgstr ""Նոյեմբեր""

msgctxt ""alt. month""
msgid ""October""
msgstr ""Հոկտեմբեր""

msgctxt ""alt. month""
msgid ""September""
msgstr ""Սեպտեմբեր""

msgctxt ""naturaltime-future""
msgid ""%[1]v day""
msgid_plural ""%[1]v days""
msgstr[0] ""%[1]v օր""
msgstr[1] ""%[1]v օր""

msgctxt ""naturaltime-future""
msgid ""%[1]v hour""
msgid_plural ""%[1]v hours""
msgstr[0] ""%[1]v ժամ""
msgstr[1] ""%[1]v ժամ""

msgctxt ""naturaltime-future""
msgid ""%[1]v minute""
msgid_plural ""%[1]v minutes""
msgstr[0] ""%[1]v րոպե""
msgstr[1] ""%[1]v րոպե""

msgctxt ""naturaltime-future""
msgid ""%[1]v month""
msgid_plural ""%[1]v months""
msgstr[0] ""%[1]v ամիս""
msgstr[1] ""%[1]v ամիս""

msgctxt ""naturaltime-future""
msgid ""%[1]v week""
msgid_plural ""%[1]v weeks""
msgstr[0] ""%[1]v շաբաթ""
msgstr[1] ""%[1]v շաբաթ""

msgctxt ""naturaltime-future""
msgid ""%[1]v year""
msgid_plural ""%[1]v years""
msgstr[0] ""%[1]v տարի""
msgstr[1] ""%[1]v տարի""

msgctxt ""naturaltime-past""
msgid ""%[1]v day""
msgid_plural ""%[1]v days""
msgstr[0] ""%[1]v օր""
msgstr[1] ""%[1]v օր""

msgctxt ""naturaltime-past""
msgid ""%[1]v hour""
msgid_plural ""%[1]v hours""
msgstr[0] ""%[1]v ժամ""
msgstr[1] ""%[1]v ժամ""

msgctxt ""naturaltime-past""
msgid ""%[1]v minute""
msgid_plural ""%[1]v minutes""
msgstr[0] ""%[1]v րոպե""
msgstr[1] ""%[1]v րոպե""

msgctxt ""naturaltime-past""
msgid ""%[1]v month""
msgid_plural ""%[1]v months""
msgstr[0] ""%[1]v ամիս""
msgstr[1] ""%[1]v ամիս""

msgctxt ""naturaltime-past""
msgid ""%[1]v week""
msgid_plural ""%[1]v weeks""
msgstr[0] ""%[1]v շաբաթ""
msgstr[1] ""%[1]v շաբաթ""

msgctxt ""naturaltime-past""
msgid ""%[1]v year""
msgid_plural ""%[1]v years""
msgstr[0] ""%[1]v տարի""
msgstr[1] ""%[1]v տարի""

msgctxt ""ordinal 0""
msgid ""%vth""
msgstr ""%vրդ""

msgctxt ""ordinal 1""
msgid ""%vst""
msgstr ""%vրդ""

msgctxt ""ordinal 11, 12, 13""
msgid ""%vth""
msgstr ""%vրդ""

msgctxt ""ordinal 2""
msgid ""%vnd""
msgstr ""%vրդ""

msgctxt ""ordinal 3""
msgid ""%vrd""
msgstr ""%vրդ""

msgctxt ""ordinal 4""
msgid ""%vth""
msgstr ""%vրդ""

msgctxt ""ordinal 5""
msgid ""%vth""
msgstr ""%vրդ""

msgctxt ""ordinal 6""
msgid ""%vth""
msgstr ""%vրդ""

msgctxt ""ordinal 7""
msgid ""%vth""
msgstr ""%vրդ""

msgctxt ""ordinal 8""
msgid ""%vth""
msgstr ""%vրդ""

msgctxt ""ordinal 9""
msgid ""%vth""
msgstr ""%vրդ""
".
(** humanize/locale/hy/locale.go (New) *)
Definition loc_hy : locale_data := LD (bs "hy") [(bs "django.po", po_hy)]
  (None).

(** humanize/locale/ia/django.po *)
Definition po_ia : bytes := bs "# This file is distributed under the same license as the Django package.
# 
# Translators:
# Martijn Dekker <mcdutchie@hotmail.com>, 2012,2014,2016,2021
msgid """"
msgstr """"
""Project-Id-Version: django\n""
""Report-Msgid-Bugs-To: \n""
""POT-Creation-Date: 2021-09-21 10:22+0200\n""
""PO-Revision-Date: 2021-11-18 21:19+0000\n""
""Last-Translator: Transifex Bot <>\n""
""Language-Team: Interlingua (http://www.transifex.com/django/django/language/ia/)\n""
""Language: ia\n""
""MIME-Version: 1.0\n""
""Content-Type: text/plain; charset=UTF-8\n""
""Content-Transfer-Encoding: 8bit\n""
""Plural-Forms: nplurals=2; plural=(n != 1);\n""

msgid ""%[1]d byte""
msgid_plural ""%[1]d bytes""
msgstr[0] ""%[1]d byte""
msgstr[1] ""%[1]d bytes""

msgid ""%[1]s billion""
msgid_plural ""%[1]s billion""
msgstr[0] ""%[1]s milliardo""
msgstr[1] ""%[1]s milliardos""

msgid ""%[1]s decillion""
msgid_plural ""%[1]s decillion""
msgstr[0] ""%[1]s quintilliardo""
msgstr[1] ""%[1]s quintilliardos""

msgid ""%[1]s googol""
msgid_plural ""%[1]s googol""
msgstr[0] ""%[1]s googol""
msgstr[1] ""%[1]s googoles""

msgid ""%[1]s million""
msgid_plural ""%[1]s million""
msgstr[0] ""%[1]s million""
msgstr[1] ""%[1]s milliones""

msgid ""%[1]s nonillion""
msgid_plural ""%[1]s nonillion""
msgstr[0] ""%[1]s quintillion""
msgstr[1] ""%[1]s quintilliones""

msgid ""%[1]s octillion""
msgid_plural ""%[1]s octillion""
msgstr[0] ""%[1]s quadrilliardo""
msgstr[1] ""%[1]s quadrilliardos""

msgid ""%[1]s quadrillion""
msgid_plural ""%[1]s quadrillion""
msgstr[0] ""%[1]s billiardo""
msgstr[1] ""%[1]s billiardos""

msgid ""%[1]s quintillion""
msgid_plural ""%[1]s quintillion""
msgstr[0] ""%[1]s trillion""
msgstr[1] ""%[1]s trilliones""

msgid ""%[1]s septillion""
msgid_plural ""%[1]s septillion""
msgstr[0] ""%[1]s quadrillion""
msgstr[1] ""%[1]s quadrilliones""

msgid ""%[1]s sextillion""
msgid_plural ""%[1]s sextillion""
msgstr[0] ""%[1]s trilliardo""
msgstr[1] ""%[1]s trilliardos""

msgid ""%[1]s trillion""
msgid_plural ""%[1]s trillion""
msgstr[0] ""%[1]s billion""
msgstr[1] ""%[1]s billiones""

msgid ""%[1]v day""
msgid_plural ""%[1]v days""
msgstr[0] """"
msgstr[1] """"

msgid ""%[1]v hour""
msgid_plural ""%[1]v hours""
msgstr[0] """"
msgstr[1] """"

msgid ""%[1]v minute""
msgid_plural ""%[1]v minutes""
msgstr[0] """"
msgstr[1] """"

msgid ""%[1]v month""
msgid_plural ""%[1]v months""
msgstr[0] """"
msgstr[1] """"

msgid ""%[1]v week""
msgid_plural ""%[1]v weeks""
msgstr[0] """"
msgstr[1] """"

msgid ""%[1]v year""
msgid_plural ""%[1]v years""
msgstr[0] """"
msgstr[1] """"

msgid ""%s GB""
msgstr ""%s GB""

msgid ""%s KB""
msgstr ""%s KB""

msgid ""%s MB""
msgstr ""%s MB""

msgid ""%s PB""
msgstr ""%s PB""

msgid ""%s TB""
msgstr ""%s TB""

msgid "", ""
msgstr "", ""

msgid ""AM""
msgstr ""AM""

msgid ""Afrikaans""
msgstr ""afrikaans""

msgid ""Albanian""
msgstr ""albanese""

msgid ""Algerian Arabic""
msgstr ""Arabe algerian""

msgid ""April""
msgstr ""april""

msgid ""Arabic""
msgstr ""arabe""

msgid ""Argentinian Spanish""
msgstr ""espaniol argentin""

msgid ""Armenian""
msgstr ""Armenio""

msgid ""Asturian""
msgstr ""asturiano""

msgid ""August""
msgstr ""augusto""

msgid ""Australian English""
msgstr ""anglese australian""

msgid ""Azerbaijani""
msgstr ""azeri""

msgid ""Basque""
msgstr ""basco""

msgid ""Belarusian""
msgstr ""bielorusso""

msgid ""Bengali""
msgstr ""bengali""

msgid ""Bosnian""
msgstr ""bosniaco""

msgid ""Brazilian Portuguese""
msgstr ""portugese brasilian""

msgid ""Breton""
msgstr ""breton""

msgid ""British English""
msgstr ""anglese britannic""

msgid ""Bulgarian""
msgstr ""bulgaro""

msgid ""Burmese""
msgstr ""burmese""

msgid ""Catalan""
msgstr ""catalano""

msgid ""Colombian Spanish""
msgstr ""espaniol colombian""

msgid ""Croatian""
msgstr ""croato""

msgid ""Czech""
msgstr ""tcheco""

msgid ""Danish""
msgstr ""danese""

msgid ""December""
msgstr ""decembre""

msgid ""Dutch""
msgstr ""hollandese""

msgid ""English""
msgstr ""anglese""

msgid ""Esperanto""
msgstr ""esperanto""

msgid ""Estonian""
msgstr ""estoniano""

msgid ""February""
msgstr ""februario""

msgid ""Finnish""
msgstr ""finnese""

msgid ""French""
msgstr ""francese""

msgid ""Fri""
msgstr ""ven""

msgid ""Friday""
msgstr ""venerdi""

msgid ""Frisian""
msgstr ""frison""

msgid ""Galician""
msgstr ""galiciano""

msgid ""Georgian""
msgstr ""georgiano""

msgid ""German""
msgstr ""germano""

msgid ""Greek""
msgstr ""greco""

msgid ""Hebrew""
msgstr ""hebreo""

msgid ""Hindi""
msgstr ""hindi""

msgid ""Hungarian""
msgstr ""hungaro""

msgid ""Icelandic""
msgstr ""islandese""

msgid ""Ido""
msgstr ""ido""

msgid ""Igbo""
msgstr ""Igbo""

msgid ""Indonesian""
msgstr ""indonesiano""

msgid ""Interlingua""
msgstr ""interlingua""

msgid ""Irish""
msgstr ""irlandese""

msgid ""Italian""
msgstr ""italiano""

msgid ""January""
msgstr ""januario""

msgid ""Japanese""
msgstr ""japonese""

msgid ""July""
msgstr ""julio""

msgid ""June""
msgstr ""junio""

msgid ""Kabyle""
msgstr ""Kabyle""

msgid ""Kannada""
msgstr ""kannada""

msgid ""Kazakh""
msgstr ""kazakh""

msgid ""Khmer""
msgstr ""khmer""

msgid ""Korean""
msgstr ""coreano""

msgid ""Kyrgyz""
msgstr ""Kyrgyz""

msgid ""Latvian""
msgstr ""letton""

msgid ""Lithuanian""
msgstr ""lituano""

msgid ""Lower Sorbian""
msgstr ""sorabo inferior""

msgid ""Luxembourgish""
msgstr ""luxemburgese""

msgid ""Macedonian""
msgstr ""macedone""

msgid ""Malay""
msgstr """"

msgid ""Malayalam""
msgstr ""malayalam""

msgid ""Marathi""
msgstr ""marathi""

msgid ""March""
msgstr ""martio""

msgid ""May""
msgstr ""maio""

msgid ""Mexican Spanish""
msgstr ""espaniol mexican""

msgid ""Mon""
msgstr ""lun""

msgid ""Monday""
msgstr ""lunedi""

msgid ""Mongolian""
msgstr ""mongolico""

msgid ""Nepali""
msgstr ""nepali""

msgid ""Nicaraguan Spanish""
msgstr ""espaniol nicaraguan""

msgid ""Norwegian Bokmål""
msgstr ""norvegianio bokmål""

msgid ""Norwegian Nynorsk""
msgstr ""norvegiano, nynorsk""

msgid ""November""
msgstr ""novembre""

msgid ""October""
msgstr ""octobre""

msgid ""Ossetic""
msgstr ""ossetico""

msgid ""PM""
msgstr ""PM""

msgid ""Persian""
msgstr ""persiano""

msgid ""Polish""
msgstr ""polonese""

msgid ""Portuguese""
msgstr ""portugese""

msgid ""Punjabi""
msgstr ""punjabi""

msgid ""Romanian""
msgstr ""romaniano""

msgid ""Russian""
msgstr ""russo""

msgid ""Sat""
msgstr ""sab""

msgid ""Saturday""
msgstr ""sabbato""

msgid ""Scottish Gaelic""
msgstr ""gaelico scotese""

msgid ""September""
msgstr ""septembre""

msgid ""Serbian""
msgstr ""serbo""

msgid ""Serbian Latin""
msgstr ""serbo latin""

msgid ""Simplified Chinese""
msgstr ""chinese simplificate""

msgid ""Slovak""
msgstr ""slovaco""

msgid ""Slovenian""
msgstr ""sloveno""

msgid ""Spanish""
msgstr ""espaniol""

msgid ""Sun""
msgstr ""dom""

msgid ""Sunday""
msgstr ""dominica""

msgid ""Swahili""
msgstr ""swahili""

msgid ""Swedish""
msgstr ""svedese""

msgid ""Tajik""
msgstr ""Tadzhik""

msgid ""Tamil""
msgstr ""tamil""

msgid ""Tatar""
msgstr ""tartaro""

msgid ""Telugu""
msgstr ""telugu""

msgid ""Thai""
msgstr ""thailandese""

msgid ""Thu""
msgstr ""jov""

msgid ""Thursday""
msgstr ""jovedi""

msgid ""Traditional Chinese""
msgstr ""chinese traditional""

msgid ""Tue""
msgstr ""mar""

msgid ""Tuesday""
msgstr ""martedi""

msgid ""Turkish""
msgstr ""turco""

msgid ""Turkmen""
msgstr ""Turkmen""

msgid ""Udmurt""
msgstr ""udmurto""

msgid ""Ukrainian""
msgstr ""ukrainiano""

msgid ""Upper Sorbian""
msgstr ""sorabo superior""

msgid ""Urdu""
msgstr ""urdu""

msgid ""Uzbek""
msgstr ""Uzbek""

msgid ""Venezuelan Spanish""
msgstr ""espaniol venzuelan""

msgid ""Vietnamese""
msgstr ""vietnamese""

msgid ""Wed""
msgstr ""mer""

msgid ""Wednesday""
msgstr ""mercuridi""

msgid ""Welsh""
msgstr ""gallese""

msgid ""a minute ago""
msgid_plural ""%[1]v minutes ago""
msgstr[0] ""un minuta retro""
msgstr[1] ""%[1]v minutas retro""

msgid ""a minute from now""
msgid_plural ""%[1]v minutes from now""
msgstr[0] ""un minuta desde ora""
msgstr[1] ""%[1]v minutas desde ora""

msgid ""a second ago""
msgid_plural ""%[1]v seconds ago""
msgstr[0] ""un secunda retro""
msgstr[1] ""%[1]v secundas retro""

msgid ""a second from now""
msgid_plural ""%[1]v seconds from now""
msgstr[0] ""un secunda desde ora""
msgstr[1] ""%[1]v secundas desde ora""

msgid ""a.m.""
msgstr ""am.""

msgid ""an hour ago""
msgid_plural ""%[1]v hours ago""
msgstr[0] ""un hora retro""
msgstr[1] ""%[1]v horas retro""

msgid ""an hour from now""
msgid_plural ""%[1]v hours from now""
msgstr[0] ""un hora desde ora""
msgstr[1] ""%[1]v horas desde ora""

msgid ""apr""
msgstr ""apr""

msgid ""aug""
msgstr ""aug""

msgid ""dec""
msgstr ""dec""

msgid ""eight""
msgstr ""octo""

msgid ""feb""
msgstr ""feb""

msgid ""five""
msgstr ""cinque""

msgid ""four""
msgstr ""quatro""

msgid ""jan""
msgstr ""jan""

msgid ""jul""
msgstr ""jul""

msgid ""jun""
msgstr ""jun""

msgid ""mar""
msgstr ""mar""

msgid ""may""
msgstr ""mai""

msgid ""midnight""
msgstr ""medienocte""

msgid ""nine""
msgstr ""novem""

msgid ""noon""
msgstr ""mediedie""

msgid ""nov""
msgstr ""nov""

msgid ""now""
msgstr ""ora""

msgid ""oct""
msgstr ""oct""

msgid ""one""
msgstr ""un""

msgid ""p.m.""
msgstr ""pm.""

msgid ""sep""
msgstr ""sep""

msgid ""seven""
msgstr ""septe""

msgid ""six""
msgstr ""sex""

msgid ""three""
msgstr ""tres""

msgid ""today""
msgstr ""hodie""

msgid ""tomorrow""
msgstr ""deman""

msgid ""two""
msgstr ""duo""

msgid ""yesterday""
msgstr ""heri""

msgctxt ""abbrev. month""
msgid ""April""
msgstr ""April""

msgctxt ""abbrev. month""
msgid ""Aug.""
msgstr ""Aug.""

msgctxt ""abbrev. month""
msgid ""Dec.""
msgstr ""Dec.""

msgctxt ""abbrev. month""
msgid ""Feb.""
msgstr ""Feb.""

msgctxt ""abbrev. month""
msgid ""Jan.""
msgstr ""Jan.""

msgctxt ""abbrev. month""
msgid ""July""
msgstr ""Julio""

msgctxt ""abbrev. month""
msgid ""June""
msgstr ""Junio""

msgctxt ""abbrev. month""
msgid ""March""
msgstr ""Mar.""

msgctxt ""abbrev. month""
msgid ""May""
msgstr ""Maio""

msgctxt ""abbrev. month""
msgid ""Nov.""
msgstr ""Nov.""

msgctxt ""abbrev. month""
msgid ""Oct.""
msgstr ""Oct.""

msgctxt ""abbrev. month""
msgid ""Sept.""
msgstr ""Sept.""

msgctxt ""alt. month""
msgid ""April""
msgstr ""April""

msgctxt ""alt. month""
msgid ""August""
msgstr ""Augusto""

msgctxt ""alt. month""
msgid ""December""
msgstr ""Decembre""

msgctxt ""alt. month""
msgid ""February""
msgstr ""Februario""

msgctxt ""alt. month""
msgid ""January""
msgstr ""Januario""

msgctxt ""alt. month""
msgid ""July""
msgstr ""Julio""

msgctxt ""alt. month""
msgid ""June""
msgstr ""Junio""

msgctxt ""alt. month""
msgid ""March""
msgstr ""Martio""

msgctxt ""alt. month""
msgid ""May""
msgstr ""Maio""

msgctxt ""alt. month""
msgid ""November""
msgstr ""Novembre""

msgctxt ""alt. month""
msgid ""October""
msgstr ""Octobre""

msgctxt ""alt. month""
msgid ""September""
msgstr ""Septembre""
".
(** humanize/locale/ia/locale.go (New) *)
Definition loc_ia : locale_data := LD (bs "ia") [(bs "django.po", po_ia)]
  (None).

(** humanize/locale/id/django.po *)
Definition po_id : bytes := bs "# This file is distributed under the same license as the Django package.
# 
# Translators:
# Adiyat Mubarak <adiyatmubarak@gmail.com>, 2017
# Bayu Satiyo <itsyuukunz@gmail.com>, 2024
# Claude Paroz <claude@2xlibre.net>, 2018
# Fery Setiawan <gembelweb@gmail.com>, 2015-2019,2021-2025
# Jannis Leidel <jannis@leidel.info>, 2011
# M Asep Indrayana <me@drayanaindra.com>, 2015
# oon arfiandwi (OonID) <oon.arfiandwi@gmail.com>, 2016,2020
# rodin <romihardiyanto@gmail.com>, 2011
# rodin <romihardiyanto@gmail.com>, 2013-2016
# sag​e <laymonage@gmail.com>, 2018-2019
# Sutrisno Efendi <kangfend@gmail.com>, 2015,2017
msgid """"
msgstr """"
""Project-Id-Version: django\n""
""Report-Msgid-Bugs-To: \n""
""POT-Creation-Date: 2025-03-19 11:30-0500\n""
""PO-Revision-Date: 2025-09-17 06:49+0000\n""
""Last-Translator: Fery Setiawan <gembelweb@gmail.com>, 2015-2019,2021-2025\n""
""Language-Team: Indonesian (http://app.transifex.com/django/django/language/id/)\n""
""Language: id\n""
""MIME-Version: 1.0\n""
""Content-Type: text/plain; charset=UTF-8\n""
""Content-Transfer-Encoding: 8bit\n""
""Plural-Forms: nplurals=1; plural=0;\n""

msgid ""%[1]d byte""
msgid_plural ""%[1]d bytes""
msgstr[0] ""%[1]d bita""
msgstr[1] """"

msgid ""%[1]s billion""
msgid_plural ""%[1]s billion""
msgstr[0] ""%[1]s miliar""
msgstr[1] """"

msgid ""%[1]s decillion""
msgid_plural ""%[1]s decillion""
msgstr[0] ""%[1]s desiliun""
msgstr[1] """"

msgid ""%[1]s googol""
msgid_plural ""%[1]s googol""
msgstr[0] ""%[1]s googol""
msgstr[1] """"

msgid ""%[1]s million""
msgid_plural ""%[1]s million""
msgstr[0] ""%[1]s juta""
msgstr[1] """"

msgid ""%[1]s nonillion""
msgid_plural ""%[1]s nonillion""
msgstr[0] ""%[1]s noniliun""
msgstr[1] """"

msgid ""%[1]s octillion""
msgid_plural ""%[1]s octillion""
msgstr[0] ""%[1]s oktiliun""
msgstr[1] """"

msgid ""%[1]s quadrillion""
msgid_plural ""%[1]s quadrillion""
msgstr[0] ""%[1]s kuadriliun""
msgstr[1] """"

msgid ""%[1]s quintillion""
msgid_plural ""%[1]s quintillion""
msgstr[0] ""%[1]s kuintiliun""
msgstr[1] """"

msgid ""%[1]s septillion""
msgid_plural ""%[1]s septillion""
msgstr[0] ""%[1]s septiliun""
msgstr[1] """"

msgid ""%[1]s sextillion""
msgid_plural ""%[1]s sextillion""
msgstr[0] ""%[1]s sekstiliun""
msgstr[1] """"

msgid ""%[1]s trillion""
msgid_plural ""%[1]s trillion""
msgstr[0] ""%[1]s triliun""
msgstr[1] """"

msgid ""%[1]v ago""
msgstr ""%[1]v yang lalu""

msgid ""%[1]v day""
msgid_plural ""%[1]v days""
msgstr[0] ""%[1]v hari""
msgstr[1] """"

msgid ""%[1]v from now""
msgstr ""%[1]v dari sekarang""

msgid ""%[1]v hour""
msgid_plural ""%[1]v hours""
msgstr[0] ""%[1]v jam""
msgstr[1] """"

msgid ""%[1]v minute""
msgid_plural ""%[1]v minutes""
msgstr[0] ""%[1]v menit""
msgstr[1] """"

msgid ""%[1]v month""
msgid_plural ""%[1]v months""
msgstr[0] ""%[1]v bulan""
msgstr[1] """"

msgid ""%[1]v week""
msgid_plural ""%[1]v weeks""
msgstr[0] ""%[1]v minggu""
msgstr[1] """"

msgid ""%[1]v year""
msgid_plural ""%[1]v years""
msgstr[0] ""%[1]v tahun""
msgstr[1] """"

msgid ""%s GB""
msgstr ""%s GB""

msgid ""%s KB""
msgstr ""%s KB""

msgid ""%s MB""
msgstr ""%s MB""

msgid ""%s PB""
msgstr ""%s PB""

msgid ""%s TB""
msgstr ""%s TB""

msgid "", ""
msgstr "", ""

msgid ""AM""
msgstr ""AM""

msgid ""Afrikaans""
msgstr ""Afrikaans""

msgid ""Albanian""
msgstr ""Albania""

msgid ""Algerian Arabic""
msgstr ""Arab Aljazair""

msgid ""April""
msgstr ""April""

msgid ""Arabic""
msgstr ""Arab""

msgid ""Argentinian Spanish""
msgstr ""Spanyol Argentina""

msgid ""Armenian""
msgstr ""Armenia""

msgid ""Asturian""
msgstr ""Asturia""

msgid ""August""
msgstr ""Agustus""

msgid ""Australian English""
msgstr ""Inggris Australia""

msgid ""Azerbaijani""
msgstr ""Azerbaijani""

msgid ""Basque""
msgstr ""Basque""

msgid ""Belarusian""
msgstr ""Belarusia""

msgid ""Bengali""
msgstr ""Bengali""

msgid ""Bosnian""
msgstr ""Bosnia""

msgid ""Brazilian Portuguese""
msgstr ""Portugis Brazil""

msgid ""Breton""
msgstr ""Breton""

msgid ""British English""
msgstr ""Inggris Britania""

msgid ""Bulgarian""
msgstr ""Bulgaria""

msgid ""Burmese""
msgstr ""Burma""

msgid ""Catalan""
msgstr ""Catalan""

msgid ""Central Kurdish (Sorani)""
msgstr ""Kurdi Tengah (Sorani)""

msgid ""Colombian Spanish""
msgstr ""Spanyol Kolombia""

msgid ""Croatian""
msgstr ""Kroasia""

msgid ""Czech""
msgstr ""Ceska""

msgid ""Danish""
msgstr ""Denmark""

msgid ""December""
msgstr ""Desember""

msgid ""Dutch""
msgstr ""Belanda""

msgid ""English""
msgstr ""Inggris""

msgid ""Esperanto""
msgstr ""Esperanto""

msgid ""Estonian""
msgstr ""Estonia""

msgid ""February""
msgstr ""Februari""

msgid ""Finnish""
msgstr ""Finlandia""

msgid ""French""
msgstr ""Perancis""

msgid ""Fri""
msgstr ""Jum""

msgid ""Friday""
msgstr ""Jumat""

msgid ""Frisian""
msgstr ""Frisia""

msgid ""Galician""
msgstr ""Galicia""

msgid ""Georgian""
msgstr ""Georgia""

msgid ""German""
msgstr ""Jerman""

msgid ""Greek""
msgstr ""Yunani""

msgid ""Hebrew""
msgstr ""Ibrani""

msgid ""Hindi""
msgstr ""Hindi""

msgid ""Hungarian""
msgstr ""Hungaria""

msgid ""Icelandic""
msgstr ""Islandia""

msgid ""Ido""
msgstr ""Ido""

msgid ""Igbo""
msgstr ""Igbo""

msgid ""Indonesian""
msgstr ""Indonesia""

msgid ""Interlingua""
msgstr ""Interlingua""

msgid ""Irish""
msgstr ""Irlandia""

msgid ""Italian""
msgstr ""Italia""

msgid ""January""
msgstr ""Januari""

msgid ""Japanese""
msgstr ""Jepang""

msgid ""July""
msgstr ""Juli""

msgid ""June""
msgstr ""Juni""

msgid ""Kabyle""
msgstr ""Kabyle""

msgid ""Kannada""
msgstr ""Kannada""

msgid ""Kazakh""
msgstr ""Kazakhstan""

msgid ""Khmer""
msgstr ""Khmer""

msgid ""Korean""
msgstr ""Korea""

msgid ""Kyrgyz""
msgstr ""Kirgis""

msgid ""Latvian""
msgstr ""Latvia""

msgid ""Lithuanian""
msgstr ""Lithuania""

msgid ""Lower Sorbian""
msgstr ""Sorbian Bawah""

msgid ""Luxembourgish""
msgstr ""Luksemburg""

msgid ""Macedonian""
msgstr ""Makedonia""

msgid ""Malay""
msgstr ""Malaysia""

msgid ""Malayalam""
msgstr ""Malayalam""

msgid ""Marathi""
msgstr ""Marathi""

msgid ""March""
msgstr ""Maret""

msgid ""May""
msgstr ""Mei""

msgid ""Mexican Spanish""
msgstr ""Spanyol Meksiko""

msgid ""Mon""
msgstr ""Sen""

msgid ""Monday""
msgstr ""Senin""

msgid ""Mongolian""
msgstr ""Mongolia""

msgid ""Nepali""
msgstr ""Nepal""

msgid ""Nicaraguan Spanish""
msgstr ""Spanyol Nikaragua""

msgid ""Norwegian Bokmål""
msgstr ""Norwegia Bokmål""

msgid ""Norwegian Nynorsk""
msgstr ""Norwegia Nynorsk""

msgid ""November""
msgstr ""November""

msgid ""October""
msgstr ""Oktober""

msgid ""Ossetic""
msgstr ""Ossetic""

msgid ""PM""
msgstr ""PM""

msgid ""Persian""
msgstr ""Persia""

msgid ""Polish""
msgstr ""Polandia""

msgid ""Portuguese""
msgstr ""Portugis""

msgid ""Punjabi""
msgstr ""Punjabi""

msgid ""Romanian""
msgstr ""Romania""

msgid ""Russian""
msgstr ""Rusia""

msgid ""Sat""
msgstr ""Sab""

msgid ""Saturday""
msgstr ""Sabtu""

msgid ""Scottish Gaelic""
msgstr ""Skolandia Gaelik""

msgid ""September""
msgstr ""September""

msgid ""Serbian""
msgstr ""Serbia""

msgid ""Serbian Latin""
msgstr ""Serbia Latin""

msgid ""Simplified Chinese""
msgstr ""Tiongkok Sederhana""

msgid ""Slovak""
msgstr ""Slovakia""

msgid ""Slovenian""
msgstr ""Slovenia""

msgid ""Spanish""
msgstr ""Spanyol""

msgid ""Sun""
msgstr ""Min""

msgid ""Sunday""
msgstr ""Minggu""

msgid ""Swahili""
msgstr ""Swahili""

msgid ""Swedish""
msgstr ""Swedia""

msgid ""Tajik""
msgstr ""Tajik""

msgid ""Tamil""
msgstr ""Tamil""

msgid ""Tatar""
msgstr ""Tatar""

msgid ""Telugu""
msgstr ""Telugu""

msgid ""Thai""
msgstr ""Thailand""

msgid ""Thu""
msgstr ""Kam""

msgid ""Thursday""
msgstr ""Kamis""

msgid ""Traditional Chinese""
msgstr ""Tiongkok Tradisionil""

msgid ""Tue""
msgstr ""Sel""

msgid ""Tuesday""
msgstr ""Selasa""

msgid ""Turkish""
msgstr ""Turki""

msgid ""Turkmen""
msgstr ""Turkmenistan""

msgid ""Udmurt""
msgstr ""Udmurt""

msgid ""Ukrainian""
msgstr ""Ukrainia""

msgid ""Upper Sorbian""
msgstr ""Sorbian Atas""

msgid ""Urdu""
msgstr ""Urdu""

msgid ""Uyghur""
msgstr ""Uyghur""

msgid ""Uzbek""
msgstr ""Uzbek""

msgid ""Venezuelan Spanish""
msgstr ""Spanyol Venezuela""

msgid ""Vietnamese""
msgstr ""Vietnam""

msgid ""Wed""
msgstr ""Rab""

msgid ""Wednesday""
msgstr ""Rabu""

msgid ""Welsh""
msgstr ""Wales""

msgid ""a minute ago""
msgid_plural ""%[1]v minutes ago""
msgstr[0] ""%[1]v menit yang lalu""
msgstr[1] """"

msgid ""a minute from now""
msgid_plural ""%[1]v minutes from now""
msgstr[0] ""%[1]v menit dari sekarang""
msgstr[1] """"

msgid ""a second ago""
msgid_plural ""%[1]v seconds ago""
msgstr[0] ""%[1]v detik yang lalu""
msgstr[1] """"

msgid ""a second from now""
msgid_plural ""%[1]v seconds from now""
msgstr[0] ""%[1]v detik dari sekarang""
msgstr[1] """"

msgid ""a.m.""
msgstr ""a.m""

msgid ""an hour ago""
msgid_plural ""%[1]v hours ago""
msgstr[0] ""%[1]v jam yang lalu""
msgstr[1] """"

msgid ""an hour from now""
msgid_plural ""%[1]v hours from now""
msgstr[0] ""%[1]v jam dari sekarang""
msgstr[1] """"

msgid ""apr""
msgstr ""apr""

msgid ""aug""
msgstr ""agu""

msgid ""dec""
msgstr ""des""

msgid ""eight""
msgstr ""delapan""

msgid ""feb""
msgstr ""feb""

msgid ""five""
msgstr ""lima""

msgid ""four""
msgstr ""empat""

msgid ""jan""
msgstr ""jan""

msgid ""jul""
msgstr ""jul""

msgid ""jun""
msgstr ""jun""

msgid ""mar""
msgstr ""mar""

msgid ""may""
msgstr ""mei""

msgid ""midnight""
msgstr ""tengah malam""

msgid ""nine""
msgstr ""sembilan""

msgid ""noon""
msgstr ""siang""

msgid ""nov""
msgstr ""nov""

msgid ""now""
msgstr ""sekarang""

msgid ""oct""
msgstr ""okt""

msgid ""one""
msgstr ""satu""

msgid ""p.m.""
msgstr ""p.m""

msgid ""sep""
msgstr ""sep""

msgid ""seven""
msgstr ""tujuh""

msgid ""six""
msgstr ""enam""

msgid ""three""
msgstr ""tiga""

msgid ""today""
msgstr ""hari ini""

msgid ""tomorrow""
msgstr ""besok""

msgid ""two""
msgstr ""dua""

msgid ""yesterday""
msgstr ""kemarin""

msgctxt ""abbrev. month""
msgid ""April""
msgstr ""April""

msgctxt ""abbrev. month""
msgid ""Aug.""
msgstr ""Agu""

msgctxt ""abbrev. month""
msgid ""Dec.""
msgstr ""Des.""

msgctxt ""abbrev. month""
msgid ""Feb.""
msgstr ""Feb.""

msgctxt ""abbrev. month""
msgid ""Jan.""
msgstr ""Jan.""

msgctxt ""abbrev. month""
msgid ""July""
msgstr ""Juli""

msgctxt ""abbrev. month""
msgid ""June""
msgstr ""Juni""

msgctxt ""abbrev. month""
msgid ""March""
msgstr ""Maret""

msgctxt ""abbrev. month""
msgid ""May""
msgstr ""Mei""

msgctxt ""abbrev. month""
msgid ""Nov.""
msgstr ""Nov.""

msgctxt ""abbrev. month""
msgid ""Oct.""
msgstr ""Okt.""

msgctxt ""abbrev. month""
msgid ""Sept.""
msgstr ""Sep.""

msgctxt ""alt. month""
msgid ""April""
msgstr ""April""

msgctxt ""alt. month""
msgid ""August""
msgstr ""Agustus""

msgctxt ""alt. month""
msgid ""December""
msgstr ""Desember""

msgctxt ""alt. month""
msgid ""February""
msgstr ""Februari""

msgctxt ""alt. month""
msgid ""January""
msgstr ""Januari""

msgctxt ""alt. month""
msgid ""July""
msgstr ""Juli""

msgctxt ""alt. month""
msgid ""June""
msgstr ""Juni""

msgctxt ""alt. month""
msgid ""March""
msgstr ""Maret""

msgctxt ""alt. month""
msgid ""May""
msgstr ""Mei""

msgctxt ""alt. month""
msgid ""November""
msgstr ""November""

msgctxt ""alt. month""
msgid ""October""
msgstr ""Oktober""

msgctxt ""alt. month""
msgid ""September""
msgstr ""September""

msgctxt ""naturaltime-future""
msgid ""%[1]v day""
msgid_plural ""%[1]v days""
msgstr[0] ""%[1]v hari""
msgstr[1] """"

msgctxt ""naturaltime-future""
msgid ""%[1]v hour""
msgid_plural ""%[1]v hours""
msgstr[0] ""%[1]v jam""
msgstr[1] """"

msgctxt ""naturaltime-future""
msgid ""%[1]v minute""
msgid_plural ""%[1]v minutes""
msgstr[0] ""%[1]v menit""
msgstr[1] """"

msgctxt ""naturaltime-future""
msgid ""%[1]v month""
msgid_plural ""%[1]v months""
msgstr[0] ""%[1]v bulan""
msgstr[1] """"

msgctxt ""naturaltime-future""
msgid ""%[1]v week""
msgid_plural ""%[1]v weeks""
msgstr[0] ""%[1]v minggu""
msgstr[1] """"

msgctxt ""naturaltime-future""
msgid ""%[1]v year""
msgid_plural ""%[1]v years""
msgstr[0] ""%[1]v tahun""
msgstr[1] """"

msgctxt ""naturaltime-past""
msgid ""%[1]v day""
msgid_plural ""%[1]v days""
msgstr[0] ""%[1]v hari""
msgstr[1] """"

msgctxt ""naturaltime-past""
msgid ""%[1]v hour""
msgid_plural ""%[1]v hours""
msgstr[0] ""%[1]v jam""
msgstr[1] """"

msgctxt ""naturaltime-past""
msgid ""%[1]v minute""
msgid_plural ""%[1]v minutes""
msgstr[0] ""%[1]v menit""
msgstr[1] """"

msgctxt ""naturaltime-past""
msgid ""%[1]v month""
msgid_plural ""%[1]v months""
msgstr[0] ""%[1]v bulan""
msgstr[1] """"

msgctxt ""naturaltime-past""
msgid ""%[1]v week""
msgid_plural ""%[1]v weeks""
msgstr[0] ""%[1]v minggu""
msgstr[1] """"

msgctxt ""naturaltime-past""
msgid ""%[1]v year""
msgid_plural ""%[1]v years""
msgstr[0] ""%[1]v tahun""
msgstr[1] """"

msgctxt ""ordinal 0""
msgid ""%vth""
msgstr ""ke-%v""

msgctxt ""ordinal 1""
msgid ""%vst""
msgstr ""ke-%v""

msgctxt ""ordinal 11, 12, 13""
msgid ""%vth""
msgstr ""ke-%v""

msgctxt ""ordinal 2""
msgid ""%vnd""
msgstr ""ke-%v""

msgctxt ""ordinal 3""
msgid ""%vrd""
msgstr ""ke-%v""

msgctxt ""ordinal 4""
msgid ""%vth""
msgstr ""ke-%v""

msgctxt ""ordinal 5""
msgid ""%vth""
msgstr ""ke-%v""

msgctxt ""ordinal 6""
msgid ""%vth""
msgstr ""ke-%v""

msgctxt ""ordinal 7""
msgid ""%vth""
msgstr ""ke-%v""

msgctxt ""ordinal 8""
msgid ""%vth""
msgstr ""ke-%v""

msgctxt ""ordinal 9""
msgid ""%vth""
msgstr ""ke-%v""
".
(** humanize/locale/id/locale.go (New) *)
Definition loc_id : locale_data := LD (bs "id") [(bs "django.po", po_id)]
  (Some (FD (bs "j N Y") (bs "G.i") (bs "j N Y, G.i") (bs "F Y") (bs "j F") (bs "d-m-Y") (bs "d-m-Y G.i"))).

(** humanize/locale/ig/django.po *)
Definition po_ig : bytes := bs "# This file is distributed under the same license as the Django package.
# 
# Translators:
# Kelechi Precious Nwachukwu <prekel27@gmail.com>, 2020
# Mariusz Felisiak <felisiak.mariusz@gmail.com>, 2020
# Okpala Olisa <Olisamarvis@gmail.com>, 2020
msgid """"
msgstr """"
""Project-Id-Version: django\n""
""Report-Msgid-Bugs-To: \n""
""POT-Creation-Date: 2020-05-19 20:23+0200\n""
""PO-Revision-Date: 2020-07-30 12:26+0000\n""
""Last-Translator: Mariusz Felisiak <felisiak.mariusz@gmail.com>\n""
""Language-Team: Igbo (http://www.transifex.com/django/django/language/ig/)\n""
""Language: ig\n""
""MIME-Version: 1.0\n""
""Content-Type: text/plain; charset=UTF-8\n""
""Content-Transfer-Encoding: 8bit\n""
""Plural-Forms: nplurals=1; plural=0;\n""

msgid ""%[1]d byte""
msgid_plural ""%[1]d bytes""
msgstr[0] ""%[1]d bytes""
msgstr[1] """"

msgid ""%s GB""
msgstr ""%s GB""

msgid ""%s KB""
msgstr ""%s KB""

msgid ""%s MB""
msgstr ""%s MB""

msgid ""%s PB""
msgstr ""%s PB""

msgid ""%s TB""
msgstr ""%s TB""

msgid "", ""
msgstr "", ""

msgid ""AM""
msgstr ""AM""

msgid ""Afrikaans""
msgstr ""Afrikaans""

msgid ""Albanian""
msgstr ""Albaniani""

msgid ""Algerian Arabic""
msgstr ""Arabici ndị Algeria  ""

msgid ""April""
msgstr ""Eprel""

msgid ""Arabic""
msgstr ""Arabici""

msgid ""Argentinian Spanish""
msgstr ""Spanishi ndị Argentina""

msgid ""Armenian""
msgstr ""Armeniani""

msgid ""Asturian""
msgstr ""Asturian""

msgid ""August""
msgstr ""Ọgọọst""

msgid ""Australian English""
msgstr ""Bekee ndị Australia""

msgid ""Azerbaijani""
msgstr ""Azerbaijani""

msgid ""Basque""
msgstr ""Basque""

msgid ""Belarusian""
msgstr ""Belarusia""

msgid ""Bengali""
msgstr ""Bengali""

msgid ""Bosnian""
msgstr ""Bosnian""

msgid ""Brazilian Portuguese""
msgstr ""Portuguese ndị Brazil""

msgid ""Breton""
msgstr ""Breton""

msgid ""British English""
msgstr ""Bekee ndị Britain""

msgid ""Bulgarian""
msgstr ""Bulgaria""

msgid ""Burmese""
msgstr ""Burmese""

msgid ""Catalan""
msgstr ""Catalan""

msgid ""Colombian Spanish""
msgstr ""Spanishi ndị Colombia ""

msgid ""Croatian""
msgstr ""Croatian""

msgid ""Czech""
msgstr ""Czech""

msgid ""Danish""
msgstr ""Danishi""

msgid ""December""
msgstr ""Disemba""

msgid ""Dutch""
msgstr ""Dutch""

msgid ""English""
msgstr ""Bekee""

msgid ""Esperanto""
msgstr ""Esperanto""

msgid ""Estonian""
msgstr ""Estonian""

msgid ""February""
msgstr ""Febrụwarị""

msgid ""Finnish""
msgstr ""Finnishi""

msgid ""French""
msgstr ""Fụrenchị""

msgid ""Fri""
msgstr ""Fraị""

msgid ""Friday""
msgstr ""Fraịdee""

msgid ""Frisian""
msgstr ""Frisian""

msgid ""Galician""
msgstr ""Galiciani""

msgid ""Georgian""
msgstr ""Georgian""

msgid ""German""
msgstr ""Germani""

msgid ""Greek""
msgstr ""Greeki""

msgid ""Hebrew""
msgstr ""Hibru""

msgid ""Hindi""
msgstr ""Hindi""

msgid ""Hungarian""
msgstr ""Hungarian""

msgid ""Icelandic""
msgstr ""Icelandici""

msgid ""Ido""
msgstr ""Ido""

msgid ""Igbo""
msgstr ""ìgbò""

msgid ""Indonesian""
msgstr ""Indonesian""

msgid ""Interlingua""
msgstr ""Interlingua""

msgid ""Irish""
msgstr ""Irishi""

msgid ""Italian""
msgstr ""Italian""

msgid ""January""
msgstr ""Jenụwarị""

msgid ""Japanese""
msgstr ""Japanisi ""

msgid ""July""
msgstr ""Julaị""

msgid ""June""
msgstr ""Juun""

msgid ""Kabyle""
msgstr ""Kabyle""

msgid ""Kannada""
msgstr ""Kannada""

msgid ""Kazakh""
msgstr ""Kazakh""

msgid ""Khmer""
msgstr ""Khmer""

msgid ""Korean""
msgstr ""Korean""

msgid ""Kyrgyz""
msgstr ""Kyrgyz""

msgid ""Latvian""
msgstr ""Latvian""

msgid ""Lithuanian""
msgstr ""Lithuanian""

msgid ""Lower Sorbian""
msgstr ""Sorbian nke Ala""

msgid ""Luxembourgish""
msgstr ""Luxembourgish""

msgid ""Macedonian""
msgstr ""Macedonian""

msgid ""Malayalam""
msgstr ""Malayalam""

msgid ""Marathi""
msgstr ""Marathi""

msgid ""March""
msgstr ""Maachị""

msgid ""May""
msgstr ""Mee""

msgid ""Mexican Spanish""
msgstr ""Spanishi ndị Mexico ""

msgid ""Mon""
msgstr ""Mọnde""

msgid ""Monday""
msgstr ""Mọnde""

msgid ""Mongolian""
msgstr ""Mongolian""

msgid ""Nepali""
msgstr ""Nepali""

msgid ""Nicaraguan Spanish""
msgstr ""Spanishi ndị Nicaraguan""

msgid ""Norwegian Bokmål""
msgstr ""Bokmål ndị Norway""

msgid ""Norwegian Nynorsk""
msgstr ""Nynorsk ndị Norway ""

msgid ""November""
msgstr ""Novemba""

msgid ""October""
msgstr ""Ọktoba""

msgid ""Ossetic""
msgstr ""Ossetici""

msgid ""PM""
msgstr ""PM""

msgid ""Persian""
msgstr ""Persian""

msgid ""Polish""
msgstr ""Polishi""

msgid ""Portuguese""
msgstr ""Portuguisi""

msgid ""Punjabi""
msgstr ""Punjabi""

msgid ""Romanian""
msgstr ""Romaniani""

msgid ""Russian""
msgstr ""Russiani""

msgid ""Sat""
msgstr ""Sat""

msgid ""Saturday""
msgstr ""Satọdee""

msgid ""Scottish Gaelic""
msgstr ""Scottish Gaelici""

msgid ""September""
msgstr ""Septemba""

msgid ""Serbian""
msgstr ""Serbiani""

msgid ""Serbian Latin""
msgstr ""Serbian Latini""

msgid ""Simplified Chinese""
msgstr ""Chinisi Ndị Mfe""

msgid ""Slovak""
msgstr ""Slovaki""

msgid ""Slovenian""
msgstr ""Sloveniani""

msgid ""Spanish""
msgstr ""Spanishi""

msgid ""Sun""
msgstr ""Ụka""

msgid ""Sunday""
msgstr ""Mbọsi Uka""

msgid ""Swahili""
msgstr ""Swahili""

msgid ""Swedish""
msgstr ""Swedishi""

msgid ""Tajik""
msgstr ""Tajik""

msgid ""Tamil""
msgstr ""Tamil""

msgid ""Tatar""
msgstr ""Tatar""

msgid ""Telugu""
msgstr ""Telugu""

msgid ""Thai""
msgstr ""Thai""

msgid ""Thu""
msgstr ""Tọọ""

msgid ""Thursday""
msgstr ""Tọọzdee""

msgid ""Traditional Chinese""
msgstr ""Odịnala Chinisi""

msgid ""Tue""
msgstr ""Tiu""

msgid ""Tuesday""
msgstr ""Tiuzdee""

msgid ""Turkish""
msgstr ""Turkishi""

msgid ""Turkmen""
msgstr ""Turkmen""

msgid ""Udmurt""
msgstr ""Udmurt""

msgid ""Ukrainian""
msgstr ""Ukrainiani""

msgid ""Upper Sorbian""
msgstr ""Sorbian nke Elu""

msgid ""Urdu""
msgstr ""Urdu""

msgid ""Uzbek""
msgstr ""Uzbeki""

msgid ""Venezuelan Spanish""
msgstr ""Spanishi ndị Venezuela ""

msgid ""Vietnamese""
msgstr ""Vietnamesi""

msgid ""Wed""
msgstr ""Wen""

msgid ""Wednesday""
msgstr ""Wenezdee""

msgid ""Welsh""
msgstr ""Welsh""

msgid ""a.m.""
msgstr ""a.m.""

msgid ""apr""
msgstr ""epr""

msgid ""aug""
msgstr ""ọgọ""

msgid ""dec""
msgstr ""dis""

msgid ""feb""
msgstr ""feb""

msgid ""jan""
msgstr ""jen""

msgid ""jul""
msgstr ""jul""

msgid ""jun""
msgstr ""juu""

msgid ""mar""
msgstr ""maa""

msgid ""may""
msgstr ""mee""

msgid ""midnight""
msgstr ""etiti Abalị""

msgid ""noon""
msgstr ""Ehihie""

msgid ""nov""
msgstr ""nov""

msgid ""oct""
msgstr ""ọkt""

msgid ""p.m.""
msgstr ""p.m.""

msgid ""sep""
msgstr ""sep""

msgctxt ""abbrev. month""
msgid ""April""
msgstr ""Eprel""

msgctxt ""abbrev. month""
msgid ""Aug.""
msgstr ""Ọgọ.""

msgctxt ""abbrev. month""
msgid ""Dec.""
msgstr ""Dis.""

msgctxt ""abbrev. month""
msgid ""Feb.""
msgstr ""Feb.""

msgctxt ""abbrev. month""
msgid ""Jan.""
msgstr ""Jenụwarị""

msgctxt ""abbrev. month""
msgid ""July""
msgstr ""Julaị""

msgctxt ""abbrev. month""
msgid ""June""
msgstr ""Juun""

msgctxt ""abbrev. month""
msgid ""March""
msgstr ""Maachị""

msgctxt ""abbrev. month""
msgid ""May""
msgstr ""Mee""

msgctxt ""abbrev. month""
msgid ""Nov.""
msgstr ""Nov.""

msgctxt ""abbrev. month""
msgid ""Oct.""
msgstr ""Ọkt.""

msgctxt ""abbrev. month""
msgid ""Sept.""
msgstr ""Sep.""

msgctxt ""alt. month""
msgid ""April""
msgstr ""Eprel""

msgctxt ""alt. month""
msgid ""August""
msgstr ""Ọgọọst""

msgctxt ""alt. month""
msgid ""December""
msgstr ""Disemba""

msgctxt ""alt. month""
msgid ""February""
msgstr ""Febrụwarị""

msgctxt ""alt. month""
msgid ""January""
msgstr ""Jenụwarị""

msgctxt ""alt. month""
msgid ""July""
msgstr ""Julaị""

msgctxt ""alt. month""
msgid ""June""
msgstr ""Juun""

msgctxt ""alt. month""
msgid ""March""
msgstr ""Maachị""

msgctxt ""alt. month""
msgid ""May""
msgstr ""Mee""

msgctxt ""alt. month""
msgid ""November""
msgstr ""Novemba""

msgctxt ""alt. month""
msgid ""October""
msgstr ""Ọktoba""

msgctxt ""alt. month""
msgid ""September""
msgstr ""Septemba""
".
(** humanize/locale/ig/locale.go (New) *)
Definition loc_ig : locale_data := LD (bs "ig") [(bs "django.po", po_ig)]
  (Some (FD (bs "j F Y") (bs "P") (bs "j F Y P") (bs "F Y") (bs "j F") (bs "d.m.Y") (bs "d.m.Y H:i"))).

(** humanize/locale/io/django.po *)
Definition po_io : bytes := bs "# This file is distributed under the same license as the Django package.
# 
# Translators:
# Viko Bartero <inactive+tergrundo@transifex.com>, 2014
msgid """"
msgstr """"
""Project-Id-Version: django\n""
""Report-Msgid-Bugs-To: \n""
""POT-Creation-Date: 2019-09-27 22:40+0200\n""
""PO-Revision-Date: 2019-11-05 00:38+0000\n""
""Last-Translator: Ramiro Morales\n""
""Language-Team: Ido (http://www.transifex.com/django/django/language/io/)\n""
""Language: io\n""
""MIME-Version: 1.0\n""
""Content-Type: text/plain; charset=UTF-8\n""
""Content-Transfer-Encoding: 8bit\n""
""Plural-Forms: nplurals=2; plural=(n != 1);\n""

msgid ""%[1]d byte""
msgid_plural ""%[1]d bytes""
msgstr[0] ""%[1]d byte""
msgstr[1] ""%[1]d bytes""

msgid ""%[1]s billion""
msgid_plural ""%[1]s billion""
msgstr[0] """"
msgstr[1] """"

msgid ""%[1]s decillion""
msgid_plural ""%[1]s decillion""
msgstr[0] """"
msgstr[1] """"

msgid ""%[1]s googol""
msgid_plural ""%[1]s googol""
msgstr[0] """"
msgstr[1] """"

msgid ""%[1]s million""
msgid_plural ""%[1]s million""
msgstr[0] """"
msgstr[1] """"

msgid ""%[1]s nonillion""
msgid_plural ""%[1]s nonillion""
msgstr[0] """"
msgstr[1] """"

msgid ""%[1]s octillion""
msgid_plural ""%[1]s octillion""
msgstr[0] """"
msgstr[1] """"

msgid ""%[1]s quadrillion""
msgid_plural ""%[1]s quadrillion""
msgstr[0] """"
msgstr[1] """"

msgid ""%[1]s quintillion""
msgid_plural ""%[1]s quintillion""
msgstr[0] """"
msgstr[1] """"

msgid ""%[1]s septillion""
msgid_plural ""%[1]s septillion""
msgstr[0] """"
msgstr[1] """"

msgid ""%[1]s sextillion""
msgid_plural ""%[1]s sextillion""
msgstr[0] """"
msgstr[1] """"

msgid ""%[1]s trillion""
msgid_plural ""%[1]s trillion""
msgstr[0] """"
msgstr[1] """"

msgid ""%s GB""
msgstr ""%s GB""

msgid ""%s KB""
msgstr ""%s KB""

msgid ""%s MB""
msgstr ""%s MB""

msgid ""%s PB""
msgstr ""%s PB""

msgid ""%s TB""
msgstr ""%s TB""

msgid "", ""
msgstr "", ""

msgid ""AM""
msgstr ""AM""

msgid ""Afrikaans""
msgstr ""Afrikaans""

msgid ""Albanian""
msgstr ""Shqip""

msgid ""April""
msgstr ""Aprilo""

msgid ""Arabic""
msgstr ""العربية""

msgid ""Argentinian Spanish""
msgstr ""Español de Argentina""

msgid ""Armenian""
msgstr """"

msgid ""Asturian""
msgstr """"

msgid ""August""
msgstr ""Agosto""

msgid ""Australian English""
msgstr """"

msgid ""Azerbaijani""
msgstr ""Azərbaycanca""

msgid ""Basque""
msgstr ""Euskara""

msgid ""Belarusian""
msgstr ""беларуская""

msgid ""Bengali""
msgstr ""বাংলা""

msgid ""Bosnian""
msgstr ""босански""

msgid ""Brazilian Portuguese""
msgstr ""Português do Brasil""

msgid ""Breton""
msgstr ""Brezhoneg""

msgid ""British English""
msgstr ""British English""

msgid ""Bulgarian""
msgstr ""български""

msgid ""Burmese""
msgstr ""Burmese""

msgid ""Catalan""
msgstr ""Català""

msgid ""Colombian Spanish""
msgstr """"

msgid ""Croatian""
msgstr ""hrvatski""

msgid ""Czech""
msgstr ""čeština""

msgid ""Danish""
msgstr ""dansk""

msgid ""December""
msgstr ""Decembro""

msgid ""Dutch""
msgstr ""Nederlands""

msgid ""English""
msgstr ""English""

msgid ""Esperanto""
msgstr ""Esperanto""

msgid ""Estonian""
msgstr ""Eesti""

msgid ""February""
msgstr ""Februaro""

msgid ""Finnish""
msgstr ""Suomi""

msgid ""French""
msgstr ""Français""

msgid ""Fri""
msgstr ""Ven""

msgid ""Friday""
msgstr ""Venerdio""

msgid ""Frisian""
msgstr ""Frysk""

msgid ""Galician""
msgstr ""Galego""

msgid ""Georgian""
msgstr ""ქართული""

msgid ""German""
msgstr ""Deutsch""

msgid ""Greek""
msgstr ""Ελληνικά""

msgid ""Hebrew""
msgstr ""עברית""

msgid ""Hindi""
msgstr ""हिन्दी""

msgid ""Hungarian""
msgstr ""Magyar""

msgid ""Icelandic""
msgstr ""Íslenska""

msgid ""Ido""
msgstr """"

msgid ""Indonesian""
msgstr ""Bahasa Indonesia""

msgid ""Interlingua""
msgstr ""Interlingua""

msgid ""Irish""
msgstr ""Gaeilge""

msgid ""Italian""
msgstr ""Italiano""

msgid ""January""
msgstr ""Januaro""

msgid ""Japanese""
msgstr ""日本語""

msgid ""July""
msgstr ""Julio""

msgid ""June""
msgstr ""Junio""

msgid ""Kabyle""
msgstr """"

msgid ""Kannada""
msgstr ""Kannaḍa""

msgid ""Kazakh""
msgstr ""Қазақша""

msgid ""Khmer""
msgstr ""Khmer""

msgid ""Korean""
msgstr ""한국어""

msgid ""Latvian""
msgstr ""Latviešu""

msgid ""Lithuanian""
msgstr ""Lietuvių""

msgid ""Lower Sorbian""
msgstr """"

msgid ""Luxembourgish""
msgstr ""Lëtzebuergesch""

msgid ""Macedonian""
msgstr ""Македонски""

msgid ""Malayalam""
msgstr ""മലയാളം""

msgid ""Marathi""
msgstr """"

msgid ""March""
msgstr ""Marto""

msgid ""May""
msgstr ""Mayo""

msgid ""Mexican Spanish""
msgstr ""Español de México""

msgid ""Mon""
msgstr ""Lun""

msgid ""Monday""
msgstr ""Lundio""

msgid ""Mongolian""
msgstr ""Монгол""

msgid ""Nepali""
msgstr ""नेपाली""

msgid ""Nicaraguan Spanish""
msgstr ""Español de Nicaragua""

msgid ""Norwegian Bokmål""
msgstr """"

msgid ""Norwegian Nynorsk""
msgstr ""Norsk nynorsk""

msgid ""November""
msgstr ""Novembro""

msgid ""October""
msgstr ""Oktobro""

msgid ""Ossetic""
msgstr ""Ossetic""

msgid ""PM""
msgstr ""PM""

msgid ""Persian""
msgstr ""فارسی""

msgid ""Polish""
msgstr ""Polski""

msgid ""Portuguese""
msgstr ""Português""

msgid ""Punjabi""
msgstr ""ਪੰਜਾਬੀ""

msgid ""Romanian""
msgstr ""Română""

msgid ""Russian""
msgstr ""Русский""

msgid ""Sat""
msgstr ""Sat""

msgid ""Saturday""
msgstr ""Saturdio""

msgid ""Scottish Gaelic""
msgstr """"

msgid ""September""
msgstr ""Septembro""

msgid ""Serbian""
msgstr ""Српски / srpski""

msgid ""Serbian Latin""
msgstr ""Serbian Latin""

msgid ""Simplified Chinese""
msgstr ""简体中文""

msgid ""Slovak""
msgstr ""Slovenčina""

msgid ""Slovenian""
msgstr ""Slovenščina""

msgid ""Spanish""
msgstr ""Español""

msgid ""Sun""
msgstr ""Sun""

msgid ""Sunday""
msgstr ""Sundio""

msgid ""Swahili""
msgstr ""Kiswahili""

msgid ""Swedish""
msgstr ""Svenska""

msgid ""Tamil""
msgstr ""தமிழ்""

msgid ""Tatar""
msgstr ""Tatar""

msgid ""Telugu""
msgstr ""Telugu""

msgid ""Thai""
msgstr ""ไทย""

msgid ""Thu""
msgstr ""Jov""

msgid ""Thursday""
msgstr ""Jovdio""

msgid ""Traditional Chinese""
msgstr ""繁體中文""

msgid ""Tue""
msgstr ""Mar""

msgid ""Tuesday""
msgstr ""Mardio""

msgid ""Turkish""
msgstr ""Türkçe""

msgid ""Udmurt""
msgstr ""Удмурт""

msgid ""Ukrainian""
msgstr ""Українська""

msgid ""Upper Sorbian""
msgstr """"

msgid ""Urdu""
msgstr ""اُردُو""

msgid ""Uzbek""
msgstr """"

msgid ""Venezuelan Spanish""
msgstr ""Español de Venezuela""

msgid ""Vietnamese""
msgstr ""Tiếng Việt""

msgid ""Wed""
msgstr ""Mer""

msgid ""Wednesday""
msgstr ""Merkurdio""

msgid ""Welsh""
msgstr ""Cymraeg""

msgid ""a minute ago""
msgid_plural ""%[1]v minutes ago""
msgstr[0] """"
msgstr[1] """"

msgid ""a minute from now""
msgid_plural ""%[1]v minutes from now""
msgstr[0] """"
msgstr[1] """"

msgid ""a second ago""
msgid_plural ""%[1]v seconds ago""
msgstr[0] """"
msgstr[1] """"

msgid ""a second from now""
msgid_plural ""%[1]v seconds from now""
msgstr[0] """"
msgstr[1] """"

msgid ""a.m.""
msgstr ""a.m.""

msgid ""an hour ago""
msgid_plural ""%[1]v hours ago""
msgstr[0] """"
msgstr[1] """"

msgid ""an hour from now""
msgid_plural ""%[1]v hours from now""
msgstr[0] """"
msgstr[1] """"

msgid ""apr""
msgstr ""apr""

msgid ""aug""
msgstr ""ago""

msgid ""dec""
msgstr ""dec""

msgid ""eight""
msgstr """"

msgid ""feb""
msgstr ""feb""

msgid ""five""
msgstr """"

msgid ""four""
msgstr """"

msgid ""jan""
msgstr ""jan""

msgid ""jul""
msgstr ""jul""

msgid ""jun""
msgstr ""jun""

msgid ""mar""
msgstr ""mar""

msgid ""may""
msgstr ""may""

msgid ""midnight""
msgstr ""noktomezo""

msgid ""nine""
msgstr """"

msgid ""noon""
msgstr ""dimezo""

msgid ""nov""
msgstr ""nov""

msgid ""now""
msgstr """"

msgid ""oct""
msgstr ""okt""

msgid ""one""
msgstr """"

msgid ""p.m.""
msgstr ""p.m.""

msgid ""sep""
msgstr ""sep""

msgid ""seven""
msgstr """"

msgid ""six""
msgstr """"

msgid ""three""
msgstr """"

msgid ""today""
msgstr """"

msgid ""tomorrow""
msgstr """"

msgid ""two""
msgstr """"

msgid ""yesterday""
msgstr """"

msgctxt ""abbrev. month""
msgid ""April""
msgstr ""Aprilo""

msgctxt ""abbrev. month""
msgid ""Aug.""
msgstr ""Ago.""

msgctxt ""abbrev. month""
msgid ""Dec.""
msgstr ""Dec.""

msgctxt ""abbrev. month""
msgid ""Feb.""
msgstr ""Feb.""

msgctxt ""abbrev. month""
msgid ""Jan.""
msgstr ""Jan.""

msgctxt ""abbrev. month""
msgid ""July""
msgstr ""Julio""

msgctxt ""abbrev. month""
msgid ""June""
msgstr ""Junio""

msgctxt ""abbrev. month""
msgid ""March""
msgstr ""Marto""

msgctxt ""abbrev. month""
msgid ""May""
msgstr ""Mayo""

msgctxt ""abbrev. month""
msgid ""Nov.""
msgstr ""Nov.""

msgctxt ""abbrev. month""
msgid ""Oct.""
msgstr ""Okt.""

msgctxt ""abbrev. month""
msgid ""Sept.""
msgstr ""Sept.""

msgctxt ""alt. month""
msgid ""April""
msgstr ""Aprilo""

msgctxt ""alt. month""
msgid ""August""
msgstr ""Agosto""

msgctxt ""alt. month""
msgid ""December""
msgstr ""Decembro""

msgctxt ""alt. month""
msgid ""February""
msgstr ""Februaro""

msgctxt ""alt. month""
msgid ""January""
msgstr ""Januaro""

msgctxt ""alt. month""
msgid ""July""
msgstr ""Julio""

msgctxt ""alt. month""
msgid ""June""
msgstr ""Junio""

msgctxt ""alt. month""
msgid ""March""
msgstr ""Marto""

msgctxt ""alt. month""
msgid ""May""
msgstr ""Mayo""

msgctxt ""alt. month""
msgid ""November""
msgstr ""Novembro""

msgctxt ""alt. month""
msgid ""October""
msgstr ""Oktobro""

msgctxt ""alt. month""
msgid ""September""
msgstr ""Septembro""
".
(** humanize/locale/io/locale.go (New) *)
Definition loc_io : locale_data := LD (bs "io") [(bs "django.po", po_io)]
  (None).

(** humanize/locale/is/django.po *)
Definition po_is : bytes := bs "# This file is distributed under the same license as the Django package.
# 
# Translators:
# db999e1e0e51ac90b00482cb5db0f98b_32999f5 <3ec5202d5df408dd2f95d8c361fed970_5926>, 2011
# Hafsteinn Einarsson <haffi67@gmail.com>, 2011-2012
# Jannis Leidel <jannis@leidel.info>, 2011
# Matt R, 2018
# saevarom <saevar@saevar.is>, 2011
# saevarom <saevar@saevar.is>, 2013,2015
# Thordur Sigurdsson <thordur@ja.is>, 2016-2021
msgid """"
msgstr """"
""Project-Id-Version: django\n""
""Report-Msgid-Bugs-To: \n""
""POT-Creation-Date: 2021-09-21 10:22+0200\n""
""PO-Revision-Date: 2021-11-18 21:19+0000\n""
""Last-Translator: Transifex Bot <>\n""
""Language-Team: Icelandic (http://www.transifex.com/django/django/language/is/)\n""
""Language: is\n""
""MIME-Version: 1.0\n""
""Content-Type: text/plain; charset=UTF-8\n""
""Content-Transfer-Encoding: 8bit\n""
""Plural-Forms: nplurals=2; plural=(n % 10 != 1 || n % 100 == 11);\n""

msgid ""%[1]d byte""
msgid_plural ""%[1]d bytes""
msgstr[0] ""%[1]d bæti""
msgstr[1] ""%[1]d bæti""

msgid ""%[1]s billion""
msgid_plural ""%[1]s billion""
msgstr[0] ""%[1]s milljarður""
msgstr[1] ""%[1]s milljarðar""

msgid ""%[1]s decillion""
msgid_plural ""%[1]s decillion""
msgstr[0] ""%[1]s kvintilljarður""
msgstr[1] ""%[1]s kvintilljarðar""

msgid ""%[1]s googol""
msgid_plural ""%[1]s googol""
msgstr[0] ""%[1]s googol""
msgstr[1] ""%[1]s googol""

msgid ""%[1]s million""
msgid_plural ""%[1]s million""
msgstr[0] ""%[1]s milljón""
msgstr[1] ""%[1]s milljónir""

msgid ""%[1]s nonillion""
msgid_plural ""%[1]s nonillion""
msgstr[0] ""%[1]s kvintilljón""
msgstr[1] ""%[1]s kvintilljónir""

msgid ""%[1]s octillion""
msgid_plural ""%[1]s octillion""
msgstr[0] ""%[1]s kvaðrilljarður""
msgstr[1] ""%[1]s kvaðrilljarðar""

msgid ""%[1]s quadrillion""
msgid_plural ""%[1]s quadrillion""
msgstr[0] ""%[1]s billjarður""
msgstr[1] ""%[1]s billjarðar""

msgid ""%[1]s quintillion""
msgid_plural ""%[1]s quintillion""
msgstr[0] ""%[1]s trilljón""
msgstr[1] ""%[1]s trilljónir""

msgid ""%[1]s septillion""
msgid_plural ""%[1]s septillion""
msgstr[0] ""%[1]s kvaðrilljón""
msgstr[1] ""%[1]s kvaðrilljónir""

msgid ""%[1]s sextillion""
msgid_plural ""%[1]s sextillion""
msgstr[0] ""%[1]s trilljarður""
msgstr[1] ""%[1]s trilljarðar""

msgid ""%[1]s trillion""
msgid_plural ""%[1]s trillion""
msgstr[0] ""%[1]s billjón""
msgstr[1] ""%[1]s billjónir""

msgid ""%[1]v ago""
msgstr """"

msgid ""%[1]v day""
msgid_plural ""%[1]v days""
msgstr[0] """"
msgstr[1] """"

msgid ""%[1]v from now""
msgstr """"

msgid ""%[1]v hour""
msgid_plural ""%[1]v hours""
msgstr[0] """"
msgstr[1] """"

msgid ""%[1]v minute""
msgid_plural ""%[1]v minutes""
msgstr[0] """"
msgstr[1] """"

msgid ""%[1]v month""
msgid_plural ""%[1]v months""
msgstr[0] """"
msgstr[1] """"

msgid ""%[1]v week""
msgid_plural ""%[1]v weeks""
msgstr[0] """"
msgstr[1] """"

msgid ""%[1]v year""
msgid_plural ""%[1]v years""
msgstr[0] """"
msgstr[1] """"

msgid ""%s GB""
msgstr ""%s GB""

msgid ""%s KB""
msgstr ""%s KB""

msgid ""%s MB""
msgstr ""%s MB""

msgid ""%s PB""
msgstr ""%s PB""

msgid ""%s TB""
msgstr ""%s TB""

msgid "", ""
msgstr "", ""

msgid ""AM""
msgstr ""Morgun""

msgid ""Afrikaans""
msgstr ""Afríkanska""

msgid ""Albanian""
msgstr ""Albanska""

msgid ""Algerian Arabic""
msgstr """"

msgid ""April""
msgstr ""apríl""

msgid ""Arabic""
msgstr ""Arabíska""

msgid ""Argentinian Spanish""
msgstr ""Argentínsk spænska""

msgid ""Armenian""
msgstr ""Armenska""

msgid ""Asturian""
msgstr ""Astúríska""

msgid ""August""
msgstr ""ágúst""

msgid ""Australian English""
msgstr ""Áströlsk enska""

msgid ""Azerbaijani""
msgstr ""Aserbaídsjíska""

msgid ""Basque""
msgstr ""Baskneska""

msgid ""Belarusian""
msgstr ""Hvítrússneska""

msgid ""Bengali""
msgstr ""Bengalska""

msgid ""Bosnian""
msgstr ""Bosníska""

msgid ""Brazilian Portuguese""
msgstr ""Brasilísk portúgalska""

msgid ""Breton""
msgstr ""Bretónska""

msgid ""British English""
msgstr ""Bresk enska""

msgid ""Bulgarian""
msgstr ""Búlgarska""

msgid ""Burmese""
msgstr ""Búrmíska""

msgid ""Catalan""
msgstr ""Katalónska""

msgid ""Colombian Spanish""
msgstr ""Kólumbísk spænska""

msgid ""Croatian""
msgstr ""Króatíska""

msgid ""Czech""
msgstr ""Tékkneska""

msgid ""Danish""
msgstr ""Danska""

msgid ""December""
msgstr ""desember""

msgid ""Dutch""
msgstr ""Hollenska""

msgid ""English""
msgstr ""Enska""

msgid ""Esperanto""
msgstr ""Esperanto""

msgid ""Estonian""
msgstr ""Eistneska""

msgid ""February""
msgstr ""febrúar""

msgid ""Finnish""
msgstr ""Finnska""

msgid ""French""
msgstr ""Franska""

msgid ""Fri""
msgstr ""fös""

msgid ""Friday""
msgstr ""föstudagur""

msgid ""Frisian""
msgstr ""Frísneska""

msgid ""Galician""
msgstr ""Galíska""

msgid ""Georgian""
msgstr ""Georgíska""

msgid ""German""
msgstr ""Þýska""

msgid ""Greek""
msgstr ""Gríska""

msgid ""Hebrew""
msgstr ""Hebreska""

msgid ""Hindi""
msgstr ""Hindí""

msgid ""Hungarian""
msgstr ""Ungverska""

msgid ""Icelandic""
msgstr ""Íslenska""

msgid ""Ido""
msgstr ""Ido""

msgid ""Igbo""
msgstr """"

msgid ""Indonesian""
msgstr ""Indónesíska""

msgid ""Interlingua""
msgstr ""Interlingua""

msgid ""Irish""
msgstr ""Írska""

msgid ""Italian""
msgstr ""Ítalska""

msgid ""January""
msgstr ""janúar""

msgid ""Japanese""
msgstr ""Japanska""

msgid ""July""
msgstr ""júlí""

msgid ""June""
msgstr ""júní""

msgid ""Kabyle""
msgstr """"

msgid ""Kannada""
msgstr ""Kannadanska""

msgid ""Kazakh""
msgstr ""Kasakska""

msgid ""Khmer""
msgstr ""Kmeríska""

msgid ""Korean""
msgstr ""Kóreska""

msgid ""Kyrgyz""
msgstr """"

msgid ""Latvian""
msgstr ""Lettneska""

msgid ""Lithuanian""
msgstr ""Litháenska""

msgid ""Lower Sorbian""
msgstr ""Neðri sorbíska""

msgid ""Luxembourgish""
msgstr ""Lúxemborgíska""

msgid ""Macedonian""
msgstr ""Makedónska""

msgid ""Malay""
msgstr """"

msgid ""Malayalam""
msgstr ""Malajalamska""

msgid ""Marathi""
msgstr ""Maratí""

msgid ""March""
msgstr ""mars""

msgid ""May""
msgstr ""maí""

msgid ""Mexican Spanish""
msgstr ""Mexíkósk spænska""

msgid ""Mon""
msgstr ""mán""

msgid ""Monday""
msgstr ""mánudagur""

msgid ""Mongolian""
msgstr ""Mongólska""

msgid ""Nepali""
msgstr ""Nepalska""

msgid ""Nicaraguan Spanish""
msgstr ""Níkaragva spænska""

msgid ""Norwegian Bokmål""
msgstr ""Norskt bókmál""

msgid ""Norwegian Nynorsk""
msgstr ""Nýnorska""

msgid ""November""
msgstr ""nóvember""

msgid ""October""
msgstr ""október""

msgid ""Ossetic""
msgstr ""Ossetíska""

msgid ""PM""
msgstr ""Eftirmiðdegi""

msgid ""Persian""
msgstr ""Persneska""

msgid ""Polish""
msgstr ""Pólska""

msgid ""Portuguese""
msgstr ""Portúgalska""

msgid ""Punjabi""
msgstr ""Púndjabíska""

msgid ""Romanian""
msgstr ""Rúmenska""

msgid ""Russian""
msgstr ""Rússneska""

msgid ""Sat""
msgstr ""lau""

msgid ""Saturday""
msgstr ""laugardagur""

msgid ""Scottish Gaelic""
msgstr ""Skosk gelíska""

msgid ""September""
msgstr ""september""

msgid ""Serbian""
msgstr ""Serbneska""

msgid ""Serbian Latin""
msgstr ""Serbnesk latína""

msgid ""Simplified Chinese""
msgstr ""Einfölduð kínverska ""

msgid ""Slovak""
msgstr ""Slóvakíska""

msgid ""Slovenian""
msgstr ""Slóvenska""

msgid ""Spanish""
msgstr ""Spænska""

msgid ""Sun""
msgstr ""sun""

msgid ""Sunday""
msgstr ""sunnudagur""

msgid ""Swahili""
msgstr ""Svahílí""

msgid ""Swedish""
msgstr ""Sænska""

msgid ""Tajik""
msgstr """"

msgid ""Tamil""
msgstr ""Tamílska""

msgid ""Tatar""
msgstr ""Tataríska""

msgid ""Telugu""
msgstr ""Telúgúska""

msgid ""Thai""
msgstr ""Tælenska""

msgid ""Thu""
msgstr ""fim""

msgid ""Thursday""
msgstr ""fimmtudagur""

msgid ""Traditional Chinese""
msgstr ""Hefðbundin kínverska""

msgid ""Tue""
msgstr ""þri""

msgid ""Tuesday""
msgstr ""þriðjudagur""

msgid ""Turkish""
msgstr ""Tyrkneska""

msgid ""Turkmen""
msgstr """"

msgid ""Udmurt""
msgstr ""Údmúrt""

msgid ""Ukrainian""
msgstr ""Úkraínska""

msgid ""Upper Sorbian""
msgstr ""Efri sorbíska""

msgid ""Urdu""
msgstr ""Úrdú""

msgid ""Uzbek""
msgstr """"

msgid ""Venezuelan Spanish""
msgstr ""Venesúelsk spænska""

msgid ""Vietnamese""
msgstr ""Víetnamska""

msgid ""Wed""
msgstr ""mið""

msgid ""Wednesday""
msgstr ""miðvikudagur""

msgid ""Welsh""
msgstr ""Velska""

msgid ""a minute ago""
msgid_plural ""%[1]v minutes ago""
msgstr[0] """"
msgstr[1] """"

msgid ""a minute from now""
msgid_plural ""%[1]v minutes from now""
msgstr[0] """"
msgstr[1] """"

msgid ""a second ago""
msgid_plural ""%[1]v seconds ago""
msgstr[0] """"
msgstr[1] """"

msgid ""a second from now""
msgid_plural ""%[1]v seconds from now""
msgstr[0] """"
msgstr[1] """"

msgid ""a.m.""
msgstr ""morgun""

msgid ""an hour ago""
msgid_plural ""%[1]v hours ago""
msgstr[0] """"
msgstr[1] """"

msgid ""an hour from now""
msgid_plural ""%[1]v hours from now""
msgstr[0] """"
msgstr[1] """"

msgid ""apr""
msgstr ""apr""

msgid ""aug""
msgstr ""ágú""

msgid ""dec""
msgstr ""des""

msgid ""eight""
msgstr ""átta""

msgid ""feb""
msgstr ""feb""

msgid ""five""
msgstr ""fimm""

msgid ""four""
msgstr ""fjórir""

msgid ""jan""
msgstr ""jan""

msgid ""jul""
msgstr ""júl""

msgid ""jun""
msgstr ""jún""

msgid ""mar""
msgstr ""mar""

msgid ""may""
msgstr ""maí""

msgid ""midnight""
msgstr ""miðnætti""

msgid ""nine""
msgstr ""níu""

msgid ""noon""
msgstr ""hádegi""

msgid ""nov""
msgstr ""nóv""

msgid ""now""
msgstr ""núna""

msgid ""oct""
msgstr ""okt""

msgid ""one""
msgstr ""einn""

msgid ""p.m.""
msgstr ""eftirmiðdegi""

msgid ""sep""
msgstr ""sep""

msgid ""seven""
msgstr ""sjö""

msgid ""six""
msgstr ""sex""

msgid ""three""
msgstr ""þrír""

msgid ""today""
msgstr ""í dag""

msgid ""tomorrow""
msgstr ""á morgun""

msgid ""two""
msgstr ""tveir""

msgid ""yesterday""
msgstr ""í gær""

msgctxt ""abbrev. month""
msgid ""April""
msgstr ""apríl""

msgctxt ""abbrev. month""
msgid ""Aug.""
msgstr ""ág.""

msgctxt ""abbrev. month""
msgid ""Dec.""
msgstr ""des.""

msgctxt ""abbrev. month""
msgid ""Feb.""
msgstr ""feb.""

msgctxt ""abbrev. month""
msgid ""Jan.""
msgstr ""jan.""

msgctxt ""abbrev. month""
msgid ""July""
msgstr ""júlí""

msgctxt ""abbrev. month""
msgid ""June""
msgstr ""júní""

msgctxt ""abbrev. month""
msgid ""March""
msgstr ""mars""

msgctxt ""abbrev. month""
msgid ""May""
msgstr ""maí""

msgctxt ""abbrev. month""
msgid ""Nov.""
msgstr ""nóv.""

msgctxt ""abbrev. month""
msgid ""Oct.""
msgstr ""okt.""

msgctxt ""abbrev. month""
msgid ""Sept.""
msgstr ""sept.""

msgctxt ""alt. month""
msgid ""April""
msgstr ""apríl""

msgctxt ""alt. month""
msgid ""August""
msgstr ""ágúst""

msgctxt ""alt. month""
msgid ""December""
msgstr ""desember""

msgctxt ""alt. month""
msgid ""February""
msgstr ""febrúar""

msgctxt ""alt. month""
msgid ""January""
msgstr ""janúar""

msgctxt ""alt. month""
msgid ""July""
msgstr ""júlí""

msgctxt ""alt. month""
msgid ""June""
msgstr ""júní""

msgctxt ""alt. month""
msgid ""March""
msgstr ""mars""

msgctxt ""alt. month""
msgid ""May""
msgstr ""maí""

msgctxt ""alt. month""
msgid ""November""
msgstr ""nóvember""

msgctxt ""alt. month""
msgid ""October""
msgstr ""október""

msgctxt ""alt. month""
msgid ""September""
msgstr ""september""

msgctxt ""ordinal 0""
msgid ""%vth""
msgstr ""%v.""

msgctxt ""ordinal 1""
msgid ""%vst""
msgstr ""%v.""

msgctxt ""ordinal 11, 12, 13""
msgid ""%vth""
msgstr ""%v.""

msgctxt ""ordinal 2""
msgid ""%vnd""
msgstr ""%v.""

msgctxt ""ordinal 3""
msgid ""%vrd""
msgstr ""%v.""

msgctxt ""ordinal 4""
msgid ""%vth""
msgstr ""%v.""

msgctxt ""ordinal 5""
msgid ""%vth""
msgstr ""%v.""

msgctxt ""ordinal 6""
msgid ""%vth""
msgstr ""%v.""

msgctxt ""ordinal 7""
msgid ""%vth""
msgstr ""%v.""

msgctxt ""ordinal 8""
msgid ""%vth""
msgstr ""%v.""

msgctxt ""ordinal 9""
msgid ""%vth""
msgstr ""%v.""
".
(** humanize/locale/is/locale.go (New) *)
Definition loc_is : locale_data := LD (bs "is") [(bs "django.po", po_is)]
  (Some (FD (bs "j. F Y") (bs "H:i") (bs "") (bs "F Y") (bs "j. F") (bs "j.n.Y") (bs ""))).

(** humanize/locale/it/django.po *)
Definition po_it : bytes := bs "# This file is distributed under the same license as the Django package.
# 
# Translators:
# Andrea Guerra, 2024
# 0d21a39e384d88c2313b89b5042c04cb, 2017
# Carlo Miron <carlo@miron.it>, 2011
# Carlo Miron <carlo@miron.it>, 2014
# Carlo Miron <carlo@miron.it>, 2018-2019
# Davide Targa <davide.targa@gmail.com>, 2021
# Denis Darii <denis.darii@gmail.com>, 2011
# Emanuele Di Giacomo, 2021
# Flavio Curella <flavio.curella@gmail.com>, 2013,2016
# Jannis Leidel <jannis@leidel.info>, 2011
# Themis Savvidis <themhs@gmail.com>, 2013
# Luciano De Falco Alfano, 2016
# Marco Bonetti, 2014
# Mirco Grillo <mirco.grillomg@gmail.com>, 2018,2020
# Nicola Larosa <transifex@teknico.net>, 2013
# palmux <palmux@gmail.com>, 2014-2015,2017,2021
# Paolo Melchiorre <paolo@melchiorre.org>, 2022-2023
# Mattia Procopio <promat85@gmail.com>, 2015
# Riccardo Magliocchetti <riccardo.magliocchetti@gmail.com>, 2017
# Stefano Brentegani <sbrentegani@gmail.com>, 2014-2017
msgid """"
msgstr """"
""Project-Id-Version: django\n""
""Report-Msgid-Bugs-To: \n""
""POT-Creation-Date: 2025-03-19 11:30-0500\n""
""PO-Revision-Date: 2025-04-01 15:04-0500\n""
""Last-Translator: Andrea Guerra, 2024\n""
""Language-Team: Italian (http://app.transifex.com/django/django/language/it/)\n""
""Language: it\n""
""MIME-Version: 1.0\n""
""Content-Type: text/plain; charset=UTF-8\n""
""Content-Transfer-Encoding: 8bit\n""
""Plural-Forms: nplurals=2; plural=(n != 1);\n""

msgid ""%[1]d byte""
msgid_plural ""%[1]d bytes""
msgstr[0] ""%[1]d byte""
msgstr[1] ""%[1]d bytes""
msgstr[2] ""%[1]d bytes""

msgid ""%[1]s billion""
msgid_plural ""%[1]s billion""
msgstr[0] ""%[1]s miliardo""
msgstr[1] ""%[1]s miliardi""
msgstr[2] ""%[1]s miliardi""

msgid ""%[1]s decillion""
msgid_plural ""%[1]s decillion""
msgstr[0] ""%[1]s milione di miliardi di miliardi di miliardi""
msgstr[1] ""%[1]s milioni di miliardi di miliardi di miliardi""
msgstr[2] ""%[1]s milioni di miliardi di miliardi di miliardi""

msgid ""%[1]s googol""
msgid_plural ""%[1]s googol""
msgstr[0] ""%[1]s googol""
msgstr[1] ""%[1]s googol""
msgstr[2] ""%[1]s googol""

msgid ""%[1]s million""
msgid_plural ""%[1]s million""
msgstr[0] ""%[1]s milione""
msgstr[1] ""%[1]s milioni""
msgstr[2] ""%[1]s milioni""

msgid ""%[1]s nonillion""
msgid_plural ""%[1]s nonillion""
msgstr[0] ""%[1]s migliaio di miliardi di miliardi di miliardi""
msgstr[1] ""%[1]s migliaia di miliardi di miliardi di miliardi""
msgstr[2] ""%[1]s migliaia di miliardi di miliardi di miliardi""

msgid ""%[1]s octillion""
msgid_plural ""%[1]s octillion""
msgstr[0] ""%[1]s miliardo di miliardi di miliardi""
msgstr[1] ""%[1]s miliardi di miliardi di miliardi""
msgstr[2] ""%[1]s miliardi di miliardi di miliardi""

msgid ""%[1]s quadrillion""
msgid_plural ""%[1]s quadrillion""
msgstr[0] ""%[1]s milione di miliardi""
msgstr[1] ""%[1]s milioni di miliardi""
msgstr[2] ""%[1]s milioni di miliardi""

msgid ""%[1]s quintillion""
msgid_plural ""%[1]s quintillion""
msgstr[0] ""%[1]s miliardo di miliardi""
msgstr[1] ""%[1]s miliardi di miliardi""
msgstr[2] ""%[1]s miliardi di miliardi""

msgid ""%[1]s septillion""
msgid_plural ""%[1]s septillion""
msgstr[0] ""%[1]s milione di miliardi di miliardi""
msgstr[1] ""%[1]s milioni di miliardi di miliardi""
msgstr[2] ""%[1]s milioni di miliardi di miliardi""

msgid ""%[1]s sextillion""
msgid_plural ""%[1]s sextillion""
msgstr[0] ""%[1]s migliaio di miliardi di miliardi""
msgstr[1] ""%[1]s migliaia di miliardi di miliardi""
msgstr[2] ""%[1]s migliaia di miliardi di miliardi""

msgid ""%[1]s trillion""
msgid_plural ""%[1]s trillion""
msgstr[0] ""%[1]s migliaio di miliardi""
msgstr[1] ""%[1]s migliaia di miliardi""
msgstr[2] ""%[1]s migliaia di miliardi""

msgid ""%[1]v ago""
msgstr ""%[1]v fa""

msgid ""%[1]v day""
msgid_plural ""%[1]v days""
msgstr[0] ""%[1]v giorno""
msgstr[1] ""%[1]v giorni""
msgstr[2] ""%[1]v giorni""

msgid ""%[1]v from now""
msgstr ""%[1]v da adesso""

msgid ""%[1]v hour""
msgid_plural ""%[1]v hours""
msgstr[0] ""%[1]v ora""
msgstr[1] ""%[1]v ore""
msgstr[2] ""%[1]v ore""

msgid ""%[1]v minute""
msgid_plural ""%[1]v minutes""
msgstr[0] ""%[1]v minuto""
msgstr[1] ""%[1]v minuti""
msgstr[2] ""%[1]v minuti""

msgid ""%[1]v month""
msgid_plural ""%[1]v months""
msgstr[0] ""%[1]v mese""
msgstr[1] ""%[1]v mesi""
msgstr[2] ""%[1]v mesi""

msgid ""%[1]v week""
msgid_plural ""%[1]v weeks""
msgstr[0] ""%[1]v settimana""
msgstr[1] ""%[1]v settimane""
msgstr[2] ""%[1]v settimane""

msgid ""%[1]v year""
msgid_plural ""%[1]v years""
msgstr[0] ""%[1]v anno""
msgstr[1] ""%[1]v anni""
msgstr[2] ""%[1]v anni""

msgid ""%s GB""
msgstr ""%s GB""

msgid ""%s KB""
msgstr ""%s KB""

msgid ""%s MB""
msgstr ""%s MB""

msgid ""%s PB""
msgstr ""%s PB""

msgid ""%s TB""
msgstr ""%s TB""

msgid "", ""
msgstr "", ""

msgid ""AM""
msgstr ""AM""

msgid ""Afrikaans""
msgstr ""Afrikaans""

msgid ""Albanian""
msgstr ""Albanese""

msgid ""Algerian Arabic""
msgstr ""Arabo Algerino""

msgid ""April""
msgstr ""Aprile""

msgid ""Arabic""
msgstr ""Arabo""

msgid ""Argentinian Spanish""
msgstr ""Spagnolo Argentino""

msgid ""Armenian""
msgstr ""Armeno""

msgid ""Asturian""
msgstr ""Asturiano""

msgid ""August""
msgstr ""Agosto""

msgid ""Australian English""
msgstr ""Inglese Australiano""

msgid ""Azerbaijani""
msgstr ""Azero""

msgid ""Basque""
msgstr ""Basco""

msgid ""Belarusian""
msgstr ""Bielorusso""

msgid ""Bengali""
msgstr ""Bengalese""

msgid ""Bosnian""
msgstr ""Bosniaco""

msgid ""Brazilian Portuguese""
msgstr ""Brasiliano Portoghese""

msgid ""Breton""
msgstr ""Bretone""

msgid ""British English""
msgstr ""Inglese britannico""

msgid ""Bulgarian""
msgstr ""Bulgaro""

msgid ""Burmese""
msgstr ""Birmano""

msgid ""Catalan""
msgstr ""Catalano""

msgid ""Central Kurdish (Sorani)""
msgstr ""Curdo centrale (Sorani)""

msgid ""Colombian Spanish""
msgstr ""Spagnolo Colombiano""

msgid ""Croatian""
msgstr ""Croato""

msgid ""Czech""
msgstr ""Ceco""

msgid ""Danish""
msgstr ""Danese""

msgid ""December""
msgstr ""Dicembre""

msgid ""Dutch""
msgstr ""Olandese""

msgid ""English""
msgstr ""Inglese""

msgid ""Esperanto""
msgstr ""Esperanto""

msgid ""Estonian""
msgstr ""Estone""

msgid ""February""
msgstr ""Febbraio""

msgid ""Finnish""
msgstr ""Finlandese""

msgid ""French""
msgstr ""Francese""

msgid ""Fri""
msgstr ""Ven""

msgid ""Friday""
msgstr ""Venerdì""

msgid ""Frisian""
msgstr ""Frisone""

msgid ""Galician""
msgstr ""Galiziano""

msgid ""Georgian""
msgstr ""Georgiano""

msgid ""German""
msgstr ""Tedesco""

msgid ""Greek""
msgstr ""Greco""

msgid ""Hebrew""
msgstr ""Ebraico""

msgid ""Hindi""
msgstr ""Hindi""

msgid ""Hungarian""
msgstr ""Ungherese""

msgid ""Icelandic""
msgstr ""Islandese""

msgid ""Ido""
msgstr ""Ido""

msgid ""Igbo""
msgstr ""Igbo""

msgid ""Indonesian""
msgstr ""Indonesiano""

msgid ""Interlingua""
msgstr ""Interlingua""

msgid ""Irish""
msgstr ""Irlandese""

msgid ""Italian""
msgstr ""Italiano""

msgid ""January""
msgstr ""Gennaio""

msgid ""Japanese""
msgstr ""Giapponese""

msgid ""July""
msgstr ""Luglio""

msgid ""June""
msgstr ""Giugno""

msgid ""Kabyle""
msgstr ""Cabilo""

msgid ""Kannada""
msgstr ""Kannada""

msgid ""Kazakh""
msgstr ""Kazako""

msgid ""Khmer""
msgstr ""Khmer""

msgid ""Korean""
msgstr ""Coreano""

msgid ""Kyrgyz""
msgstr ""Kirghiso""

msgid ""Latvian""
msgstr ""Lettone""

msgid ""Lithuanian""
msgstr ""Lituano""

msgid ""Lower Sorbian""
msgstr ""Sorabo inferiore""

msgid ""Luxembourgish""
msgstr ""Lussemburghese""

msgid ""Macedonian""
msgstr ""Macedone""

msgid ""Malay""
msgstr ""Malese""

msgid ""Malayalam""
msgstr ""Malayalam""

msgid ""Marathi""
msgstr ""Marathi""

msgid ""March""
msgstr ""Marzo""

msgid ""May""
msgstr ""Maggio""

msgid ""Mexican Spanish""
msgstr ""Spagnolo Messicano""

msgid ""Mon""
msgstr ""Lun""

msgid ""Monday""
msgstr ""Lunedì""

msgid ""Mongolian""
msgstr ""Mongolo""

msgid ""Nepali""
msgstr ""Nepali""

msgid ""Nicaraguan Spanish""
msgstr ""Spagnolo Nicaraguense""

msgid ""Norwegian Bokmål""
msgstr ""Norvegese Bokmål""

msgid ""Norwegian Nynorsk""
msgstr ""Norvegese Nynorsk""

msgid ""November""
msgstr ""Novembre""

msgid ""October""
msgstr ""Ottobre""

msgid ""Ossetic""
msgstr ""Ossetico""

msgid ""PM""
msgstr ""PM""

msgid ""Persian""
msgstr ""Persiano""

msgid ""Polish""
msgstr ""Polacco""

msgid ""Portuguese""
msgstr ""Portoghese""

msgid ""Punjabi""
msgstr ""Punjabi""

msgid ""Romanian""
msgstr ""Rumeno""

msgid ""Russian""
msgstr ""Russo""

msgid ""Sat""
msgstr ""Sab""

msgid ""Saturday""
msgstr ""Sabato""

msgid ""Scottish Gaelic""
msgstr ""Gaelico Scozzese""

msgid ""September""
msgstr ""Settembre""

msgid ""Serbian""
msgstr ""Serbo""

msgid ""Serbian Latin""
msgstr ""Serbo Latino""

msgid ""Simplified Chinese""
msgstr ""Cinese semplificato""

msgid ""Slovak""
msgstr ""Slovacco""

msgid ""Slovenian""
msgstr ""Sloveno""

msgid ""Spanish""
msgstr ""Spagnolo""

msgid ""Sun""
msgstr ""Dom""

msgid ""Sunday""
msgstr ""Domenica""

msgid ""Swahili""
msgstr ""Swahili""

msgid ""Swedish""
msgstr ""Svedese""

msgid ""Tajik""
msgstr ""Tajik""

msgid ""Tamil""
msgstr ""Tamil""

msgid ""Tatar""
msgstr ""Tatar""

msgid ""Telugu""
msgstr ""Telugu""

msgid ""Thai""
msgstr ""Tailandese""

msgid ""Thu""
msgstr ""Gio""

msgid ""Thursday""
msgstr ""Giovedì""

msgid ""Traditional Chinese""
msgstr ""Cinese tradizionale""

msgid ""Tue""
msgstr ""Mar""

msgid ""Tuesday""
msgstr ""Martedì""

msgid ""Turkish""
msgstr ""Turco""

msgid ""Turkmen""
msgstr ""Turkmeno""

msgid ""Udmurt""
msgstr ""Udmurt""

msgid ""Ukrainian""
msgstr ""Ucraino""

msgid ""Upper Sorbian""
msgstr ""Sorabo superiore""

msgid ""Urdu""
msgstr ""Urdu""

msgid ""Uyghur""
msgstr ""Uiguro""

msgid ""Uzbek""
msgstr ""Uzbeko""

msgid ""Venezuelan Spanish""
msgstr ""Spagnolo venezuelano""

msgid ""Vietnamese""
msgstr ""Vietnamita""

msgid ""Wed""
msgstr ""Mer""

msgid ""Wednesday""
msgstr ""Mercoledì""

msgid ""Welsh""
msgstr ""Gallese""

msgid ""a minute ago""
msgid_plural ""%[1]v minutes ago""
msgstr[0] ""un minuto fa""
msgstr[1] ""%[1]v minuti fa""
msgstr[2] ""%[1]v minuti fa""

msgid ""a minute from now""
msgid_plural ""%[1]v minutes from now""
msgstr[0] ""tra un minuto""
msgstr[1] ""tra %[1]v minuti""
msgstr[2] ""tra %[1]v minuti""

msgid ""a second ago""
msgid_plural ""%[1]v seconds ago""
msgstr[0] ""un secondo fa""
msgstr[1] ""%[1]v secondi fa""
msgstr[2] ""%[1]v secondi fa""

msgid ""a second from now""
msgid_plural ""%[1]v seconds from now""
msgstr[0] ""tra un secondo""
msgstr[1] ""tra %[1]v secondi""
msgstr[2] ""tra %[1]v secondi""

msgid ""a.m.""
msgstr ""a.m.""

msgid ""an hour ago""
msgid_plural ""%[1]v hours ago""
msgstr[0] ""un ora fa""
msgstr[1] ""%[1]v ore fa""
msgstr[2] ""%[1]v ore fa""

msgid ""an hour from now""
msgid_plural ""%[1]v hours from now""
msgstr[0] ""tra un'ora""
msgstr[1] ""tra %[1]v ore""
msgstr[2] ""tra %[1]v ore""

msgid ""apr""
msgstr ""apr""

msgid ""aug""
msgstr ""ago""

msgid ""dec""
msgstr ""dic""

msgid ""eight""
msgstr ""otto""

msgid ""feb""
msgstr ""feb""

msgid ""five""
msgstr ""cinque""

msgid ""four""
msgstr ""quattro""

msgid ""jan""
msgstr ""gen""

msgid ""jul""
msgstr ""lug""

msgid ""jun""
msgstr ""giu""

msgid ""mar""
msgstr ""mar""

msgid ""may""
msgstr ""mag""

msgid ""midnight""
msgstr ""mezzanotte""

msgid ""nine""
msgstr ""nove""

msgid ""noon""
msgstr ""mezzogiorno""

msgid ""nov""
msgstr ""nov""

msgid ""now""
msgstr ""adesso""

msgid ""oct""
msgstr ""ott""

msgid ""one""
msgstr ""uno""

msgid ""p.m.""
msgstr ""p.m.""

msgid ""sep""
msgstr ""set""

msgid ""seven""
msgstr ""sette""

msgid ""six""
msgstr ""sei""

msgid ""three""
msgstr ""tre""

msgid ""today""
msgstr ""oggi""

msgid ""tomorrow""
msgstr ""domani""

msgid ""two""
msgstr ""due""

msgid ""yesterday""
msgstr ""ieri""

msgctxt ""abbrev. month""
msgid ""April""
msgstr ""Aprile""

msgctxt ""abbrev. month""
msgid ""Aug.""
msgstr ""Ago.""

msgctxt ""abbrev. month""
msgid ""Dec.""
msgstr ""Dic.""

msgctxt ""abbrev. month""
msgid ""Feb.""
msgstr ""Feb.""

msgctxt ""abbrev. month""
msgid ""Jan.""
msgstr ""Gen.""

msgctxt ""abbrev. month""
msgid ""July""
msgstr ""Luglio""

msgctxt ""abbrev. month""
msgid ""June""
msgstr ""Giugno""

msgctxt ""abbrev. month""
msgid ""March""
msgstr ""Marzo""

msgctxt ""abbrev. month""
msgid ""May""
msgstr ""Maggio""

msgctxt ""abbrev. month""
msgid ""Nov.""
msgstr ""Nov.""

msgctxt ""abbrev. month""
msgid ""Oct.""
msgstr ""Ott.""

msgctxt ""abbrev. month""
msgid ""Sept.""
msgstr ""Set.""

msgctxt ""alt. month""
msgid ""April""
msgstr ""Aprile""

msgctxt ""alt. month""
msgid ""August""
msgstr ""Agosto""

msgctxt ""alt. month""
msgid ""December""
msgstr ""Dicembre""

msgctxt ""alt. month""
msgid ""February""
msgstr ""Febbraio""

msgctxt ""alt. month""
msgid ""January""
msgstr ""Gennaio""

msgctxt ""alt. month""
msgid ""July""
msgstr ""Luglio""

msgctxt ""alt. month""
msgid ""June""
msgstr ""Giugno""

msgctxt ""alt. month""
msgid ""March""
msgstr ""Marzo""

msgctxt ""alt. month""
msgid ""May""
msgstr ""Maggio""

msgctxt ""alt. month""
msgid ""November""
msgstr ""Novembre""

msgctxt ""alt. month""
msgid ""October""
msgstr ""Ottobre""

msgctxt ""alt. month""
msgid ""September""
msgstr ""Settembre""

msgctxt ""naturaltime-future""
msgid ""%[1]v day""
msgid_plural ""%[1]v days""
msgstr[0] ""%[1]v giorno""
msgstr[1] ""%[1]v giorni""
msgstr[2] ""%[1]v giorni""

msgctxt ""naturaltime-future""
msgid ""%[1]v hour""
msgid_plural ""%[1]v hours""
msgstr[0] ""%[1]v ora""
msgstr[1] ""%[1]v ore""
msgstr[2] ""%[1]v ore""

msgctxt ""naturaltime-future""
msgid ""%[1]v minute""
msgid_plural ""%[1]v minutes""
msgstr[0] ""%[1]v minuto""
msgstr[1] ""%[1]v minuti""
msgstr[2] ""%[1]v minuti""

msgctxt ""naturaltime-future""
msgid ""%[1]v month""
msgid_plural ""%[1]v months""
msgstr[0] ""%[1]v mese""
msgstr[1] ""%[1]v mesi""
msgstr[2] ""%[1]v mesi""

msgctxt ""naturaltime-future""
msgid ""%[1]v week""
msgid_plural ""%[1]v weeks""
msgstr[0] ""%[1]v settimana""
msgstr[1] ""%[1]v settimane""
msgstr[2] ""%[1]v settimane""

msgctxt ""naturaltime-future""
msgid ""%[1]v year""
msgid_plural ""%[1]v years""
msgstr[0] ""%[1]v anno""
msgstr[1] ""%[1]v anni""
msgstr[2] ""%[1]v anni""

msgctxt ""naturaltime-past""
msgid ""%[1]v day""
msgid_plural ""%[1]v days""
msgstr[0] ""%[1]v giorno""
msgstr[1] ""%[1]v giorni""
msgstr[2] ""%[1]v giorni""

msgctxt ""naturaltime-past""
msgid ""%[1]v hour""
msgid_plural ""%[1]v hours""
msgstr[0] ""%[1]v ora""
msgstr[1] ""%[1]v ore""
msgstr[2] ""%[1]v ore""

msgctxt ""naturaltime-past""
msgid ""%[1]v minute""
msgid_plural ""%[1]v minutes""
msgstr[0] ""%[1]v minuto""
msgstr[1] ""%[1]v minuti""
msgstr[2] ""%[1]v minuti""

msgctxt ""naturaltime-past""
msgid ""%[1]v month""
msgid_plural ""%[1]v months""
msgstr[0] ""%[1]v mese""
msgstr[1] ""%[1]v mesi""
msgstr[2] ""%[1]v mesi""

msgctxt ""naturaltime-past""
msgid ""%[1]v week""
msgid_plural ""%[1]v weeks""
msgstr[0] ""%[1]v settimana""
msgstr[1] ""%[1]v settimane""
msgstr[2] ""%[1]v settimane""

msgctxt ""naturaltime-past""
msgid ""%[1]v year""
msgid_plural ""%[1]v years""
msgstr[0] ""%[1]v anno""
msgstr[1] ""%[1]v anni""
msgstr[2] ""%[1]v anni""

msgctxt ""ordinal 0""
msgid ""%vth""
msgstr ""%vesimo""

msgctxt ""ordinal 1""
msgid ""%vst""
msgstr ""%vesimo""

msgctxt ""ordinal 11, 12, 13""
msgid ""%vth""
msgstr ""%vesimo""

msgctxt ""ordinal 2""
msgid ""%vnd""
msgstr ""%vesimo""

msgctxt ""ordinal 3""
msgid ""%vrd""
msgstr ""%vesimo""

msgctxt ""ordinal 4""
msgid ""%vth""
msgstr ""%vesimo""

msgctxt ""ordinal 5""
msgid ""%vth""
msgstr ""%vesimo""

msgctxt ""ordinal 6""
msgid ""%vth""
msgstr ""%vesimo""

msgctxt ""ordinal 7""
msgid ""%vth""
msgstr ""%vesimo""

msgctxt ""ordinal 8""
msgid ""%vth""
msgstr ""%vesimo""

msgctxt ""ordinal 9""
msgid ""%vth""
msgstr ""%vesimo""
".
(** humanize/locale/it/locale.go (New) *)
Definition loc_it : locale_data := LD (bs "it") [(bs "django.po", po_it)]
  (Some (FD (bs "d F Y") (bs "H:i") (bs "l d F Y H:i") (bs "F Y") (bs "j F") (bs "d/m/Y") (bs "d/m/Y H:i"))).

(** humanize/locale/ja/django.po *)
Definition po_ja : bytes := bs "# This file is distributed under the same license as the Django package.
# 
# Translators:
# xiu1 <d84ea@hotmail.co.jp>, 2016
# tadasu <elsee9@me.com>, 2020
# Goto Hayato <habita.gh@gmail.com>, 2021
# Goto Hayato <habita.gh@gmail.com>, 2019
# Hiroki Sawano, 2022
# Jannis Leidel <jannis@leidel.info>, 2011
# Kamiyama Satoshi, 2021
# Kentaro Matsuzaki <kentaro0919@gmail.com>, 2015
# Masashi SHIBATA <contact@c-bata.link>, 2017
# Nikita K <hiyori.amatsuki@gmail.com>, 2019
# Shinichi Katsumata <shinichi.katsumata@gmail.com>, 2019
# Shinya Okano <tokibito@gmail.com>, 2012-2019,2021,2023-2025
# TANIGUCHI Taichi, 2022
# Takuro Onoue <kusanaginoturugi@gmail.com>, 2020
# Takuya N <takninnovationresearch@gmail.com>, 2020
# Tetsuya Morimoto <tetsuya.morimoto@gmail.com>, 2011
msgid """"
msgstr """"
""Project-Id-Version: django\n""
""Report-Msgid-Bugs-To: \n""
""POT-Creation-Date: 2024-05-22 11:46-0300\n""
""PO-Revision-Date: 2025-03-19 11:30-0500\n""
""Last-Translator: Shinya Okano <tokibito@gmail.com>, 2012-2019,2021,2023-2025\n""
""Language-Team: Japanese (http://app.transifex.com/django/django/language/ja/)\n""
""Language: ja\n""
""MIME-Version: 1.0\n""
""Content-Type: text/plain; charset=UTF-8\n""
""Content-Transfer-Encoding: 8bit\n""
""Plural-Forms: nplurals=1; plural=0;\n""

msgid ""%[1]d byte""
msgid_plural ""%[1]d bytes""
msgstr[0] ""%[1]d バイト""
msgstr[1] """"

msgid ""%[1]s billion""
msgid_plural ""%[1]s billion""
msgstr[0] ""%[1]s ビリオン""
msgstr[1] """"

msgid ""%[1]s decillion""
msgid_plural ""%[1]s decillion""
msgstr[0] ""%[1]s デシリオン""
msgstr[1] """"

msgid ""%[1]s googol""
msgid_plural ""%[1]s googol""
msgstr[0] ""%[1]s グーゴル""
msgstr[1] """"

msgid ""%[1]s million""
msgid_plural ""%[1]s million""
msgstr[0] ""%[1]s ミリオン""
msgstr[1] """"

msgid ""%[1]s nonillion""
msgid_plural ""%[1]s nonillion""
msgstr[0] ""%[1]s ノニリオン""
msgstr[1] """"

msgid ""%[1]s octillion""
msgid_plural ""%[1]s octillion""
msgstr[0] ""%[1]s オクティリオン""
msgstr[1] """"

msgid ""%[1]s quadrillion""
msgid_plural ""%[1]s quadrillion""
msgstr[0] "" %[1]s クァドリリオン""
msgstr[1] """"

msgid ""%[1]s quintillion""
msgid_plural ""%[1]s quintillion""
msgstr[0] ""%[1]s クインテリオン""
msgstr[1] """"

msgid ""%[1]s septillion""
msgid_plural ""%[1]s septillion""
msgstr[0] ""%[1]s セプティリオン""
msgstr[1] """"

msgid ""%[1]s sextillion""
msgid_plural ""%[1]s sextillion""
msgstr[0] ""%[1]s セクスティリオン""
msgstr[1] """"

msgid ""%[1]s trillion""
msgid_plural ""%[1]s trillion""
msgstr[0] ""%[1]s トリリオン""
msgstr[1] """"

msgid ""%[1]v ago""
msgstr ""%[1]v前""

msgid ""%[1]v day""
msgid_plural ""%[1]v days""
msgstr[0] ""%[1]v日""
msgstr[1] """"

msgid ""%[1]v from now""
msgstr ""今から%[1]v""

msgid ""%[1]v hour""
msgid_plural ""%[1]v hours""
msgstr[0] ""%[1]v時間""
msgstr[1] """"

msgid ""%[1]v minute""
msgid_plural ""%[1]v minutes""
msgstr[0] ""%[1]v分""
msgstr[1] """"

msgid ""%[1]v month""
msgid_plural ""%[1]v months""
msgstr[0] ""%[1]vヶ月""
msgstr[1] """"

msgid ""%[1]v week""
msgid_plural ""%[1]v weeks""
msgstr[0] ""%[1]v週間""
msgstr[1] """"

msgid ""%[1]v year""
msgid_plural ""%[1]v years""
msgstr[0] ""%[1]v年""
msgstr[1] """"

msgid ""%s GB""
msgstr ""%s GB""

msgid ""%s KB""
msgstr ""%s KB""

msgid ""%s MB""
msgstr ""%s MB""

msgid ""%s PB""
msgstr ""%s PB""

msgid ""%s TB""
msgstr ""%s TB""

msgid "", ""
msgstr "", ""

msgid ""AM""
msgstr ""AM""

msgid ""Afrikaans""
msgstr ""アフリカーンス語""

msgid ""Albanian""
msgstr ""アルバニア語""

msgid ""Algerian Arabic""
msgstr ""アラビア語(アルジェリア)""

msgid ""April""
msgstr ""4月""

msgid ""Arabic""
msgstr ""アラビア語""

msgid ""Argentinian Spanish""
msgstr ""アルゼンチンスペイン語""

msgid ""Armenian""
msgstr ""アルメニア""

msgid ""Asturian""
msgstr ""アストゥリアス語""

msgid ""August""
msgstr ""8月""

msgid ""Australian English""
msgstr ""英語(オーストラリア)""

msgid ""Azerbaijani""
msgstr ""アゼルバイジャン語""

msgid ""Basque""
msgstr ""バスク語""

msgid ""Belarusian""
msgstr ""ベラルーシ語""

msgid ""Bengali""
msgstr ""ベンガル語""

msgid ""Bosnian""
msgstr ""ボスニア語""

msgid ""Brazilian Portuguese""
msgstr ""ブラジルポルトガル語""

msgid ""Breton""
msgstr ""ブルトン語""

msgid ""British English""
msgstr ""英語(英国)""

msgid ""Bulgarian""
msgstr ""ブルガリア語""

msgid ""Burmese""
msgstr ""ビルマ語""

msgid ""Catalan""
msgstr ""カタロニア語""

msgid ""Central Kurdish (Sorani)""
msgstr ""中央クルド語 (ソラニー語)""

msgid ""Colombian Spanish""
msgstr ""コロンビアスペイン語""

msgid ""Croatian""
msgstr ""クロアチア語""

msgid ""Czech""
msgstr ""チェコ語""

msgid ""Danish""
msgstr ""デンマーク語""

msgid ""December""
msgstr ""12月""

msgid ""Dutch""
msgstr ""オランダ語""

msgid ""English""
msgstr ""英語(米国)""

msgid ""Esperanto""
msgstr ""エスペラント語""

msgid ""Estonian""
msgstr ""エストニア語""

msgid ""February""
msgstr ""2月""

msgid ""Finnish""
msgstr ""フィンランド語""

msgid ""French""
msgstr ""フランス語""

msgid ""Fri""
msgstr ""金""

msgid ""Friday""
msgstr ""金曜日""

msgid ""Frisian""
msgstr ""フリジア語""

msgid ""Galician""
msgstr ""ガリシア語""

msgid ""Georgian""
msgstr ""グルジア語""

msgid ""German""
msgstr ""ドイツ語""

msgid ""Greek""
msgstr ""ギリシャ語""

msgid ""Hebrew""
msgstr ""ヘブライ語""

msgid ""Hindi""
msgstr ""ヒンディー語""

msgid ""Hungarian""
msgstr ""ハンガリー語""

msgid ""Icelandic""
msgstr ""アイスランド語""

msgid ""Ido""
msgstr ""イド語""

msgid ""Igbo""
msgstr ""イグボ語""

msgid ""Indonesian""
msgstr ""インドネシア語""

msgid ""Interlingua""
msgstr ""インターリングア""

msgid ""Irish""
msgstr ""アイルランド語""

msgid ""Italian""
msgstr ""イタリア語""

msgid ""January""
msgstr ""1月""

msgid ""Japanese""
msgstr ""日本語""

msgid ""July""
msgstr ""7月""

msgid ""June""
msgstr ""6月""

msgid ""Kabyle""
msgstr ""カビル語""

msgid ""Kannada""
msgstr ""カンナダ語""

msgid ""Kazakh""
msgstr ""カザフ語""

msgid ""Khmer""
msgstr ""クメール語""

msgid ""Korean""
msgstr ""韓国語""

msgid ""Kyrgyz""
msgstr ""キルギス語""

msgid ""Latvian""
msgstr ""ラトビア語""

msgid ""Lithuanian""
msgstr ""リトアニア語""

msgid ""Lower Sorbian""
msgstr ""低地ソルブ語""

msgid ""Luxembourgish""
msgstr ""ルクセンブルグ語""

msgid ""Macedonian""
msgstr ""マケドニア語""

msgid ""Malay""
msgstr ""マレー語""

msgid ""Malayalam""
msgstr ""マラヤーラム語""

msgid ""Marathi""
msgstr ""マラーティー語""

msgid ""March""
msgstr ""3月""

msgid ""May""
msgstr ""5月""

msgid ""Mexican Spanish""
msgstr ""メキシコスペイン語""

msgid ""Mon""
msgstr ""月""

msgid ""Monday""
msgstr ""月曜日""

msgid ""Mongolian""
msgstr ""モンゴル語""

msgid ""Nepali""
msgstr ""ネパール語""

msgid ""Nicaraguan Spanish""
msgstr ""ニカラグアスペイン語""

msgid ""Norwegian Bokmål""
msgstr ""ノルウェーのブークモール""

msgid ""Norwegian Nynorsk""
msgstr ""ノルウェーのニーノシュク""

msgid ""November""
msgstr ""11月""

msgid ""October""
msgstr ""10月""

msgid ""Ossetic""
msgstr ""オセット語""

msgid ""PM""
msgstr ""PM""

msgid ""Persian""
msgstr ""ペルシア語""

msgid ""Polish""
msgstr ""ポーランド語""

msgid ""Portuguese""
msgstr ""ポルトガル語""

msgid ""Punjabi""
msgstr ""パンジャブ語""

msgid ""Romanian""
msgstr ""ルーマニア語""

msgid ""Russian""
msgstr ""ロシア語""

msgid ""Sat""
msgstr ""土""

msgid ""Saturday""
msgstr ""土曜日""

msgid ""Scottish Gaelic""
msgstr ""ゲール語(スコットランド)""

msgid ""September""
msgstr ""9月""

msgid ""Serbian""
msgstr ""セルビア語""

msgid ""Serbian Latin""
msgstr ""セルビア語ラテン文字""

msgid ""Simplified Chinese""
msgstr ""簡体字中国語""

msgid ""Slovak""
msgstr ""スロバキア語""

msgid ""Slovenian""
msgstr ""スロヴェニア語""

msgid ""Spanish""
msgstr ""スペイン語""

msgid ""Sun""
msgstr ""日""

msgid ""Sunday""
msgstr ""日曜日""

msgid ""Swahili""
msgstr ""スワヒリ語""

msgid ""Swedish""
msgstr ""スウェーデン語""

msgid ""Tajik""
msgstr ""タジク語""

msgid ""Tamil""
msgstr ""タミル語""

msgid ""Tatar""
msgstr ""タタール語""

msgid ""Telugu""
msgstr ""テルグ語""

msgid ""Thai""
msgstr ""タイ語""

msgid ""Thu""
msgstr ""木""

msgid ""Thursday""
msgstr ""木曜日""

msgid ""Traditional Chinese""
msgstr ""繁体字中国語""

msgid ""Tue""
msgstr ""火""

msgid ""Tuesday""
msgstr ""火曜日""

msgid ""Turkish""
msgstr ""トルコ語""

msgid ""Turkmen""
msgstr ""トルクメン語""

msgid ""Udmurt""
msgstr ""ウドムルト語""

msgid ""Ukrainian""
msgstr ""ウクライナ語""

msgid ""Upper Sorbian""
msgstr ""高地ソルブ語""

msgid ""Urdu""
msgstr ""ウルドゥー語""

msgid ""Uyghur""
msgstr ""ウイグル語""

msgid ""Uzbek""
msgstr ""ウズベク語""

msgid ""Venezuelan Spanish""
msgstr ""ベネズエラスペイン語""

msgid ""Vietnamese""
msgstr ""ベトナム語""

msgid ""Wed""
msgstr ""水""

msgid ""Wednesday""
msgstr ""水曜日""

msgid ""Welsh""
msgstr ""ウェールズ語""

msgid ""a minute ago""
msgid_plural ""%[1]v minutes ago""
msgstr[0] ""%[1]v分前""
msgstr[1] """"

msgid ""a minute from now""
msgid_plural ""%[1]v minutes from now""
msgstr[0] ""今から%[1]v分""
msgstr[1] """"

msgid ""a second ago""
msgid_plural ""%[1]v seconds ago""
msgstr[0] ""%[1]v秒前""
msgstr[1] """"

msgid ""a second from now""
msgid_plural ""%[1]v seconds from now""
msgstr[0] ""今から%[1]v秒""
msgstr[1] """"

msgid ""a.m.""
msgstr ""a.m.""

msgid ""an hour ago""
msgid_plural ""%[1]v hours ago""
msgstr[0] ""%[1]v時間前""
msgstr[1] """"

msgid ""an hour from now""
msgid_plural ""%[1]v hours from now""
msgstr[0] ""今から%[1]v時間""
msgstr[1] """"

msgid ""apr""
msgstr ""4月""

msgid ""aug""
msgstr ""8月""

msgid ""dec""
msgstr ""12月""

msgid ""eight""
msgstr ""8""

msgid ""feb""
msgstr ""2月""

msgid ""five""
msgstr ""5""

msgid ""four""
msgstr ""4""

msgid ""jan""
msgstr ""1月""

msgid ""jul""
msgstr ""7月""

msgid ""jun""
msgstr ""6月""

msgid ""mar""
msgstr ""3月""

msgid ""may""
msgstr ""5月""

msgid ""midnight""
msgstr ""0時""

msgid ""nine""
msgstr ""9""

msgid ""noon""
msgstr ""12時""

msgid ""nov""
msgstr ""11月""

msgid ""now""
msgstr ""今""

msgid ""oct""
msgstr ""10月""

msgid ""one""
msgstr ""1""

msgid ""p.m.""
msgstr ""p.m.""

msgid ""sep""
msgstr ""9月""

msgid ""seven""
msgstr ""7""

msgid ""six""
msgstr ""6""

msgid ""three""
msgstr ""3""

msgid ""today""
msgstr ""今日""

msgid ""tomorrow""
msgstr ""明日""

msgid ""two""
msgstr ""2""

msgid ""yesterday""
msgstr ""昨日""

msgctxt ""abbrev. month""
msgid ""April""
msgstr ""4月""

msgctxt ""abbrev. month""
msgid ""Aug.""
msgstr ""8月""

msgctxt ""abbrev. month""
msgid ""Dec.""
msgstr ""12月""

msgctxt ""abbrev. month""
msgid ""Feb.""
msgstr ""2月""

msgctxt ""abbrev. month""
msgid ""Jan.""
msgstr ""1月""

msgctxt ""abbrev. month""
msgid ""July""
msgstr ""7月""

msgctxt ""abbrev. month""
msgid ""June""
msgstr ""6月""

msgctxt ""abbrev. month""
msgid ""March""
msgstr ""3月""

msgctxt ""abbrev. month""
msgid ""May""
msgstr ""5月""

msgctxt ""abbrev. month""
msgid ""Nov.""
msgstr ""11月""

msgctxt ""abbrev. month""
msgid ""Oct.""
msgstr ""10月""

msgctxt ""abbrev. month""
msgid ""Sept.""
msgstr ""9月""

msgctxt ""alt. month""
msgid ""April""
msgstr ""4月""

msgctxt ""alt. month""
msgid ""August""
msgstr ""8月""

msgctxt ""alt. month""
msgid ""December""
msgstr ""12月""

msgctxt ""alt. month""
msgid ""February""
msgstr ""2月""

msgctxt ""alt. month""
msgid ""January""
msgstr ""1月""

msgctxt ""alt. month""
msgid ""July""
msgstr ""7月""

msgctxt ""alt. month""
msgid ""June""
msgstr ""6月""

msgctxt ""alt. month""
msgid ""March""
msgstr ""3月""

msgctxt ""alt. month""
msgid ""May""
msgstr ""5月""

msgctxt ""alt. month""
msgid ""November""
msgstr ""11月""

msgctxt ""alt. month""
msgid ""October""
msgstr ""10月""

msgctxt ""alt. month""
msgid ""September""
msgstr ""9月""

msgctxt ""naturaltime-future""
msgid ""%[1]v day""
msgid_plural ""%[1]v days""
msgstr[0] ""%[1]v日""
msgstr[1] """"

msgctxt ""naturaltime-future""
msgid ""%[1]v hour""
msgid_plural ""%[1]v hours""
msgstr[0] ""%[1]v時間""
msgstr[1] """"

msgctxt ""naturaltime-future""
msgid ""%[1]v minute""
msgid_plural ""%[1]v minutes""
msgstr[0] ""%[1]v分""
msgstr[1] """"

msgctxt ""naturaltime-future""
msgid ""%[1]v month""
msgid_plural ""%[1]v months""
msgstr[0] ""%[1]vヶ月""
msgstr[1] """"

msgctxt ""naturaltime-future""
msgid ""%[1]v week""
msgid_plural ""%[1]v weeks""
msgstr[0] ""%[1]v週間""
msgstr[1] """"

msgctxt ""naturaltime-future""
msgid ""%[1]v year""
msgid_plural ""%[1]v years""
msgstr[0] ""%[1]v年""
msgstr[1] """"

msgctxt ""naturaltime-past""
msgid ""%[1]v day""
msgid_plural ""%[1]v days""
msgstr[0] ""%[1]v日""
msgstr[1] """"

msgctxt ""naturaltime-past""
msgid ""%[1]v hour""
msgid_plural ""%[1]v hours""
msgstr[0] ""%[1]v時間""
msgstr[1] """"

msgctxt ""naturaltime-past""
msgid ""%[1]v minute""
msgid_plural ""%[1]v minutes""
msgstr[0] ""%[1]v分""
msgstr[1] """"

msgctxt ""naturaltime-past""
msgid ""%[1]v month""
msgid_plural ""%[1]v months""
msgstr[0] ""%[1]vヶ月""
msgstr[1] """"

msgctxt ""naturaltime-past""
msgid ""%[1]v week""
msgid_plural ""%[1]v weeks""
msgstr[0] ""%[1]v週間""
msgstr[1] """"

msgctxt ""naturaltime-past""
msgid ""%[1]v year""
msgid_plural ""%[1]v years""
msgstr[0] ""%[1]v年""
msgstr[1] """"

msgctxt ""ordinal 0""
msgid ""%vth""
msgstr ""%v番目""

msgctxt ""ordinal 1""
msgid ""%vst""
msgstr ""%v番目""

msgctxt ""ordinal 11, 12, 13""
msgid ""%vth""
msgstr ""%v番目""

msgctxt ""ordinal 2""
msgid ""%vnd""
msgstr ""%v番目""

msgctxt ""ordinal 3""
msgid ""%vrd""
msgstr ""%v番目""

msgctxt ""ordinal 4""
msgid ""%vth""
msgstr ""%v番目""

msgctxt ""ordinal 5""
msgid ""%vth""
msgstr ""%v番目""

msgctxt ""ordinal 6""
msgid ""%vth""
msgstr ""%v番目""

msgctxt ""ordinal 7""
msgid ""%vth""
msgstr ""%v番目""

msgctxt ""ordinal 8""
msgid ""%vth""
msgstr ""%v番目""

msgctxt ""ordinal 9""
msgid ""%vth""
msgstr ""%v番目""
".
(** humanize/locale/ja/locale.go (New) *)
Definition loc_ja : locale_data := LD (bs "ja") [(bs "django.po", po_ja)]
  (Some (FD (bs "Y年n月j日") (bs "G:i") (bs "Y年n月j日G:i") (bs "Y年n月") (bs "n月j日") (bs "Y/m/d") (bs "Y/m/d G:i"))).

(** humanize/locale/ka/django.po *)
Definition po_ka : bytes := bs "# This file is distributed under the same license as the Django package.
# 
# Translators:
# André Bouatchidzé <a@anbz.net>, 2013-2015
# David A. <avsd05@gmail.com>, 2019
# David A. <avsd05@gmail.com>, 2011
# Jannis Leidel <jannis@leidel.info>, 2011
# Tornike Beradze <beradze@europe.com>, 2018
msgid """"
msgstr """"
""Project-Id-Version: django\n""
""Report-Msgid-Bugs-To: \n""
""POT-Creation-Date: 2019-09-27 22:40+0200\n""
""PO-Revision-Date: 2019-11-05 00:38+0000\n""
""Last-Translator: Ramiro Morales\n""
""Language-Team: Georgian (http://www.transifex.com/django/django/language/ka/)\n""
""Language: ka\n""
""MIME-Version: 1.0\n""
""Content-Type: text/plain; charset=UTF-8\n""
""Content-Transfer-Encoding: 8bit\n""
""Plural-Forms: nplurals=2; plural=(n!=1);\n""

msgid ""%[1]d byte""
msgid_plural ""%[1]d bytes""
msgstr[0] ""%[1]d ბაიტი""
msgstr[1] ""%[1]d ბაიტი""

msgid ""%[1]s billion""
msgid_plural ""%[1]s billion""
msgstr[0] ""%[1]s მილიარდი""
msgstr[1] ""%[1]s მილიარდი""

msgid ""%[1]s decillion""
msgid_plural ""%[1]s decillion""
msgstr[0] ""%[1]s დეცილიონი""
msgstr[1] ""%[1]s დეცილიონი""

msgid ""%[1]s googol""
msgid_plural ""%[1]s googol""
msgstr[0] ""%[1]s გუგოლი""
msgstr[1] ""%[1]s გუგოლი""

msgid ""%[1]s million""
msgid_plural ""%[1]s million""
msgstr[0] ""%[1]s მილიონი""
msgstr[1] ""%[1]s მილიონი""

msgid ""%[1]s nonillion""
msgid_plural ""%[1]s nonillion""
msgstr[0] ""%[1]s ნონილიონი""
msgstr[1] ""%[1]s ნონილიონი""

msgid ""%[1]s octillion""
msgid_plural ""%[1]s octillion""
msgstr[0] ""%[1]s ოქტილიონი""
msgstr[1] ""%[1]s ოქტილიონი""

msgid ""%[1]s quadrillion""
msgid_plural ""%[1]s quadrillion""
msgstr[0] ""%[1]s კვადრილიონი""
msgstr[1] ""%[1]s კვადრილიონი""

msgid ""%[1]s quintillion""
msgid_plural ""%[1]s quintillion""
msgstr[0] ""%[1]s კვინტილიონი""
msgstr[1] ""%[1]s კვინტილიონი""

msgid ""%[1]s septillion""
msgid_plural ""%[1]s septillion""
msgstr[0] ""%[1]s სეპტილიონი""
msgstr[1] ""%[1]s სეპტილიონი""

msgid ""%[1]s sextillion""
msgid_plural ""%[1]s sextillion""
msgstr[0] ""%[1]s სექსტილიონი""
msgstr[1] ""%[1]s სექსტილიონი""

msgid ""%[1]s trillion""
msgid_plural ""%[1]s trillion""
msgstr[0] ""%[1]s ტრილიონი""
msgstr[1] ""%[1]s ტრილიონი""

msgid ""%[1]v ago""
msgstr """"

msgid ""%[1]v from now""
msgstr """"

msgid ""%s GB""
msgstr ""%s გბ""

msgid ""%s KB""
msgstr ""%s კბ""

msgid ""%s MB""
msgstr ""%s მბ""

msgid ""%s PB""
msgstr ""%s პბ""

msgid ""%s TB""
msgstr ""%s ტბ""

msgid "", ""
msgstr "", ""

msgid ""AM""
msgstr ""AM""

msgid ""Afrikaans""
msgstr ""აფრიკაანსი""

msgid ""Albanian""
msgstr ""ალბანური""

msgid ""April""
msgstr ""აპრილი""

msgid ""Arabic""
msgstr ""არაბული""

msgid ""Argentinian Spanish""
msgstr ""არგენტინის ესპანური""

msgid ""Armenian""
msgstr ""სომხური""

msgid ""Asturian""
msgstr ""ასტურიული""

msgid ""August""
msgstr ""აგვისტო""

msgid ""Australian English""
msgstr ""ავსტრალიური ინგლისური""

msgid ""Azerbaijani""
msgstr ""აზერბაიჯანული""

msgid ""Basque""
msgstr ""ბასკური""

msgid ""Belarusian""
msgstr ""ბელარუსული""

msgid ""Bengali""
msgstr ""ბენგალიური""

msgid ""Bosnian""
msgstr ""ბოსნიური""

msgid ""Brazilian Portuguese""
msgstr ""ბრაზილიური პორტუგალიური""

msgid ""Breton""
msgstr ""ბრეტონული""

msgid ""British English""
msgstr ""ბრიტანეთის ინგლისური""

msgid ""Bulgarian""
msgstr ""ბულგარული""

msgid ""Burmese""
msgstr ""ბირმული""

msgid ""Catalan""
msgstr ""კატალანური""

msgid ""Colombian Spanish""
msgstr ""კოლუმბიური ესპანური""

msgid ""Croatian""
msgstr ""ხორვატიული""

msgid ""Czech""
msgstr ""ჩეხური""

msgid ""Danish""
msgstr ""დანიური""

msgid ""December""
msgstr ""დეკემბერი""

msgid ""Dutch""
msgstr ""ჰოლანდიური""

msgid ""English""
msgstr ""ინგლისური""

msgid ""Esperanto""
msgstr ""ესპერანტო""

msgid ""Estonian""
msgstr ""ესტონური""

msgid ""February""
msgstr ""თებერვალი""

msgid ""Finnish""
msgstr ""ფინური""

msgid ""French""
msgstr ""ფრანგული""

msgid ""Fri""
msgstr ""პარ""

msgid ""Friday""
msgstr ""პარასკევი""

msgid ""Frisian""
msgstr ""ფრისიული""

msgid ""Galician""
msgstr ""გალიციური""

msgid ""Georgian""
msgstr ""ქართული""

msgid ""German""
msgstr ""გერმანული""

msgid ""Greek""
msgstr ""ბერძნული""

msgid ""Hebrew""
msgstr ""ებრაული""

msgid ""Hindi""
msgstr ""ჰინდი""

msgid ""Hungarian""
msgstr ""უნგრული""

msgid ""Icelandic""
msgstr ""ისლანდიური""

msgid ""Ido""
msgstr ""იდო""

msgid ""Indonesian""
msgstr ""ინდონეზიური""

msgid ""Interlingua""
msgstr ""ინტერლინგუა""

msgid ""Irish""
msgstr ""ირლანდიური""

msgid ""Italian""
msgstr ""იტალიური""

msgid ""January""
msgstr ""იანვარი""

msgid ""Japanese""
msgstr ""იაპონური""

msgid ""July""
msgstr ""ივლისი""

msgid ""June""
msgstr ""ივნისი""

msgid ""Kabyle""
msgstr ""კაბილური""

msgid ""Kannada""
msgstr ""კანნადა""

msgid ""Kazakh""
msgstr ""ყაზახური""

msgid ""Khmer""
msgstr ""ხმერული""

msgid ""Korean""
msgstr ""კორეული""

msgid ""Latvian""
msgstr ""ლატვიური""

msgid ""Lithuanian""
msgstr ""ლიტვური""

msgid ""Lower Sorbian""
msgstr ""ქვემო სორბული""

msgid ""Luxembourgish""
msgstr ""ლუქსემბურგული""

msgid ""Macedonian""
msgstr ""მაკედონიური""

msgid ""Malayalam""
msgstr ""მალაიზიური""

msgid ""Marathi""
msgstr ""მარათული""

msgid ""March""
msgstr ""მარტი""

msgid ""May""
msgstr ""მაისი""

msgid ""Mexican Spanish""
msgstr ""მექსიკური ესპანური""

msgid ""Mon""
msgstr ""ორშ""

msgid ""Monday""
msgstr ""ორშაბათი""

msgid ""Mongolian""
msgstr ""მონღოლური""

msgid ""Nepali""
msgstr ""ნეპალური""

msgid ""Nicaraguan Spanish""
msgstr ""ნიკარაგუული ესპანური""

msgid ""Norwegian Bokmål""
msgstr ""ნორვეგიული Bokmål""

msgid ""Norwegian Nynorsk""
msgstr ""ნორვეგიული-ნინორსკი""

msgid ""November""
msgstr ""ნოემბერი""

msgid ""October""
msgstr ""ოქტომბერი""

msgid ""Ossetic""
msgstr ""ოსური""

msgid ""PM""
msgstr ""PM""

msgid ""Persian""
msgstr ""სპარსული""

msgid ""Polish""
msgstr ""პოლონური""

msgid ""Portuguese""
msgstr ""პორტუგალიური""

msgid ""Punjabi""
msgstr ""პუნჯაბი""

msgid ""Romanian""
msgstr ""რუმინული""

msgid ""Russian""
msgstr ""რუსული""

msgid ""Sat""
msgstr ""შაბ""

msgid ""Saturday""
msgstr ""შაბათი""

msgid ""Scottish Gaelic""
msgstr ""შოტლანდიური-გელური""

msgid ""September""
msgstr ""სექტემბერი""

msgid ""Serbian""
msgstr ""სერბული""

msgid ""Serbian Latin""
msgstr ""სერბული (ლათინური)""

msgid ""Simplified Chinese""
msgstr ""გამარტივებული ჩინური""

msgid ""Slovak""
msgstr ""სლოვაკური""

msgid ""Slovenian""
msgstr ""სლოვენიური""

msgid ""Spanish""
msgstr ""ესპანური""

msgid ""Sun""
msgstr ""კვრ""

msgid ""Sunday""
msgstr ""კვირა""

msgid ""Swahili""
msgstr ""სუაჰილი""

msgid ""Swedish""
msgstr ""შვედური""

msgid ""Tamil""
msgstr ""თამილური""

msgid ""Tatar""
msgstr ""თათრული""

msgid ""Telugu""
msgstr ""ტელუგუ""

msgid ""Thai""
msgstr ""ტაი""

msgid ""Thu""
msgstr ""ხუთ""

msgid ""Thursday""
msgstr ""ხუთშაბათი""

msgid ""Traditional Chinese""
msgstr ""ტრადიციული ჩინური""

msgid ""Tue""
msgstr ""სამ""

msgid ""Tuesday""
msgstr ""სამშაბათი""

msgid ""Turkish""
msgstr ""თურქული""

msgid ""Udmurt""
msgstr ""უდმურტული""

msgid ""Ukrainian""
msgstr ""უკრაინული""

msgid ""Upper Sorbian""
msgstr ""ზემო სორბიული""

msgid ""Urdu""
msgstr ""ურდუ""

msgid ""Uzbek""
msgstr """"

msgid ""Venezuelan Spanish""
msgstr ""ვენესუელის ესპანური""

msgid ""Vietnamese""
msgstr ""ვიეტნამური""

msgid ""Wed""
msgstr ""ოთხ""

msgid ""Wednesday""
msgstr ""ოთხშაბათი""

msgid ""Welsh""
msgstr ""უელსური""

msgid ""a minute ago""
msgid_plural ""%[1]v minutes ago""
msgstr[0] ""%[1]v წუთის წინ""
msgstr[1] ""%[1]v წუთის წინ""

msgid ""a minute from now""
msgid_plural ""%[1]v minutes from now""
msgstr[0] ""%[1]v წუთში""
msgstr[1] ""%[1]v წუთში""

msgid ""a second ago""
msgid_plural ""%[1]v seconds ago""
msgstr[0] ""%[1]v წამის წინ""
msgstr[1] ""%[1]v წამის წინ""

msgid ""a second from now""
msgid_plural ""%[1]v seconds from now""
msgstr[0] ""%[1]v წამში""
msgstr[1] ""%[1]v წამში""

msgid ""a.m.""
msgstr ""a.m.""

msgid ""an hour ago""
msgid_plural ""%[1]v hours ago""
msgstr[0] ""%[1]v საათის წინ""
msgstr[1] ""%[1]v საათის წინ""

msgid ""an hour from now""
msgid_plural ""%[1]v hours from now""
msgstr[0] ""%[1]v საათში""
msgstr[1] ""%[1]v საათში""

msgid ""apr""
msgstr ""აპრ""

msgid ""aug""
msgstr ""აგვ""

msgid ""dec""
msgstr ""დეკ""

msgid ""eight""
msgstr ""რვა""

msgid ""feb""
msgstr ""თებ""

msgid ""five""
msgstr ""ხუთი""

msgid ""four""
msgstr ""ოთხი""

msgid ""jan""
msgstr ""იან""

msgid ""jul""
msgstr ""ივლ""

msgid ""jun""
msgstr ""ივნ""

msgid ""mar""
msgstr ""მარ""

msgid ""may""
msgstr ""მაი""

msgid ""midnight""
msgstr ""შუაღამე""

msgid ""nine""
msgstr ""ცხრა""

msgid ""noon""
msgstr ""შუადღე""

msgid ""nov""
msgstr ""ნოე""

msgid ""now""
msgstr ""ახლა""

msgid ""oct""
msgstr ""ოქტ""

msgid ""one""
msgstr ""ერთი""

msgid ""p.m.""
msgstr ""p.m.""

msgid ""sep""
msgstr ""სექ""

msgid ""seven""
msgstr ""შვიდი""

msgid ""six""
msgstr ""ექვსი""

msgid ""three""
msgstr ""სამი""

msgid ""today""
msgstr ""დღეს""

msgid ""tomorrow""
msgstr ""ხვალ""

msgid ""two""
msgstr ""ორი""

msgid ""yesterday""
msgstr ""გუშინ""

msgctxt ""abbrev. month""
msgid ""April""
msgstr ""აპრ.""

msgctxt ""abbrev. month""
msgid ""Aug.""
msgstr ""აგვ.""

msgctxt ""abbrev. month""
msgid ""Dec.""
msgstr ""დეკ.""

msgctxt ""abbrev. month""
msgid ""Feb.""
msgstr ""თებ.""

msgctxt ""abbrev. month""
msgid ""Jan.""
msgstr ""იან.""

msgctxt ""abbrev. month""
msgid ""July""
msgstr ""ივლ.""

msgctxt ""abbrev. month""
msgid ""June""
msgstr ""ივნ.""

msgctxt ""abbrev. month""
msgid ""March""
msgstr ""მარ.""

msgctxt ""abbrev. month""
msgid ""May""
msgstr ""მაი""

msgctxt ""abbrev. month""
msgid ""Nov.""
msgstr ""ნოემ.""

msgctxt ""abbrev. month""
msgid ""Oct.""
msgstr ""ოქტ.""

msgctxt ""abbrev. month""
msgid ""Sept.""
msgstr ""სექტ.""

msgctxt ""alt. month""
msgid ""April""
msgstr ""აპრილი""

msgctxt ""alt. month""
msgid ""August""
msgstr ""აგვისტო""

msgctxt ""alt. month""
msgid ""December""
msgstr ""დეკემბერი""

msgctxt ""alt. month""
msgid ""February""
msgstr ""თებერვალი""

msgctxt ""alt. month""
msgid ""January""
msgstr ""იანვარი""

msgctxt ""alt. month""
msgid ""July""
msgstr ""ივლისი""

msgctxt ""alt. month""
msgid ""June""
msgstr ""ივნისი""

msgctxt ""alt. month""
msgid ""March""
msgstr ""მარტი""

msgctxt ""alt. month""
msgid ""May""
msgstr ""მაისი""

msgctxt ""alt. month""
msgid ""November""
msgstr ""ნოემბერი""

msgctxt ""alt. month""
msgid ""October""
msgstr ""ოქტომბერი""

msgctxt ""alt. month""
msgid ""September""
msgstr ""სექტემბერი""

msgctxt ""ordinal 0""
msgid ""%vth""
msgstr """"

msgctxt ""ordinal 1""
msgid ""%vst""
msgstr """"

msgctxt ""ordinal 11, 12, 13""
msgid ""%vth""
msgstr """"

msgctxt ""ordinal 2""
msgid ""%vnd""
msgstr """"

msgctxt ""ordinal 3""
msgid ""%vrd""
msgstr """"

msgctxt ""ordinal 4""
msgid ""%vth""
msgstr """"

msgctxt ""ordinal 5""
msgid ""%vth""
msgstr """"

msgctxt ""ordinal 6""
msgid ""%vth""
msgstr """"

msgctxt ""ordinal 7""
msgid ""%vth""
msgstr """"

msgctxt ""ordinal 8""
msgid ""%vth""
msgstr """"

msgctxt ""ordinal 9""
msgid ""%vth""
msgstr """"
".
(** humanize/locale/ka/locale.go (New) *)
Definition loc_ka : locale_data := LD (bs "ka") [(bs "django.po", po_ka)]
  (Some (FD (bs "l, j F, Y") (bs "h:i a") (bs "j F, Y h:i a") (bs "F, Y") (bs "j F") (bs "j.M.Y") (bs "j.M.Y H:i"))).

(** humanize/locale/kab/django.po *)
Definition po_kab : bytes := bs "# This file is distributed under the same license as the Django package.
# 
# Translators:
msgid """"
msgstr """"
""Project-Id-Version: django\n""
""Report-Msgid-Bugs-To: \n""
""POT-Creation-Date: 2019-09-27 22:40+0200\n""
""PO-Revision-Date: 2019-11-05 00:38+0000\n""
""Last-Translator: Ramiro Morales\n""
""Language-Team: Kabyle (http://www.transifex.com/django/django/language/kab/)\n""
""Language: kab\n""
""MIME-Version: 1.0\n""
""Content-Type: text/plain; charset=UTF-8\n""
""Content-Transfer-Encoding: 8bit\n""
""Plural-Forms: nplurals=2; plural=(n != 1);\n""

msgid ""%[1]d byte""
msgid_plural ""%[1]d bytes""
msgstr[0] """"
msgstr[1] """"

msgid ""%s GB""
msgstr ""%s GAṬ""

msgid ""%s KB""
msgstr ""%s KAṬ""

msgid ""%s MB""
msgstr ""%s MAṬ""

msgid ""%s PB""
msgstr ""%s PAṬ""

msgid ""%s TB""
msgstr ""%s TAṬ""

msgid "", ""
msgstr "", ""

msgid ""AM""
msgstr ""FT""

msgid ""Afrikaans""
msgstr ""Tafrikanst""

msgid ""Albanian""
msgstr ""Talbanit""

msgid ""April""
msgstr ""Yebrir""

msgid ""Arabic""
msgstr ""Taɛṛabt""

msgid ""Argentinian Spanish""
msgstr ""Taspanit n Arjuntin""

msgid ""Armenian""
msgstr """"

msgid ""Asturian""
msgstr ""Tasturyant""

msgid ""August""
msgstr ""Ɣuct""

msgid ""Australian English""
msgstr ""Taglizit n Ustralya""

msgid ""Azerbaijani""
msgstr ""Tazeṛbayǧant""

msgid ""Basque""
msgstr ""Tabaskit""

msgid ""Belarusian""
msgstr ""Tabilurusit""

msgid ""Bengali""
msgstr ""Tabelgalit""

msgid ""Bosnian""
msgstr ""Tabusnit""

msgid ""Brazilian Portuguese""
msgstr """"

msgid ""Breton""
msgstr ""Tabrutunt""

msgid ""British English""
msgstr ""Taglizit (UK)""

msgid ""Bulgarian""
msgstr ""Tabulgarit""

msgid ""Burmese""
msgstr ""Tabirmanit""

msgid ""Catalan""
msgstr ""Takaṭalant""

msgid ""Colombian Spanish""
msgstr ""Taspanit n Kulumbya""

msgid ""Croatian""
msgstr ""Takarwasit""

msgid ""Czech""
msgstr ""Tačikit""

msgid ""Danish""
msgstr ""Tadanit""

msgid ""December""
msgstr ""Dujamber""

msgid ""Dutch""
msgstr ""Tahulandit""

msgid ""English""
msgstr ""Taglizit""

msgid ""Esperanto""
msgstr ""Taspirantit""

msgid ""Estonian""
msgstr ""Tastunit""

msgid ""February""
msgstr ""Fuṛaṛ""

msgid ""Finnish""
msgstr ""Tafinit""

msgid ""French""
msgstr ""Tafṛansist""

msgid ""Fri""
msgstr ""Sem""

msgid ""Friday""
msgstr ""Sem""

msgid ""Frisian""
msgstr """"

msgid ""Galician""
msgstr """"

msgid ""Georgian""
msgstr ""Tajyuṛjit""

msgid ""German""
msgstr ""Talmanit""

msgid ""Greek""
msgstr ""Tagrigit""

msgid ""Hebrew""
msgstr """"

msgid ""Hindi""
msgstr ""Tahendit""

msgid ""Hungarian""
msgstr ""Tahungarit""

msgid ""Icelandic""
msgstr ""Taslandit""

msgid ""Ido""
msgstr """"

msgid ""Indonesian""
msgstr ""Tandunizit""

msgid ""Interlingua""
msgstr """"

msgid ""Irish""
msgstr """"

msgid ""Italian""
msgstr ""Taṭelyanit""

msgid ""January""
msgstr ""Yennayer""

msgid ""Japanese""
msgstr """"

msgid ""July""
msgstr ""Yulyu""

msgid ""June""
msgstr ""Yunyu""

msgid ""Kabyle""
msgstr """"

msgid ""Kannada""
msgstr ""Takannadat""

msgid ""Kazakh""
msgstr ""Takazaxt""

msgid ""Khmer""
msgstr """"

msgid ""Korean""
msgstr ""Takurit""

msgid ""Latvian""
msgstr ""Talitunit""

msgid ""Lithuanian""
msgstr ""Talitwanit""

msgid ""Lower Sorbian""
msgstr ""Tasiṛbit n wadda""

msgid ""Luxembourgish""
msgstr """"

msgid ""Macedonian""
msgstr ""Tamasidunit""

msgid ""Malayalam""
msgstr ""Tamayalamt""

msgid ""Marathi""
msgstr """"

msgid ""March""
msgstr ""Meɣres""

msgid ""May""
msgstr ""Mayyu""

msgid ""Mexican Spanish""
msgstr ""Taspanit n Miksik""

msgid ""Mon""
msgstr ""Ari""

msgid ""Monday""
msgstr ""Arim""

msgid ""Mongolian""
msgstr """"

msgid ""Nepali""
msgstr ""Tanipalit""

msgid ""Nicaraguan Spanish""
msgstr ""Taspanit n Nikaragwa""

msgid ""Norwegian Bokmål""
msgstr """"

msgid ""Norwegian Nynorsk""
msgstr """"

msgid ""November""
msgstr ""Wamber""

msgid ""October""
msgstr ""Tuber""

msgid ""Ossetic""
msgstr """"

msgid ""PM""
msgstr ""MD""

msgid ""Persian""
msgstr ""Tafarsit""

msgid ""Polish""
msgstr ""Tapulandit""

msgid ""Portuguese""
msgstr ""Tapurtugit""

msgid ""Punjabi""
msgstr ""Tabenjabit""

msgid ""Romanian""
msgstr ""Tarumanit""

msgid ""Russian""
msgstr ""Tarusit""

msgid ""Sat""
msgstr ""Sed""

msgid ""Saturday""
msgstr ""Sed""

msgid ""Scottish Gaelic""
msgstr """"

msgid ""September""
msgstr ""Ctamber""

msgid ""Serbian""
msgstr ""Tasiṛbit""

msgid ""Serbian Latin""
msgstr """"

msgid ""Simplified Chinese""
msgstr """"

msgid ""Slovak""
msgstr ""Tasluvakt""

msgid ""Slovenian""
msgstr """"

msgid ""Spanish""
msgstr ""Taspanit""

msgid ""Sun""
msgstr ""Ace""

msgid ""Sunday""
msgstr ""Acer""

msgid ""Swahili""
msgstr ""Taswahilit""

msgid ""Swedish""
msgstr ""Taswidit""

msgid ""Tamil""
msgstr ""Taṭamult""

msgid ""Tatar""
msgstr """"

msgid ""Telugu""
msgstr """"

msgid ""Thai""
msgstr """"

msgid ""Thu""
msgstr ""Amh""

msgid ""Thursday""
msgstr ""Amhad""

msgid ""Traditional Chinese""
msgstr """"

msgid ""Tue""
msgstr ""Ara""

msgid ""Tuesday""
msgstr ""Aram""

msgid ""Turkish""
msgstr ""Taṭurkit""

msgid ""Udmurt""
msgstr """"

msgid ""Ukrainian""
msgstr """"

msgid ""Upper Sorbian""
msgstr """"

msgid ""Urdu""
msgstr """"

msgid ""Uzbek""
msgstr """"

msgid ""Venezuelan Spanish""
msgstr ""Taspanit n Vinizwila""

msgid ""Vietnamese""
msgstr """"

msgid ""Wed""
msgstr ""Aha""

msgid ""Wednesday""
msgstr ""Ahad""

msgid ""Welsh""
msgstr ""Takusit""

msgid ""a.m.""
msgstr ""f.t.""

msgid ""apr""
msgstr ""yeb""

msgid ""aug""
msgstr ""ɣuc""

msgid ""dec""
msgstr ""duj""

msgid ""feb""
msgstr ""fuṛ""

msgid ""jan""
msgstr ""yen""

msgid ""jul""
msgstr ""yul""

msgid ""jun""
msgstr ""yun""

msgid ""mar""
msgstr ""meɣ""

msgid ""may""
msgstr ""may""

msgid ""midnight""
msgstr ""ttnaṣfa n yiḍ""

msgid ""noon""
msgstr ""ttnaṣfa n uzal""

msgid ""nov""
msgstr ""wam""

msgid ""oct""
msgstr ""tub""

msgid ""p.m.""
msgstr ""m.d.""

msgid ""sep""
msgstr ""cte""

msgctxt ""abbrev. month""
msgid ""April""
msgstr ""Yebrir""

msgctxt ""abbrev. month""
msgid ""Aug.""
msgstr ""Ɣuc.""

msgctxt ""abbrev. month""
msgid ""Dec.""
msgstr ""Duj.""

msgctxt ""abbrev. month""
msgid ""Feb.""
msgstr ""Fuṛ.""

msgctxt ""abbrev. month""
msgid ""Jan.""
msgstr ""Yen.""

msgctxt ""abbrev. month""
msgid ""July""
msgstr ""Yulyu""

msgctxt ""abbrev. month""
msgid ""June""
msgstr ""Yunyu""

msgctxt ""abbrev. month""
msgid ""March""
msgstr ""Meɣres""

msgctxt ""abbrev. month""
msgid ""May""
msgstr ""Mayyu""

msgctxt ""abbrev. month""
msgid ""Nov.""
msgstr ""Wam.""

msgctxt ""abbrev. month""
msgid ""Oct.""
msgstr ""Tub.""

msgctxt ""abbrev. month""
msgid ""Sept.""
msgstr """"

msgctxt ""alt. month""
msgid ""April""
msgstr ""Yebrir""

msgctxt ""alt. month""
msgid ""August""
msgstr ""Ɣuct""

msgctxt ""alt. month""
msgid ""December""
msgstr ""Dujamber""

msgctxt ""alt. month""
msgid ""February""
msgstr ""Fuṛaṛ""

msgctxt ""alt. month""
msgid ""January""
msgstr ""Yennayer""

msgctxt ""alt. month""
msgid ""July""
msgstr ""Yulyu""

msgctxt ""alt. month""
msgid ""June""
msgstr ""Yunyu""

msgctxt ""alt. month""
msgid ""March""
msgstr ""Meɣres""

msgctxt ""alt. month""
msgid ""May""
msgstr ""Mayyu""

msgctxt ""alt. month""
msgid ""November""
msgstr ""Wamber""

msgctxt ""alt. month""
msgid ""October""
msgstr ""Tuber""

msgctxt ""alt. month""
msgid ""September""
msgstr ""Ctamber""
".
(** humanize/locale/kab/locale.go (New) *)
Definition loc_kab : locale_data := LD (bs "kab") [(bs "django.po", po_kab)]
  (None).

Definition shipped_5 : list (bytes * locale_data) :=
  [(bs "hy", loc_hy);
   (bs "ia", loc_ia);
   (bs "id", loc_id);
   (bs "ig", loc_ig);
   (bs "io", loc_io);
   (bs "is", loc_is);
   (bs "it", loc_it);
   (bs "ja", loc_ja);
   (bs "ka", loc_ka);
   (bs "kab", loc_kab)].
