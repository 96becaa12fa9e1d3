(** Translations and formats that come with humanize, part 4: generated by
    tools/gen_humdata.py from /repo/humanize/locale, django.po and the Go file of
    each package. *)
From Coq Require Import String Ascii List.
From Verif Require Import Base DfmtModel HumLocModel.
Import ListNotations.

(** humanize/locale/fr/django.po *)
Definition po_fr : bytes := bs "# This file is distributed under the same license as the Django package.
# 
# Translators:
# Bruno Brouard <annoa.b@gmail.com>, 2021
# Simon Charette <charette.s@gmail.com>, 2012
# Claude Paroz <claude@2xlibre.net>, 2013-2025
# Claude Paroz <claude@2xlibre.net>, 2011
# Jannis Leidel <jannis@leidel.info>, 2011
# Jean-Baptiste Mora, 2014
# Larlet David <david@larlet.fr>, 2011
# Marie-Cécile Gohier <mariececile.gohier@gmail.com>, 2014
msgid """"
msgstr """"
""Project-Id-Version: django\n""
""Report-Msgid-Bugs-To: \n""
""POT-Creation-Date: 2025-03-19 11:30-0500\n""
""PO-Revision-Date: 2025-04-01 15:04-0500\n""
""Last-Translator: Claude Paroz <claude@2xlibre.net>, 2013-2025\n""
""Language-Team: French (http://app.transifex.com/django/django/language/fr/)\n""
""Language: fr\n""
""MIME-Version: 1.0\n""
""Content-Type: text/plain; charset=UTF-8\n""
""Content-Transfer-Encoding: 8bit\n""
""Plural-Forms: nplurals=2; plural=(n > 1);\n""

msgid ""%[1]d byte""
msgid_plural ""%[1]d bytes""
msgstr[0] ""%[1]d octet""
msgstr[1] ""%[1]d octets""
msgstr[2] ""%[1]d octets""

msgid ""%[1]s billion""
msgid_plural ""%[1]s billion""
msgstr[0] ""%[1]s milliard""
msgstr[1] ""%[1]s milliards""
msgstr[2] ""%[1]s milliards""

msgid ""%[1]s decillion""
msgid_plural ""%[1]s decillion""
msgstr[0] ""%[1]s décillion""
msgstr[1] ""%[1]s décillions""
msgstr[2] ""%[1]s décillions""

msgid ""%[1]s googol""
msgid_plural ""%[1]s googol""
msgstr[0] ""%[1]s gogol""
msgstr[1] ""%[1]s gogols""
msgstr[2] ""%[1]s gogols""

msgid ""%[1]s million""
msgid_plural ""%[1]s million""
msgstr[0] ""%[1]s million""
msgstr[1] ""%[1]s millions""
msgstr[2] ""%[1]s millions""

msgid ""%[1]s nonillion""
msgid_plural ""%[1]s nonillion""
msgstr[0] ""%[1]s nonillion""
msgstr[1] ""%[1]s nonillions""
msgstr[2] ""%[1]s nonillions""

msgid ""%[1]s octillion""
msgid_plural ""%[1]s octillion""
msgstr[0] ""%[1]s octillion""
msgstr[1] ""%[1]s octillions""
msgstr[2] ""%[1]s octillions""

msgid ""%[1]s quadrillion""
msgid_plural ""%[1]s quadrillion""
msgstr[0] ""%[1]s quadrillion""
msgstr[1] ""%[1]s quadrillions""
msgstr[2] ""%[1]s quadrillions""

msgid ""%[1]s quintillion""
msgid_plural ""%[1]s quintillion""
msgstr[0] ""%[1]s quintillion""
msgstr[1] ""%[1]s quintillions""
msgstr[2] ""%[1]s quintillions""

msgid ""%[1]s septillion""
msgid_plural ""%[1]s septillion""
msgstr[0] ""%[1]s septillion""
msgstr[1] ""%[1]s septillions""
msgstr[2] ""%[1]s septillions""

msgid ""%[1]s sextillion""
msgid_plural ""%[1]s sextillion""
msgstr[0] ""%[1]s sextillion""
msgstr[1] ""%[1]s sextillion""
msgstr[2] ""%[1]s sextillion""

msgid ""%[1]s trillion""
msgid_plural ""%[1]s trillion""
msgstr[0] ""%[1]s billion""
msgstr[1] ""%[1]s billions""
msgstr[2] ""%[1]s billions""

msgid ""%[1]v ago""
msgstr ""il y a %[1]v""

msgid ""%[1]v day""
msgid_plural ""%[1]v days""
msgstr[0] ""%[1]v jour""
msgstr[1] ""%[1]v jours""
msgstr[2] ""%[1]v jours""

msgid ""%[1]v from now""
msgstr ""dans %[1]v""

msgid ""%[1]v hour""
msgid_plural ""%[1]v hours""
msgstr[0] ""%[1]v heure""
msgstr[1] ""%[1]v heures""
msgstr[2] ""%[1]v heures""

msgid ""%[1]v minute""
msgid_plural ""%[1]v minutes""
msgstr[0] ""%[1]v minute""
msgstr[1] ""%[1]v minutes""
msgstr[2] ""%[1]v minutes""

msgid ""%[1]v month""
msgid_plural ""%[1]v months""
msgstr[0] ""%[1]v mois""
msgstr[1] ""%[1]v mois""
msgstr[2] ""%[1]v mois""

msgid ""%[1]v week""
msgid_plural ""%[1]v weeks""
msgstr[0] ""%[1]v semaine""
msgstr[1] ""%[1]v semaines""
msgstr[2] ""%[1]v semaines""

msgid ""%[1]v year""
msgid_plural ""%[1]v years""
msgstr[0] ""%[1]v année""
msgstr[1] ""%[1]v ans""
msgstr[2] ""%[1]v ans""

msgid ""%s GB""
msgstr ""%s Gio""

msgid ""%s KB""
msgstr ""%s Kio""

msgid ""%s MB""
msgstr ""%s Mio""

msgid ""%s PB""
msgstr ""%s Pio""

msgid ""%s TB""
msgstr ""%s Tio""

msgid "", ""
msgstr "", ""

msgid ""AM""
msgstr ""Matin""

msgid ""Afrikaans""
msgstr ""Afrikaans""

msgid ""Albanian""
msgstr ""Albanais""

msgid ""Algerian Arabic""
msgstr ""Arabe algérien""

msgid ""April""
msgstr ""avril""

msgid ""Arabic""
msgstr ""Arabe""

msgid ""Argentinian Spanish""
msgstr ""Espagnol argentin""

msgid ""Armenian""
msgstr ""Arménien""

msgid ""Asturian""
msgstr ""Asturien""

msgid ""August""
msgstr ""août""

msgid ""Australian English""
msgstr ""Anglais australien""

msgid ""Azerbaijani""
msgstr ""Azéri""

msgid ""Basque""
msgstr ""Basque""

msgid ""Belarusian""
msgstr ""Biélorusse""

msgid ""Bengali""
msgstr ""Bengali""

msgid ""Bosnian""
msgstr ""Bosniaque""

msgid ""Brazilian Portuguese""
msgstr ""Portugais brésilien""

msgid ""Breton""
msgstr ""Breton""

msgid ""British English""
msgstr ""Anglais britannique""

msgid ""Bulgarian""
msgstr ""Bulgare""

msgid ""Burmese""
msgstr ""Birman""

msgid ""Catalan""
msgstr ""Catalan""

msgid ""Central Kurdish (Sorani)""
msgstr ""Kurde central (sorani)""

msgid ""Colombian Spanish""
msgstr ""Espagnol colombien""

msgid ""Croatian""
msgstr ""Croate""

msgid ""Czech""
msgstr ""Tchèque""

msgid ""Danish""
msgstr ""Danois""

msgid ""December""
msgstr ""décembre""

msgid ""Dutch""
msgstr ""Néerlandais""

msgid ""English""
msgstr ""Anglais""

msgid ""Esperanto""
msgstr ""Espéranto""

msgid ""Estonian""
msgstr ""Estonien""

msgid ""February""
msgstr ""février""

msgid ""Finnish""
msgstr ""Finlandais""

msgid ""French""
msgstr ""Français""

msgid ""Fri""
msgstr ""ven""

msgid ""Friday""
msgstr ""vendredi""

msgid ""Frisian""
msgstr ""Frison""

msgid ""Galician""
msgstr ""Galicien""

msgid ""Georgian""
msgstr ""Géorgien""

msgid ""German""
msgstr ""Allemand""

msgid ""Greek""
msgstr ""Grec""

msgid ""Hebrew""
msgstr ""Hébreu""

msgid ""Hindi""
msgstr ""Hindi""

msgid ""Hungarian""
msgstr ""Hongrois""

msgid ""Icelandic""
msgstr ""Islandais""

msgid ""Ido""
msgstr ""Ido""

msgid ""Igbo""
msgstr ""Igbo""

msgid ""Indonesian""
msgstr ""Indonésien""

msgid ""Interlingua""
msgstr ""Interlingua""

msgid ""Irish""
msgstr ""Irlandais""

msgid ""Italian""
msgstr ""Italien""

msgid ""January""
msgstr ""janvier""

msgid ""Japanese""
msgstr ""Japonais""

msgid ""July""
msgstr ""juillet""

msgid ""June""
msgstr ""juin""

msgid ""Kabyle""
msgstr ""Kabyle""

msgid ""Kannada""
msgstr ""Kannada""

msgid ""Kazakh""
msgstr ""Kazakh""

msgid ""Khmer""
msgstr ""Khmer""

msgid ""Korean""
msgstr ""Coréen""

msgid ""Kyrgyz""
msgstr ""Kirghiz""

msgid ""Latvian""
msgstr ""Letton""

msgid ""Lithuanian""
msgstr ""Lituanien""

msgid ""Lower Sorbian""
msgstr ""Bas-sorabe""

msgid ""Luxembourgish""
msgstr ""Luxembourgeois""

msgid ""Macedonian""
msgstr ""Macédonien""

msgid ""Malay""
msgstr ""Malais""

msgid ""Malayalam""
msgstr ""Malayalam""

msgid ""Marathi""
msgstr ""Marathi""

msgid ""March""
msgstr ""mars""

msgid ""May""
msgstr ""mai""

msgid ""Mexican Spanish""
msgstr ""Espagnol mexicain""

msgid ""Mon""
msgstr ""lun""

msgid ""Monday""
msgstr ""lundi""

msgid ""Mongolian""
msgstr ""Mongole""

msgid ""Nepali""
msgstr ""Népalais""

msgid ""Nicaraguan Spanish""
msgstr ""Espagnol nicaraguayen""

msgid ""Norwegian Bokmål""
msgstr ""Norvégien bokmål""

msgid ""Norwegian Nynorsk""
msgstr ""Norvégien nynorsk""

msgid ""November""
msgstr ""novembre""

msgid ""October""
msgstr ""octobre""

msgid ""Ossetic""
msgstr ""Ossète""

msgid ""PM""
msgstr ""Après-midi""

msgid ""Persian""
msgstr ""Perse""

msgid ""Polish""
msgstr ""Polonais""

msgid ""Portuguese""
msgstr ""Portugais""

msgid ""Punjabi""
msgstr ""Penjabi""

msgid ""Romanian""
msgstr ""Roumain""

msgid ""Russian""
msgstr ""Russe""

msgid ""Sat""
msgstr ""sam""

msgid ""Saturday""
msgstr ""samedi""

msgid ""Scottish Gaelic""
msgstr ""Gaélique écossais""

msgid ""September""
msgstr ""septembre""

msgid ""Serbian""
msgstr ""Serbe""

msgid ""Serbian Latin""
msgstr ""Serbe latin""

msgid ""Simplified Chinese""
msgstr ""Chinois simplifié""

msgid ""Slovak""
msgstr ""Slovaque""

msgid ""Slovenian""
msgstr ""Slovène""

msgid ""Spanish""
msgstr ""Espagnol""

msgid ""Sun""
msgstr ""dim""

msgid ""Sunday""
msgstr ""dimanche""

msgid ""Swahili""
msgstr ""Swahili""

msgid ""Swedish""
msgstr ""Suédois""

msgid ""Tajik""
msgstr ""Tadjik""

msgid ""Tamil""
msgstr ""Tamoul""

msgid ""Tatar""
msgstr ""Tatar""

msgid ""Telugu""
msgstr ""Télougou""

msgid ""Thai""
msgstr ""Thaï""

msgid ""Thu""
msgstr ""jeu""

msgid ""Thursday""
msgstr ""jeudi""

msgid ""Traditional Chinese""
msgstr ""Chinois traditionnel""

msgid ""Tue""
msgstr ""mar""

msgid ""Tuesday""
msgstr ""mardi""

msgid ""Turkish""
msgstr ""Turc""

msgid ""Turkmen""
msgstr ""Turkmène""

msgid ""Udmurt""
msgstr ""Oudmourte""

msgid ""Ukrainian""
msgstr ""Ukrainien""

msgid ""Upper Sorbian""
msgstr ""Haut-sorabe""

msgid ""Urdu""
msgstr ""Ourdou""

msgid ""Uyghur""
msgstr ""Ouïghour""

msgid ""Uzbek""
msgstr ""Ouzbek""

msgid ""Venezuelan Spanish""
msgstr ""Espagnol vénézuélien""

msgid ""Vietnamese""
msgstr ""Vietnamien""

msgid ""Wed""
msgstr ""mer""

msgid ""Wednesday""
msgstr ""mercredi""

msgid ""Welsh""
msgstr ""Gallois""

msgid ""a minute ago""
msgid_plural ""%[1]v minutes ago""
msgstr[0] ""il y a une minute""
msgstr[1] ""il y a %[1]v minutes""
msgstr[2] ""il y a %[1]v minutes""

msgid ""a minute from now""
msgid_plural ""%[1]v minutes from now""
msgstr[0] ""dans une minute""
msgstr[1] ""dans %[1]v minutes""
msgstr[2] ""dans %[1]v minutes""

msgid ""a second ago""
msgid_plural ""%[1]v seconds ago""
msgstr[0] ""il y a une seconde""
msgstr[1] ""il y a %[1]v secondes""
msgstr[2] ""il y a %[1]v secondes""

msgid ""a second from now""
msgid_plural ""%[1]v seconds from now""
msgstr[0] ""dans une seconde""
msgstr[1] ""dans %[1]v secondes""
msgstr[2] ""dans %[1]v secondes""

msgid ""a.m.""
msgstr ""matin""

msgid ""an hour ago""
msgid_plural ""%[1]v hours ago""
msgstr[0] ""il y a une heure""
msgstr[1] ""il y a %[1]v heures""
msgstr[2] ""il y a %[1]v heures""

msgid ""an hour from now""
msgid_plural ""%[1]v hours from now""
msgstr[0] ""dans une heure""
msgstr[1] ""dans %[1]v heures""
msgstr[2] ""dans %[1]v heures""

msgid ""apr""
msgstr ""avr""

msgid ""aug""
msgstr ""aoû""

msgid ""dec""
msgstr ""déc""

msgid ""eight""
msgstr ""huit""

msgid ""feb""
msgstr ""fév""

msgid ""five""
msgstr ""cinq""

msgid ""four""
msgstr ""quatre""

msgid ""jan""
msgstr ""jan""

msgid ""jul""
msgstr ""jul""

msgid ""jun""
msgstr ""jui""

msgid ""mar""
msgstr ""mar""

msgid ""may""
msgstr ""mai""

msgid ""midnight""
msgstr ""minuit""

msgid ""nine""
msgstr ""neuf""

msgid ""noon""
msgstr ""midi""

msgid ""nov""
msgstr ""nov""

msgid ""now""
msgstr ""maintenant""

msgid ""oct""
msgstr ""oct""

msgid ""one""
msgstr ""un""

msgid ""p.m.""
msgstr ""après-midi""

msgid ""sep""
msgstr ""sep""

msgid ""seven""
msgstr ""sept""

msgid ""six""
msgstr ""six""

msgid ""three""
msgstr ""trois""

msgid ""today""
msgstr ""aujourd'hui""

msgid ""tomorrow""
msgstr ""demain""

msgid ""two""
msgstr ""deux""

msgid ""yesterday""
msgstr ""hier""

msgctxt ""abbrev. month""
msgid ""April""
msgstr ""avr.""

msgctxt ""abbrev. month""
msgid ""Aug.""
msgstr ""août""

msgctxt ""abbrev. month""
msgid ""Dec.""
msgstr ""déc.""

msgctxt ""abbrev. month""
msgid ""Feb.""
msgstr ""fév.""

msgctxt ""abbrev. month""
msgid ""Jan.""
msgstr ""jan.""

msgctxt ""abbrev. month""
msgid ""July""
msgstr ""juil.""

msgctxt ""abbrev. month""
msgid ""June""
msgstr ""juin""

msgctxt ""abbrev. month""
msgid ""March""
msgstr ""mars""

msgctxt ""abbrev. month""
msgid ""May""
msgstr ""mai""

msgctxt ""abbrev. month""
msgid ""Nov.""
msgstr ""nov.""

msgctxt ""abbrev. month""
msgid ""Oct.""
msgstr ""oct.""

msgctxt ""abbrev. month""
msgid ""Sept.""
msgstr ""sept.""

msgctxt ""alt. month""
msgid ""April""
msgstr ""Avril""

msgctxt ""alt. month""
msgid ""August""
msgstr ""Août""

msgctxt ""alt. month""
msgid ""December""
msgstr ""Décembre""

msgctxt ""alt. month""
msgid ""February""
msgstr ""Février""

msgctxt ""alt. month""
msgid ""January""
msgstr ""Janvier""

msgctxt ""alt. month""
msgid ""July""
msgstr ""Juillet""

msgctxt ""alt. month""
msgid ""June""
msgstr ""Juin""

msgctxt ""alt. month""
msgid ""March""
msgstr ""Mars""

msgctxt ""alt. month""
msgid ""May""
msgstr ""Mai""

msgctxt ""alt. month""
msgid ""November""
msgstr ""Novembre""

msgctxt ""alt. month""
msgid ""October""
msgstr ""Octobre""

msgctxt ""alt. month""
msgid ""September""
msgstr ""Septembre""

msgctxt ""naturaltime-future""
msgid ""%[1]v day""
msgid_plural ""%[1]v days""
msgstr[0] ""%[1]v jour""
msgstr[1] ""%[1]v jours""
msgstr[2] ""%[1]v jours""

msgctxt ""naturaltime-future""
msgid ""%[1]v hour""
msgid_plural ""%[1]v hours""
msgstr[0] ""%[1]v heure""
msgstr[1] ""%[1]v heures""
msgstr[2] ""%[1]v heures""

msgctxt ""naturaltime-future""
msgid ""%[1]v minute""
msgid_plural ""%[1]v minutes""
msgstr[0] ""%[1]v minute""
msgstr[1] ""%[1]v minutes""
msgstr[2] ""%[1]v minutes""

msgctxt ""naturaltime-future""
msgid ""%[1]v month""
msgid_plural ""%[1]v months""
msgstr[0] ""%[1]v mois""
msgstr[1] ""%[1]v mois""
msgstr[2] ""%[1]v mois""

msgctxt ""naturaltime-future""
msgid ""%[1]v week""
msgid_plural ""%[1]v weeks""
msgstr[0] ""%[1]v semaine""
msgstr[1] ""%[1]v semaines""
msgstr[2] ""%[1]v semaines""

msgctxt ""naturaltime-future""
msgid ""%[1]v year""
msgid_plural ""%[1]v years""
msgstr[0] ""%[1]v année""
msgstr[1] ""%[1]v années""
msgstr[2] ""%[1]v années""

msgctxt ""naturaltime-past""
msgid ""%[1]v day""
msgid_plural ""%[1]v days""
msgstr[0] ""%[1]v jour""
msgstr[1] ""%[1]v jours""
msgstr[2] ""%[1]v jours""

msgctxt ""naturaltime-past""
msgid ""%[1]v hour""
msgid_plural ""%[1]v hours""
msgstr[0] ""%[1]v heure""
msgstr[1] ""%[1]v heures""
msgstr[2] ""%[1]v heures""

msgctxt ""naturaltime-past""
msgid ""%[1]v minute""
msgid_plural ""%[1]v minutes""
msgstr[0] ""%[1]v minute""
msgstr[1] ""%[1]v minutes""
msgstr[2] ""%[1]v minutes""

msgctxt ""naturaltime-past""
msgid ""%[1]v month""
msgid_plural ""%[1]v months""
msgstr[0] ""%[1]v mois""
msgstr[1] ""%[1]v mois""
msgstr[2] ""%[1]v mois""

msgctxt ""naturaltime-past""
msgid ""%[1]v week""
msgid_plural ""%[1]v weeks""
msgstr[0] ""%[1]v semaine""
msgstr[1] ""%[1]v semaines""
msgstr[2] ""%[1]v semaines""

msgctxt ""naturaltime-past""
msgid ""%[1]v year""
msgid_plural ""%[1]v years""
msgstr[0] ""%[1]v année""
msgstr[1] ""%[1]v années""
msgstr[2] ""%[1]v années""

msgctxt ""ordinal 0""
msgid ""%vth""
msgstr ""%ve""

msgctxt ""ordinal 1""
msgid ""%vst""
msgstr ""%ver""

msgctxt ""ordinal 11, 12, 13""
msgid ""%vth""
msgstr ""%ve""

msgctxt ""ordinal 2""
msgid ""%vnd""
msgstr ""%ve""

msgctxt ""ordinal 3""
msgid ""%vrd""
msgstr ""%ve""

msgctxt ""ordinal 4""
msgid ""%vth""
msgstr ""%ve""

msgctxt ""ordinal 5""
msgid ""%vth""
msgstr ""%ve""

msgctxt ""ordinal 6""
msgid ""%vth""
msgstr ""%ve""

msgctxt ""ordinal 7""
msgid ""%vth""
msgstr ""%ve""

msgctxt ""ordinal 8""
msgid ""%vth""
msgstr ""%ve""

msgctxt ""ordinal 9""
msgid ""%vth""
msgstr ""%ve""
".
(** humanize/locale/fr/locale.go (New) *)
Definition loc_fr : locale_data := LD (bs "fr") [(bs "django.po", po_fr)]
  (Some (FD (bs "j F Y") (bs "H:i") (bs "j F Y H:i") (bs "F Y") (bs "j F") (bs "d/m/Y") (bs "d/m/Y H:i"))).

(** humanize/locale/fy/django.po *)
Definition po_fy : bytes := bs "# This file is distributed under the same license as the Django package.
# 
# Translators:
# Jannis Leidel <jannis@leidel.info>, 2011
msgid """"
msgstr """"
""Project-Id-Version: django\n""
""Report-Msgid-Bugs-To: \n""
""POT-Creation-Date: 2019-09-27 22:40+0200\n""
""PO-Revision-Date: 2019-11-05 00:38+0000\n""
""Last-Translator: Ramiro Morales\n""
""Language-Team: Western Frisian (http://www.transifex.com/django/django/language/fy/)\n""
""Language: fy\n""
""MIME-Version: 1.0\n""
""Content-Type: text/plain; charset=UTF-8\n""
""Content-Transfer-Encoding: 8bit\n""
""Plural-Forms: nplurals=2; plural=(n != 1);\n""

msgid ""%[1]d byte""
msgid_plural ""%[1]d bytes""
msgstr[0] """"
msgstr[1] """"

msgid ""%[1]s billion""
msgid_plural ""%[1]s billion""
msgstr[0] """"
msgstr[1] """"

msgid ""%[1]s decillion""
msgid_plural ""%[1]s decillion""
msgstr[0] """"
msgstr[1] """"

msgid ""%[1]s googol""
msgid_plural ""%[1]s googol""
msgstr[0] """"
msgstr[1] """"

msgid ""%[1]s million""
msgid_plural ""%[1]s million""
msgstr[0] """"
msgstr[1] """"

msgid ""%[1]s nonillion""
msgid_plural ""%[1]s nonillion""
msgstr[0] """"
msgstr[1] """"

msgid ""%[1]s octillion""
msgid_plural ""%[1]s octillion""
msgstr[0] """"
msgstr[1] """"

msgid ""%[1]s quadrillion""
msgid_plural ""%[1]s quadrillion""
msgstr[0] """"
msgstr[1] """"

msgid ""%[1]s quintillion""
msgid_plural ""%[1]s quintillion""
msgstr[0] """"
msgstr[1] """"

msgid ""%[1]s septillion""
msgid_plural ""%[1]s septillion""
msgstr[0] """"
msgstr[1] """"

msgid ""%[1]s sextillion""
msgid_plural ""%[1]s sextillion""
msgstr[0] """"
msgstr[1] """"

msgid ""%[1]s trillion""
msgid_plural ""%[1]s trillion""
msgstr[0] """"
msgstr[1] """"

msgid ""%s GB""
msgstr """"

msgid ""%s KB""
msgstr """"

msgid ""%s MB""
msgstr """"

msgid ""%s PB""
msgstr """"

msgid ""%s TB""
msgstr """"

msgid "", ""
msgstr """"

msgid ""AM""
msgstr """"

msgid ""Afrikaans""
msgstr """"

msgid ""Albanian""
msgstr """"

msgid ""April""
msgstr """"

msgid ""Arabic""
msgstr """"

msgid ""Argentinian Spanish""
msgstr """"

msgid ""Armenian""
msgstr """"

msgid ""Asturian""
msgstr """"

msgid ""August""
msgstr """"

msgid ""Australian English""
msgstr """"

msgid ""Azerbaijani""
msgstr """"

msgid ""Basque""
msgstr """"

msgid ""Belarusian""
msgstr """"

msgid ""Bengali""
msgstr """"

msgid ""Bosnian""
msgstr """"

msgid ""Brazilian Portuguese""
msgstr """"

msgid ""Breton""
msgstr """"

msgid ""British English""
msgstr """"

msgid ""Bulgarian""
msgstr """"

msgid ""Burmese""
msgstr """"

msgid ""Catalan""
msgstr """"

msgid ""Colombian Spanish""
msgstr """"

msgid ""Croatian""
msgstr """"

msgid ""Czech""
msgstr """"

msgid ""Danish""
msgstr """"

msgid ""December""
msgstr """"

msgid ""Dutch""
msgstr """"

msgid ""English""
msgstr """"

msgid ""Esperanto""
msgstr """"

msgid ""Estonian""
msgstr """"

msgid ""February""
msgstr """"

msgid ""Finnish""
msgstr """"

msgid ""French""
msgstr """"

msgid ""Fri""
msgstr """"

msgid ""Friday""
msgstr """"

msgid ""Frisian""
msgstr """"

msgid ""Galician""
msgstr """"

msgid ""Georgian""
msgstr """"

msgid ""German""
msgstr """"

msgid ""Greek""
msgstr """"

msgid ""Hebrew""
msgstr """"

msgid ""Hindi""
msgstr """"

msgid ""Hungarian""
msgstr """"

msgid ""Icelandic""
msgstr """"

msgid ""Ido""
msgstr """"

msgid ""Indonesian""
msgstr """"

msgid ""Interlingua""
msgstr """"

msgid ""Irish""
msgstr """"

msgid ""Italian""
msgstr """"

msgid ""January""
msgstr """"

msgid ""Japanese""
msgstr """"

msgid ""July""
msgstr """"

msgid ""June""
msgstr """"

msgid ""Kabyle""
msgstr """"

msgid ""Kannada""
msgstr """"

msgid ""Kazakh""
msgstr """"

msgid ""Khmer""
msgstr """"

msgid ""Korean""
msgstr """"

msgid ""Latvian""
msgstr """"

msgid ""Lithuanian""
msgstr """"

msgid ""Lower Sorbian""
msgstr """"

msgid ""Luxembourgish""
msgstr """"

msgid ""Macedonian""
msgstr """"

msgid ""Malayalam""
msgstr """"

msgid ""Marathi""
msgstr """"

msgid ""March""
msgstr """"

msgid ""May""
msgstr """"

msgid ""Mexican Spanish""
msgstr """"

msgid ""Mon""
msgstr """"

msgid ""Monday""
msgstr """"

msgid ""Mongolian""
msgstr """"

msgid ""Nepali""
msgstr """"

msgid ""Nicaraguan Spanish""
msgstr """"

msgid ""Norwegian Bokmål""
msgstr """"

msgid ""Norwegian Nynorsk""
msgstr """"

msgid ""November""
msgstr """"

msgid ""October""
msgstr """"

msgid ""Ossetic""
msgstr """"

msgid ""PM""
msgstr """"

msgid ""Persian""
msgstr """"

msgid ""Polish""
msgstr """"

msgid ""Portuguese""
msgstr """"

msgid ""Punjabi""
msgstr """"

msgid ""Romanian""
msgstr """"

msgid ""Russian""
msgstr """"

msgid ""Sat""
msgstr """"

msgid ""Saturday""
msgstr """"

msgid ""Scottish Gaelic""
msgstr """"

msgid ""September""
msgstr """"

msgid ""Serbian""
msgstr """"

msgid ""Serbian Latin""
msgstr """"

msgid ""Simplified Chinese""
msgstr """"

msgid ""Slovak""
msgstr """"

msgid ""Slovenian""
msgstr """"

msgid ""Spanish""
msgstr """"

msgid ""Sun""
msgstr """"

msgid ""Sunday""
msgstr """"

msgid ""Swahili""
msgstr """"

msgid ""Swedish""
msgstr """"

msgid ""Tamil""
msgstr """"

msgid ""Tatar""
msgstr """"

msgid ""Telugu""
msgstr """"

msgid ""Thai""
msgstr """"

msgid ""Thu""
msgstr """"

msgid ""Thursday""
msgstr """"

msgid ""Traditional Chinese""
msgstr """"

msgid ""Tue""
msgstr """"

msgid ""Tuesday""
msgstr """"

msgid ""Turkish""
msgstr """"

msgid ""Udmurt""
msgstr """"

msgid ""Ukrainian""
msgstr """"

msgid ""Upper Sorbian""
msgstr """"

msgid ""Urdu""
msgstr """"

msgid ""Uzbek""
msgstr """"

msgid ""Venezuelan Spanish""
msgstr """"

msgid ""Vietnamese""
msgstr """"

msgid ""Wed""
msgstr """"

msgid ""Wednesday""
msgstr """"

msgid ""Welsh""
msgstr """"

msgid ""a minute ago""
msgid_plural ""%[1]v minutes ago""
msgstr[0] """"
msgstr[1] """"

msgid ""a minute from now""
msgid_plural ""%[1]v minutes from now""
msgstr[0] """"
msgstr[1] """"

msgid ""a second ago""
msgid_plural ""%[1]v seconds ago""
msgstr[0] """"
msgstr[1] """"

msgid ""a second from now""
msgid_plural ""%[1]v seconds from now""
msgstr[0] """"
msgstr[1] """"

msgid ""a.m.""
msgstr """"

msgid ""an hour ago""
msgid_plural ""%[1]v hours ago""
msgstr[0] """"
msgstr[1] """"

msgid ""an hour from now""
msgid_plural ""%[1]v hours from now""
msgstr[0] """"
msgstr[1] """"

msgid ""apr""
msgstr """"

msgid ""aug""
msgstr """"

msgid ""dec""
msgstr """"

msgid ""eight""
msgstr """"

msgid ""feb""
msgstr """"

msgid ""five""
msgstr """"

msgid ""four""
msgstr """"

msgid ""jan""
msgstr """"

msgid ""jul""
msgstr """"

msgid ""jun""
msgstr """"

msgid ""mar""
msgstr """"

msgid ""may""
msgstr """"

msgid ""midnight""
msgstr """"

msgid ""nine""
msgstr """"

msgid ""noon""
msgstr """"

msgid ""nov""
msgstr """"

msgid ""now""
msgstr """"

msgid ""oct""
msgstr """"

msgid ""one""
msgstr """"

msgid ""p.m.""
msgstr """"

msgid ""sep""
msgstr """"

msgid ""seven""
msgstr """"

msgid ""six""
msgstr """"

msgid ""three""
msgstr """"

msgid ""today""
msgstr """"

msgid ""tomorrow""
msgstr """"

msgid ""two""
msgstr """"

msgid ""yesterday""
msgstr """"

msgctxt ""abbrev. month""
msgid ""April""
msgstr """"

msgctxt ""abbrev. month""
msgid ""Aug.""
msgstr """"

msgctxt ""abbrev. month""
msgid ""Dec.""
msgstr """"

msgctxt ""abbrev. month""
msgid ""Feb.""
msgstr """"

msgctxt ""abbrev. month""
msgid ""Jan.""
msgstr """"

msgctxt ""abbrev. month""
msgid ""July""
msgstr """"

msgctxt ""abbrev. month""
msgid ""June""
msgstr """"

msgctxt ""abbrev. month""
msgid ""March""
msgstr """"

msgctxt ""abbrev. month""
msgid ""May""
msgstr """"

msgctxt ""abbrev. month""
msgid ""Nov.""
msgstr """"

msgctxt ""abbrev. month""
msgid ""Oct.""
msgstr """"

msgctxt ""abbrev. month""
msgid ""Sept.""
msgstr """"

msgctxt ""alt. month""
msgid ""April""
msgstr """"

msgctxt ""alt. month""
msgid ""August""
msgstr """"

msgctxt ""alt. month""
msgid ""December""
msgstr """"

msgctxt ""alt. month""
msgid ""February""
msgstr """"

msgctxt ""alt. month""
msgid ""January""
msgstr """"

msgctxt ""alt. month""
msgid ""July""
msgstr """"

msgctxt ""alt. month""
msgid ""June""
msgstr """"

msgctxt ""alt. month""
msgid ""March""
msgstr """"

msgctxt ""alt. month""
msgid ""May""
msgstr """"

msgctxt ""alt. month""
msgid ""November""
msgstr """"

msgctxt ""alt. month""
msgid ""October""
msgstr """"

msgctxt ""alt. month""
msgid ""September""
msgstr """"
".
(** humanize/locale/fy/locale.go (New) *)
Definition loc_fy : locale_data := LD (bs "fy") [(bs "django.po", po_fy)]
  (None).

(** humanize/locale/ga/django.po *)
Definition po_ga : bytes := bs "# This file is distributed under the same license as the Django package.
# 
# Translators:
# Aindriú Mac Giolla Eoin, 2024
# Claude Paroz <claude@2xlibre.net>, 2020
# Jannis Leidel <jannis@leidel.info>, 2011
# John Moylan <john@8t8.eu>, 2013
# John Stafford <John.Stafford@rte.ie>, 2013
# Seán de Búrca <leftmostcat@gmail.com>, 2011
# Luke Blaney <transifex@lukeblaney.co.uk>, 2019
# Michael Thornhill <michael@maithu.com>, 2011-2012,2015
# Séamus Ó Cúile <seamus.ocuile@oegaillimh.ie>, 2011
msgid """"
msgstr """"
""Project-Id-Version: django\n""
""Report-Msgid-Bugs-To: \n""
""POT-Creation-Date: 2024-05-22 11:46-0300\n""
""PO-Revision-Date: 2024-10-07 06:49+0000\n""
""Last-Translator: Aindriú Mac Giolla Eoin, 2024\n""
""Language-Team: Irish (http://app.transifex.com/django/django/language/ga/)\n""
""Language: ga\n""
""MIME-Version: 1.0\n""
""Content-Type: text/plain; charset=UTF-8\n""
""Content-Transfer-Encoding: 8bit\n""
""Plural-Forms: nplurals=5; plural=(n==1 ? 0 : n==2 ? 1 : n<7 ? 2 : n<11 ? 3 : 4);\n""

msgid ""%[1]d byte""
msgid_plural ""%[1]d bytes""
msgstr[0] ""%[1]d bheart""
msgstr[1] ""%[1]d bheart""
msgstr[2] ""%[1]d bheart""
msgstr[3] ""%[1]d mbeart""
msgstr[4] ""%[1]d beart""

msgid ""%[1]s billion""
msgid_plural ""%[1]s billion""
msgstr[0] "" %[1]s  billiún""
msgstr[1] "" %[1]s  billiún""
msgstr[2] "" %[1]s  billiún""
msgstr[3] "" %[1]s  billiún""
msgstr[4] "" %[1]s  billiún""

msgid ""%[1]s decillion""
msgid_plural ""%[1]s decillion""
msgstr[0] ""%[1]s decillion""
msgstr[1] ""%[1]s decillion""
msgstr[2] ""%[1]s decillion""
msgstr[3] ""%[1]s decillion""
msgstr[4] ""%[1]s decillion""

msgid ""%[1]s googol""
msgid_plural ""%[1]s googol""
msgstr[0] ""%[1]s googol""
msgstr[1] ""%[1]s googol""
msgstr[2] ""%[1]s googol""
msgstr[3] ""%[1]s googol""
msgstr[4] ""%[1]s googol""

msgid ""%[1]s million""
msgid_plural ""%[1]s million""
msgstr[0] "" %[1]s  milliún""
msgstr[1] "" %[1]s  milliún""
msgstr[2] "" %[1]s  milliún""
msgstr[3] "" %[1]s  milliún""
msgstr[4] "" %[1]s  milliún""

msgid ""%[1]s nonillion""
msgid_plural ""%[1]s nonillion""
msgstr[0] ""%[1]s nonillion""
msgstr[1] ""%[1]s nonillion""
msgstr[2] ""%[1]s nonillion""
msgstr[3] ""%[1]s nonillion""
msgstr[4] ""%[1]s nonillion""

msgid ""%[1]s octillion""
msgid_plural ""%[1]s octillion""
msgstr[0] ""%[1]s octillion""
msgstr[1] ""%[1]s octillion""
msgstr[2] ""%[1]s octillion""
msgstr[3] ""%[1]s octillion""
msgstr[4] ""%[1]s octillion""

msgid ""%[1]s quadrillion""
msgid_plural ""%[1]s quadrillion""
msgstr[0] ""%[1]s quadrilliún""
msgstr[1] ""%[1]s quadrilliún""
msgstr[2] ""%[1]s quadrilliún""
msgstr[3] ""%[1]s quadrilliún""
msgstr[4] ""%[1]s quadrilliún""

msgid ""%[1]s quintillion""
msgid_plural ""%[1]s quintillion""
msgstr[0] ""%[1]s quintillion""
msgstr[1] ""%[1]s quintillion""
msgstr[2] ""%[1]s quintillion""
msgstr[3] ""%[1]s quintillion""
msgstr[4] ""%[1]s quintillion""

msgid ""%[1]s septillion""
msgid_plural ""%[1]s septillion""
msgstr[0] ""%[1]s septillion""
msgstr[1] ""%[1]s septillion""
msgstr[2] ""%[1]s septillion""
msgstr[3] ""%[1]s septillion""
msgstr[4] ""%[1]s septillion""

msgid ""%[1]s sextillion""
msgid_plural ""%[1]s sextillion""
msgstr[0] ""%[1]s sextillion""
msgstr[1] ""%[1]s sextillion""
msgstr[2] ""%[1]s sextillion""
msgstr[3] ""%[1]s sextillion""
msgstr[4] ""%[1]s sextillion""

msgid ""%[1]s trillion""
msgid_plural ""%[1]s trillion""
msgstr[0] "" %[1]s  trilliún""
msgstr[1] "" %[1]s  trilliún""
msgstr[2] "" %[1]s  trilliún""
msgstr[3] "" %[1]s  trilliún""
msgstr[4] "" %[1]s  trilliún""

msgid ""%[1]v ago""
msgstr ""%[1]v ó shin""

msgid ""%[1]v day""
msgid_plural ""%[1]v days""
msgstr[0] ""%[1]v lá""
msgstr[1] ""%[1]v laethanta""
msgstr[2] ""%[1]v laethanta""
msgstr[3] ""%[1]v laethanta""
msgstr[4] ""%[1]v laethanta""

msgid ""%[1]v from now""
msgstr ""%[1]v as seo amach""

msgid ""%[1]v hour""
msgid_plural ""%[1]v hours""
msgstr[0] ""%[1]v uair""
msgstr[1] ""%[1]v huaireanta""
msgstr[2] ""%[1]v huaireanta""
msgstr[3] ""%[1]v huaireanta""
msgstr[4] ""%[1]v huaireanta""

msgid ""%[1]v minute""
msgid_plural ""%[1]v minutes""
msgstr[0] ""%[1]v nóiméad""
msgstr[1] ""%[1]v nóiméad""
msgstr[2] ""%[1]v nóiméad""
msgstr[3] ""%[1]v nóiméad""
msgstr[4] ""%[1]v nóiméad""

msgid ""%[1]v month""
msgid_plural ""%[1]v months""
msgstr[0] ""%[1]v mí""
msgstr[1] ""%[1]v míonna""
msgstr[2] ""%[1]v míonna""
msgstr[3] ""%[1]v míonna""
msgstr[4] ""%[1]v míonna""

msgid ""%[1]v week""
msgid_plural ""%[1]v weeks""
msgstr[0] ""%[1]v seachtain""
msgstr[1] ""%[1]v seachtainí""
msgstr[2] ""%[1]v seachtainí""
msgstr[3] ""%[1]v seachtainí""
msgstr[4] ""%[1]v seachtainí""

msgid ""%[1]v year""
msgid_plural ""%[1]v years""
msgstr[0] ""%[1]v bhliain""
msgstr[1] ""%[1]v bliain""
msgstr[2] ""%[1]v bliain""
msgstr[3] ""%[1]v bliain""
msgstr[4] ""%[1]v bliain""

msgid ""%s GB""
msgstr ""%s GB""

msgid ""%s KB""
msgstr ""%s KB""

msgid ""%s MB""
msgstr ""%s MB""

msgid ""%s PB""
msgstr ""%s PB""

msgid ""%s TB""
msgstr ""%s TB""

msgid "", ""
msgstr "", ""

msgid ""AM""
msgstr ""RN""

msgid ""Afrikaans""
msgstr ""Afracáinis""

msgid ""Albanian""
msgstr ""Albáinis""

msgid ""Algerian Arabic""
msgstr ""Araibis na hAilgéire""

msgid ""April""
msgstr ""Aibreán""

msgid ""Arabic""
msgstr ""Araibis""

msgid ""Argentinian Spanish""
msgstr ""Spáinnis na hAirgintíne""

msgid ""Armenian""
msgstr ""Airméinis""

msgid ""Asturian""
msgstr ""Astúiris""

msgid ""August""
msgstr ""Lúnasa""

msgid ""Australian English""
msgstr ""Béarla Astrálach""

msgid ""Azerbaijani""
msgstr ""Asarbaiseáinis""

msgid ""Basque""
msgstr ""Bascais""

msgid ""Belarusian""
msgstr ""Bealarúisis""

msgid ""Bengali""
msgstr ""Beangáilis""

msgid ""Bosnian""
msgstr ""Boisnis""

msgid ""Brazilian Portuguese""
msgstr ""Portaingéilis na Brasaíle""

msgid ""Breton""
msgstr ""Briotánach""

msgid ""British English""
msgstr ""Béarla na Breataine""

msgid ""Bulgarian""
msgstr ""Bulgáiris""

msgid ""Burmese""
msgstr ""Burmais""

msgid ""Catalan""
msgstr ""Catalóinis""

msgid ""Central Kurdish (Sorani)""
msgstr ""Coirdis Láir (Sorani)""

msgid ""Colombian Spanish""
msgstr ""Spáinnis na Colóime""

msgid ""Croatian""
msgstr ""Cróitis""

msgid ""Czech""
msgstr ""Seicis""

msgid ""Danish""
msgstr ""Danmhairgis ""

msgid ""December""
msgstr ""Nollaig""

msgid ""Dutch""
msgstr ""Ollainnis""

msgid ""English""
msgstr ""Béarla""

msgid ""Esperanto""
msgstr ""Esperanto""

msgid ""Estonian""
msgstr ""Eastóinis""

msgid ""February""
msgstr ""Feabhra""

msgid ""Finnish""
msgstr ""Fionlainnis""

msgid ""French""
msgstr ""Fraincis""

msgid ""Fri""
msgstr ""A""

msgid ""Friday""
msgstr ""Dé hAoine""

msgid ""Frisian""
msgstr ""Freaslainnis""

msgid ""Galician""
msgstr ""Gailísis""

msgid ""Georgian""
msgstr ""Seoirsis""

msgid ""German""
msgstr ""Gearmáinis""

msgid ""Greek""
msgstr ""Gréigis""

msgid ""Hebrew""
msgstr ""Eabhrais""

msgid ""Hindi""
msgstr ""Hiondúis""

msgid ""Hungarian""
msgstr ""Ungáiris""

msgid ""Icelandic""
msgstr ""Íoslainnis""

msgid ""Ido""
msgstr ""Ido""

msgid ""Igbo""
msgstr ""Igbo""

msgid ""Indonesian""
msgstr ""Indinéisis""

msgid ""Interlingua""
msgstr ""Interlingua""

msgid ""Irish""
msgstr ""Gaeilge""

msgid ""Italian""
msgstr ""Iodáilis""

msgid ""January""
msgstr ""Eanáir""

msgid ""Japanese""
msgstr ""Seapáinis""

msgid ""July""
msgstr ""Iúil""

msgid ""June""
msgstr ""Meitheamh""

msgid ""Kabyle""
msgstr ""Cabaill""

msgid ""Kannada""
msgstr ""Cannadais""

msgid ""Kazakh""
msgstr ""Casaicis""

msgid ""Khmer""
msgstr ""Ciméiris""

msgid ""Korean""
msgstr ""Cóiréis""

msgid ""Kyrgyz""
msgstr ""Chirgeastáin""

msgid ""Latvian""
msgstr ""Laitvis""

msgid ""Lithuanian""
msgstr ""Liotuáinis""

msgid ""Lower Sorbian""
msgstr ""Sorbais Íochtarach""

msgid ""Luxembourgish""
msgstr ""Lucsamburgach""

msgid ""Macedonian""
msgstr ""Macadóinis""

msgid ""Malay""
msgstr ""Malaeis""

msgid ""Malayalam""
msgstr ""Mailéalaimis""

msgid ""Marathi""
msgstr ""Maraitis""

msgid ""March""
msgstr ""Márta""

msgid ""May""
msgstr ""Bealtaine""

msgid ""Mexican Spanish""
msgstr ""Spáinnis Mheicsiceo ""

msgid ""Mon""
msgstr ""L""

msgid ""Monday""
msgstr ""Dé Luain""

msgid ""Mongolian""
msgstr ""Mongóilis""

msgid ""Nepali""
msgstr ""Neipeailis""

msgid ""Nicaraguan Spanish""
msgstr ""Spáinnis Nicearagua""

msgid ""Norwegian Bokmål""
msgstr ""Ioruais Bokmål""

msgid ""Norwegian Nynorsk""
msgstr ""Ioruais Nynorsk""

msgid ""November""
msgstr ""Samhain""

msgid ""October""
msgstr ""Deireadh Fómhair""

msgid ""Ossetic""
msgstr ""Oiséitis""

msgid ""PM""
msgstr ""IN""

msgid ""Persian""
msgstr ""Peirsis""

msgid ""Polish""
msgstr ""Polainnis""

msgid ""Portuguese""
msgstr ""Portaingéilis""

msgid ""Punjabi""
msgstr ""Puinseáibis""

msgid ""Romanian""
msgstr ""Rómáinis""

msgid ""Russian""
msgstr ""Rúisis""

msgid ""Sat""
msgstr ""S""

msgid ""Saturday""
msgstr ""Dé Sathairn""

msgid ""Scottish Gaelic""
msgstr ""Gaeilge na hAlban""

msgid ""September""
msgstr ""Meán Fómhair""

msgid ""Serbian""
msgstr ""Seirbis""

msgid ""Serbian Latin""
msgstr ""Seirbis (Laidineach)""

msgid ""Simplified Chinese""
msgstr ""Sínis Simplithe""

msgid ""Slovak""
msgstr ""Slóvaicis""

msgid ""Slovenian""
msgstr ""Slóivéinis""

msgid ""Spanish""
msgstr ""Spáinnis""

msgid ""Sun""
msgstr ""D""

msgid ""Sunday""
msgstr ""Dé Domhnaigh""

msgid ""Swahili""
msgstr ""Svahaílis""

msgid ""Swedish""
msgstr ""Sualainnis""

msgid ""Tajik""
msgstr ""Táidsíc""

msgid ""Tamil""
msgstr ""Tamailis""

msgid ""Tatar""
msgstr ""Tatairis""

msgid ""Telugu""
msgstr ""Teileagúis""

msgid ""Thai""
msgstr ""Téalainnis""

msgid ""Thu""
msgstr ""D""

msgid ""Thursday""
msgstr ""Déardaoin""

msgid ""Traditional Chinese""
msgstr ""Sínis Traidisiúnta""

msgid ""Tue""
msgstr ""M""

msgid ""Tuesday""
msgstr ""Dé Máirt""

msgid ""Turkish""
msgstr ""Tuircis""

msgid ""Turkmen""
msgstr ""Tuircméinis""

msgid ""Udmurt""
msgstr ""Udmurt""

msgid ""Ukrainian""
msgstr ""Úcráinis""

msgid ""Upper Sorbian""
msgstr ""Sorbian Uachtarach""

msgid ""Urdu""
msgstr ""Urdais""

msgid ""Uyghur""
msgstr ""Uighur""

msgid ""Uzbek""
msgstr ""Úisbéicis""

msgid ""Venezuelan Spanish""
msgstr ""Spáinnis Veiniséalach""

msgid ""Vietnamese""
msgstr ""Vítneamais""

msgid ""Wed""
msgstr ""C""

msgid ""Wednesday""
msgstr ""Dé Céadaoin""

msgid ""Welsh""
msgstr ""Breatnais""

msgid ""a minute ago""
msgid_plural ""%[1]v minutes ago""
msgstr[0] ""nóiméad ó shin""
msgstr[1] ""%[1]v nóiméad ó shin""
msgstr[2] ""%[1]v nóiméad ó shin""
msgstr[3] ""%[1]v nóiméad ó shin""
msgstr[4] ""%[1]v nóiméad ó shin""

msgid ""a minute from now""
msgid_plural ""%[1]v minutes from now""
msgstr[0] ""nóiméad ó anois""
msgstr[1] ""%[1]v nóiméad as seo""
msgstr[2] ""%[1]v nóiméad as seo""
msgstr[3] ""%[1]v nóiméad as seo""
msgstr[4] ""%[1]v nóiméad as seo""

msgid ""a second ago""
msgid_plural ""%[1]v seconds ago""
msgstr[0] ""soicind ó shin""
msgstr[1] ""%[1]v soicindí ó shin""
msgstr[2] ""%[1]v soicindí ó shin""
msgstr[3] ""%[1]v soicindí ó shin""
msgstr[4] ""%[1]v soicindí ó shin""

msgid ""a second from now""
msgid_plural ""%[1]v seconds from now""
msgstr[0] ""soicind as seo amach""
msgstr[1] ""%[1]v soicind as seo amach""
msgstr[2] ""%[1]v soicind as seo amach""
msgstr[3] ""%[1]v soicind as seo amach""
msgstr[4] ""%[1]v soicind as seo amach""

msgid ""a.m.""
msgstr ""r.n.""

msgid ""an hour ago""
msgid_plural ""%[1]v hours ago""
msgstr[0] ""uair an chloig ó shin""
msgstr[1] ""%[1]v uair an chloig ó shin""
msgstr[2] ""%[1]v uair an chloig ó shin""
msgstr[3] ""%[1]v uair an chloig ó shin""
msgstr[4] ""%[1]v uair an chloig ó shin""

msgid ""an hour from now""
msgid_plural ""%[1]v hours from now""
msgstr[0] ""uair an chloig ó anois""
msgstr[1] ""%[1]v uair an chloig as seo amach""
msgstr[2] ""%[1]v uair an chloig as seo amach""
msgstr[3] ""%[1]v uair an chloig as seo amach""
msgstr[4] ""%[1]v uair an chloig as seo amach""

msgid ""apr""
msgstr ""aib""

msgid ""aug""
msgstr ""lún""

msgid ""dec""
msgstr ""noll""

msgid ""eight""
msgstr ""ocht""

msgid ""feb""
msgstr ""feabh""

msgid ""five""
msgstr ""cúig""

msgid ""four""
msgstr ""ceathair""

msgid ""jan""
msgstr ""ean""

msgid ""jul""
msgstr ""iúil""

msgid ""jun""
msgstr ""meith""

msgid ""mar""
msgstr ""márta""

msgid ""may""
msgstr ""beal""

msgid ""midnight""
msgstr ""meán oíche""

msgid ""nine""
msgstr ""naoi""

msgid ""noon""
msgstr ""nóin""

msgid ""nov""
msgstr ""samh""

msgid ""now""
msgstr ""anois""

msgid ""oct""
msgstr ""dfómh""

msgid ""one""
msgstr ""aon""

msgid ""p.m.""
msgstr ""i.n.""

msgid ""sep""
msgstr ""mfómh""

msgid ""seven""
msgstr ""seacht""

msgid ""six""
msgstr ""sé""

msgid ""three""
msgstr ""trí""

msgid ""today""
msgstr ""inniu""

msgid ""tomorrow""
msgstr ""amárach""

msgid ""two""
msgstr ""dó""

msgid ""yesterday""
msgstr ""inné""

msgctxt ""abbrev. month""
msgid ""April""
msgstr ""Aib.""

msgctxt ""abbrev. month""
msgid ""Aug.""
msgstr ""Lún.""

msgctxt ""abbrev. month""
msgid ""Dec.""
msgstr ""Noll.""

msgctxt ""abbrev. month""
msgid ""Feb.""
msgstr ""Feabh.""

msgctxt ""abbrev. month""
msgid ""Jan.""
msgstr ""Ean.""

msgctxt ""abbrev. month""
msgid ""July""
msgstr ""Iúil""

msgctxt ""abbrev. month""
msgid ""June""
msgstr ""Meith.""

msgctxt ""abbrev. month""
msgid ""March""
msgstr ""Márta""

msgctxt ""abbrev. month""
msgid ""May""
msgstr ""Beal.""

msgctxt ""abbrev. month""
msgid ""Nov.""
msgstr ""Samh.""

msgctxt ""abbrev. month""
msgid ""Oct.""
msgstr ""DFómh.""

msgctxt ""abbrev. month""
msgid ""Sept.""
msgstr ""MFómh.""

msgctxt ""alt. month""
msgid ""April""
msgstr ""Mí Aibreáin""

msgctxt ""alt. month""
msgid ""August""
msgstr ""Mí Lúnasa""

msgctxt ""alt. month""
msgid ""December""
msgstr ""Mí na Nollag""

msgctxt ""alt. month""
msgid ""February""
msgstr ""Mí Feabhra""

msgctxt ""alt. month""
msgid ""January""
msgstr ""Mí Eanáir""

msgctxt ""alt. month""
msgid ""July""
msgstr ""Mí Iúil""

msgctxt ""alt. month""
msgid ""June""
msgstr ""Mí an Mheithimh""

msgctxt ""alt. month""
msgid ""March""
msgstr ""Mí na Márta""

msgctxt ""alt. month""
msgid ""May""
msgstr ""Mí na Bealtaine""

msgctxt ""alt. month""
msgid ""November""
msgstr ""Mí na Samhna""

msgctxt ""alt. month""
msgid ""October""
msgstr ""Mí Dheireadh Fómhair""

msgctxt ""alt. month""
msgid ""September""
msgstr ""Mí Mheán Fómhair""

msgctxt ""naturaltime-future""
msgid ""%[1]v day""
msgid_plural ""%[1]v days""
msgstr[0] ""%[1]v lá""
msgstr[1] ""%[1]v lá""
msgstr[2] ""%[1]v lá""
msgstr[3] ""%[1]v lá""
msgstr[4] ""%[1]v lá""

msgctxt ""naturaltime-future""
msgid ""%[1]v hour""
msgid_plural ""%[1]v hours""
msgstr[0] ""%[1]v uair""
msgstr[1] ""%[1]v uair an chloig""
msgstr[2] ""%[1]v uair an chloig""
msgstr[3] ""%[1]v uair an chloig""
msgstr[4] ""%[1]v uair an chloig""

msgctxt ""naturaltime-future""
msgid ""%[1]v minute""
msgid_plural ""%[1]v minutes""
msgstr[0] ""%[1]v nóiméad""
msgstr[1] ""%[1]v nóiméad""
msgstr[2] ""%[1]v nóiméad""
msgstr[3] ""%[1]v nóiméad""
msgstr[4] ""%[1]v nóiméad""

msgctxt ""naturaltime-future""
msgid ""%[1]v month""
msgid_plural ""%[1]v months""
msgstr[0] ""%[1]v mí""
msgstr[1] ""%[1]v mí""
msgstr[2] ""%[1]v mí""
msgstr[3] ""%[1]v mí""
msgstr[4] ""%[1]v mí""

msgctxt ""naturaltime-future""
msgid ""%[1]v week""
msgid_plural ""%[1]v weeks""
msgstr[0] ""%[1]v seachtain""
msgstr[1] ""%[1]v seachtain""
msgstr[2] ""%[1]v seachtain""
msgstr[3] ""%[1]v seachtain""
msgstr[4] ""%[1]v seachtain""

msgctxt ""naturaltime-future""
msgid ""%[1]v year""
msgid_plural ""%[1]v years""
msgstr[0] ""%[1]v bhliain""
msgstr[1] ""%[1]v bliain""
msgstr[2] ""%[1]v bliain""
msgstr[3] ""%[1]v bliain""
msgstr[4] ""%[1]v bliain""

msgctxt ""naturaltime-past""
msgid ""%[1]v day""
msgid_plural ""%[1]v days""
msgstr[0] ""%[1]v lá""
msgstr[1] ""%[1]v lá""
msgstr[2] ""%[1]v lá""
msgstr[3] ""%[1]v lá""
msgstr[4] ""%[1]v lá""

msgctxt ""naturaltime-past""
msgid ""%[1]v hour""
msgid_plural ""%[1]v hours""
msgstr[0] ""%[1]v uair""
msgstr[1] ""%[1]v uair an chloig""
msgstr[2] ""%[1]v uair an chloig""
msgstr[3] ""%[1]v uair an chloig""
msgstr[4] ""%[1]v uair an chloig""

msgctxt ""naturaltime-past""
msgid ""%[1]v minute""
msgid_plural ""%[1]v minutes""
msgstr[0] ""%[1]v nóiméad""
msgstr[1] ""%[1]v nóiméad""
msgstr[2] ""%[1]v nóiméad""
msgstr[3] ""%[1]v nóiméad""
msgstr[4] ""%[1]v nóiméad""

msgctxt ""naturaltime-past""
msgid ""%[1]v month""
msgid_plural ""%[1]v months""
msgstr[0] ""%[1]v mí""
msgstr[1] ""%[1]v mí""
msgstr[2] ""%[1]v mí""
msgstr[3] ""%[1]v mí""
msgstr[4] ""%[1]v mí""

msgctxt ""naturaltime-past""
msgid ""%[1]v week""
msgid_plural ""%[1]v weeks""
msgstr[0] ""%[1]v seachtain""
msgstr[1] ""%[1]v seachtain""
msgstr[2] ""%[1]v seachtain""
msgstr[3] ""%[1]v seachtain""
msgstr[4] ""%[1]v seachtain""

msgctxt ""naturaltime-past""
msgid ""%[1]v year""
msgid_plural ""%[1]v years""
msgstr[0] ""%[1]v bhliain""
msgstr[1] ""%[1]v bliain""
msgstr[2] ""%[1]v bliain""
msgstr[3] ""%[1]v bliain""
msgstr[4] ""%[1]v bliain""

msgctxt ""ordinal 0""
msgid ""%vth""
msgstr ""%vú""

msgctxt ""ordinal 1""
msgid ""%vst""
msgstr ""%vú""

msgctxt ""ordinal 11, 12, 13""
msgid ""%vth""
msgstr ""%vú""

msgctxt ""ordinal 2""
msgid ""%vnd""
msgstr ""%vú""

msgctxt ""ordinal 3""
msgid ""%vrd""
msgstr ""%vú""

msgctxt ""ordinal 4""
msgid ""%vth""
msgstr ""%vú""

msgctxt ""ordinal 5""
msgid ""%vth""
msgstr ""%vú""

msgctxt ""ordinal 6""
msgid ""%vth""
msgstr ""%vú""

msgctxt ""ordinal 7""
msgid ""%vth""
msgstr ""%vú""

msgctxt ""ordinal 8""
msgid ""%vth""
msgstr ""%vú""

msgctxt ""ordinal 9""
msgid ""%vth""
msgstr ""%vú""
".
(** humanize/locale/ga/locale.go (New) *)
Definition loc_ga : locale_data := LD (bs "ga") [(bs "django.po", po_ga)]
  (Some (FD (bs "j F Y") (bs "H:i") (bs "") (bs "") (bs "j F") (bs "j M Y") (bs ""))).

(** humanize/locale/gd/django.po *)
Definition po_gd : bytes := bs "# This file is distributed under the same license as the Django package.
# 
# Translators:
# Michael Bauer, 2014
# GunChleoc, 2015-2017,2021
# GunChleoc, 2015
# GunChleoc, 2014-2015
# Michael Bauer, 2014
msgid """"
msgstr """"
""Project-Id-Version: django\n""
""Report-Msgid-Bugs-To: \n""
""POT-Creation-Date: 2021-09-21 10:22+0200\n""
""PO-Revision-Date: 2021-11-20 14:00+0000\n""
""Last-Translator: GunChleoc\n""
""Language-Team: Gaelic, Scottish (http://www.transifex.com/django/django/language/gd/)\n""
""Language: gd\n""
""MIME-Version: 1.0\n""
""Content-Type: text/plain; charset=UTF-8\n""
""Content-Transfer-Encoding: 8bit\n""
""Plural-Forms: nplurals=4; plural=(n==1 || n==11) ? 0 : (n==2 || n==12) ? 1 : (n > 2 && n < 20) ? 2 : 3;\n""

msgid ""%[1]d byte""
msgid_plural ""%[1]d bytes""
msgstr[0] ""%[1]d baidht""
msgstr[1] ""%[1]d baidht""
msgstr[2] ""%[1]d baidht""
msgstr[3] ""%[1]d baidht""

msgid ""%[1]s billion""
msgid_plural ""%[1]s billion""
msgstr[0] ""%[1]s bhillean""
msgstr[1] ""%[1]s bhillean""
msgstr[2] ""%[1]s billeanan""
msgstr[3] ""%[1]s billean""

msgid ""%[1]s decillion""
msgid_plural ""%[1]s decillion""
msgstr[0] ""%[1]s decillean""
msgstr[1] ""%[1]s dhecillean""
msgstr[2] ""%[1]s decilleanan""
msgstr[3] ""%[1]s decillean""

msgid ""%[1]s googol""
msgid_plural ""%[1]s googol""
msgstr[0] ""%[1]s ghoogol""
msgstr[1] ""%[1]s ghoogol""
msgstr[2] ""%[1]s googolan""
msgstr[3] ""%[1]s googol""

msgid ""%[1]s million""
msgid_plural ""%[1]s million""
msgstr[0] ""%[1]s mhillean""
msgstr[1] ""%[1]s mhillean""
msgstr[2] ""%[1]s milleanan""
msgstr[3] ""%[1]s millean""

msgid ""%[1]s nonillion""
msgid_plural ""%[1]s nonillion""
msgstr[0] ""%[1]s nonillean""
msgstr[1] ""%[1]s nonillean""
msgstr[2] ""%[1]s nonilleanan""
msgstr[3] ""%[1]s nonillean""

msgid ""%[1]s octillion""
msgid_plural ""%[1]s octillion""
msgstr[0] ""%[1]s octillean""
msgstr[1] ""%[1]s octillean""
msgstr[2] ""%[1]s octilleanan""
msgstr[3] ""%[1]s octillean""

msgid ""%[1]s quadrillion""
msgid_plural ""%[1]s quadrillion""
msgstr[0] ""%[1]s quadrillean""
msgstr[1] ""%[1]s quadrillean""
msgstr[2] ""%[1]s quadrilleanan""
msgstr[3] ""%[1]s quadrillean""

msgid ""%[1]s quintillion""
msgid_plural ""%[1]s quintillion""
msgstr[0] ""%[1]s quintillean""
msgstr[1] ""%[1]s quintillean""
msgstr[2] ""%[1]s quintilleanan""
msgstr[3] ""%[1]s quintillean""

msgid ""%[1]s septillion""
msgid_plural ""%[1]s septillion""
msgstr[0] ""%[1]s septillean""
msgstr[1] ""%[1]s sheptillean""
msgstr[2] ""%[1]s septilleanan""
msgstr[3] ""%[1]s septillean""

msgid ""%[1]s sextillion""
msgid_plural ""%[1]s sextillion""
msgstr[0] ""%[1]s sextillean""
msgstr[1] ""%[1]s shextillean""
msgstr[2] ""%[1]s sextilleanan""
msgstr[3] ""%[1]s sextillean""

msgid ""%[1]s trillion""
msgid_plural ""%[1]s trillion""
msgstr[0] ""%[1]s trillean""
msgstr[1] ""%[1]s thrillean""
msgstr[2] ""%[1]s trilleanan""
msgstr[3] ""%[1]s trillean""

msgid ""%[1]v ago""
msgstr ""%[1]v air ais""

msgid ""%[1]v day""
msgid_plural ""%[1]v days""
msgstr[0] ""%[1]v latha""
msgstr[1] ""%[1]v latha""
msgstr[2] ""%[1]v làithean""
msgstr[3] ""%[1]v latha""

msgid ""%[1]v from now""
msgstr ""an ceann %[1]v""

msgid ""%[1]v hour""
msgid_plural ""%[1]v hours""
msgstr[0] ""%[1]v uair a thìde""
msgstr[1] ""%[1]v uair a thìde""
msgstr[2] ""%[1]v uairean a thìde""
msgstr[3] ""%[1]v uair a thìde""

msgid ""%[1]v minute""
msgid_plural ""%[1]v minutes""
msgstr[0] ""%[1]v mhionaid""
msgstr[1] ""%[1]v mhionaid""
msgstr[2] ""%[1]v mionaidean""
msgstr[3] ""%[1]v mionaid""

msgid ""%[1]v month""
msgid_plural ""%[1]v months""
msgstr[0] ""%[1]v mhìos""
msgstr[1] ""%[1]v mhìos""
msgstr[2] ""%[1]v mìosan""
msgstr[3] ""%[1]v mìos""

msgid ""%[1]v week""
msgid_plural ""%[1]v weeks""
msgstr[0] ""%[1]v seachdain""
msgstr[1] ""%[1]v sheachdain""
msgstr[2] ""%[1]v seachdainean""
msgstr[3] ""%[1]v seachdain""

msgid ""%[1]v year""
msgid_plural ""%[1]v years""
msgstr[0] ""%[1]v bliadhna""
msgstr[1] ""%[1]v bhliadhna""
msgstr[2] ""%[1]v bliadhnaichean""
msgstr[3] ""%[1]v bliadhna""

msgid ""%s GB""
msgstr ""%s GB""

msgid ""%s KB""
msgstr ""%s KB""

msgid ""%s MB""
msgstr ""%s MB""

msgid ""%s PB""
msgstr ""%s PB""

msgid ""%s TB""
msgstr ""%s TB""

msgid "", ""
msgstr "", ""

msgid ""AM""
msgstr ""m""

msgid ""Afrikaans""
msgstr ""Afraganais""

msgid ""Albanian""
msgstr ""Albàinis""

msgid ""Algerian Arabic""
msgstr ""Arabais Aildireach""

msgid ""April""
msgstr ""An Giblean""

msgid ""Arabic""
msgstr ""Arabais""

msgid ""Argentinian Spanish""
msgstr ""Spàinntis na h-Argantaine""

msgid ""Armenian""
msgstr ""Airmeinis""

msgid ""Asturian""
msgstr ""Astùrais""

msgid ""August""
msgstr ""An Lùnastal""

msgid ""Australian English""
msgstr ""Beurla Astràilia""

msgid ""Azerbaijani""
msgstr ""Asarbaideànais""

msgid ""Basque""
msgstr ""Basgais""

msgid ""Belarusian""
msgstr ""Bealaruisis""

msgid ""Bengali""
msgstr ""Beangailis""

msgid ""Bosnian""
msgstr ""Bosnais""

msgid ""Brazilian Portuguese""
msgstr ""Portagailis Bhraisileach""

msgid ""Breton""
msgstr ""Breatnais""

msgid ""British English""
msgstr ""Beurla Bhreatainn""

msgid ""Bulgarian""
msgstr ""Bulgarais""

msgid ""Burmese""
msgstr ""Burmais""

msgid ""Catalan""
msgstr ""Catalanais""

msgid ""Colombian Spanish""
msgstr ""Spàinntis Choloimbia""

msgid ""Croatian""
msgstr ""Cròthaisis""

msgid ""Czech""
msgstr ""Seacais""

msgid ""Danish""
msgstr ""Danmhairgis""

msgid ""December""
msgstr ""An Dùbhlachd""

msgid ""Dutch""
msgstr ""Duitsis""

msgid ""English""
msgstr ""Beurla""

msgid ""Esperanto""
msgstr ""Esperanto""

msgid ""Estonian""
msgstr ""Eastoinis""

msgid ""February""
msgstr ""An Gearran""

msgid ""Finnish""
msgstr ""Fionnlannais""

msgid ""French""
msgstr ""Fraingis""

msgid ""Fri""
msgstr ""Dih""

msgid ""Friday""
msgstr ""DihAoine""

msgid ""Frisian""
msgstr ""Frìsis""

msgid ""Galician""
msgstr ""Gailìsis""

msgid ""Georgian""
msgstr ""Cairtbheilis""

msgid ""German""
msgstr ""Gearmailtis""

msgid ""Greek""
msgstr ""Greugais""

msgid ""Hebrew""
msgstr ""Eabhra""

msgid ""Hindi""
msgstr ""Hindis""

msgid ""Hungarian""
msgstr ""Ungairis""

msgid ""Icelandic""
msgstr ""Innis Tìlis""

msgid ""Ido""
msgstr ""Ido""

msgid ""Igbo""
msgstr ""Igbo""

msgid ""Indonesian""
msgstr ""Innd-Innsis""

msgid ""Interlingua""
msgstr ""Interlingua""

msgid ""Irish""
msgstr ""Gaeilge""

msgid ""Italian""
msgstr ""Eadailtis""

msgid ""January""
msgstr ""Am Faoilleach""

msgid ""Japanese""
msgstr ""Seapanais""

msgid ""July""
msgstr ""An t-Iuchar""

msgid ""June""
msgstr ""An t-Ògmhios""

msgid ""Kabyle""
msgstr ""Kabyle""

msgid ""Kannada""
msgstr ""Kannada""

msgid ""Kazakh""
msgstr ""Casachais""

msgid ""Khmer""
msgstr ""Cmèar""

msgid ""Korean""
msgstr ""Coirèanais""

msgid ""Kyrgyz""
msgstr ""Cìorgasais""

msgid ""Latvian""
msgstr ""Laitbheis""

msgid ""Lithuanian""
msgstr ""Liotuainis""

msgid ""Lower Sorbian""
msgstr ""Sòrbais Ìochdarach""

msgid ""Luxembourgish""
msgstr ""Lugsamburgais""

msgid ""Macedonian""
msgstr ""Masadonais""

msgid ""Malay""
msgstr ""Malaidhis""

msgid ""Malayalam""
msgstr ""Malayalam""

msgid ""Marathi""
msgstr ""Marathi""

msgid ""March""
msgstr ""Am Màrt""

msgid ""May""
msgstr ""An Cèitean""

msgid ""Mexican Spanish""
msgstr ""Spàinntis Mheagsagach""

msgid ""Mon""
msgstr ""DiL""

msgid ""Monday""
msgstr ""DiLuain""

msgid ""Mongolian""
msgstr ""Mongolais""

msgid ""Nepali""
msgstr ""Neapàlais""

msgid ""Nicaraguan Spanish""
msgstr ""Spàinntis Niocaragua""

msgid ""Norwegian Bokmål""
msgstr ""Nirribhis (Bokmål)""

msgid ""Norwegian Nynorsk""
msgstr ""Nirribhis (Nynorsk)""

msgid ""November""
msgstr ""An t-Samhain""

msgid ""October""
msgstr ""An Dàmhair""

msgid ""Ossetic""
msgstr ""Ossetic""

msgid ""PM""
msgstr ""f""

msgid ""Persian""
msgstr ""Farsaidh""

msgid ""Polish""
msgstr ""Pòlainnis""

msgid ""Portuguese""
msgstr ""Portagailis""

msgid ""Punjabi""
msgstr ""Panjabi""

msgid ""Romanian""
msgstr ""Romàinis""

msgid ""Russian""
msgstr ""Ruisis""

msgid ""Sat""
msgstr ""DiS""

msgid ""Saturday""
msgstr ""DiSathairne""

msgid ""Scottish Gaelic""
msgstr ""Gàidhlig""

msgid ""September""
msgstr ""An t-Sultain""

msgid ""Serbian""
msgstr ""Sèirbis""

msgid ""Serbian Latin""
msgstr ""Sèirbis (Laideann)""

msgid ""Simplified Chinese""
msgstr ""Sìnis Shimplichte""

msgid ""Slovak""
msgstr ""Slòbhacais""

msgid ""Slovenian""
msgstr ""Slòbhainis""

msgid ""Spanish""
msgstr ""Spàinntis""

msgid ""Sun""
msgstr ""DiD""

msgid ""Sunday""
msgstr ""DiDòmhnaich""

msgid ""Swahili""
msgstr ""Kiswahili""

msgid ""Swedish""
msgstr ""Suainis""

msgid ""Tajik""
msgstr ""Taidigis""

msgid ""Tamil""
msgstr ""Taimilis""

msgid ""Tatar""
msgstr ""Tatarais""

msgid ""Telugu""
msgstr ""Telugu""

msgid ""Thai""
msgstr ""Tàidh""

msgid ""Thu""
msgstr ""Dia""

msgid ""Thursday""
msgstr ""DiarDaoin""

msgid ""Traditional Chinese""
msgstr ""Sìnis Thradaiseanta""

msgid ""Tue""
msgstr ""DiM""

msgid ""Tuesday""
msgstr ""DiMàirt""

msgid ""Turkish""
msgstr ""Turcais""

msgid ""Turkmen""
msgstr ""Turcmanais""

msgid ""Udmurt""
msgstr ""Udmurt""

msgid ""Ukrainian""
msgstr ""Ucràinis""

msgid ""Upper Sorbian""
msgstr ""Sòrbais Uachdarach""

msgid ""Urdu""
msgstr ""Ùrdu""

msgid ""Uzbek""
msgstr ""Usbagais""

msgid ""Venezuelan Spanish""
msgstr ""Spàinntis na Bheiniseala""

msgid ""Vietnamese""
msgstr ""Bhiet-Namais""

msgid ""Wed""
msgstr ""DiC""

msgid ""Wednesday""
msgstr ""DiCiadain""

msgid ""Welsh""
msgstr ""Cuimris""

msgid ""a minute ago""
msgid_plural ""%[1]v minutes ago""
msgstr[0] ""%[1]v mhionaid air ais""
msgstr[1] ""%[1]v mhionaid air ais""
msgstr[2] ""%[1]v mionaidean air ais""
msgstr[3] ""%[1]v mionaid air ais""

msgid ""a minute from now""
msgid_plural ""%[1]v minutes from now""
msgstr[0] ""an ceann %[1]v mhionaid""
msgstr[1] ""an ceann %[1]v mhionaid""
msgstr[2] ""an ceann %[1]v mionaidean""
msgstr[3] ""an ceann %[1]v mionaid""

msgid ""a second ago""
msgid_plural ""%[1]v seconds ago""
msgstr[0] ""%[1]v diog air ais""
msgstr[1] ""%[1]v dhiog air ais""
msgstr[2] ""%[1]v diogan air ais""
msgstr[3] ""%[1]v diog air ais""

msgid ""a second from now""
msgid_plural ""%[1]v seconds from now""
msgstr[0] ""an ceann %[1]v diog""
msgstr[1] ""an ceann %[1]v dhiog""
msgstr[2] ""an ceann %[1]v diogan""
msgstr[3] ""an ceann %[1]v diog""

msgid ""a.m.""
msgstr ""m""

msgid ""an hour ago""
msgid_plural ""%[1]v hours ago""
msgstr[0] ""%[1]v uair a thìde air ais""
msgstr[1] ""%[1]v uair a thìde air ais""
msgstr[2] ""%[1]v uairean a thìde air ais""
msgstr[3] ""%[1]v uair a thìde air ais""

msgid ""an hour from now""
msgid_plural ""%[1]v hours from now""
msgstr[0] ""an ceann %[1]v uair a thìde""
msgstr[1] ""an ceann %[1]v uair a thìde""
msgstr[2] ""an ceann %[1]v uairean a thìde""
msgstr[3] ""an ceann %[1]v uair a thìde""

msgid ""apr""
msgstr ""gibl""

msgid ""aug""
msgstr ""lùna""

msgid ""dec""
msgstr ""dùbh""

msgid ""eight""
msgstr ""ochd""

msgid ""feb""
msgstr ""gearr""

msgid ""five""
msgstr ""còig""

msgid ""four""
msgstr ""ceithir""

msgid ""jan""
msgstr ""faoi""

msgid ""jul""
msgstr ""iuch""

msgid ""jun""
msgstr ""ògmh""

msgid ""mar""
msgstr ""màrt""

msgid ""may""
msgstr ""cèit""

msgid ""midnight""
msgstr ""meadhan-oidhche""

msgid ""nine""
msgstr ""naoidh""

msgid ""noon""
msgstr ""meadhan-latha""

msgid ""nov""
msgstr ""samh""

msgid ""now""
msgstr ""an-dràsta""

msgid ""oct""
msgstr ""dàmh""

msgid ""one""
msgstr ""aon""

msgid ""p.m.""
msgstr ""f""

msgid ""sep""
msgstr ""sult""

msgid ""seven""
msgstr ""seachd""

msgid ""six""
msgstr ""sia""

msgid ""three""
msgstr ""trì""

msgid ""today""
msgstr ""an-diugh""

msgid ""tomorrow""
msgstr ""a-màireach""

msgid ""two""
msgstr ""dà""

msgid ""yesterday""
msgstr ""an-dè""

msgctxt ""abbrev. month""
msgid ""April""
msgstr ""Gibl""

msgctxt ""abbrev. month""
msgid ""Aug.""
msgstr ""Lùna""

msgctxt ""abbrev. month""
msgid ""Dec.""
msgstr ""Dùbh""

msgctxt ""abbrev. month""
msgid ""Feb.""
msgstr ""Gearr""

msgctxt ""abbrev. month""
msgid ""Jan.""
msgstr ""Faoi""

msgctxt ""abbrev. month""
msgid ""July""
msgstr ""Iuch""

msgctxt ""abbrev. month""
msgid ""June""
msgstr ""Ògmh""

msgctxt ""abbrev. month""
msgid ""March""
msgstr ""Màrt""

msgctxt ""abbrev. month""
msgid ""May""
msgstr ""Cèit""

msgctxt ""abbrev. month""
msgid ""Nov.""
msgstr ""Samh""

msgctxt ""abbrev. month""
msgid ""Oct.""
msgstr ""Dàmh""

msgctxt ""abbrev. month""
msgid ""Sept.""
msgstr ""Sult""

msgctxt ""alt. month""
msgid ""April""
msgstr ""An Giblean""

msgctxt ""alt. month""
msgid ""August""
msgstr ""An Lùnastal""

msgctxt ""alt. month""
msgid ""December""
msgstr ""An Dùbhlachd""

msgctxt ""alt. month""
msgid ""February""
msgstr ""An Gearran""

msgctxt ""alt. month""
msgid ""January""
msgstr ""Am Faoilleach""

msgctxt ""alt. month""
msgid ""July""
msgstr ""An t-Iuchar""

msgctxt ""alt. month""
msgid ""June""
msgstr ""An t-Ògmhios""

msgctxt ""alt. month""
msgid ""March""
msgstr ""Am Màrt""

msgctxt ""alt. month""
msgid ""May""
msgstr ""An Cèitean""

msgctxt ""alt. month""
msgid ""November""
msgstr ""An t-Samhain""

msgctxt ""alt. month""
msgid ""October""
msgstr ""An Dàmhair""

msgctxt ""alt. month""
msgid ""September""
msgstr ""An t-Sultain""

msgctxt ""naturaltime-future""
msgid ""%[1]v day""
msgid_plural ""%[1]v days""
msgstr[0] ""%[1]v latha""
msgstr[1] ""%[1]v latha""
msgstr[2] ""%[1]v làithean""
msgstr[3] ""%[1]v latha""

msgctxt ""naturaltime-future""
msgid ""%[1]v hour""
msgid_plural ""%[1]v hours""
msgstr[0] ""%[1]v uair a thìde""
msgstr[1] ""%[1]v uair a thìde""
msgstr[2] ""%[1]v uairean a thìde""
msgstr[3] ""%[1]v uair a thìde""

msgctxt ""naturaltime-future""
msgid ""%[1]v minute""
msgid_plural ""%[1]v minutes""
msgstr[0] ""%[1]v mhionaid""
msgstr[1] ""%[1]v mhionaid""
msgstr[2] ""%[1]v mionaidean""
msgstr[3] ""%[1]v mionaid""

msgctxt ""naturaltime-future""
msgid ""%[1]v month""
msgid_plural ""%[1]v months""
msgstr[0] ""%[1]v mhìos""
msgstr[1] ""%[1]v mhìos""
msgstr[2] ""%[1]v mìosan""
msgstr[3] ""%[1]v mìos""

msgctxt ""naturaltime-future""
msgid ""%[1]v week""
msgid_plural ""%[1]v weeks""
msgstr[0] ""%[1]v seachdain""
msgstr[1] ""%[1]v sheachdain""
msgstr[2] ""%[1]v seachdainean""
msgstr[3] ""%[1]v seachdain""

msgctxt ""naturaltime-future""
msgid ""%[1]v year""
msgid_plural ""%[1]v years""
msgstr[0] ""%[1]v bhliadhna""
msgstr[1] ""%[1]v bhliadhna""
msgstr[2] ""%[1]v bliadhnaichean""
msgstr[3] ""%[1]v bliadhna""

msgctxt ""naturaltime-past""
msgid ""%[1]v day""
msgid_plural ""%[1]v days""
msgstr[0] ""%[1]v latha""
msgstr[1] ""%[1]v latha""
msgstr[2] ""%[1]v làithean""
msgstr[3] ""%[1]v latha""

msgctxt ""naturaltime-past""
msgid ""%[1]v hour""
msgid_plural ""%[1]v hours""
msgstr[0] ""%[1]v uair a thìde""
msgstr[1] ""%[1]v uair a thìde""
msgstr[2] ""%[1]v uairean a thìde""
msgstr[3] ""%[1]v uair a thìde""

msgctxt ""naturaltime-past""
msgid ""%[1]v minute""
msgid_plural ""%[1]v minutes""
msgstr[0] ""%[1]v mhionaid""
msgstr[1] ""%[1]v mhionaid""
msgstr[2] ""%[1]v mionaidean""
msgstr[3] ""%[1]v mionaid""

msgctxt ""naturaltime-past""
msgid ""%[1]v month""
msgid_plural ""%[1]v months""
msgstr[0] ""%[1]v mhìos""
msgstr[1] ""%[1]v mhìos""
msgstr[2] ""%[1]v mìosan""
msgstr[3] ""%[1]v mìos""

msgctxt ""naturaltime-past""
msgid ""%[1]v week""
msgid_plural ""%[1]v weeks""
msgstr[0] ""%[1]v seachdain""
msgstr[1] ""%[1]v sheachdain""
msgstr[2] ""%[1]v seachdainean""
msgstr[3] ""%[1]v seachdain""

msgctxt ""naturaltime-past""
msgid ""%[1]v year""
msgid_plural ""%[1]v years""
msgstr[0] ""%[1]v bhliadhna""
msgstr[1] ""%[1]v bhliadhna""
msgstr[2] ""%[1]v bliadhnaichean""
msgstr[3] ""%[1]v bliadhna""

msgctxt ""ordinal 0""
msgid ""%vth""
msgstr ""%vmh""

msgctxt ""ordinal 1""
msgid ""%vst""
msgstr ""%vd""

msgctxt ""ordinal 11, 12, 13""
msgid ""%vth""
msgstr ""%vmh""

msgctxt ""ordinal 2""
msgid ""%vnd""
msgstr ""%vna""

msgctxt ""ordinal 3""
msgid ""%vrd""
msgstr ""%vs""

msgctxt ""ordinal 4""
msgid ""%vth""
msgstr ""%vmh""

msgctxt ""ordinal 5""
msgid ""%vth""
msgstr ""%vmh""

msgctxt ""ordinal 6""
msgid ""%vth""
msgstr ""%vmh""

msgctxt ""ordinal 7""
msgid ""%vth""
msgstr ""%vmh""

msgctxt ""ordinal 8""
msgid ""%vth""
msgstr ""%vmh""

msgctxt ""ordinal 9""
msgid ""%vth""
msgstr ""%vmh""
".
(** humanize/locale/gd/locale.go (New) *)
Definition loc_gd : locale_data := LD (bs "gd") [(bs "django.po", po_gd)]
  (Some (FD (bs "j F Y") (bs "h:ia") (bs "j F Y h:ia") (bs "") (bs "j F") (bs "j M Y") (bs "j M Y h:ia"))).

(** humanize/locale/gl/django.po *)
Definition po_gl : bytes := bs "# This file is distributed under the same license as the Django package.
# 
# Translators:
# fasouto <fsoutomoure@gmail.com>, 2011-2012
# fonso <fonzzo@gmail.com>, 2011,2013
# fonso <fonzzo@gmail.com>, 2013
# fasouto <fsoutomoure@gmail.com>, 2017
# Jannis Leidel <jannis@leidel.info>, 2011
# Leandro Regueiro <leandro.regueiro@gmail.com>, 2013
# 948a55bc37dd6d642f1875bb84258fff_07a28cc <c1911c41f2600393098639fceba5dab0_5932>, 2012
# X Bello <xbello@gmail.com>, 2023-2025
msgid """"
msgstr """"
""Project-Id-Version: django\n""
""Report-Msgid-Bugs-To: \n""
""POT-Creation-Date: 2025-03-19 11:30-0500\n""
""PO-Revision-Date: 2025-09-17 06:49+0000\n""
""Last-Translator: X Bello <xbello@gmail.com>, 2023-2025\n""
""Language-Team: Galician (http://app.transifex.com/django/django/language/gl/)\n""
""Language: gl\n""
""MIME-Version: 1.0\n""
""Content-Type: text/plain; charset=UTF-8\n""
""Content-Transfer-Encoding: 8bit\n""
""Plural-Forms: nplurals=2; plural=(n != 1);\n""

msgid ""%[1]d byte""
msgid_plural ""%[1]d bytes""
msgstr[0] ""%[1]d byte""
msgstr[1] ""%[1]d bytes""

msgid ""%[1]s billion""
msgid_plural ""%[1]s billion""
msgstr[0] ""%[1]s mil millóns""
msgstr[1] ""%[1]s mil millóns""

msgid ""%[1]s decillion""
msgid_plural ""%[1]s decillion""
msgstr[0] ""%[1]s nonillón""
msgstr[1] ""%[1]s nonillóns""

msgid ""%[1]s googol""
msgid_plural ""%[1]s googol""
msgstr[0] ""%[1]s gúgol""
msgstr[1] ""%[1]s gúgols""

msgid ""%[1]s million""
msgid_plural ""%[1]s million""
msgstr[0] ""%[1]s millón""
msgstr[1] ""%[1]s millóns""

msgid ""%[1]s nonillion""
msgid_plural ""%[1]s nonillion""
msgstr[0] ""%[1]s octillón""
msgstr[1] ""%[1]s octillóns""

msgid ""%[1]s octillion""
msgid_plural ""%[1]s octillion""
msgstr[0] ""%[1]s septillón""
msgstr[1] ""%[1]s septillóns""

msgid ""%[1]s quadrillion""
msgid_plural ""%[1]s quadrillion""
msgstr[0] ""%[1]s trillón""
msgstr[1] ""%[1]s trillóns""

msgid ""%[1]s quintillion""
msgid_plural ""%[1]s quintillion""
msgstr[0] ""%[1]s cuadrillón""
msgstr[1] ""%[1]s cuadrillóns""

msgid ""%[1]s septillion""
msgid_plural ""%[1]s septillion""
msgstr[0] ""%[1]s sextillón""
msgstr[1] ""%[1]s sextillóns""

msgid ""%[1]s sextillion""
msgid_plural ""%[1]s sextillion""
msgstr[0] ""%[1]s quintillón""
msgstr[1] ""%[1]s quintillóns""

msgid ""%[1]s trillion""
msgid_plural ""%[1]s trillion""
msgstr[0] ""%[1]s billón""
msgstr[1] ""%[1]s billóns""

msgid ""%[1]v ago""
msgstr ""hai %[1]v""

msgid ""%[1]v day""
msgid_plural ""%[1]v days""
msgstr[0] ""%[1]v día""
msgstr[1] ""%[1]v días""

msgid ""%[1]v from now""
msgstr ""dentro de %[1]v""

msgid ""%[1]v hour""
msgid_plural ""%[1]v hours""
msgstr[0] ""%[1]v hora""
msgstr[1] ""%[1]v horas""

msgid ""%[1]v minute""
msgid_plural ""%[1]v minutes""
msgstr[0] ""%[1]v minuto""
msgstr[1] ""%[1]v minutos""

msgid ""%[1]v month""
msgid_plural ""%[1]v months""
msgstr[0] ""%[1]v mes""
msgstr[1] ""%[1]v meses""

msgid ""%[1]v week""
msgid_plural ""%[1]v weeks""
msgstr[0] ""%[1]v semana""
msgstr[1] ""%[1]v semanas""

msgid ""%[1]v year""
msgid_plural ""%[1]v years""
msgstr[0] ""%[1]v ano""
msgstr[1] ""%[1]v anos""

msgid ""%s GB""
msgstr ""%s GB""

msgid ""%s KB""
msgstr ""%s KB""

msgid ""%s MB""
msgstr ""%s MB""

msgid ""%s PB""
msgstr ""%s PB""

msgid ""%s TB""
msgstr ""%s TB""

msgid "", ""
msgstr "", ""

msgid ""AM""
msgstr ""AM""

msgid ""Afrikaans""
msgstr ""Africáner""

msgid ""Albanian""
msgstr ""Albanés""

msgid ""Algerian Arabic""
msgstr ""Árabe Arxelino""

msgid ""April""
msgstr ""Abril""

msgid ""Arabic""
msgstr ""Árabe""

msgid ""Argentinian Spanish""
msgstr ""Español da Arxentina""

msgid ""Armenian""
msgstr ""Armenio""

msgid ""Asturian""
msgstr ""Asturiano""

msgid ""August""
msgstr ""Agosto""

msgid ""Australian English""
msgstr ""Inglés australiano""

msgid ""Azerbaijani""
msgstr ""Azerí""

msgid ""Basque""
msgstr ""Vasco""

msgid ""Belarusian""
msgstr ""Bielorruso""

msgid ""Bengali""
msgstr ""Bengalí""

msgid ""Bosnian""
msgstr ""Bosníaco""

msgid ""Brazilian Portuguese""
msgstr ""Portugués do Brasil""

msgid ""Breton""
msgstr ""Bretón""

msgid ""British English""
msgstr ""inglés británico""

msgid ""Bulgarian""
msgstr ""Búlgaro""

msgid ""Burmese""
msgstr ""Birmano""

msgid ""Catalan""
msgstr ""Catalán""

msgid ""Central Kurdish (Sorani)""
msgstr ""Kurdo Central (Sorani)""

msgid ""Colombian Spanish""
msgstr ""Español de Colombia""

msgid ""Croatian""
msgstr ""Croata""

msgid ""Czech""
msgstr ""Checo""

msgid ""Danish""
msgstr ""Dinamarqués""

msgid ""December""
msgstr ""Decembro""

msgid ""Dutch""
msgstr ""Holandés""

msgid ""English""
msgstr ""Inglés""

msgid ""Esperanto""
msgstr ""Esperanto""

msgid ""Estonian""
msgstr ""Estoniano""

msgid ""February""
msgstr ""Febreiro""

msgid ""Finnish""
msgstr ""Finés""

msgid ""French""
msgstr ""Francés""

msgid ""Fri""
msgstr ""ven""

msgid ""Friday""
msgstr ""Venres""

msgid ""Frisian""
msgstr ""Frisón""

msgid ""Galician""
msgstr ""Galego""

msgid ""Georgian""
msgstr ""Xeorxiano""

msgid ""German""
msgstr ""Alemán""

msgid ""Greek""
msgstr ""Grego""

msgid ""Hebrew""
msgstr ""Hebreo""

msgid ""Hindi""
msgstr ""Hindi""

msgid ""Hungarian""
msgstr ""Húngaro""

msgid ""Icelandic""
msgstr ""Islandés""

msgid ""Ido""
msgstr ""Ido""

msgid ""Igbo""
msgstr ""Ibo""

msgid ""Indonesian""
msgstr ""Indonesio""

msgid ""Interlingua""
msgstr ""Interlingua""

msgid ""Irish""
msgstr ""Irlandés""

msgid ""Italian""
msgstr ""Italiano""

msgid ""January""
msgstr ""Xaneiro""

msgid ""Japanese""
msgstr ""Xaponés""

msgid ""July""
msgstr ""Xullo""

msgid ""June""
msgstr ""Xuño""

msgid ""Kabyle""
msgstr ""Cabilio""

msgid ""Kannada""
msgstr ""Canará""

msgid ""Kazakh""
msgstr ""Casaco""

msgid ""Khmer""
msgstr ""Camboxano""

msgid ""Korean""
msgstr ""Coreano""

msgid ""Kyrgyz""
msgstr ""Kirguiz""

msgid ""Latvian""
msgstr ""Letón""

msgid ""Lithuanian""
msgstr ""Lituano""

msgid ""Lower Sorbian""
msgstr ""Baixo Sorabo""

msgid ""Luxembourgish""
msgstr ""Luxemburgués""

msgid ""Macedonian""
msgstr ""Macedonio""

msgid ""Malay""
msgstr ""Malaio""

msgid ""Malayalam""
msgstr ""Mala""

msgid ""Marathi""
msgstr ""Marathi""

msgid ""March""
msgstr ""Marzo""

msgid ""May""
msgstr ""Maio""

msgid ""Mexican Spanish""
msgstr ""Español de México""

msgid ""Mon""
msgstr ""lun""

msgid ""Monday""
msgstr ""Luns""

msgid ""Mongolian""
msgstr ""Mongol""

msgid ""Nepali""
msgstr ""Nepalés""

msgid ""Nicaraguan Spanish""
msgstr ""Español de Nicaragua""

msgid ""Norwegian Bokmål""
msgstr ""Bokmål Noruegués""

msgid ""Norwegian Nynorsk""
msgstr ""Noruegués (nynorsk)""

msgid ""November""
msgstr ""Novembro""

msgid ""October""
msgstr ""Outubro""

msgid ""Ossetic""
msgstr ""Osetio""

msgid ""PM""
msgstr ""PM""

msgid ""Persian""
msgstr ""Persa""

msgid ""Polish""
msgstr ""Polaco""

msgid ""Portuguese""
msgstr ""Portugués""

msgid ""Punjabi""
msgstr ""Panxabiano""

msgid ""Romanian""
msgstr ""Romanés""

msgid ""Russian""
msgstr ""Ruso""

msgid ""Sat""
msgstr ""sáb""

msgid ""Saturday""
msgstr ""Sábado""

msgid ""Scottish Gaelic""
msgstr ""Gaélico Escocés""

msgid ""September""
msgstr ""Setembro""

msgid ""Serbian""
msgstr ""Serbio""

msgid ""Serbian Latin""
msgstr ""Serbio (alfabeto latino)""

msgid ""Simplified Chinese""
msgstr ""Chinés simplificado""

msgid ""Slovak""
msgstr ""Eslovaco""

msgid ""Slovenian""
msgstr ""Esloveno""

msgid ""Spanish""
msgstr ""Español""

msgid ""Sun""
msgstr ""dom""

msgid ""Sunday""
msgstr ""Domingo""

msgid ""Swahili""
msgstr ""Suahili""

msgid ""Swedish""
msgstr ""Sueco""

msgid ""Tajik""
msgstr ""Taxico""

msgid ""Tamil""
msgstr ""Támil""

msgid ""Tatar""
msgstr ""Tártaro""

msgid ""Telugu""
msgstr ""Telugu""

msgid ""Thai""
msgstr ""Tai""

msgid ""Thu""
msgstr ""xov""

msgid ""Thursday""
msgstr ""Xoves""

msgid ""Traditional Chinese""
msgstr ""Chinés tradicional""

msgid ""Tue""
msgstr ""mar""

msgid ""Tuesday""
msgstr ""Martes""

msgid ""Turkish""
msgstr ""Turco""

msgid ""Turkmen""
msgstr ""Turcomá""

msgid ""Udmurt""
msgstr ""Udmurt""

msgid ""Ukrainian""
msgstr ""Ucraíno""

msgid ""Upper Sorbian""
msgstr ""Alto Sorabo""

msgid ""Urdu""
msgstr ""Urdu""

msgid ""Uyghur""
msgstr ""Uigur""

msgid ""Uzbek""
msgstr ""Uzbeco""

msgid ""Venezuelan Spanish""
msgstr ""Español de Venezuela""

msgid ""Vietnamese""
msgstr ""Vietnamita""

msgid ""Wed""
msgstr ""mér""

msgid ""Wednesday""
msgstr ""Mércores""

msgid ""Welsh""
msgstr ""Galés""

msgid ""a minute ago""
msgid_plural ""%[1]v minutes ago""
msgstr[0] ""Fai un minuto""
msgstr[1] ""Hai %[1]v minutos""

msgid ""a minute from now""
msgid_plural ""%[1]v minutes from now""
msgstr[0] ""Dentro dun minuto""
msgstr[1] ""Dentro de %[1]v minutos""

msgid ""a second ago""
msgid_plural ""%[1]v seconds ago""
msgstr[0] ""Fai un segundo""
msgstr[1] ""Hai %[1]v segundos""

msgid ""a second from now""
msgid_plural ""%[1]v seconds from now""
msgstr[0] ""Dentro dun segundo""
msgstr[1] ""Dentro de %[1]v segundos""

msgid ""a.m.""
msgstr ""a.m.""

msgid ""an hour ago""
msgid_plural ""%[1]v hours ago""
msgstr[0] ""Fai unha hora""
msgstr[1] ""Hai %[1]v horas""

msgid ""an hour from now""
msgid_plural ""%[1]v hours from now""
msgstr[0] ""Dentro dunha hora""
msgstr[1] ""Dentro de %[1]v horas""

msgid ""apr""
msgstr ""abr""

msgid ""aug""
msgstr ""ago""

msgid ""dec""
msgstr ""dec""

msgid ""eight""
msgstr ""oito""

msgid ""feb""
msgstr ""feb""

msgid ""five""
msgstr ""cinco""

msgid ""four""
msgstr ""catro""

msgid ""jan""
msgstr ""xan""

msgid ""jul""
msgstr ""xul""

msgid ""jun""
msgstr ""xuñ""

msgid ""mar""
msgstr ""mar""

msgid ""may""
msgstr ""mai""

msgid ""midnight""
msgstr ""medianoite""

msgid ""nine""
msgstr ""nove""

msgid ""noon""
msgstr ""mediodía""

msgid ""nov""
msgstr ""nov""

msgid ""now""
msgstr ""agora""

msgid ""oct""
msgstr ""out""

msgid ""one""
msgstr ""un""

msgid ""p.m.""
msgstr ""p.m.""

msgid ""sep""
msgstr ""set""

msgid ""seven""
msgstr ""sete""

msgid ""six""
msgstr ""seis""

msgid ""three""
msgstr ""tres""

msgid ""today""
msgstr ""hoxe""

msgid ""tomorrow""
msgstr ""mañá""

msgid ""two""
msgstr ""dous""

msgid ""yesterday""
msgstr ""onte""

msgctxt ""abbrev. month""
msgid ""April""
msgstr ""Abril""

msgctxt ""abbrev. month""
msgid ""Aug.""
msgstr ""Ago.""

msgctxt ""abbrev. month""
msgid ""Dec.""
msgstr ""Dec.""

msgctxt ""abbrev. month""
msgid ""Feb.""
msgstr ""Feb.""

msgctxt ""abbrev. month""
msgid ""Jan.""
msgstr ""Xan.""

msgctxt ""abbrev. month""
msgid ""July""
msgstr ""Xullo""

msgctxt ""abbrev. month""
msgid ""June""
msgstr ""Xuño""

msgctxt ""abbrev. month""
msgid ""March""
msgstr ""Marzo""

msgctxt ""abbrev. month""
msgid ""May""
msgstr ""Maio""

msgctxt ""abbrev. month""
msgid ""Nov.""
msgstr ""Nov.""

msgctxt ""abbrev. month""
msgid ""Oct.""
msgstr ""Out.""

msgctxt ""abbrev. month""
msgid ""Sept.""
msgstr ""Set.""

msgctxt ""alt. month""
msgid ""April""
msgstr ""Abril""

msgctxt ""alt. month""
msgid ""August""
msgstr ""Agosto""

msgctxt ""alt. month""
msgid ""December""
msgstr ""Decembro""

msgctxt ""alt. month""
msgid ""February""
msgstr ""Febreiro""

msgctxt ""alt. month""
msgid ""January""
msgstr ""Xaneiro""

msgctxt ""alt. month""
msgid ""July""
msgstr ""Xullo""

msgctxt ""alt. month""
msgid ""June""
msgstr ""Xuño""

msgctxt ""alt. month""
msgid ""March""
msgstr ""Marzo""

msgctxt ""alt. month""
msgid ""May""
msgstr ""Maio""

msgctxt ""alt. month""
msgid ""November""
msgstr ""Novembro""

msgctxt ""alt. month""
msgid ""October""
msgstr ""Outubro""

msgctxt ""alt. month""
msgid ""September""
msgstr ""Setembro""

msgctxt ""naturaltime-future""
msgid ""%[1]v day""
msgid_plural ""%[1]v days""
msgstr[0] ""%[1]v día""
msgstr[1] ""%[1]v días""

msgctxt ""naturaltime-future""
msgid ""%[1]v hour""
msgid_plural ""%[1]v hours""
msgstr[0] ""%[1]v hora""
msgstr[1] ""%[1]v horas""

msgctxt ""naturaltime-future""
msgid ""%[1]v minute""
msgid_plural ""%[1]v minutes""
msgstr[0] ""%[1]v minuto""
msgstr[1] ""%[1]v minutos""

msgctxt ""naturaltime-future""
msgid ""%[1]v month""
msgid_plural ""%[1]v months""
msgstr[0] ""%[1]v mes""
msgstr[1] ""%[1]v meses""

msgctxt ""naturaltime-future""
msgid ""%[1]v week""
msgid_plural ""%[1]v weeks""
msgstr[0] ""%[1]v semana""
msgstr[1] ""%[1]v semanas""

msgctxt ""naturaltime-future""
msgid ""%[1]v year""
msgid_plural ""%[1]v years""
msgstr[0] ""%[1]v ano""
msgstr[1] ""%[1]v anos""

msgctxt ""naturaltime-past""
msgid ""%[1]v day""
msgid_plural ""%[1]v days""
msgstr[0] ""%[1]v día""
msgstr[1] ""%[1]v días""

msgctxt ""naturaltime-past""
msgid ""%[1]v hour""
msgid_plural ""%[1]v hours""
msgstr[0] ""%[1]v hora""
msgstr[1] ""%[1]v horas""

msgctxt ""naturaltime-past""
msgid ""%[1]v minute""
msgid_plural ""%[1]v minutes""
msgstr[0] ""%[1]v minuto""
msgstr[1] ""%[1]v minutos""

msgctxt ""naturaltime-past""
msgid ""%[1]v month""
msgid_plural ""%[1]v months""
msgstr[0] ""%[1]v mes""
msgstr[1] ""%[1]v meses""

msgctxt ""naturaltime-past""
msgid ""%[1]v week""
msgid_plural ""%[1]v weeks""
msgstr[0] ""%[1]v semana""
msgstr[1] ""%[1]v semanas""

msgctxt ""naturaltime-past""
msgid ""%[1]v year""
msgid_plural ""%[1]v years""
msgstr[0] ""%[1]v ano""
msgstr[1] ""%[1]v anos""

msgctxt ""ordinal 0""
msgid ""%vth""
msgstr ""%vº""

msgctxt ""ordinal 1""
msgid ""%vst""
msgstr ""%vº""

msgctxt ""ordinal 11, 12, 13""
msgid ""%vth""
msgstr ""%vº""

msgctxt ""ordinal 2""
msgid ""%vnd""
msgstr ""%vº""

msgctxt ""ordinal 3""
msgid ""%vrd""
msgstr ""%vº""

msgctxt ""ordinal 4""
msgid ""%vth""
msgstr ""%vº""

msgctxt ""ordinal 5""
msgid ""%vth""
msgstr ""%vº""

msgctxt ""ordinal 6""
msgid ""%vth""
msgstr ""%vº""

msgctxt ""ordinal 7""
msgid ""%vth""
msgstr ""%vº""

msgctxt ""ordinal 8""
msgid ""%vth""
msgstr ""%vº""

msgctxt ""ordinal 9""
msgid ""%vth""
msgstr ""%vº""
".
(** humanize/locale/gl/locale.go (New) *)
Definition loc_gl : locale_data := LD (bs "gl") [(bs "django.po", po_gl)]
  (Some (FD (bs "j \d\e F \d\e Y") (bs "H:i") (bs "j \d\e F \d\e Y \á\s H:i") (bs "F \d\e Y") (bs "j \d\e F") (bs "d-m-Y") (bs "d-m-Y, H:i"))).

(** humanize/locale/he/django.po *)
Definition po_he : bytes := bs "# This file is distributed under the same license as the Django package.
# 
# Translators:
# 534b44a19bf18d20b71ecc4eb77c572f_db336e9 <f8268c65f822ec11a3a2e5d482cd7ead_175>, 2011-2012
# Jannis Leidel <jannis@leidel.info>, 2011
# Meir Kriheli <mkriheli@gmail.com>, 2011-2015,2017,2019-2020,2023,2025
# Menachem G., 2021
# Menachem G., 2021
# אורי רודברג <uri@speedy.net>, 2021
# Yaron Shahrabani <sh.yaron@gmail.com>, 2021
# אורי רודברג <uri@speedy.net>, 2020,2022-2023
msgid """"
msgstr """"
""Project-Id-Version: django\n""
""Report-Msgid-Bugs-To: \n""
""POT-Creation-Date: 2025-03-19 11:30-0500\n""
""PO-Revision-Date: 2025-04-01 15:04-0500\n""
""Last-Translator: Meir Kriheli <mkriheli@gmail.com>, 2011-2015,2017,2019-2020,2023,2025\n""
""Language-Team: Hebrew (http://app.transifex.com/django/django/language/he/)\n""
""Language: he\n""
""MIME-Version: 1.0\n""
""Content-Type: text/plain; charset=UTF-8\n""
""Content-Transfer-Encoding: 8bit\n""
""Plural-Forms: nplurals=4; plural=(n == 1 && n % 1 == 0) ? 0 : (n == 2 && n % 1 == 0) ? 1: (n % 10 == 0 && n % 1 == 0 && n > 10) ? 2 : 3;\n""

msgid ""%[1]d byte""
msgid_plural ""%[1]d bytes""
msgstr[0] ""בית %[1]d ""
msgstr[1] ""%[1]d בתים""
msgstr[2] ""%[1]d בתים""

msgid ""%[1]s billion""
msgid_plural ""%[1]s billion""
msgstr[0] ""מיליארד""
msgstr[1] ""%[1]s מיליארד""
msgstr[2] ""%[1]s מיליארד""
msgstr[3] ""%[1]s מיליארד""

msgid ""%[1]s decillion""
msgid_plural ""%[1]s decillion""
msgstr[0] ""דציליון""
msgstr[1] ""%[1]s דציליון""
msgstr[2] ""%[1]s דציליון""
msgstr[3] ""%[1]s דציליון""

msgid ""%[1]s googol""
msgid_plural ""%[1]s googol""
msgstr[0] ""גוגול""
msgstr[1] ""%[1]s גוגול""
msgstr[2] ""%[1]s גוגול""
msgstr[3] ""%[1]s גוגול""

msgid ""%[1]s million""
msgid_plural ""%[1]s million""
msgstr[0] ""מיליון""
msgstr[1] ""%[1]s מיליון""
msgstr[2] ""%[1]s מיליון""
msgstr[3] ""%[1]s מיליון""

msgid ""%[1]s nonillion""
msgid_plural ""%[1]s nonillion""
msgstr[0] ""נוניליון""
msgstr[1] ""%[1]s נוניליון""
msgstr[2] ""%[1]s נוניליון""
msgstr[3] ""%[1]s נוניליון""

msgid ""%[1]s octillion""
msgid_plural ""%[1]s octillion""
msgstr[0] ""אוקטיליון""
msgstr[1] ""%[1]s אוקטיליון""
msgstr[2] ""%[1]s אוקטיליון""
msgstr[3] ""%[1]s אוקטיליון""

msgid ""%[1]s quadrillion""
msgid_plural ""%[1]s quadrillion""
msgstr[0] ""קוודריליון""
msgstr[1] ""%[1]s קוודריליון""
msgstr[2] ""%[1]s קוודריליון""
msgstr[3] ""%[1]s קוודריליון""

msgid ""%[1]s quintillion""
msgid_plural ""%[1]s quintillion""
msgstr[0] ""קווינטיליון""
msgstr[1] ""%[1]s קווינטיליון""
msgstr[2] ""%[1]s קווינטיליון""
msgstr[3] ""%[1]s קווינטיליון""

msgid ""%[1]s septillion""
msgid_plural ""%[1]s septillion""
msgstr[0] ""ספטיליון""
msgstr[1] ""%[1]s ספטיליון""
msgstr[2] ""%[1]s ספטיליון""
msgstr[3] ""%[1]s ספטיליון""

msgid ""%[1]s sextillion""
msgid_plural ""%[1]s sextillion""
msgstr[0] ""סקסטיליון""
msgstr[1] ""%[1]s סקסטיליון""
msgstr[2] ""%[1]s סקסטיליון""
msgstr[3] ""%[1]s סקסטיליון""

msgid ""%[1]s trillion""
msgid_plural ""%[1]s trillion""
msgstr[0] ""טריליון""
msgstr[1] ""%[1]s טריליון""
msgstr[2] ""%[1]s טריליון""
msgstr[3] ""%[1]s טריליון""

msgid ""%[1]v ago""
msgstr ""לפני %[1]v""

msgid ""%[1]v day""
msgid_plural ""%[1]v days""
msgstr[0] ""יום""
msgstr[1] ""יומיים""
msgstr[2] ""%[1]v ימים""

msgid ""%[1]v from now""
msgstr ""בעוד %[1]v""

msgid ""%[1]v hour""
msgid_plural ""%[1]v hours""
msgstr[0] ""שעה""
msgstr[1] ""שעתיים""
msgstr[2] ""%[1]v שעות""

msgid ""%[1]v minute""
msgid_plural ""%[1]v minutes""
msgstr[0] ""דקה""
msgstr[1] ""%[1]v דקות""
msgstr[2] ""%[1]v דקות""

msgid ""%[1]v month""
msgid_plural ""%[1]v months""
msgstr[0] ""חודש""
msgstr[1] ""חודשיים""
msgstr[2] ""%[1]v חודשים""

msgid ""%[1]v week""
msgid_plural ""%[1]v weeks""
msgstr[0] ""שבוע""
msgstr[1] ""שבועיים""
msgstr[2] ""%[1]v שבועות""

msgid ""%[1]v year""
msgid_plural ""%[1]v years""
msgstr[0] ""שנה""
msgstr[1] ""שנתיים""
msgstr[2] ""%[1]v שנים""

msgid ""%s GB""
msgstr ""%s ג\""ב""

msgid ""%s KB""
msgstr ""%s ק\""ב""

msgid ""%s MB""
msgstr ""%s מ\""ב""

msgid ""%s PB""
msgstr ""%s פ\""ב""

msgid ""%s TB""
msgstr ""%s ט\""ב""

msgid "", ""
msgstr "", ""

msgid ""AM""
msgstr ""בבוקר""

msgid ""Afrikaans""
msgstr ""אפריקאנס""

msgid ""Albanian""
msgstr ""אלבנית""

msgid ""Algerian Arabic""
msgstr ""ערבית אלג'ירית""

msgid ""April""
msgstr ""אפריל""

msgid ""Arabic""
msgstr ""ערבית""

msgid ""Argentinian Spanish""
msgstr ""ספרדית ארגנטינית""

msgid ""Armenian""
msgstr ""ארמנית""

msgid ""Asturian""
msgstr ""אסטורית""

msgid ""August""
msgstr ""אוגוסט""

msgid ""Australian English""
msgstr ""אנגלית אוסטרלית""

msgid ""Azerbaijani""
msgstr ""אזרית""

msgid ""Basque""
msgstr ""בסקית""

msgid ""Belarusian""
msgstr ""בֶּלָרוּסִית""

msgid ""Bengali""
msgstr ""בנגאלית""

msgid ""Bosnian""
msgstr ""בוסנית""

msgid ""Brazilian Portuguese""
msgstr ""פורטוגזית ברזילאית""

msgid ""Breton""
msgstr ""בְּרֶטוֹנִית""

msgid ""British English""
msgstr ""אנגלית בריטית""

msgid ""Bulgarian""
msgstr ""בולגרית""

msgid ""Burmese""
msgstr ""בּוּרְמֶזִית""

msgid ""Catalan""
msgstr ""קאטלונית""

msgid ""Central Kurdish (Sorani)""
msgstr ""כורדית מרכזית (סוראני)""

msgid ""Colombian Spanish""
msgstr ""ספרדית קולומביאנית""

msgid ""Croatian""
msgstr ""קרואטית""

msgid ""Czech""
msgstr ""צ'כית""

msgid ""Danish""
msgstr ""דנית""

msgid ""December""
msgstr ""דצמבר""

msgid ""Dutch""
msgstr ""הולנדית""

msgid ""English""
msgstr ""אנגלית""

msgid ""Esperanto""
msgstr ""אספרנטו""

msgid ""Estonian""
msgstr ""אסטונית""

msgid ""February""
msgstr ""פברואר""

msgid ""Finnish""
msgstr ""פינית""

msgid ""French""
msgstr ""צרפתית""

msgid ""Fri""
msgstr ""שישי""

msgid ""Friday""
msgstr ""שישי""

msgid ""Frisian""
msgstr ""פריזית""

msgid ""Galician""
msgstr ""גאליציאנית""

msgid ""Georgian""
msgstr ""גיאורגית""

msgid ""German""
msgstr ""גרמנית""

msgid ""Greek""
msgstr ""יוונית""

msgid ""Hebrew""
msgstr ""עברית""

msgid ""Hindi""
msgstr ""הינדי""

msgid ""Hungarian""
msgstr ""הונגרית""

msgid ""Icelandic""
msgstr ""איסלנדית""

msgid ""Ido""
msgstr ""אידו""

msgid ""Igbo""
msgstr ""איגבו""

msgid ""Indonesian""
msgstr ""אינדונזית""

msgid ""Interlingua""
msgstr ""אינטרלינגואה""

msgid ""Irish""
msgstr ""אירית""

msgid ""Italian""
msgstr ""איטלקית""

msgid ""January""
msgstr ""ינואר""

msgid ""Japanese""
msgstr ""יפנית""

msgid ""July""
msgstr ""יולי""

msgid ""June""
msgstr ""יוני""

msgid ""Kabyle""
msgstr ""קבילה""

msgid ""Kannada""
msgstr ""קאנאדה""

msgid ""Kazakh""
msgstr ""קזחית""

msgid ""Khmer""
msgstr ""חמר""

msgid ""Korean""
msgstr ""קוריאנית""

msgid ""Kyrgyz""
msgstr ""קירגיזית""

msgid ""Latvian""
msgstr ""לטבית""

msgid ""Lithuanian""
msgstr ""ליטאית""

msgid ""Lower Sorbian""
msgstr ""סורבית תחתונה""

msgid ""Luxembourgish""
msgstr ""לוקסמבורגית""

msgid ""Macedonian""
msgstr ""מקדונית""

msgid ""Malay""
msgstr ""מלאית""

msgid ""Malayalam""
msgstr ""מלאיאלאם""

msgid ""Marathi""
msgstr ""מראטהי""

msgid ""March""
msgstr ""מרץ""

msgid ""May""
msgstr ""מאי""

msgid ""Mexican Spanish""
msgstr ""ספרדית מקסיקנית""

msgid ""Mon""
msgstr ""שני""

msgid ""Monday""
msgstr ""שני""

msgid ""Mongolian""
msgstr ""מונגולי""

msgid ""Nepali""
msgstr ""נפאלית""

msgid ""Nicaraguan Spanish""
msgstr ""ספרדית ניקרגואה""

msgid ""Norwegian Bokmål""
msgstr ""נורבגית ספרותית""

msgid ""Norwegian Nynorsk""
msgstr ""נורבגית חדשה""

msgid ""November""
msgstr ""נובמבר""

msgid ""October""
msgstr ""אוקטובר""

msgid ""Ossetic""
msgstr ""אוסטית""

msgid ""PM""
msgstr ""אחר הצהריים""

msgid ""Persian""
msgstr ""פרסית""

msgid ""Polish""
msgstr ""פולנית""

msgid ""Portuguese""
msgstr ""פורטוגזית""

msgid ""Punjabi""
msgstr ""פנג'אבי""

msgid ""Romanian""
msgstr ""רומנית""

msgid ""Russian""
msgstr ""רוסית""

msgid ""Sat""
msgstr ""שבת""

msgid ""Saturday""
msgstr ""שבת""

msgid ""Scottish Gaelic""
msgstr ""גאלית סקוטית""

msgid ""September""
msgstr ""ספטמבר""

msgid ""Serbian""
msgstr ""סרבית""

msgid ""Serbian Latin""
msgstr ""סרבית לטינית""

msgid ""Simplified Chinese""
msgstr ""סינית פשוטה""

msgid ""Slovak""
msgstr ""סלובקית""

msgid ""Slovenian""
msgstr ""סלובנית""

msgid ""Spanish""
msgstr ""ספרדית""

msgid ""Sun""
msgstr ""ראשון""

msgid ""Sunday""
msgstr ""ראשון""

msgid ""Swahili""
msgstr ""סווהילי""

msgid ""Swedish""
msgstr ""שוודית""

msgid ""Tajik""
msgstr ""טג'יקית""

msgid ""Tamil""
msgstr ""טמילית""

msgid ""Tatar""
msgstr ""טטרית""

msgid ""Telugu""
msgstr ""טלגו""

msgid ""Thai""
msgstr ""תאילנדית""

msgid ""Thu""
msgstr ""חמישי""

msgid ""Thursday""
msgstr ""חמישי""

msgid ""Traditional Chinese""
msgstr ""סינית מסורתית""

msgid ""Tue""
msgstr ""שלישי""

msgid ""Tuesday""
msgstr ""שלישי""

msgid ""Turkish""
msgstr ""טורקית""

msgid ""Turkmen""
msgstr ""טורקמנית""

msgid ""Udmurt""
msgstr ""אודמורטית""

msgid ""Ukrainian""
msgstr ""אוקראינית""

msgid ""Upper Sorbian""
msgstr ""סורבית עילית""

msgid ""Urdu""
msgstr ""אורדו""

msgid ""Uyghur""
msgstr ""אויגורית""

msgid ""Uzbek""
msgstr ""אוזבקית""

msgid ""Venezuelan Spanish""
msgstr ""ספרדית ונצואלית""

msgid ""Vietnamese""
msgstr ""וייטנאמית""

msgid ""Wed""
msgstr ""רביעי""

msgid ""Wednesday""
msgstr ""רביעי""

msgid ""Welsh""
msgstr ""וולשית""

msgid ""a minute ago""
msgid_plural ""%[1]v minutes ago""
msgstr[0] ""לפני דקה""
msgstr[1] ""לפני %[1]v דקות""
msgstr[2] ""לפני %[1]v דקות""
msgstr[3] ""לפני %[1]v דקות""

msgid ""a minute from now""
msgid_plural ""%[1]v minutes from now""
msgstr[0] ""בעוד דקה""
msgstr[1] ""בעוד %[1]v דקות""
msgstr[2] ""בעוד %[1]v דקות""
msgstr[3] ""בעוד %[1]v דקות""

msgid ""a second ago""
msgid_plural ""%[1]v seconds ago""
msgstr[0] ""לפני שנייה""
msgstr[1] ""לפני %[1]v שניות""
msgstr[2] ""לפני %[1]v שניות""
msgstr[3] ""לפני %[1]v שניות""

msgid ""a second from now""
msgid_plural ""%[1]v seconds from now""
msgstr[0] ""בעוד שנייה""
msgstr[1] ""בעוד %[1]v שניות""
msgstr[2] ""בעוד %[1]v שניות""
msgstr[3] ""בעוד %[1]v שניות""

msgid ""a.m.""
msgstr ""בבוקר""

msgid ""an hour ago""
msgid_plural ""%[1]v hours ago""
msgstr[0] ""לפני שעה""
msgstr[1] ""לפני שעתיים""
msgstr[2] ""לפני %[1]v שעות""
msgstr[3] ""לפני %[1]v שעות""

msgid ""an hour from now""
msgid_plural ""%[1]v hours from now""
msgstr[0] ""בעוד שעה""
msgstr[1] ""בעוד שעתיים""
msgstr[2] ""בעוד %[1]v שעות""
msgstr[3] ""בעוד %[1]v שעות""

msgid ""apr""
msgstr ""אפר""

msgid ""aug""
msgstr ""אוג""

msgid ""dec""
msgstr ""דצמ""

msgid ""eight""
msgstr ""שמונה""

msgid ""feb""
msgstr ""פבר""

msgid ""five""
msgstr ""חמישה""

msgid ""four""
msgstr ""ארבעה""

msgid ""jan""
msgstr ""ינו""

msgid ""jul""
msgstr ""יול""

msgid ""jun""
msgstr ""יונ""

msgid ""mar""
msgstr ""מרץ""

msgid ""may""
msgstr ""מאי""

msgid ""midnight""
msgstr ""חצות""

msgid ""nine""
msgstr ""תשעה""

msgid ""noon""
msgstr ""12 בצהריים""

msgid ""nov""
msgstr ""נוב""

msgid ""now""
msgstr ""עכשיו""

msgid ""oct""
msgstr ""אוק""

msgid ""one""
msgstr ""אחד""

msgid ""p.m.""
msgstr ""אחר הצהריים""

msgid ""sep""
msgstr ""ספט""

msgid ""seven""
msgstr ""שבעה""

msgid ""six""
msgstr ""שישה""

msgid ""three""
msgstr ""שלושה""

msgid ""today""
msgstr ""היום""

msgid ""tomorrow""
msgstr ""מחר""

msgid ""two""
msgstr ""שניים""

msgid ""yesterday""
msgstr ""אתמול""

msgctxt ""abbrev. month""
msgid ""April""
msgstr ""אפריל""

msgctxt ""abbrev. month""
msgid ""Aug.""
msgstr ""אוג'""

msgctxt ""abbrev. month""
msgid ""Dec.""
msgstr ""דצמ'""

msgctxt ""abbrev. month""
msgid ""Feb.""
msgstr ""פבר'""

msgctxt ""abbrev. month""
msgid ""Jan.""
msgstr ""יאנ'""

msgctxt ""abbrev. month""
msgid ""July""
msgstr ""יולי""

msgctxt ""abbrev. month""
msgid ""June""
msgstr ""יוני""

msgctxt ""abbrev. month""
msgid ""March""
msgstr ""מרץ""

msgctxt ""abbrev. month""
msgid ""May""
msgstr ""מאי""

msgctxt ""abbrev. month""
msgid ""Nov.""
msgstr ""נוב'""

msgctxt ""abbrev. month""
msgid ""Oct.""
msgstr ""אוק'""

msgctxt ""abbrev. month""
msgid ""Sept.""
msgstr ""ספט'""

msgctxt ""alt. month""
msgid ""April""
msgstr ""אפריל""

msgctxt ""alt. month""
msgid ""August""
msgstr ""אוגוסט""

msgctxt ""alt. month""
msgid ""December""
msgstr ""דצמבר""

msgctxt ""alt. month""
msgid ""February""
msgstr ""פברואר""

msgctxt ""alt. month""
msgid ""January""
msgstr ""ינואר""

msgctxt ""alt. month""
msgid ""July""
msgstr ""יולי""

msgctxt ""alt. month""
msgid ""June""
msgstr ""יוני""

msgctxt ""alt. month""
msgid ""March""
msgstr ""מרץ""

msgctxt ""alt. month""
msgid ""May""
msgstr ""מאי""

msgctxt ""alt. month""
msgid ""November""
msgstr ""נובמבר""

msgctxt ""alt. month""
msgid ""October""
msgstr ""אוקטובר""

msgctxt ""alt. month""
msgid ""September""
msgstr ""ספטמבר""

msgctxt ""naturaltime-future""
msgid ""%[1]v day""
msgid_plural ""%[1]v days""
msgstr[0] ""יום""
msgstr[1] ""יומיים""
msgstr[2] ""%[1]v ימים""
msgstr[3] ""%[1]v ימים""

msgctxt ""naturaltime-future""
msgid ""%[1]v hour""
msgid_plural ""%[1]v hours""
msgstr[0] ""שעה""
msgstr[1] ""שעתיים""
msgstr[2] ""%[1]v שעות""
msgstr[3] ""%[1]v שעות""

msgctxt ""naturaltime-future""
msgid ""%[1]v minute""
msgid_plural ""%[1]v minutes""
msgstr[0] ""דקה""
msgstr[1] ""%[1]v דקות""
msgstr[2] ""%[1]v דקות""
msgstr[3] ""%[1]v דקות""

msgctxt ""naturaltime-future""
msgid ""%[1]v month""
msgid_plural ""%[1]v months""
msgstr[0] ""חודש""
msgstr[1] ""חודשיים""
msgstr[2] ""%[1]v חודשים""
msgstr[3] ""%[1]v חודשים""

msgctxt ""naturaltime-future""
msgid ""%[1]v week""
msgid_plural ""%[1]v weeks""
msgstr[0] ""שבוע""
msgstr[1] ""שבועיים""
msgstr[2] ""%[1]v שבועות""
msgstr[3] ""%[1]v שבועות""

msgctxt ""naturaltime-future""
msgid ""%[1]v year""
msgid_plural ""%[1]v years""
msgstr[0] ""שנה""
msgstr[1] ""שנתיים""
msgstr[2] ""%[1]v שנים""
msgstr[3] ""%[1]v שנים""

msgctxt ""naturaltime-past""
msgid ""%[1]v day""
msgid_plural ""%[1]v days""
msgstr[0] ""יום""
msgstr[1] ""יומיים""
msgstr[2] ""%[1]v ימים""
msgstr[3] ""%[1]v ימים""

msgctxt ""naturaltime-past""
msgid ""%[1]v hour""
msgid_plural ""%[1]v hours""
msgstr[0] ""שעה""
msgstr[1] ""שעתיים""
msgstr[2] ""%[1]v שעות""
msgstr[3] ""%[1]v שעות""

msgctxt ""naturaltime-past""
msgid ""%[1]v minute""
msgid_plural ""%[1]v minutes""
msgstr[0] ""דקה""
msgstr[1] ""%[1]v דקות""
msgstr[2] ""%[1]v דקות""
msgstr[3] ""%[1]v דקות""

msgctxt ""naturaltime-past""
msgid ""%[1]v month""
msgid_plural ""%[1]v months""
msgstr[0] ""חודש""
msgstr[1] ""חודשיים""
msgstr[2] ""%[1]v חודשים""
msgstr[3] ""%[1]v חודשים""

msgctxt ""naturaltime-past""
msgid ""%[1]v week""
msgid_plural ""%[1]v weeks""
msgstr[0] ""שבוע""
msgstr[1] ""שבועיים""
msgstr[2] ""%[1]v שבועות""
msgstr[3] ""%[1]v שבועות""

msgctxt ""naturaltime-past""
msgid ""%[1]v year""
msgid_plural ""%[1]v years""
msgstr[0] ""שנה""
msgstr[1] ""שנתיים""
msgstr[2] ""%[1]v שנים""
msgstr[3] ""%[1]v שנים""

msgctxt ""ordinal 0""
msgid ""%vth""
msgstr ""ה־%v""

msgctxt ""ordinal 1""
msgid ""%vst""
msgstr ""ה־%v""

msgctxt ""ordinal 11, 12, 13""
msgid ""%vth""
msgstr ""ה־%v""

msgctxt ""ordinal 2""
msgid ""%vnd""
msgstr ""ה־%v""

msgctxt ""ordinal 3""
msgid ""%vrd""
msgstr ""ה־%v""

msgctxt ""ordinal 4""
msgid ""%vth""
msgstr ""ה־%v""

msgctxt ""ordinal 5""
msgid ""%vth""
msgstr ""ה־%v""

msgctxt ""ordinal 6""
msgid ""%vth""
msgstr ""ה־%v""

msgctxt ""ordinal 7""
msgid ""%vth""
msgstr ""ה־%v""

msgctxt ""ordinal 8""
msgid ""%vth""
msgstr ""ה־%v""

msgctxt ""ordinal 9""
msgid ""%vth""
msgstr ""ה־%v""
".
(** humanize/locale/he/locale.go (New) *)
Definition loc_he : locale_data := LD (bs "he") [(bs "django.po", po_he)]
  (Some (FD (bs "j בF Y") (bs "H:i") (bs "j בF Y H:i") (bs "F Y") (bs "j בF") (bs "d/m/Y") (bs "d/m/Y H:i"))).

(** humanize/locale/hi/django.po *)
Definition po_hi : bytes := bs "# This file is distributed under the same license as the Django package.
# 
# Translators:
# alkuma <alok.kumar@gmail.com>, 2013
# Bharat Toge, 2022
# Chandan kumar <chandankumar.093047@gmail.com>, 2012
# Claude Paroz <claude@2xlibre.net>, 2020
# Jannis Leidel <jannis@leidel.info>, 2011
# Pratik <kpratik217@gmail.com>, 2013
msgid """"
msgstr """"
""Project-Id-Version: django\n""
""Report-Msgid-Bugs-To: \n""
""POT-Creation-Date: 2022-05-17 05:23-0500\n""
""PO-Revision-Date: 2022-07-25 06:49+0000\n""
""Last-Translator: Bharat Toge\n""
""Language-Team: Hindi (http://www.transifex.com/django/django/language/hi/)\n""
""Language: hi\n""
""MIME-Version: 1.0\n""
""Content-Type: text/plain; charset=UTF-8\n""
""Content-Transfer-Encoding: 8bit\n""
""Plural-Forms: nplurals=2; plural=(n != 1);\n""

msgid ""%[1]d byte""
msgid_plural ""%[1]d bytes""
msgstr[0] ""%[1]d बाइट""
msgstr[1] ""%[1]d बाइट""

msgid ""%[1]s billion""
msgid_plural ""%[1]s billion""
msgstr[0] ""%[1]s बिलियन""
msgstr[1] ""%[1]s बिलियन""

msgid ""%[1]s decillion""
msgid_plural ""%[1]s decillion""
msgstr[0] ""%[1]s देसीलियन""
msgstr[1] ""%[1]s देसीलियन""

msgid ""%[1]s googol""
msgid_plural ""%[1]s googol""
msgstr[0] ""%[1]s गोगोल""
msgstr[1] ""%[1]s गोगोल""

msgid ""%[1]s million""
msgid_plural ""%[1]s million""
msgstr[0] ""%[1]s मिलियन""
msgstr[1] ""%[1]s मिलियन""

msgid ""%[1]s nonillion""
msgid_plural ""%[1]s nonillion""
msgstr[0] ""%[1]s नोनिलियन""
msgstr[1] ""%[1]s नोनिलियन""

msgid ""%[1]s octillion""
msgid_plural ""%[1]s octillion""
msgstr[0] ""%[1]s ओकतिलियन ""
msgstr[1] ""%[1]s ओकतिलियन ""

msgid ""%[1]s quadrillion""
msgid_plural ""%[1]s quadrillion""
msgstr[0] ""%[1]s करोड़ शंख""
msgstr[1] ""%[1]s करोड़ शंख""

msgid ""%[1]s quintillion""
msgid_plural ""%[1]s quintillion""
msgstr[0] ""%[1]s कुइनतिलिअन ""
msgstr[1] ""%[1]s कुइनतिलिअन ""

msgid ""%[1]s septillion""
msgid_plural ""%[1]s septillion""
msgstr[0] ""%[1]s सेपतिलियन ""
msgstr[1] ""%[1]s सेपतिलियन ""

msgid ""%[1]s sextillion""
msgid_plural ""%[1]s sextillion""
msgstr[0] ""%[1]s सेक्सतिलियन""
msgstr[1] ""%[1]s सेक्सतिलियन""

msgid ""%[1]s trillion""
msgid_plural ""%[1]s trillion""
msgstr[0] ""%[1]s खरब""
msgstr[1] ""%[1]s खरब""

msgid ""%[1]v day""
msgid_plural ""%[1]v days""
msgstr[0] """"
msgstr[1] """"

msgid ""%[1]v hour""
msgid_plural ""%[1]v hours""
msgstr[0] """"
msgstr[1] """"

msgid ""%[1]v minute""
msgid_plural ""%[1]v minutes""
msgstr[0] """"
msgstr[1] """"

msgid ""%[1]v month""
msgid_plural ""%[1]v months""
msgstr[0] """"
msgstr[1] """"

msgid ""%[1]v week""
msgid_plural ""%[1]v weeks""
msgstr[0] """"
msgstr[1] """"

msgid ""%[1]v year""
msgid_plural ""%[1]v years""
msgstr[0] """"
msgstr[1] """"

msgid ""%s GB""
msgstr ""%s जीबी ""

msgid ""%s KB""
msgstr ""%s केबी ""

msgid ""%s MB""
msgstr ""%s मेबी ""

msgid ""%s PB""
msgstr ""%s पीबी""

msgid ""%s TB""
msgstr ""%s टीबी""

msgid "", ""
msgstr "", ""

msgid ""AM""
msgstr ""बजे""

msgid ""Afrikaans""
msgstr ""अफ़्रीकांस""

msgid ""Albanian""
msgstr ""अल्बेनियन्""

msgid ""Algerian Arabic""
msgstr ""अल्जीरियाई अरब""

msgid ""April""
msgstr ""अप्रैल""

msgid ""Arabic""
msgstr ""अरबी""

msgid ""Argentinian Spanish""
msgstr ""अर्जेंटीना स्पैनिश ""

msgid ""Armenian""
msgstr """"

msgid ""Asturian""
msgstr """"

msgid ""August""
msgstr ""अगस्त""

msgid ""Australian English""
msgstr ""ऑस्ट्रेलियाई अंग्रेज़ी ""

msgid ""Azerbaijani""
msgstr ""आज़रबाइजानी""

msgid ""Basque""
msgstr ""बास्क""

msgid ""Belarusian""
msgstr ""बेलारूसी""

msgid ""Bengali""
msgstr ""बंगाली""

msgid ""Bosnian""
msgstr ""बोस्नियन""

msgid ""Brazilian Portuguese""
msgstr ""ब्रजिलियन पुर्तगाली""

msgid ""Breton""
msgstr ""ब्रेटन""

msgid ""British English""
msgstr ""ब्रिटिश अंग्रेजी""

msgid ""Bulgarian""
msgstr ""बलगारियन""

msgid ""Burmese""
msgstr ""बर्मीज़""

msgid ""Catalan""
msgstr ""कटलान""

msgid ""Colombian Spanish""
msgstr ""कोलंबियाई स्पेनी""

msgid ""Croatian""
msgstr ""क्रोयेशियन""

msgid ""Czech""
msgstr ""च्चेक""

msgid ""Danish""
msgstr ""दानिश""

msgid ""December""
msgstr ""दिसमबर""

msgid ""Dutch""
msgstr ""डच""

msgid ""English""
msgstr ""अंग्रेज़ी ""

msgid ""Esperanto""
msgstr ""एस्परेन्तो""

msgid ""Estonian""
msgstr ""एस्टोनियन""

msgid ""February""
msgstr ""फ़रवरी""

msgid ""Finnish""
msgstr ""फ़िन्निश""

msgid ""French""
msgstr ""फ्रेंच""

msgid ""Fri""
msgstr ""शुक्र""

msgid ""Friday""
msgstr ""शुक्रवार""

msgid ""Frisian""
msgstr ""फ्रिसियन""

msgid ""Galician""
msgstr ""गलिशियन""

msgid ""Georgian""
msgstr ""ज्योर्जियन""

msgid ""German""
msgstr ""जर्मन""

msgid ""Greek""
msgstr ""ग्रीक""

msgid ""Hebrew""
msgstr ""हि‍ब्रू""

msgid ""Hindi""
msgstr ""हिंदी""

msgid ""Hungarian""
msgstr ""हंगेरियन""

msgid ""Icelandic""
msgstr ""आयिस्लान्डिक""

msgid ""Ido""
msgstr """"

msgid ""Igbo""
msgstr """"

msgid ""Indonesian""
msgstr ""इन्डोनेशियन ""

msgid ""Interlingua""
msgstr ""इंतर्लिंगुआ""

msgid ""Irish""
msgstr ""आयरिश""

msgid ""Italian""
msgstr ""इटैलियन""

msgid ""January""
msgstr ""जनवरी""

msgid ""Japanese""
msgstr ""जपानी""

msgid ""July""
msgstr ""जुलाई""

msgid ""June""
msgstr ""जून""

msgid ""Kabyle""
msgstr """"

msgid ""Kannada""
msgstr ""कन्‍नड़""

msgid ""Kazakh""
msgstr ""कज़ाख""

msgid ""Khmer""
msgstr ""ख्मेर""

msgid ""Korean""
msgstr ""कोरियन""

msgid ""Kyrgyz""
msgstr """"

msgid ""Latvian""
msgstr ""लात्वियन""

msgid ""Lithuanian""
msgstr ""लिथुवेनियन""

msgid ""Lower Sorbian""
msgstr """"

msgid ""Luxembourgish""
msgstr ""लक्संबर्गी""

msgid ""Macedonian""
msgstr ""मेसिडोनियन""

msgid ""Malay""
msgstr ""मलय भाषा""

msgid ""Malayalam""
msgstr ""मलयालम""

msgid ""Marathi""
msgstr ""मराठी""

msgid ""March""
msgstr ""मार्च""

msgid ""May""
msgstr ""मई""

msgid ""Mexican Spanish""
msgstr ""मेक्सिकन स्पैनिश""

msgid ""Mon""
msgstr ""सोम""

msgid ""Monday""
msgstr ""सोम‌वार""

msgid ""Mongolian""
msgstr ""मंगोलियन""

msgid ""Nepali""
msgstr ""नेपाली""

msgid ""Nicaraguan Spanish""
msgstr ""निकारागुआ स्पैनिश""

msgid ""Norwegian Bokmål""
msgstr """"

msgid ""Norwegian Nynorsk""
msgstr ""नार्वेजियन नायनॉर्स्क""

msgid ""November""
msgstr ""नवमबर""

msgid ""October""
msgstr ""अक्टूबर""

msgid ""Ossetic""
msgstr ""ओस्सेटिक""

msgid ""PM""
msgstr ""बजे""

msgid ""Persian""
msgstr ""पारसी""

msgid ""Polish""
msgstr ""पोलिश""

msgid ""Portuguese""
msgstr ""पुर्तगाली""

msgid ""Punjabi""
msgstr ""पंजाबी""

msgid ""Romanian""
msgstr ""रोमानियन""

msgid ""Russian""
msgstr ""रूसी""

msgid ""Sat""
msgstr ""शनि""

msgid ""Saturday""
msgstr ""शनिवार""

msgid ""Scottish Gaelic""
msgstr """"

msgid ""September""
msgstr ""सितमबर""

msgid ""Serbian""
msgstr ""सर्बियन""

msgid ""Serbian Latin""
msgstr ""सर्बियाई लैटिन""

msgid ""Simplified Chinese""
msgstr ""सरल चीनी""

msgid ""Slovak""
msgstr ""स्लोवाक""

msgid ""Slovenian""
msgstr ""स्लोवेनियन""

msgid ""Spanish""
msgstr ""स्पानिश""

msgid ""Sun""
msgstr ""रवि""

msgid ""Sunday""
msgstr ""रविवार""

msgid ""Swahili""
msgstr ""स्वाहिली""

msgid ""Swedish""
msgstr ""स्वीडिश""

msgid ""Tajik""
msgstr """"

msgid ""Tamil""
msgstr ""तमिल""

msgid ""Tatar""
msgstr ""तातार""

msgid ""Telugu""
msgstr ""तेलुगु""

msgid ""Thai""
msgstr ""थाई""

msgid ""Thu""
msgstr ""गुरू""

msgid ""Thursday""
msgstr ""गुरूवार""

msgid ""Traditional Chinese""
msgstr ""पारम्परिक चीनी""

msgid ""Tue""
msgstr ""मंगल""

msgid ""Tuesday""
msgstr ""मंगलवार""

msgid ""Turkish""
msgstr ""तुर्किश""

msgid ""Turkmen""
msgstr """"

msgid ""Udmurt""
msgstr ""उद्मर्त""

msgid ""Ukrainian""
msgstr ""यूक्रानियन""

msgid ""Upper Sorbian""
msgstr """"

msgid ""Urdu""
msgstr ""उर्दू""

msgid ""Uzbek""
msgstr ""उज़्बेक""

msgid ""Venezuelan Spanish""
msgstr ""वेनेज़ुएलाई स्पेनिश""

msgid ""Vietnamese""
msgstr ""वियतनामी""

msgid ""Wed""
msgstr ""बुध""

msgid ""Wednesday""
msgstr ""बुधवार""

msgid ""Welsh""
msgstr ""वेल्श""

msgid ""a minute ago""
msgid_plural ""%[1]v minutes ago""
msgstr[0] """"
msgstr[1] """"

msgid ""a minute from now""
msgid_plural ""%[1]v minutes from now""
msgstr[0] """"
msgstr[1] """"

msgid ""a second ago""
msgid_plural ""%[1]v seconds ago""
msgstr[0] """"
msgstr[1] """"

msgid ""a second from now""
msgid_plural ""%[1]v seconds from now""
msgstr[0] """"
msgstr[1] """"

msgid ""a.m.""
msgstr ""बजे""

msgid ""an hour ago""
msgid_plural ""%[1]v hours ago""
msgstr[0] """"
msgstr[1] """"

msgid ""an hour from now""
msgid_plural ""%[1]v hours from now""
msgstr[0] """"
msgstr[1] """"

msgid ""apr""
msgstr ""अप्र""

msgid ""aug""
msgstr ""अग""

msgid ""dec""
msgstr ""दिस्""

msgid ""eight""
msgstr ""आठ""

msgid ""feb""
msgstr ""फ़र""

msgid ""five""
msgstr ""पाँच""

msgid ""four""
msgstr ""चार""

msgid ""jan""
msgstr ""जन""

msgid ""jul""
msgstr ""जुल""

msgid ""jun""
msgstr ""जून""

msgid ""mar""
msgstr ""मा""

msgid ""may""
msgstr ""मई""

msgid ""midnight""
msgstr ""मध्यरात्री""

msgid ""nine""
msgstr ""नौ""

msgid ""noon""
msgstr ""दोपहर""

msgid ""nov""
msgstr ""नव""

msgid ""now""
msgstr ""अभी""

msgid ""oct""
msgstr ""अक्ट""

msgid ""one""
msgstr ""एक""

msgid ""p.m.""
msgstr ""बजे""

msgid ""sep""
msgstr ""सित""

msgid ""seven""
msgstr ""सात""

msgid ""six""
msgstr ""छह""

msgid ""three""
msgstr ""तीन""

msgid ""today""
msgstr ""आज""

msgid ""tomorrow""
msgstr ""कल""

msgid ""two""
msgstr ""दो""

msgid ""yesterday""
msgstr ""कल (बीता)""

msgctxt ""abbrev. month""
msgid ""April""
msgstr ""अप्रैल""

msgctxt ""abbrev. month""
msgid ""Aug.""
msgstr ""अग.""

msgctxt ""abbrev. month""
msgid ""Dec.""
msgstr ""दिसम्बर""

msgctxt ""abbrev. month""
msgid ""Feb.""
msgstr ""फ़रवरी.""

msgctxt ""abbrev. month""
msgid ""Jan.""
msgstr ""जनवरी.""

msgctxt ""abbrev. month""
msgid ""July""
msgstr ""जुलाई""

msgctxt ""abbrev. month""
msgid ""June""
msgstr ""जून""

msgctxt ""abbrev. month""
msgid ""March""
msgstr ""मार्च""

msgctxt ""abbrev. month""
msgid ""May""
msgstr ""मई""

msgctxt ""abbrev. month""
msgid ""Nov.""
msgstr ""नवम्बर.""

msgctxt ""abbrev. month""
msgid ""Oct.""
msgstr ""अक्टूबर""

msgctxt ""abbrev. month""
msgid ""Sept.""
msgstr ""सितम्बर.""

msgctxt ""alt. month""
msgid ""April""
msgstr ""अप्रैल""

msgctxt ""alt. month""
msgid ""August""
msgstr ""अगस्त""

msgctxt ""alt. month""
msgid ""December""
msgstr ""दिसंबर""

msgctxt ""alt. month""
msgid ""February""
msgstr ""फरवरी""

msgctxt ""alt. month""
msgid ""January""
msgstr ""जनवरी""

msgctxt ""alt. month""
msgid ""July""
msgstr ""जुलाई""

msgctxt ""alt. month""
msgid ""June""
msgstr ""जून""

msgctxt ""alt. month""
msgid ""March""
msgstr ""मार्च""

msgctxt ""alt. month""
msgid ""May""
msgstr ""मई""

msgctxt ""alt. month""
msgid ""November""
msgstr ""नवंबर""

msgctxt ""alt. month""
msgid ""October""
msgstr ""अक्टूबर""

msgctxt ""alt. month""
msgid ""September""
msgstr ""सितंबर""
".
(** humanize/locale/hi/locale.go (New) *)
Definition loc_hi : locale_data := LD (bs "hi") [(bs "django.po", po_hi)]
  (Some (FD (bs "j F Y") (bs "g:i A") (bs "") (bs "") (bs "j F") (bs "d-m-Y") (bs ""))).

(** humanize/locale/hr/django.po *)
Definition po_hr : bytes := bs "# This file is distributed under the same license as the Django package.
# 
# Translators:
# aljosa <aljosa.mohorovic@gmail.com>, 2011,2013
# Berislav Lopac <berislav.lopac@gmail.com>, 2013
# Bojan Mihelač <bmihelac@mihelac.org>, 2012
# Boni Đukić <boni@djukic.com.hr>, 2017
# Jannis Leidel <jannis@leidel.info>, 2011
# Mislav Cimperšak <mislav.cimpersak@gmail.com>, 2015-2016
# Nino <ninonandroid@gmail.com>, 2013
# senko <senko.rasic@dobarkod.hr>, 2012
# Ylodi <stjepan@gmail.com>, 2011
# zmasek <zlatko.masek@gmail.com>, 2012
msgid """"
msgstr """"
""Project-Id-Version: django\n""
""Report-Msgid-Bugs-To: \n""
""POT-Creation-Date: 2019-09-27 22:40+0200\n""
""PO-Revision-Date: 2019-11-05 00:38+0000\n""
""Last-Translator: Ramiro Morales\n""
""Language-Team: Croatian (http://www.transifex.com/django/django/language/hr/)\n""
""Language: hr\n""
""MIME-Version: 1.0\n""
""Content-Type: text/plain; charset=UTF-8\n""
""Content-Transfer-Encoding: 8bit\n""
""Plural-Forms: nplurals=3; plural=n%10==1 && n%100!=11 ? 0 : n%10>=2 && n%10<=4 && (n%100<10 || n%100>=20) ? 1 : 2;\n""

msgid ""%[1]d byte""
msgid_plural ""%[1]d bytes""
msgstr[0] ""%[1]d byte""
msgstr[1] ""%[1]d byte-a""
msgstr[2] ""%[1]d byte-a""

msgid ""%[1]s billion""
msgid_plural ""%[1]s billion""
msgstr[0] """"
msgstr[1] """"
msgstr[2] """"

msgid ""%[1]s decillion""
msgid_plural ""%[1]s decillion""
msgstr[0] """"
msgstr[1] """"
msgstr[2] """"

msgid ""%[1]s googol""
msgid_plural ""%[1]s googol""
msgstr[0] """"
msgstr[1] """"
msgstr[2] """"

msgid ""%[1]s million""
msgid_plural ""%[1]s million""
msgstr[0] """"
msgstr[1] """"
msgstr[2] """"

msgid ""%[1]s nonillion""
msgid_plural ""%[1]s nonillion""
msgstr[0] """"
msgstr[1] """"
msgstr[2] """"

msgid ""%[1]s octillion""
msgid_plural ""%[1]s octillion""
msgstr[0] """"
msgstr[1] """"
msgstr[2] """"

msgid ""%[1]s quadrillion""
msgid_plural ""%[1]s quadrillion""
msgstr[0] """"
msgstr[1] """"
msgstr[2] """"

msgid ""%[1]s quintillion""
msgid_plural ""%[1]s quintillion""
msgstr[0] """"
msgstr[1] """"
msgstr[2] """"

msgid ""%[1]s septillion""
msgid_plural ""%[1]s septillion""
msgstr[0] """"
msgstr[1] """"
msgstr[2] """"

msgid ""%[1]s sextillion""
msgid_plural ""%[1]s sextillion""
msgstr[0] """"
msgstr[1] """"
msgstr[2] """"

msgid ""%[1]s trillion""
msgid_plural ""%[1]s trillion""
msgstr[0] """"
msgstr[1] """"
msgstr[2] """"

msgid ""%s GB""
msgstr ""%s GB""

msgid ""%s KB""
msgstr ""%s KB""

msgid ""%s MB""
msgstr ""%s MB""

msgid ""%s PB""
msgstr ""%s PB""

msgid ""%s TB""
msgstr ""%s TB""

msgid "", ""
msgstr "",""

msgid ""AM""
msgstr ""ujutro""

msgid ""Afrikaans""
msgstr ""Afrikaans""

msgid ""Albanian""
msgstr ""Albanski""

msgid ""April""
msgstr ""Travanj""

msgid ""Arabic""
msgstr ""Arapski""

msgid ""Argentinian Spanish""
msgstr ""Argentinski španjolski""

msgid ""Armenian""
msgstr """"

msgid ""Asturian""
msgstr ""Asturijski""

msgid ""August""
msgstr ""Kolovoz""

msgid ""Australian English""
msgstr ""Australski engleski""

msgid ""Azerbaijani""
msgstr ""Azarbejdžanac""

msgid ""Basque""
msgstr ""Baskijski""

msgid ""Belarusian""
msgstr ""Bjeloruski""

msgid ""Bengali""
msgstr ""Bengalski""

msgid ""Bosnian""
msgstr ""Bošnjački""

msgid ""Brazilian Portuguese""
msgstr ""Brazilski portugalski""

msgid ""Breton""
msgstr ""Bretonski""

msgid ""British English""
msgstr ""Britanski engleski""

msgid ""Bulgarian""
msgstr ""Unesite ispravnu IPv4 adresu.""

msgid ""Burmese""
msgstr ""Burmanski""

msgid ""Catalan""
msgstr ""Katalanski""

msgid ""Colombian Spanish""
msgstr ""Kolumbijski španjolski""

msgid ""Croatian""
msgstr ""Hrvatski""

msgid ""Czech""
msgstr ""Češki""

msgid ""Danish""
msgstr ""Danski""

msgid ""December""
msgstr ""Prosinac""

msgid ""Dutch""
msgstr ""Nizozemski""

msgid ""English""
msgstr ""Engleski""

msgid ""Esperanto""
msgstr ""Esperanto""

msgid ""Estonian""
msgstr ""Estonski""

msgid ""February""
msgstr ""Veljača""

msgid ""Finnish""
msgstr ""Finski""

msgid ""French""
msgstr ""Francuski""

msgid ""Fri""
msgstr ""Pet""

msgid ""Friday""
msgstr ""Petak""

msgid ""Frisian""
msgstr ""Frizijski""

msgid ""Galician""
msgstr ""Galičanski""

msgid ""Georgian""
msgstr ""Gruzijski""

msgid ""German""
msgstr ""Njemački""

msgid ""Greek""
msgstr ""Grčki""

msgid ""Hebrew""
msgstr ""Hebrejski""

msgid ""Hindi""
msgstr ""Hindi""

msgid ""Hungarian""
msgstr ""Mađarski""

msgid ""Icelandic""
msgstr ""Islandski""

msgid ""Ido""
msgstr ""Ido""

msgid ""Indonesian""
msgstr ""Indonezijski""

msgid ""Interlingua""
msgstr ""Interlingua""

msgid ""Irish""
msgstr ""Irski""

msgid ""Italian""
msgstr ""Talijanski""

msgid ""January""
msgstr ""Siječanj""

msgid ""Japanese""
msgstr ""Japanski""

msgid ""July""
msgstr ""Srpanj""

msgid ""June""
msgstr ""Lipanj""

msgid ""Kabyle""
msgstr """"

msgid ""Kannada""
msgstr ""Kannada""

msgid ""Kazakh""
msgstr ""Kazaški""

msgid ""Khmer""
msgstr ""Kambođanski""

msgid ""Korean""
msgstr ""Koreanski""

msgid ""Latvian""
msgstr ""Latvijski""

msgid ""Lithuanian""
msgstr ""Litvanski""

msgid ""Lower Sorbian""
msgstr ""Donjolužičkosrpski""

msgid ""Luxembourgish""
msgstr ""Luksemburški""

msgid ""Macedonian""
msgstr ""Makedonski""

msgid ""Malayalam""
msgstr ""Malayalam""

msgid ""Marathi""
msgstr ""Marathi""

msgid ""March""
msgstr ""Ožujak""

msgid ""May""
msgstr ""Svibanj""

msgid ""Mexican Spanish""
msgstr ""Meksički španjolski""

msgid ""Mon""
msgstr ""Pon""

msgid ""Monday""
msgstr ""Ponedjeljak""

msgid ""Mongolian""
msgstr ""Mongolski""

msgid ""Nepali""
msgstr ""Nepalski""

msgid ""Nicaraguan Spanish""
msgstr ""Nikaragvanski Španjolski""

msgid ""Norwegian Bokmål""
msgstr ""Bokmål""

msgid ""Norwegian Nynorsk""
msgstr ""Norveški Nynorsk""

msgid ""November""
msgstr ""Studeni""

msgid ""October""
msgstr ""Listopad""

msgid ""Ossetic""
msgstr ""Osetski""

msgid ""PM""
msgstr ""popodne""

msgid ""Persian""
msgstr ""Perzijski""

msgid ""Polish""
msgstr ""Poljski""

msgid ""Portuguese""
msgstr ""Portugalski""

msgid ""Punjabi""
msgstr ""Pendžabljanin""

msgid ""Romanian""
msgstr ""Rumunjski""

msgid ""Russian""
msgstr ""Ruski""

msgid ""Sat""
msgstr ""Sub""

msgid ""Saturday""
msgstr ""Subota""

msgid ""Scottish Gaelic""
msgstr ""Škotski gaelski""

msgid ""September""
msgstr ""Rujan""

msgid ""Serbian""
msgstr ""Srpski""

msgid ""Serbian Latin""
msgstr ""Latinski srpski""

msgid ""Simplified Chinese""
msgstr ""Pojednostavljeni kineski""

msgid ""Slovak""
msgstr ""Slovački""

msgid ""Slovenian""
msgstr ""Slovenski""

msgid ""Spanish""
msgstr ""Španjolski""

msgid ""Sun""
msgstr ""Ned""

msgid ""Sunday""
msgstr ""Nedjelja""

msgid ""Swahili""
msgstr ""Swahili""

msgid ""Swedish""
msgstr ""Švedski""

msgid ""Tamil""
msgstr ""Tamilski""

msgid ""Tatar""
msgstr ""Tatarski""

msgid ""Telugu""
msgstr ""Teluški""

msgid ""Thai""
msgstr ""Thai (tajlandski)""

msgid ""Thu""
msgstr ""Čet""

msgid ""Thursday""
msgstr ""Četvrtak""

msgid ""Traditional Chinese""
msgstr ""Tradicionalni kineski""

msgid ""Tue""
msgstr ""Uto""

msgid ""Tuesday""
msgstr ""Utorak""

msgid ""Turkish""
msgstr ""Turski""

msgid ""Udmurt""
msgstr ""Udmurtski""

msgid ""Ukrainian""
msgstr ""Ukrajinski""

msgid ""Upper Sorbian""
msgstr ""Gornjolužičkosrpski""

msgid ""Urdu""
msgstr ""Urdu""

msgid ""Uzbek""
msgstr """"

msgid ""Venezuelan Spanish""
msgstr ""Venezuelanski Španjolski""

msgid ""Vietnamese""
msgstr ""Vijetnamski""

msgid ""Wed""
msgstr ""Sri""

msgid ""Wednesday""
msgstr ""Srijeda""

msgid ""Welsh""
msgstr ""Velški""

msgid ""a minute ago""
msgid_plural ""%[1]v minutes ago""
msgstr[0] ""prije %[1]v minute""
msgstr[1] ""prije %[1]v minute""
msgstr[2] ""prije %[1]v minuta""

msgid ""a minute from now""
msgid_plural ""%[1]v minutes from now""
msgstr[0] """"
msgstr[1] """"
msgstr[2] """"

msgid ""a second ago""
msgid_plural ""%[1]v seconds ago""
msgstr[0] ""prije %[1]v sekunde""
msgstr[1] ""prije %[1]v sekundi""
msgstr[2] ""prije %[1]v sekundi""

msgid ""a second from now""
msgid_plural ""%[1]v seconds from now""
msgstr[0] """"
msgstr[1] """"
msgstr[2] """"

msgid ""a.m.""
msgstr ""ujutro""

msgid ""an hour ago""
msgid_plural ""%[1]v hours ago""
msgstr[0] """"
msgstr[1] """"
msgstr[2] """"

msgid ""an hour from now""
msgid_plural ""%[1]v hours from now""
msgstr[0] """"
msgstr[1] """"
msgstr[2] """"

msgid ""apr""
msgstr ""tra.""

msgid ""aug""
msgstr ""kol.""

msgid ""dec""
msgstr ""pro.""

msgid ""eight""
msgstr ""osam""

msgid ""feb""
msgstr ""velj.""

msgid ""five""
msgstr ""pet""

msgid ""four""
msgstr ""četiri""

msgid ""jan""
msgstr ""sij.""

msgid ""jul""
msgstr ""srp.""

msgid ""jun""
msgstr ""lip.""

msgid ""mar""
msgstr ""ožu.""

msgid ""may""
msgstr ""svi.""

msgid ""midnight""
msgstr ""ponoć""

msgid ""nine""
msgstr ""devet""

msgid ""noon""
msgstr ""podne""

msgid ""nov""
msgstr ""stu.""

msgid ""now""
msgstr ""sad""

msgid ""oct""
msgstr ""lis.""

msgid ""one""
msgstr ""jedan""

msgid ""p.m.""
msgstr ""popodne""

msgid ""sep""
msgstr ""ruj.""

msgid ""seven""
msgstr ""sedam""

msgid ""six""
msgstr ""šest""

msgid ""three""
msgstr ""tri""

msgid ""today""
msgstr ""danas""

msgid ""tomorrow""
msgstr ""sutra""

msgid ""two""
msgstr ""dva""

msgid ""yesterday""
msgstr ""jučer""

msgctxt ""abbrev. month""
msgid ""April""
msgstr ""Tra.""

msgctxt ""abbrev. month""
msgid ""Aug.""
msgstr ""Kol.""

msgctxt ""abbrev. month""
msgid ""Dec.""
msgstr ""Pro.""

msgctxt ""abbrev. month""
msgid ""Feb.""
msgstr ""Velj.""

msgctxt ""abbrev. month""
msgid ""Jan.""
msgstr ""Sij.""

msgctxt ""abbrev. month""
msgid ""July""
msgstr ""Srp.""

msgctxt ""abbrev. month""
msgid ""June""
msgstr ""Lip.""

msgctxt ""abbrev. month""
msgid ""March""
msgstr ""Ožu.""

msgctxt ""abbrev. month""
msgid ""May""
msgstr ""Svi.""

msgctxt ""abbrev. month""
msgid ""Nov.""
msgstr ""Stu.""

msgctxt ""abbrev. month""
msgid ""Oct.""
msgstr ""Lis.""

msgctxt ""abbrev. month""
msgid ""Sept.""
msgstr ""Ruj.""

msgctxt ""alt. month""
msgid ""April""
msgstr ""travnja""

msgctxt ""alt. month""
msgid ""August""
msgstr ""kolovoza""

msgctxt ""alt. month""
msgid ""December""
msgstr ""prosinca""

msgctxt ""alt. month""
msgid ""February""
msgstr ""veljače""

msgctxt ""alt. month""
msgid ""January""
msgstr ""siječnja""

msgctxt ""alt. month""
msgid ""July""
msgstr ""srpnja""

msgctxt ""alt. month""
msgid ""June""
msgstr ""lipnja""

msgctxt ""alt. month""
msgid ""March""
msgstr ""ožujka""

msgctxt ""alt. month""
msgid ""May""
msgstr ""svibnja""

msgctxt ""alt. month""
msgid ""November""
msgstr ""studenoga""

msgctxt ""alt. month""
msgid ""October""
msgstr ""listopada""

msgctxt ""alt. month""
msgid ""September""
msgstr ""rujna""
".
(** humanize/locale/hr/locale.go (New) *)
Definition loc_hr : locale_data := LD (bs "hr") [(bs "django.po", po_hr)]
  (Some (FD (bs "j. E Y.") (bs "H:i") (bs "j. E Y. H:i") (bs "F Y.") (bs "j. F") (bs "j.m.Y.") (bs "j.m.Y. H:i"))).

(** humanize/locale/hsb/django.po *)
Definition po_hsb : bytes := bs "# This file is distributed under the same license as the Django package.
# 
# Translators:
# Michael Wolf <milupo@sorbzilla.de>, 2016-2025
msgid """"
msgstr """"
""Project-Id-Version: django\n""
""Report-Msgid-Bugs-To: \n""
""POT-Creation-Date: 2025-03-19 11:30-0500\n""
""PO-Revision-Date: 2025-04-01 15:04-0500\n""
""Last-Translator: Michael Wolf <milupo@sorbzilla.de>, 2016-2025\n""
""Language-Team: Upper Sorbian (http://app.transifex.com/django/django/language/hsb/)\n""
""Language: hsb\n""
""MIME-Version: 1.0\n""
""Content-Type: text/plain; charset=UTF-8\n""
""Content-Transfer-Encoding: 8bit\n""
""Plural-Forms: nplurals=4; plural=(n%100==1 ? 0 : n%100==2 ? 1 : n%100==3 || n%100==4 ? 2 : 3);\n""

msgid ""%[1]d byte""
msgid_plural ""%[1]d bytes""
msgstr[0] ""%[1]d bajt""
msgstr[1] ""%[1]d bajtaj""
msgstr[2] ""%[1]d bajty""
msgstr[3] ""%[1]d bajtow""

msgid ""%[1]s billion""
msgid_plural ""%[1]s billion""
msgstr[0] ""%[1]s miliarda""
msgstr[1] ""%[1]s miliardźe""
msgstr[2] ""%[1]s miliardy""
msgstr[3] ""%[1]s miliardow""

msgid ""%[1]s decillion""
msgid_plural ""%[1]s decillion""
msgstr[0] ""%[1]s kwintiliarda""
msgstr[1] ""%[1]s kwintiliardźe""
msgstr[2] ""%[1]s kwintiliardy""
msgstr[3] ""%[1]s kwintiliardow""

msgid ""%[1]s googol""
msgid_plural ""%[1]s googol""
msgstr[0] ""%[1]s sedeciliarda""
msgstr[1] ""%[1]s sedeciliardźe""
msgstr[2] ""%[1]s sedeciliardy""
msgstr[3] ""%[1]s sedeciliardow""

msgid ""%[1]s million""
msgid_plural ""%[1]s million""
msgstr[0] ""%[1]s milion""
msgstr[1] ""%[1]s milionaj""
msgstr[2] ""%[1]s miliony""
msgstr[3] ""%[1]s milionow""

msgid ""%[1]s nonillion""
msgid_plural ""%[1]s nonillion""
msgstr[0] ""%[1]s kwintilion""
msgstr[1] ""%[1]s kwintilionaj""
msgstr[2] ""%[1]s kwintiliony""
msgstr[3] ""%[1]s kwintilionow""

msgid ""%[1]s octillion""
msgid_plural ""%[1]s octillion""
msgstr[0] ""%[1]s kwadriliarda""
msgstr[1] ""%[1]s kwadriliardźe""
msgstr[2] ""%[1]s kwadriliardy""
msgstr[3] ""%[1]s kwadriliardow""

msgid ""%[1]s quadrillion""
msgid_plural ""%[1]s quadrillion""
msgstr[0] ""%[1]s biliarda""
msgstr[1] ""%[1]s biliardźe""
msgstr[2] ""%[1]s biliardy""
msgstr[3] ""%[1]s biliardow""

msgid ""%[1]s quintillion""
msgid_plural ""%[1]s quintillion""
msgstr[0] ""%[1]s trilion""
msgstr[1] ""%[1]s trilionaj""
msgstr[2] ""%[1]s triliony""
msgstr[3] ""%[1]s trilionow""

msgid ""%[1]s septillion""
msgid_plural ""%[1]s septillion""
msgstr[0] ""%[1]s kwadrilion""
msgstr[1] ""%[1]s kwadrilionaj""
msgstr[2] ""%[1]s kwadriliony""
msgstr[3] ""%[1]s kwadrilionow""

msgid ""%[1]s sextillion""
msgid_plural ""%[1]s sextillion""
msgstr[0] ""%[1]s triliarda""
msgstr[1] ""%[1]s triliardźe""
msgstr[2] ""%[1]s triliardy""
msgstr[3] ""%[1]s triliardow""

msgid ""%[1]s trillion""
msgid_plural ""%[1]s trillion""
msgstr[0] ""%[1]s bilion""
msgstr[1] ""%[1]s bilionaj""
msgstr[2] ""%[1]s biliony""
msgstr[3] ""%[1]s bilionow""

msgid ""%[1]v ago""
msgstr ""Před %[1]v""

msgid ""%[1]v day""
msgid_plural ""%[1]v days""
msgstr[0] ""%[1]v dźeń""
msgstr[1] ""%[1]v dnjej""
msgstr[2] ""%[1]v dny""
msgstr[3] ""%[1]v dnjow""

msgid ""%[1]v from now""
msgstr ""%[1]v wotnětka""

msgid ""%[1]v hour""
msgid_plural ""%[1]v hours""
msgstr[0] ""%[1]v hodźina""
msgstr[1] ""%[1]v hodźinje""
msgstr[2] ""%[1]v hodźiny""
msgstr[3] ""%[1]v hodźin""

msgid ""%[1]v minute""
msgid_plural ""%[1]v minutes""
msgstr[0] ""%[1]v mjeńšina""
msgstr[1] ""%[1]v mjeńšinje""
msgstr[2] ""%[1]v mjeńšiny""
msgstr[3] ""%[1]v mjeńšin""

msgid ""%[1]v month""
msgid_plural ""%[1]v months""
msgstr[0] ""%[1]v měsac""
msgstr[1] ""%[1]v měsacaj""
msgstr[2] ""%[1]v měsacy""
msgstr[3] ""%[1]v měsacow""

msgid ""%[1]v week""
msgid_plural ""%[1]v weeks""
msgstr[0] ""%[1]v tydźeń""
msgstr[1] ""%[1]v njedźeli""
msgstr[2] ""%[1]v njedźele""
msgstr[3] ""%[1]v njedźel""

msgid ""%[1]v year""
msgid_plural ""%[1]v years""
msgstr[0] ""%[1]v lěto""
msgstr[1] ""%[1]vlěće""
msgstr[2] ""%[1]v lěta""
msgstr[3] ""%[1]v lět""

msgid ""%s GB""
msgstr ""%s GB""

msgid ""%s KB""
msgstr ""%s KB""

msgid ""%s MB""
msgstr ""%s MB""

msgid ""%s PB""
msgstr ""%s PB""

msgid ""%s TB""
msgstr ""%s TB""

msgid "", ""
msgstr "", ""

msgid ""AM""
msgstr ""dopołdnja""

msgid ""Afrikaans""
msgstr ""Afrikaanšćina""

msgid ""Albanian""
msgstr ""Albanšćina""

msgid ""Algerian Arabic""
msgstr ""Algeriska arabšćina""

msgid ""April""
msgstr ""Apryl""

msgid ""Arabic""
msgstr ""Arabšćina""

msgid ""Argentinian Spanish""
msgstr ""Argentinska španišćina""

msgid ""Armenian""
msgstr ""Armenšćina""

msgid ""Asturian""
msgstr ""Asturišćina""

msgid ""August""
msgstr ""Awgust""

msgid ""Australian English""
msgstr ""Awstralska jendźelšćina""

msgid ""Azerbaijani""
msgstr ""Azerbajdźanšćina""

msgid ""Basque""
msgstr ""Baskišćina""

msgid ""Belarusian""
msgstr ""Běłorušćina""

msgid ""Bengali""
msgstr ""Bengalšćina""

msgid ""Bosnian""
msgstr ""Bosnišćina""

msgid ""Brazilian Portuguese""
msgstr ""Brazilska portugalšćina""

msgid ""Breton""
msgstr ""Bretonšćina""

msgid ""British English""
msgstr ""Britiska jendźelšćina""

msgid ""Bulgarian""
msgstr ""Bołharšćina""

msgid ""Burmese""
msgstr ""Myanmaršćina""

msgid ""Catalan""
msgstr ""Katalanšćina""

msgid ""Central Kurdish (Sorani)""
msgstr ""Centralna kurdišćina (Sorani)""

msgid ""Colombian Spanish""
msgstr ""Kolumbiska španišćina""

msgid ""Croatian""
msgstr ""Chorwatšćina""

msgid ""Czech""
msgstr ""Čěšćina""

msgid ""Danish""
msgstr ""Danšćina""

msgid ""December""
msgstr ""December""

msgid ""Dutch""
msgstr ""Nižozemšćina""

msgid ""English""
msgstr ""Jendźelšćina""

msgid ""Esperanto""
msgstr ""Esperanto""

msgid ""Estonian""
msgstr ""Estišćina""

msgid ""February""
msgstr ""Februar""

msgid ""Finnish""
msgstr ""Finšćina""

msgid ""French""
msgstr ""Francošćina""

msgid ""Fri""
msgstr ""Pja""

msgid ""Friday""
msgstr ""Pjatk""

msgid ""Frisian""
msgstr ""Frizišćina""

msgid ""Galician""
msgstr ""Galicišćina""

msgid ""Georgian""
msgstr ""Georgišćina""

msgid ""German""
msgstr ""Němčina""

msgid ""Greek""
msgstr ""Grjekšćina""

msgid ""Hebrew""
msgstr ""Hebrejšćina""

msgid ""Hindi""
msgstr ""Hindišćina""

msgid ""Hungarian""
msgstr ""Madźaršćina""

msgid ""Icelandic""
msgstr ""Islandšćina""

msgid ""Ido""
msgstr ""Ido""

msgid ""Igbo""
msgstr ""Igbo""

msgid ""Indonesian""
msgstr ""Indonezišćina""

msgid ""Interlingua""
msgstr ""Interlingua""

msgid ""Irish""
msgstr ""Irišćina""

msgid ""Italian""
msgstr ""Italšćina""

msgid ""January""
msgstr ""Januar""

msgid ""Japanese""
msgstr ""Japanšćina""

msgid ""July""
msgstr ""Julij""

msgid ""June""
msgstr ""Junij""

msgid ""Kabyle""
msgstr ""Kabylšćina""

msgid ""Kannada""
msgstr ""Kannadšćina""

msgid ""Kazakh""
msgstr ""Kazachšćina""

msgid ""Khmer""
msgstr ""Khmeršćina""

msgid ""Korean""
msgstr ""Korejšćina""

msgid ""Kyrgyz""
msgstr ""Kirgišćina""

msgid ""Latvian""
msgstr ""Letišćina""

msgid ""Lithuanian""
msgstr ""Litawšćina""

msgid ""Lower Sorbian""
msgstr ""Delnjoserbšćina""

msgid ""Luxembourgish""
msgstr ""Luxemburgšćina""

msgid ""Macedonian""
msgstr ""Makedonšćina""

msgid ""Malay""
msgstr ""Malajšćina""

msgid ""Malayalam""
msgstr ""Malajalam""

msgid ""Marathi""
msgstr ""Marathišćina""

msgid ""March""
msgstr ""Měrc""

msgid ""May""
msgstr ""Meja""

msgid ""Mexican Spanish""
msgstr ""Mexiska španišćina""

msgid ""Mon""
msgstr ""Pón""

msgid ""Monday""
msgstr ""Póndźela""

msgid ""Mongolian""
msgstr ""Mongolšćina""

msgid ""Nepali""
msgstr ""Nepalšćina""

msgid ""Nicaraguan Spanish""
msgstr ""Nikaraguaska španišćina""

msgid ""Norwegian Bokmål""
msgstr ""Norwegski bokmål""

msgid ""Norwegian Nynorsk""
msgstr ""Norwegski nynorsk""

msgid ""November""
msgstr ""Nowember""

msgid ""October""
msgstr ""Oktober""

msgid ""Ossetic""
msgstr ""Osetšćina""

msgid ""PM""
msgstr ""popołdnju""

msgid ""Persian""
msgstr ""Persišćina""

msgid ""Polish""
msgstr ""Pólšćina""

msgid ""Portuguese""
msgstr ""Portugalšćina""

msgid ""Punjabi""
msgstr ""Pundźabišćina""

msgid ""Romanian""
msgstr ""Rumunšćina""

msgid ""Russian""
msgstr ""Rušćina""

msgid ""Sat""
msgstr ""Sob""

msgid ""Saturday""
msgstr ""Sobota""

msgid ""Scottish Gaelic""
msgstr ""Šotiska gaelšćina""

msgid ""September""
msgstr ""September""

msgid ""Serbian""
msgstr ""Serbišćina""

msgid ""Serbian Latin""
msgstr ""Serbšćina, łaćonska""

msgid ""Simplified Chinese""
msgstr ""Zjednorjene chinšćina""

msgid ""Slovak""
msgstr ""Słowakšćina""

msgid ""Slovenian""
msgstr ""Słowjenšćina""

msgid ""Spanish""
msgstr ""Španišćina""

msgid ""Sun""
msgstr ""Nje""

msgid ""Sunday""
msgstr ""Njedźela""

msgid ""Swahili""
msgstr ""Suahelšćina""

msgid ""Swedish""
msgstr ""Šwedšćina""

msgid ""Tajik""
msgstr ""Tadźikišćina""

msgid ""Tamil""
msgstr ""Tamilšćina""

msgid ""Tatar""
msgstr ""Tataršćina""

msgid ""Telugu""
msgstr ""Telugušćina""

msgid ""Thai""
msgstr ""Thaišćina""

msgid ""Thu""
msgstr ""Štw""

msgid ""Thursday""
msgstr ""Štwórtk""

msgid ""Traditional Chinese""
msgstr ""Tradicionalna chinšćina""

msgid ""Tue""
msgstr ""Wut""

msgid ""Tuesday""
msgstr ""Wutora""

msgid ""Turkish""
msgstr ""Turkowšćina""

msgid ""Turkmen""
msgstr ""Turkmenšćina""

msgid ""Udmurt""
msgstr ""Udmurtšćina""

msgid ""Ukrainian""
msgstr ""Ukrainšćina""

msgid ""Upper Sorbian""
msgstr ""Hornjoserbšćina""

msgid ""Urdu""
msgstr ""Urdušćina""

msgid ""Uyghur""
msgstr ""Ujguršćina""

msgid ""Uzbek""
msgstr ""Uzbekšćina""

msgid ""Venezuelan Spanish""
msgstr ""Venezuelska španišćina""

msgid ""Vietnamese""
msgstr ""Vietnamšćina""

msgid ""Wed""
msgstr ""Srj""

msgid ""Wednesday""
msgstr ""Srjeda""

msgid ""Welsh""
msgstr ""Walizišćina""

msgid ""a minute ago""
msgid_plural ""%[1]v minutes ago""
msgstr[0] ""před %[1]v mjeńšinu""
msgstr[1] ""před %[1]v mjeńšinomaj""
msgstr[2] ""před %[1]v mjeńšinami""
msgstr[3] ""před %[1]v mjeńšinami""

msgid ""a minute from now""
msgid_plural ""%[1]v minutes from now""
msgstr[0] ""za %[1]v mjeńšinu""
msgstr[1] ""za %[1]v mjeńšinje""
msgstr[2] ""za %[1]v mjeńšiny""
msgstr[3] ""za %[1]v mjeńšin""

msgid ""a second ago""
msgid_plural ""%[1]v seconds ago""
msgstr[0] ""před %[1]v sekundu""
msgstr[1] ""před %[1]v sekundomaj""
msgstr[2] ""před %[1]v sekundami""
msgstr[3] ""před %[1]v sekundami""

msgid ""a second from now""
msgid_plural ""%[1]v seconds from now""
msgstr[0] ""za %[1]v sekundu""
msgstr[1] ""za %[1]v sekundźe""
msgstr[2] ""za %[1]v sekundy""
msgstr[3] ""za %[1]v sekundow""

msgid ""a.m.""
msgstr ""dopołdnja""

msgid ""an hour ago""
msgid_plural ""%[1]v hours ago""
msgstr[0] ""před %[1]v hodźinu""
msgstr[1] ""před %[1]v hodźinomaj""
msgstr[2] ""před %[1]v hodźinami""
msgstr[3] ""před %[1]v hodźinami""

msgid ""an hour from now""
msgid_plural ""%[1]v hours from now""
msgstr[0] ""za %[1]v hodźinu""
msgstr[1] ""za %[1]v hodźinje""
msgstr[2] ""za %[1]v hodźiny""
msgstr[3] ""za %[1]v hodźin""

msgid ""apr""
msgstr ""apr.""

msgid ""aug""
msgstr ""awg.""

msgid ""dec""
msgstr ""dec.""

msgid ""eight""
msgstr ""wosom""

msgid ""feb""
msgstr ""feb.""

msgid ""five""
msgstr ""pjeć""

msgid ""four""
msgstr ""štyri""

msgid ""jan""
msgstr ""jan.""

msgid ""jul""
msgstr ""jul.""

msgid ""jun""
msgstr ""jun.""

msgid ""mar""
msgstr ""měr.""

msgid ""may""
msgstr ""mej.""

msgid ""midnight""
msgstr ""połnoc""

msgid ""nine""
msgstr ""dźewjeć""

msgid ""noon""
msgstr ""připołdnjo""

msgid ""nov""
msgstr ""now.""

msgid ""now""
msgstr ""nětko""

msgid ""oct""
msgstr ""okt.""

msgid ""one""
msgstr ""jedyn""

msgid ""p.m.""
msgstr ""popołdnju""

msgid ""sep""
msgstr ""sep.""

msgid ""seven""
msgstr ""sydom""

msgid ""six""
msgstr ""šěsć""

msgid ""three""
msgstr ""tři""

msgid ""today""
msgstr ""dźensa""

msgid ""tomorrow""
msgstr ""jutře""

msgid ""two""
msgstr ""dwaj""

msgid ""yesterday""
msgstr ""wčera""

msgctxt ""abbrev. month""
msgid ""April""
msgstr ""Apryl""

msgctxt ""abbrev. month""
msgid ""Aug.""
msgstr ""Awg.""

msgctxt ""abbrev. month""
msgid ""Dec.""
msgstr ""Dec.""

msgctxt ""abbrev. month""
msgid ""Feb.""
msgstr ""Feb.""

msgctxt ""abbrev. month""
msgid ""Jan.""
msgstr ""Jan.""

msgctxt ""abbrev. month""
msgid ""July""
msgstr ""Julij""

msgctxt ""abbrev. month""
msgid ""June""
msgstr ""Junij""

msgctxt ""abbrev. month""
msgid ""March""
msgstr ""Měrc""

msgctxt ""abbrev. month""
msgid ""May""
msgstr ""Meja""

msgctxt ""abbrev. month""
msgid ""Nov.""
msgstr ""Now.""

msgctxt ""abbrev. month""
msgid ""Oct.""
msgstr ""Okt.""

msgctxt ""abbrev. month""
msgid ""Sept.""
msgstr ""Sept.""

msgctxt ""alt. month""
msgid ""April""
msgstr ""Apryl""

msgctxt ""alt. month""
msgid ""August""
msgstr ""Awgust""

msgctxt ""alt. month""
msgid ""December""
msgstr ""December""

msgctxt ""alt. month""
msgid ""February""
msgstr ""Februar""

msgctxt ""alt. month""
msgid ""January""
msgstr ""Januar""

msgctxt ""alt. month""
msgid ""July""
msgstr ""Julij""

msgctxt ""alt. month""
msgid ""June""
msgstr ""Junij""

msgctxt ""alt. month""
msgid ""March""
msgstr ""Měrc""

msgctxt ""alt. month""
msgid ""May""
msgstr ""Meja""

msgctxt ""alt. month""
msgid ""November""
msgstr ""Nowember""

msgctxt ""alt. month""
msgid ""October""
msgstr ""Oktober""

msgctxt ""alt. month""
msgid ""September""
msgstr ""September""

msgctxt ""naturaltime-future""
msgid ""%[1]v day""
msgid_plural ""%[1]v days""
msgstr[0] ""%[1]v dźeń""
msgstr[1] ""%[1]v dnjej""
msgstr[2] ""%[1]v dny""
msgstr[3] ""%[1]v dnjow""

msgctxt ""naturaltime-future""
msgid ""%[1]v hour""
msgid_plural ""%[1]v hours""
msgstr[0] ""%[1]v hodźina""
msgstr[1] ""%[1]v hodźinje""
msgstr[2] ""%[1]v hodźiny""
msgstr[3] ""%[1]v hodźin""

msgctxt ""naturaltime-future""
msgid ""%[1]v minute""
msgid_plural ""%[1]v minutes""
msgstr[0] ""%[1]v mjeńšina""
msgstr[1] ""%[1]v mjeńšinje""
msgstr[2] ""%[1]v mjeńšiny""
msgstr[3] ""%[1]v mjeńšin""

msgctxt ""naturaltime-future""
msgid ""%[1]v month""
msgid_plural ""%[1]v months""
msgstr[0] ""%[1]v měsac""
msgstr[1] ""%[1]v měsacaj""
msgstr[2] ""%[1]v měsacy""
msgstr[3] ""%[1]v měsacow""

msgctxt ""naturaltime-future""
msgid ""%[1]v week""
msgid_plural ""%[1]v weeks""
msgstr[0] ""%[1]v tydźeń""
msgstr[1] ""%[1]v njedźeli""
msgstr[2] ""%[1]v njedźele""
msgstr[3] ""%[1]v njedźel""

msgctxt ""naturaltime-future""
msgid ""%[1]v year""
msgid_plural ""%[1]v years""
msgstr[0] ""%[1]v lěto""
msgstr[1] ""%[1]v lěće""
msgstr[2] ""%[1]v lěta""
msgstr[3] ""%[1]v lět""

msgctxt ""naturaltime-past""
msgid ""%[1]v day""
msgid_plural ""%[1]v days""
msgstr[0] ""%[1]v dźeń""
msgstr[1] ""%[1]v dnjej""
msgstr[2] ""%[1]v dny""
msgstr[3] ""%[1]v dnjow""

msgctxt ""naturaltime-past""
msgid ""%[1]v hour""
msgid_plural ""%[1]v hours""
msgstr[0] ""%[1]v hodźina""
msgstr[1] ""%[1]v hodźinje""
msgstr[2] ""%[1]v hodźiny""
msgstr[3] ""%[1]v hodźin""

msgctxt ""naturaltime-past""
msgid ""%[1]v minute""
msgid_plural ""%[1]v minutes""
msgstr[0] ""%[1]v mjeńšina""
msgstr[1] ""%[1]v mjeńšinje""
msgstr[2] ""%[1]v mjeńšiny""
msgstr[3] ""%[1]v mjeńšin""

msgctxt ""naturaltime-past""
msgid ""%[1]v month""
msgid_plural ""%[1]v months""
msgstr[0] ""%[1]v měsac""
msgstr[1] ""%[1]v měsacaj""
msgstr[2] ""%[1]v měsacy""
msgstr[3] ""%[1]v měsacow""

msgctxt ""naturaltime-past""
msgid ""%[1]v week""
msgid_plural ""%[1]v weeks""
msgstr[0] ""%[1]v tydźeń""
msgstr[1] ""%[1]v njedźeli""
msgstr[2] ""%[1]v njedźele""
msgstr[3] ""%[1]v njedźel""

msgctxt ""naturaltime-past""
msgid ""%[1]v year""
msgid_plural ""%[1]v years""
msgstr[0] ""%[1]v lěto""
msgstr[1] ""%[1]v lěće""
msgstr[2] ""%[1]v lěta""
msgstr[3] ""%[1]v lět""

msgctxt ""ordinal 0""
msgid ""%vth""
msgstr ""%v.""

msgctxt ""ordinal 1""
msgid ""%vst""
msgstr ""%v.""

msgctxt ""ordinal 11, 12, 13""
msgid ""%vth""
msgstr ""%v.""

msgctxt ""ordinal 2""
msgid ""%vnd""
msgstr ""%v.""

msgctxt ""ordinal 3""
msgid ""%vrd""
msgstr ""%v.""

msgctxt ""ordinal 4""
msgid ""%vth""
msgstr ""%v.""

msgctxt ""ordinal 5""
msgid ""%vth""
msgstr ""%v.""

msgctxt ""ordinal 6""
msgid ""%vth""
msgstr ""%v.""

msgctxt ""ordinal 7""
msgid ""%vth""
msgstr ""%v.""

msgctxt ""ordinal 8""
msgid ""%vth""
msgstr ""%v.""

msgctxt ""ordinal 9""
msgid ""%vth""
msgstr ""%v.""
".
(** humanize/locale/hsb/locale.go (New) *)
Definition loc_hsb : locale_data := LD (bs "hsb") [(bs "django.po", po_hsb)]
  (None).

(** humanize/locale/hu/django.po *)
Definition po_hu : bytes := bs "# This file is distributed under the same license as the Django package.
# 
# Translators:
# Akos Zsolt Hochrein <hoch.akos@gmail.com>, 2018
# András Veres-Szentkirályi, 2016-2021,2023
# Attila Nagy <>, 2012
# Balázs Meskó <meskobalazs@mailbox.org>, 2024
# Balázs R, 2023,2025
# Dóra Szendrei <szendrgigi@gmail.com>, 2017
# Istvan Farkas <istvan.farkas@gmail.com>, 2019
# Jannis Leidel <jannis@leidel.info>, 2011
# János R, 2011-2012,2014
# János R, 2022
# Máté Őry <orymate@iit.bme.hu>, 2013
# Szilveszter Farkas <szilveszter.farkas@gmail.com>, 2011
msgid """"
msgstr """"
""Project-Id-Version: django\n""
""Report-Msgid-Bugs-To: \n""
""POT-Creation-Date: 2025-03-19 11:30-0500\n""
""PO-Revision-Date: 2025-04-01 15:04-0500\n""
""Last-Translator: Balázs R, 2023,2025\n""
""Language-Team: Hungarian (http://app.transifex.com/django/django/language/hu/)\n""
""Language: hu\n""
""MIME-Version: 1.0\n""
""Content-Type: text/plain; charset=UTF-8\n""
""Content-Transfer-Encoding: 8bit\n""
""Plural-Forms: nplurals=2; plural=(n != 1);\n""

msgid ""%[1]d byte""
msgid_plural ""%[1]d bytes""
msgstr[0] ""%[1]d bájt""
msgstr[1] ""%[1]d bájt""

msgid ""%[1]s billion""
msgid_plural ""%[1]s billion""
msgstr[0] "" %[1]s milliárd""
msgstr[1] "" %[1]s milliárd""

msgid ""%[1]s decillion""
msgid_plural ""%[1]s decillion""
msgstr[0] ""%[1]s kvintilliárd""
msgstr[1] ""%[1]s kvintilliárd""

msgid ""%[1]s googol""
msgid_plural ""%[1]s googol""
msgstr[0] ""%[1]s googol""
msgstr[1] ""%[1]s googol""

msgid ""%[1]s million""
msgid_plural ""%[1]s million""
msgstr[0] ""%[1]s millió""
msgstr[1] ""%[1]s millió""

msgid ""%[1]s nonillion""
msgid_plural ""%[1]s nonillion""
msgstr[0] ""%[1]s kvintillió""
msgstr[1] ""%[1]s kvintillió""

msgid ""%[1]s octillion""
msgid_plural ""%[1]s octillion""
msgstr[0] ""%[1]s kvadrilliárd""
msgstr[1] ""%[1]s kvadrilliárd""

msgid ""%[1]s quadrillion""
msgid_plural ""%[1]s quadrillion""
msgstr[0] ""%[1]s billiárd""
msgstr[1] ""%[1]s billiárd""

msgid ""%[1]s quintillion""
msgid_plural ""%[1]s quintillion""
msgstr[0] ""%[1]s trillió""
msgstr[1] ""%[1]s trillió""

msgid ""%[1]s septillion""
msgid_plural ""%[1]s septillion""
msgstr[0] ""%[1]s kvadrillió""
msgstr[1] ""%[1]s kvadrillió""

msgid ""%[1]s sextillion""
msgid_plural ""%[1]s sextillion""
msgstr[0] ""%[1]s trilliárd""
msgstr[1] ""%[1]s trilliárd""

msgid ""%[1]s trillion""
msgid_plural ""%[1]s trillion""
msgstr[0] ""%[1]s billió""
msgstr[1] ""%[1]s billió""

msgid ""%[1]v ago""
msgstr "" %[1]v ezelőtt""

msgid ""%[1]v day""
msgid_plural ""%[1]v days""
msgstr[0] ""%[1]v nap""
msgstr[1] ""%[1]v nap""

msgid ""%[1]v from now""
msgstr ""%[1]v múlva""

msgid ""%[1]v hour""
msgid_plural ""%[1]v hours""
msgstr[0] ""%[1]v óra""
msgstr[1] ""%[1]v óra""

msgid ""%[1]v minute""
msgid_plural ""%[1]v minutes""
msgstr[0] ""%[1]v perc""
msgstr[1] ""%[1]v perc""

msgid ""%[1]v month""
msgid_plural ""%[1]v months""
msgstr[0] ""%[1]v hónap""
msgstr[1] ""%[1]v hónap""

msgid ""%[1]v week""
msgid_plural ""%[1]v weeks""
msgstr[0] ""%[1]v hét""
msgstr[1] ""%[1]v hét""

msgid ""%[1]v year""
msgid_plural ""%[1]v years""
msgstr[0] ""%[1]v év""
msgstr[1] ""%[1]v év""

msgid ""%s GB""
msgstr ""%s GB""

msgid ""%s KB""
msgstr ""%s KB""

msgid ""%s MB""
msgstr ""%s MB""

msgid ""%s PB""
msgstr ""%s PB""

msgid ""%s TB""
msgstr ""%s TB""

msgid "", ""
msgstr "", ""

msgid ""AM""
msgstr ""DE""

msgid ""Afrikaans""
msgstr ""Afrikaans""

msgid ""Albanian""
msgstr ""Albán""

msgid ""Algerian Arabic""
msgstr ""algériai arab""

msgid ""April""
msgstr ""április""

msgid ""Arabic""
msgstr ""Arab""

msgid ""Argentinian Spanish""
msgstr ""Argentin spanyol""

msgid ""Armenian""
msgstr ""Örmény""

msgid ""Asturian""
msgstr ""Asztúriai""

msgid ""August""
msgstr ""augusztus""

msgid ""Australian English""
msgstr ""Ausztráliai angol""

msgid ""Azerbaijani""
msgstr ""azerbajdzsáni""

msgid ""Basque""
msgstr ""Baszk ""

msgid ""Belarusian""
msgstr ""Belarusz""

msgid ""Bengali""
msgstr ""Bengáli""

msgid ""Bosnian""
msgstr ""Bosnyák""

msgid ""Brazilian Portuguese""
msgstr ""Brazíliai portugál""

msgid ""Breton""
msgstr ""Breton""

msgid ""British English""
msgstr ""Brit angol""

msgid ""Bulgarian""
msgstr ""Bolgár""

msgid ""Burmese""
msgstr ""Burmai""

msgid ""Catalan""
msgstr ""Katalán""

msgid ""Central Kurdish (Sorani)""
msgstr ""Közép-kurd (szoráni)""

msgid ""Colombian Spanish""
msgstr ""Kolumbiai spanyol""

msgid ""Croatian""
msgstr ""Horvát""

msgid ""Czech""
msgstr ""Cseh""

msgid ""Danish""
msgstr ""Dán""

msgid ""December""
msgstr ""december""

msgid ""Dutch""
msgstr ""Holland""

msgid ""English""
msgstr ""Angol""

msgid ""Esperanto""
msgstr ""Eszperantó""

msgid ""Estonian""
msgstr ""Észt""

msgid ""February""
msgstr ""február""

msgid ""Finnish""
msgstr ""Finn""

msgid ""French""
msgstr ""Francia""

msgid ""Fri""
msgstr ""pén""

msgid ""Friday""
msgstr ""péntek""

msgid ""Frisian""
msgstr ""Fríz""

msgid ""Galician""
msgstr ""Gall""

msgid ""Georgian""
msgstr ""Grúz""

msgid ""German""
msgstr ""Német""

msgid ""Greek""
msgstr ""Görög""

msgid ""Hebrew""
msgstr ""Héber""

msgid ""Hindi""
msgstr ""Hindi""

msgid ""Hungarian""
msgstr ""Magyar""

msgid ""Icelandic""
msgstr ""Izlandi""

msgid ""Ido""
msgstr ""Ido""

msgid ""Igbo""
msgstr ""igbo""

msgid ""Indonesian""
msgstr ""Indonéz""

msgid ""Interlingua""
msgstr ""Interlingua""

msgid ""Irish""
msgstr ""Ír""

msgid ""Italian""
msgstr ""Olasz""

msgid ""January""
msgstr ""január""

msgid ""Japanese""
msgstr ""Japán""

msgid ""July""
msgstr ""július""

msgid ""June""
msgstr ""június""

msgid ""Kabyle""
msgstr ""Kabil""

msgid ""Kannada""
msgstr ""Kannada""

msgid ""Kazakh""
msgstr ""Kazak""

msgid ""Khmer""
msgstr ""Khmer""

msgid ""Korean""
msgstr ""Koreai""

msgid ""Kyrgyz""
msgstr ""kirgiz""

msgid ""Latvian""
msgstr ""Lett""

msgid ""Lithuanian""
msgstr ""Litván""

msgid ""Lower Sorbian""
msgstr ""Alsószorb""

msgid ""Luxembourgish""
msgstr ""Luxemburgi""

msgid ""Macedonian""
msgstr ""Macedón""

msgid ""Malay""
msgstr ""Maláj""

msgid ""Malayalam""
msgstr ""Malajálam""

msgid ""Marathi""
msgstr ""Maráthi""

msgid ""March""
msgstr ""március""

msgid ""May""
msgstr ""május""

msgid ""Mexican Spanish""
msgstr ""Mexikói spanyol""

msgid ""Mon""
msgstr ""hét""

msgid ""Monday""
msgstr ""hétfő""

msgid ""Mongolian""
msgstr ""Mongol""

msgid ""Nepali""
msgstr ""Nepáli""

msgid ""Nicaraguan Spanish""
msgstr ""Nicaraguai spanyol""

msgid ""Norwegian Bokmål""
msgstr ""Bokmål norvég""

msgid ""Norwegian Nynorsk""
msgstr ""Nynorsk norvég""

msgid ""November""
msgstr ""november""

msgid ""October""
msgstr ""október""

msgid ""Ossetic""
msgstr ""Oszét""

msgid ""PM""
msgstr ""DU""

msgid ""Persian""
msgstr ""Perzsa""

msgid ""Polish""
msgstr ""Lengyel""

msgid ""Portuguese""
msgstr ""Portugál""

msgid ""Punjabi""
msgstr ""Punjabi""

msgid ""Romanian""
msgstr ""Román""

msgid ""Russian""
msgstr ""Orosz""

msgid ""Sat""
msgstr ""szo""

msgid ""Saturday""
msgstr ""szombat""

msgid ""Scottish Gaelic""
msgstr ""Skót gael""

msgid ""September""
msgstr ""szeptember""

msgid ""Serbian""
msgstr ""Szerb""

msgid ""Serbian Latin""
msgstr ""Latin betűs szerb""

msgid ""Simplified Chinese""
msgstr ""Egyszerű kínai""

msgid ""Slovak""
msgstr ""Szlovák""

msgid ""Slovenian""
msgstr ""Szlovén""

msgid ""Spanish""
msgstr ""Spanyol""

msgid ""Sun""
msgstr ""vas""

msgid ""Sunday""
msgstr ""vasárnap""

msgid ""Swahili""
msgstr ""Szuahéli""

msgid ""Swedish""
msgstr ""Svéd""

msgid ""Tajik""
msgstr ""Tádzsik""

msgid ""Tamil""
msgstr ""Tamil""

msgid ""Tatar""
msgstr ""Tatár""

msgid ""Telugu""
msgstr ""Telugu""

msgid ""Thai""
msgstr ""Thai""

msgid ""Thu""
msgstr ""csüt""

msgid ""Thursday""
msgstr ""csütörtök""

msgid ""Traditional Chinese""
msgstr ""Hagyományos kínai""

msgid ""Tue""
msgstr ""kedd""

msgid ""Tuesday""
msgstr ""kedd""

msgid ""Turkish""
msgstr ""Török""

msgid ""Turkmen""
msgstr ""Türkmén""

msgid ""Udmurt""
msgstr ""Udmurt""

msgid ""Ukrainian""
msgstr ""Ukrán""

msgid ""Upper Sorbian""
msgstr ""Felsőszorb""

msgid ""Urdu""
msgstr ""urdu""

msgid ""Uyghur""
msgstr ""Ujgur""

msgid ""Uzbek""
msgstr ""Üzbég""

msgid ""Venezuelan Spanish""
msgstr ""Venezuelai spanyol""

msgid ""Vietnamese""
msgstr ""Vietnámi""

msgid ""Wed""
msgstr ""sze""

msgid ""Wednesday""
msgstr ""szerda""

msgid ""Welsh""
msgstr ""Walesi""

msgid ""a minute ago""
msgid_plural ""%[1]v minutes ago""
msgstr[0] ""egy perce""
msgstr[1] ""%[1]v perce""

msgid ""a minute from now""
msgid_plural ""%[1]v minutes from now""
msgstr[0] ""egy perc múlva""
msgstr[1] ""%[1]v perc múlva""

msgid ""a second ago""
msgid_plural ""%[1]v seconds ago""
msgstr[0] ""egy másodperce""
msgstr[1] ""%[1]v másodperce""

msgid ""a second from now""
msgid_plural ""%[1]v seconds from now""
msgstr[0] ""egy másodperc múlva""
msgstr[1] ""%[1]v másodperc múlva""

msgid ""a.m.""
msgstr ""de""

msgid ""an hour ago""
msgid_plural ""%[1]v hours ago""
msgstr[0] ""egy órája""
msgstr[1] ""%[1]v órája""

msgid ""an hour from now""
msgid_plural ""%[1]v hours from now""
msgstr[0] ""egy óra múlva""
msgstr[1] ""%[1]v óra múlva""

msgid ""apr""
msgstr ""ápr""

msgid ""aug""
msgstr ""aug""

msgid ""dec""
msgstr ""dec""

msgid ""eight""
msgstr ""nyolc""

msgid ""feb""
msgstr ""feb""

msgid ""five""
msgstr ""öt""

msgid ""four""
msgstr ""négy""

msgid ""jan""
msgstr ""jan""

msgid ""jul""
msgstr ""júl""

msgid ""jun""
msgstr ""jún""

msgid ""mar""
msgstr ""már""

msgid ""may""
msgstr ""máj""

msgid ""midnight""
msgstr ""éjfél""

msgid ""nine""
msgstr ""kilenc""

msgid ""noon""
msgstr ""dél""

msgid ""nov""
msgstr ""nov""

msgid ""now""
msgstr ""most""

msgid ""oct""
msgstr ""okt""

msgid ""one""
msgstr ""egy""

msgid ""p.m.""
msgstr ""du""

msgid ""sep""
msgstr ""sze""

msgid ""seven""
msgstr ""hét""

msgid ""six""
msgstr ""hat""

msgid ""three""
msgstr ""három""

msgid ""today""
msgstr ""ma""

msgid ""tomorrow""
msgstr ""holnap""

msgid ""two""
msgstr ""kettő""

msgid ""yesterday""
msgstr ""tegnap""

msgctxt ""abbrev. month""
msgid ""April""
msgstr ""ápr.""

msgctxt ""abbrev. month""
msgid ""Aug.""
msgstr ""aug.""

msgctxt ""abbrev. month""
msgid ""Dec.""
msgstr ""dec.""

msgctxt ""abbrev. month""
msgid ""Feb.""
msgstr ""febr.""

msgctxt ""abbrev. month""
msgid ""Jan.""
msgstr ""jan.""

msgctxt ""abbrev. month""
msgid ""July""
msgstr ""júl.""

msgctxt ""abbrev. month""
msgid ""June""
msgstr ""jún.""

msgctxt ""abbrev. month""
msgid ""March""
msgstr ""márc.""

msgctxt ""abbrev. month""
msgid ""May""
msgstr ""máj.""

msgctxt ""abbrev. month""
msgid ""Nov.""
msgstr ""nov.""

msgctxt ""abbrev. month""
msgid ""Oct.""
msgstr ""okt.""

msgctxt ""abbrev. month""
msgid ""Sept.""
msgstr ""szept.""

msgctxt ""alt. month""
msgid ""April""
msgstr ""április""

msgctxt ""alt. month""
msgid ""August""
msgstr ""augusztus""

msgctxt ""alt. month""
msgid ""December""
msgstr ""december""

msgctxt ""alt. month""
msgid ""February""
msgstr ""február""

msgctxt ""alt. month""
msgid ""January""
msgstr ""január""

msgctxt ""alt. month""
msgid ""July""
msgstr ""július""

msgctxt ""alt. month""
msgid ""June""
msgstr ""június""

msgctxt ""alt. month""
msgid ""March""
msgstr ""március""

msgctxt ""alt. month""
msgid ""May""
msgstr ""május""

msgctxt ""alt. month""
msgid ""November""
msgstr ""november""

msgctxt ""alt. month""
msgid ""October""
msgstr ""október""

msgctxt ""alt. month""
msgid ""September""
msgstr ""szeptember""

msgctxt ""naturaltime-future""
msgid ""%[1]v day""
msgid_plural ""%[1]v days""
msgstr[0] ""%[1]v nap""
msgstr[1] ""%[1]v nap""

msgctxt ""naturaltime-future""
msgid ""%[1]v hour""
msgid_plural ""%[1]v hours""
msgstr[0] ""%[1]v óra""
msgstr[1] ""%[1]v óra""

msgctxt ""naturaltime-future""
msgid ""%[1]v minute""
msgid_plural ""%[1]v minutes""
msgstr[0] ""%[1]v perc""
msgstr[1] ""%[1]v perc""

msgctxt ""naturaltime-future""
msgid ""%[1]v month""
msgid_plural ""%[1]v months""
msgstr[0] ""%[1]v hónap""
msgstr[1] ""%[1]v hónap""

msgctxt ""naturaltime-future""
msgid ""%[1]v week""
msgid_plural ""%[1]v weeks""
msgstr[0] ""%[1]v hét""
msgstr[1] ""%[1]v hét""

msgctxt ""naturaltime-future""
msgid ""%[1]v year""
msgid_plural ""%[1]v years""
msgstr[0] ""%[1]v év""
msgstr[1] ""%[1]v év""

msgctxt ""naturaltime-past""
msgid ""%[1]v day""
msgid_plural ""%[1]v days""
msgstr[0] ""%[1]v nappal""
msgstr[1] ""%[1]v nappal""

msgctxt ""naturaltime-past""
msgid ""%[1]v hour""
msgid_plural ""%[1]v hours""
msgstr[0] ""%[1]v órával""
msgstr[1] ""%[1]v órával""

msgctxt ""naturaltime-past""
msgid ""%[1]v minute""
msgid_plural ""%[1]v minutes""
msgstr[0] ""%[1]v perccel""
msgstr[1] ""%[1]v perccel""

msgctxt ""naturaltime-past""
msgid ""%[1]v month""
msgid_plural ""%[1]v months""
msgstr[0] ""%[1]v hónappal""
msgstr[1] ""%[1]v hónappal""

msgctxt ""naturaltime-past""
msgid ""%[1]v week""
msgid_plural ""%[1]v weeks""
msgstr[0] ""%[1]v héttel""
msgstr[1] ""%[1]v héttel""

msgctxt ""naturaltime-past""
msgid ""%[1]v year""
msgid_plural ""%[1]v years""
msgstr[0] ""%[1]v évvel""
msgstr[1] ""%[1]v évvel""

msgctxt ""ordinal 0""
msgid ""%vth""
msgstr ""%v.""

msgctxt ""ordinal 1""
msgid ""%vst""
msgstr ""%v.""

msgctxt ""ordinal 11, 12, 13""
msgid ""%vth""
msgstr ""%v.""

msgctxt ""ordinal 2""
msgid ""%vnd""
msgstr ""%v.""

msgctxt ""ordinal 3""
msgid ""%vrd""
msgstr ""%v.""

msgctxt ""ordinal 4""
msgid ""%vth""
msgstr ""%v.""

msgctxt ""ordinal 5""
msgid ""%vth""
msgstr ""%v.""

msgctxt ""ordinal 6""
msgid ""%vth""
msgstr ""%v.""

msgctxt ""ordinal 7""
msgid ""%vth""
msgstr ""%v.""

msgctxt ""ordinal 8""
msgid ""%vth""
msgstr ""%v.""

msgctxt ""ordinal 9""
msgid ""%vth""
msgstr ""%v.""
".
(** humanize/locale/hu/locale.go (New) *)
Definition loc_hu : locale_data := LD (bs "hu") [(bs "django.po", po_hu)]
  (Some (FD (bs "Y. F j.") (bs "H:i") (bs "Y. F j. H:i") (bs "Y. F") (bs "F j.") (bs "Y.m.d.") (bs "Y.m.d. H:i"))).

Definition shipped_4 : list (bytes * locale_data) :=
  [(bs "fr", loc_fr);
   (bs "fy", loc_fy);
   (bs "ga", loc_ga);
   (bs "gd", loc_gd);
   (bs "gl", loc_gl);
   (bs "he", loc_he);
   (bs "hi", loc_hi);
   (bs "hr", loc_hr);
   (bs "hsb", loc_hsb);
   (bs "hu", loc_hu)].
