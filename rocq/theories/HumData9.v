(** Translations and formats that come with humanize, part 9: generated by
    tools/gen_humdata.py from /repo/humanize/locale, django.po and the Go file of
    each package. *)
From Coq Require Import String Ascii List.
From Verif Require Import Base DfmtModel HumLocModel.
Import ListNotations.

(** humanize/locale/sv/django.po *)
Definition po_sv : bytes := bs "# This file is distributed under the same license as the Django package.
# 
# Translators:
# Albin Larsson <albin.post@gmail.com>, 2022
# Alex Nordlund <deep.alexander@gmail.com>, 2012
# Anders Hovmöller <boxed@killingar.net>, 2023
# Anders Jonsson <transifex@norsjovallen.se>, 2022
# Andreas Pelme <andreas@pelme.se>, 2014,2021
# Elias Johnstone <eli87as@gmail.com>, 2022
# Gustaf Hansen <gustaf.hansen@gmail.com>, 2015
# Jannis Leidel <jannis@leidel.info>, 2011
# Jonathan Lindén, 2014-2015
# Jonathan Lindén, 2015
# Jörgen Olofsson, 2024
# Jörgen Olofsson, 2024
# Ken Lewerentz, 2022
# Ken Lewerentz, 2022
# Jonathan Lindén, 2014
# Mattias Benjaminsson <mattias@colourandcode.se>, 2011
# Mattias Hansson <mattias.gothenburg@gmail.com>, 2016
# Mattias Benjaminsson <mattias@colourandcode.se>, 2011
# Petter Strandmark <petter.strandmark@gmail.com>, 2019
# Rasmus Précenth <prillan91@gmail.com>, 2014
# Samuel Linde <samuel@linde.im>, 2011
# Thomas Lundqvist, 2013,2016
# Thomas Lundqvist, 2013,2016
# Tomas Lööw <tomas.loow@mailbox.org>, 2021
msgid """"
msgstr """"
""Project-Id-Version: django\n""
""Report-Msgid-Bugs-To: \n""
""POT-Creation-Date: 2025-03-19 11:30-0500\n""
""PO-Revision-Date: 2025-09-17 06:49+0000\n""
""Last-Translator: Tomas Lööw <tomas.loow@mailbox.org>, 2021\n""
""Language-Team: Swedish (http://app.transifex.com/django/django/language/sv/)\n""
""Language: sv\n""
""MIME-Version: 1.0\n""
""Content-Type: text/plain; charset=UTF-8\n""
""Content-Transfer-Encoding: 8bit\n""
""Plural-Forms: nplurals=2; plural=(n != 1);\n""

msgid ""%[1]d byte""
msgid_plural ""%[1]d bytes""
msgstr[0] ""%[1]d byte""
msgstr[1] ""%[1]d byte""

msgid ""%[1]s billion""
msgid_plural ""%[1]s billion""
msgstr[0] ""%[1]s miljard""
msgstr[1] ""%[1]s miljarder""

msgid ""%[1]s decillion""
msgid_plural ""%[1]s decillion""
msgstr[0] ""%[1]s kvintiljard""
msgstr[1] ""%[1]s kvintiljarder""

msgid ""%[1]s googol""
msgid_plural ""%[1]s googol""
msgstr[0] ""%[1]s googol""
msgstr[1] ""%[1]s googoler""

msgid ""%[1]s million""
msgid_plural ""%[1]s million""
msgstr[0] ""%[1]s miljon""
msgstr[1] ""%[1]s miljoner""

msgid ""%[1]s nonillion""
msgid_plural ""%[1]s nonillion""
msgstr[0] ""%[1]s kvintiljon""
msgstr[1] ""%[1]s kvintiljoner""

msgid ""%[1]s octillion""
msgid_plural ""%[1]s octillion""
msgstr[0] ""%[1]s kvadriljard""
msgstr[1] ""%[1]s kvadriljarder""

msgid ""%[1]s quadrillion""
msgid_plural ""%[1]s quadrillion""
msgstr[0] ""%[1]s biljard""
msgstr[1] ""%[1]s biljarder""

msgid ""%[1]s quintillion""
msgid_plural ""%[1]s quintillion""
msgstr[0] ""%[1]s kvintiljon""
msgstr[1] ""%[1]s kvintiljoner""

msgid ""%[1]s septillion""
msgid_plural ""%[1]s septillion""
msgstr[0] ""%[1]s kvadriljon""
msgstr[1] ""%[1]s kvadriljoner""

msgid ""%[1]s sextillion""
msgid_plural ""%[1]s sextillion""
msgstr[0] ""%[1]s triljard""
msgstr[1] ""%[1]s triljarder""

msgid ""%[1]s trillion""
msgid_plural ""%[1]s trillion""
msgstr[0] ""%[1]s triljon""
msgstr[1] ""%[1]s triljoner""

msgid ""%[1]v ago""
msgstr ""%[1]v sedan""

msgid ""%[1]v day""
msgid_plural ""%[1]v days""
msgstr[0] ""%[1]v dag""
msgstr[1] ""%[1]v dagar""

msgid ""%[1]v from now""
msgstr ""om %[1]v""

msgid ""%[1]v hour""
msgid_plural ""%[1]v hours""
msgstr[0] ""%[1]v timme""
msgstr[1] ""%[1]v timmar""

msgid ""%[1]v minute""
msgid_plural ""%[1]v minutes""
msgstr[0] ""%[1]v minut""
msgstr[1] ""%[1]v minuter""

msgid ""%[1]v month""
msgid_plural ""%[1]v months""
msgstr[0] ""%[1]v månad""
msgstr[1] ""%[1]v månader""

msgid ""%[1]v week""
msgid_plural ""%[1]v weeks""
msgstr[0] ""%[1]v vecka""
msgstr[1] ""%[1]v veckor""

msgid ""%[1]v year""
msgid_plural ""%[1]v years""
msgstr[0] ""%[1]v år""
msgstr[1] ""%[1]v år""

msgid ""%s GB""
msgstr ""%s GB""

msgid ""%s KB""
msgstr ""%s kB""

msgid ""%s MB""
msgstr ""%s MB""

msgid ""%s PB""
msgstr ""%s PB""

msgid ""%s TB""
msgstr ""%s TB""

msgid "", ""
msgstr "", ""

msgid ""AM""
msgstr ""EM""

msgid ""Afrikaans""
msgstr ""Afrikaans""

msgid ""Albanian""
msgstr ""Albanska""

msgid ""Algerian Arabic""
msgstr ""Algerisk arabiska""

msgid ""April""
msgstr ""april""

msgid ""Arabic""
msgstr ""Arabiska""

msgid ""Argentinian Spanish""
msgstr ""Argentinsk spanska""

msgid ""Armenian""
msgstr ""Armeniska""

msgid ""Asturian""
msgstr ""Asturiska""

msgid ""August""
msgstr ""augusti""

msgid ""Australian English""
msgstr ""Australisk engelska""

msgid ""Azerbaijani""
msgstr ""Azerbajdzjanska""

msgid ""Basque""
msgstr ""Baskiska""

msgid ""Belarusian""
msgstr ""Vitryska""

msgid ""Bengali""
msgstr ""Bengaliska""

msgid ""Bosnian""
msgstr ""Bosniska""

msgid ""Brazilian Portuguese""
msgstr ""Brasiliensk portugisiska""

msgid ""Breton""
msgstr ""Bretonska""

msgid ""British English""
msgstr ""Brittisk engelska""

msgid ""Bulgarian""
msgstr ""Bulgariska""

msgid ""Burmese""
msgstr ""Burmesiska""

msgid ""Catalan""
msgstr ""Katalanska""

msgid ""Central Kurdish (Sorani)""
msgstr ""Kurdiska (Sorani)""

msgid ""Colombian Spanish""
msgstr ""Colombiansk spanska""

msgid ""Croatian""
msgstr ""Kroatiska""

msgid ""Czech""
msgstr ""Tjeckiska""

msgid ""Danish""
msgstr ""Danska""

msgid ""December""
msgstr ""december""

msgid ""Dutch""
msgstr ""Holländska""

msgid ""English""
msgstr ""Engelska""

msgid ""Esperanto""
msgstr ""Esperanto""

msgid ""Estonian""
msgstr ""Estländska""

msgid ""February""
msgstr ""februari""

msgid ""Finnish""
msgstr ""Finska""

msgid ""French""
msgstr ""Franska""

msgid ""Fri""
msgstr ""fre""

msgid ""Friday""
msgstr ""fredag""

msgid ""Frisian""
msgstr ""Frisiska""

msgid ""Galician""
msgstr ""Galisiska""

msgid ""Georgian""
msgstr ""Georgiska""

msgid ""German""
msgstr ""Tyska""

msgid ""Greek""
msgstr ""Grekiska""

msgid ""Hebrew""
msgstr ""Hebreiska""

msgid ""Hindi""
msgstr ""Hindi""

msgid ""Hungarian""
msgstr ""Ungerska""

msgid ""Icelandic""
msgstr ""Isländska""

msgid ""Ido""
msgstr ""Ido""

msgid ""Igbo""
msgstr ""Igbo""

msgid ""Indonesian""
msgstr ""Indonesiska""

msgid ""Interlingua""
msgstr ""Interlingua""

msgid ""Irish""
msgstr ""Irländska""

msgid ""Italian""
msgstr ""Italienska""

msgid ""January""
msgstr ""januari""

msgid ""Japanese""
msgstr ""Japanska""

msgid ""July""
msgstr ""juli""

msgid ""June""
msgstr ""juni""

msgid ""Kabyle""
msgstr ""Kabyliska""

msgid ""Kannada""
msgstr ""Kannada""

msgid ""Kazakh""
msgstr ""Kazakiska""

msgid ""Khmer""
msgstr ""Khmer""

msgid ""Korean""
msgstr ""Koreanska""

msgid ""Kyrgyz""
msgstr ""Kirgiziska""

msgid ""Latvian""
msgstr ""Lettiska""

msgid ""Lithuanian""
msgstr ""Lettiska""

msgid ""Lower Sorbian""
msgstr ""Lågsorbiska""

msgid ""Luxembourgish""
msgstr ""Luxemburgiska""

msgid ""Macedonian""
msgstr ""Makedonska""

msgid ""Malay""
msgstr ""Malajiska""

msgid ""Malayalam""
msgstr ""Malayalam""

msgid ""Marathi""
msgstr ""Marathi""

msgid ""March""
msgstr ""mars""

msgid ""May""
msgstr ""maj""

msgid ""Mexican Spanish""
msgstr ""Mexikansk spanska""

msgid ""Mon""
msgstr ""mån""

msgid ""Monday""
msgstr ""måndag""

msgid ""Mongolian""
msgstr ""Mongoliska""

msgid ""Nepali""
msgstr ""Nepali""

msgid ""Nicaraguan Spanish""
msgstr ""Nicaraguansk spanska""

msgid ""Norwegian Bokmål""
msgstr ""Norskt Bokmål""

msgid ""Norwegian Nynorsk""
msgstr ""Norska (nynorsk)""

msgid ""November""
msgstr ""november""

msgid ""October""
msgstr ""oktober""

msgid ""Ossetic""
msgstr ""Ossetiska""

msgid ""PM""
msgstr ""FM""

msgid ""Persian""
msgstr ""Persiska""

msgid ""Polish""
msgstr ""Polska""

msgid ""Portuguese""
msgstr ""Portugisiska""

msgid ""Punjabi""
msgstr ""Punjabi""

msgid ""Romanian""
msgstr ""Rumänska""

msgid ""Russian""
msgstr ""Ryska""

msgid ""Sat""
msgstr ""lör""

msgid ""Saturday""
msgstr ""lördag""

msgid ""Scottish Gaelic""
msgstr ""Skotsk gäliska""

msgid ""September""
msgstr ""september""

msgid ""Serbian""
msgstr ""Serbiska""

msgid ""Serbian Latin""
msgstr ""Serbiska (latin)""

msgid ""Simplified Chinese""
msgstr ""Förenklad Kinesiska""

msgid ""Slovak""
msgstr ""Slovakiska""

msgid ""Slovenian""
msgstr ""Slovenska""

msgid ""Spanish""
msgstr ""Spanska""

msgid ""Sun""
msgstr ""sön""

msgid ""Sunday""
msgstr ""söndag""

msgid ""Swahili""
msgstr ""Swahili""

msgid ""Swedish""
msgstr ""Svenska""

msgid ""Tajik""
msgstr ""Tadzjikiska""

msgid ""Tamil""
msgstr ""Tamilska""

msgid ""Tatar""
msgstr ""Tatariska""

msgid ""Telugu""
msgstr ""Telugu""

msgid ""Thai""
msgstr ""Thailändska""

msgid ""Thu""
msgstr ""tors""

msgid ""Thursday""
msgstr ""torsdag""

msgid ""Traditional Chinese""
msgstr ""Traditionell Kinesiska""

msgid ""Tue""
msgstr ""tis""

msgid ""Tuesday""
msgstr ""tisdag""

msgid ""Turkish""
msgstr ""Turkiska""

msgid ""Turkmen""
msgstr ""Turkmeniska""

msgid ""Udmurt""
msgstr ""Udmurtiska""

msgid ""Ukrainian""
msgstr ""Ukrainska""

msgid ""Upper Sorbian""
msgstr ""Högsorbiska""

msgid ""Urdu""
msgstr ""Urdu""

msgid ""Uyghur""
msgstr ""Uiguriska""

msgid ""Uzbek""
msgstr ""Uzbekiska""

msgid ""Venezuelan Spanish""
msgstr ""Spanska (Venezuela)""

msgid ""Vietnamese""
msgstr ""Vietnamesiska""

msgid ""Wed""
msgstr ""ons""

msgid ""Wednesday""
msgstr ""onsdag""

msgid ""Welsh""
msgstr ""Walesiska""

msgid ""a minute ago""
msgid_plural ""%[1]v minutes ago""
msgstr[0] ""en minut sedan""
msgstr[1] ""%[1]v minuter sedan""

msgid ""a minute from now""
msgid_plural ""%[1]v minutes from now""
msgstr[0] ""en minut från nu""
msgstr[1] ""om %[1]v minuter""

msgid ""a second ago""
msgid_plural ""%[1]v seconds ago""
msgstr[0] ""en sekund sedan""
msgstr[1] ""%[1]v sekunder sedan""

msgid ""a second from now""
msgid_plural ""%[1]v seconds from now""
msgstr[0] ""en sekund från nu""
msgstr[1] ""om %[1]v sekunder""

msgid ""a.m.""
msgstr ""f.m.""

msgid ""an hour ago""
msgid_plural ""%[1]v hours ago""
msgstr[0] ""en timme sedan""
msgstr[1] ""%[1]v timmar sedan""

msgid ""an hour from now""
msgid_plural ""%[1]v hours from now""
msgstr[0] ""en timme från nu""
msgstr[1] ""om %[1]v timmar""

msgid ""apr""
msgstr ""apr""

msgid ""aug""
msgstr ""aug""

msgid ""dec""
msgstr ""dec""

msgid ""eight""
msgstr ""åtta""

msgid ""feb""
msgstr ""feb""

msgid ""five""
msgstr ""fem""

msgid ""four""
msgstr ""fyra""

msgid ""jan""
msgstr ""jan""

msgid ""jul""
msgstr ""jul""

msgid ""jun""
msgstr ""jun""

msgid ""mar""
msgstr ""mar""

msgid ""may""
msgstr ""maj""

msgid ""midnight""
msgstr ""midnatt""

msgid ""nine""
msgstr ""nio""

msgid ""noon""
msgstr ""middag""

msgid ""nov""
msgstr ""nov""

msgid ""now""
msgstr ""nu""

msgid ""oct""
msgstr ""okt""

msgid ""one""
msgstr ""ett""

msgid ""p.m.""
msgstr ""e.m.""

msgid ""sep""
msgstr ""sep""

msgid ""seven""
msgstr ""sju""

msgid ""six""
msgstr ""sex""

msgid ""three""
msgstr ""tre""

msgid ""today""
msgstr ""i dag""

msgid ""tomorrow""
msgstr ""i morgon""

msgid ""two""
msgstr ""två""

msgid ""yesterday""
msgstr ""i går""

msgctxt ""abbrev. month""
msgid ""April""
msgstr ""april""

msgctxt ""abbrev. month""
msgid ""Aug.""
msgstr ""aug""

msgctxt ""abbrev. month""
msgid ""Dec.""
msgstr ""dec""

msgctxt ""abbrev. month""
msgid ""Feb.""
msgstr ""feb""

msgctxt ""abbrev. month""
msgid ""Jan.""
msgstr ""jan""

msgctxt ""abbrev. month""
msgid ""July""
msgstr ""juli""

msgctxt ""abbrev. month""
msgid ""June""
msgstr ""juni""

msgctxt ""abbrev. month""
msgid ""March""
msgstr ""mars""

msgctxt ""abbrev. month""
msgid ""May""
msgstr ""maj""

msgctxt ""abbrev. month""
msgid ""Nov.""
msgstr ""nov""

msgctxt ""abbrev. month""
msgid ""Oct.""
msgstr ""okt""

msgctxt ""abbrev. month""
msgid ""Sept.""
msgstr ""sep""

msgctxt ""alt. month""
msgid ""April""
msgstr ""april""

msgctxt ""alt. month""
msgid ""August""
msgstr ""augusti""

msgctxt ""alt. month""
msgid ""December""
msgstr ""december""

msgctxt ""alt. month""
msgid ""February""
msgstr ""februari""

msgctxt ""alt. month""
msgid ""January""
msgstr ""januari""

msgctxt ""alt. month""
msgid ""July""
msgstr ""juli""

msgctxt ""alt. month""
msgid ""June""
msgstr ""juni""

msgctxt ""alt. month""
msgid ""March""
msgstr ""mars""

msgctxt ""alt. month""
msgid ""May""
msgstr ""maj""

msgctxt ""alt. month""
msgid ""November""
msgstr ""november""

msgctxt ""alt. month""
msgid ""October""
msgstr ""oktober""

msgctxt ""alt. month""
msgid ""September""
msgstr ""september""

msgctxt ""naturaltime-future""
msgid ""%[1]v day""
msgid_plural ""%[1]v days""
msgstr[0] ""%[1]v dag""
msgstr[1] ""%[1]v dagar""

msgctxt ""naturaltime-future""
msgid ""%[1]v hour""
msgid_plural ""%[1]v hours""
msgstr[0] ""%[1]v timme""
msgstr[1] ""%[1]v timmar""

msgctxt ""naturaltime-future""
msgid ""%[1]v minute""
msgid_plural ""%[1]v minutes""
msgstr[0] ""%[1]v minut""
msgstr[1] ""%[1]v minuter""

msgctxt ""naturaltime-future""
msgid ""%[1]v month""
msgid_plural ""%[1]v months""
msgstr[0] ""%[1]v månad""
msgstr[1] ""%[1]v månader""

msgctxt ""naturaltime-future""
msgid ""%[1]v week""
msgid_plural ""%[1]v weeks""
msgstr[0] ""%[1]v vecka""
msgstr[1] ""%[1]v veckor""

msgctxt ""naturaltime-future""
msgid ""%[1]v year""
msgid_plural ""%[1]v years""
msgstr[0] ""%[1]v år""
msgstr[1] ""%[1]v år""

msgctxt ""naturaltime-past""
msgid ""%[1]v day""
msgid_plural ""%[1]v days""
msgstr[0] ""%[1]v dag""
msgstr[1] ""%[1]v dagar""

msgctxt ""naturaltime-past""
msgid ""%[1]v hour""
msgid_plural ""%[1]v hours""
msgstr[0] ""%[1]v timme""
msgstr[1] ""%[1]v timmar""

msgctxt ""naturaltime-past""
msgid ""%[1]v minute""
msgid_plural ""%[1]v minutes""
msgstr[0] ""%[1]v minut""
msgstr[1] ""%[1]v minuter""

msgctxt ""naturaltime-past""
msgid ""%[1]v month""
msgid_plural ""%[1]v months""
msgstr[0] ""%[1]v månad""
msgstr[1] ""%[1]v månader""

msgctxt ""naturaltime-past""
msgid ""%[1]v week""
msgid_plural ""%[1]v weeks""
msgstr[0] ""%[1]v vecka""
msgstr[1] ""%[1]v veckor""

msgctxt ""naturaltime-past""
msgid ""%[1]v year""
msgid_plural ""%[1]v years""
msgstr[0] ""%[1]v år""
msgstr[1] ""%[1]v år""

msgctxt ""ordinal 0""
msgid ""%vth""
msgstr ""%v:e""

msgctxt ""ordinal 1""
msgid ""%vst""
msgstr ""%v:a""

msgctxt ""ordinal 11, 12, 13""
msgid ""%vth""
msgstr ""%v:e""

msgctxt ""ordinal 2""
msgid ""%vnd""
msgstr ""%v:a""

msgctxt ""ordinal 3""
msgid ""%vrd""
msgstr ""%v:e""

msgctxt ""ordinal 4""
msgid ""%vth""
msgstr ""%v:e""

msgctxt ""ordinal 5""
msgid ""%vth""
msgstr ""%v:e""

msgctxt ""ordinal 6""
msgid ""%vth""
msgstr ""%v:e""

msgctxt ""ordinal 7""
msgid ""%vth""
msgstr ""%v:e""

msgctxt ""ordinal 8""
msgid ""%vth""
msgstr ""%v:e""

msgctxt ""ordinal 9""
msgid ""%vth""
msgstr ""%v:e""
".
(** humanize/locale/sv/locale.go (New) *)
Definition loc_sv : locale_data := LD (bs "sv") [(bs "django.po", po_sv)]
  (Some (FD (bs "j F Y") (bs "H:i") (bs "j F Y H:i") (bs "F Y") (bs "j F") (bs "Y-m-d") (bs "Y-m-d H:i"))).

(** humanize/locale/sw/django.po *)
Definition po_sw : bytes := bs "# This file is distributed under the same license as the Django package.
# 
# Translators:
# Machaku, 2015
# Machaku, 2014
msgid """"
msgstr """"
""Project-Id-Version: django\n""
""Report-Msgid-Bugs-To: \n""
""POT-Creation-Date: 2019-09-27 22:40+0200\n""
""PO-Revision-Date: 2019-11-05 00:38+0000\n""
""Last-Translator: Ramiro Morales\n""
""Language-Team: Swahili (http://www.transifex.com/django/django/language/sw/)\n""
""Language: sw\n""
""MIME-Version: 1.0\n""
""Content-Type: text/plain; charset=UTF-8\n""
""Content-Transfer-Encoding: 8bit\n""
""Plural-Forms: nplurals=2; plural=(n != 1);\n""

msgid ""%[1]d byte""
msgid_plural ""%[1]d bytes""
msgstr[0] ""baiti %[1]d""
msgstr[1] ""baiti %[1]d""

msgid ""%[1]s billion""
msgid_plural ""%[1]s billion""
msgstr[0] ""bilioni %[1]s""
msgstr[1] ""bilioni %[1]s""

msgid ""%[1]s decillion""
msgid_plural ""%[1]s decillion""
msgstr[0] ""desilioni %[1]s""
msgstr[1] ""desilioni %[1]s""

msgid ""%[1]s googol""
msgid_plural ""%[1]s googol""
msgstr[0] ""gogoli %[1]s""
msgstr[1] ""gogoli %[1]s""

msgid ""%[1]s million""
msgid_plural ""%[1]s million""
msgstr[0] ""milioni %[1]s""
msgstr[1] ""milioni %[1]s""

msgid ""%[1]s nonillion""
msgid_plural ""%[1]s nonillion""
msgstr[0] ""nonilioni %[1]s""
msgstr[1] ""nonilioni %[1]s""

msgid ""%[1]s octillion""
msgid_plural ""%[1]s octillion""
msgstr[0] ""oktilioni %[1]s""
msgstr[1] ""oktilioni %[1]s""

msgid ""%[1]s quadrillion""
msgid_plural ""%[1]s quadrillion""
msgstr[0] ""kuadrilioni %[1]s""
msgstr[1] ""kuadrilioni %[1]s""

msgid ""%[1]s quintillion""
msgid_plural ""%[1]s quintillion""
msgstr[0] ""kuintilioni %[1]s""
msgstr[1] ""kuintilioni %[1]s""

msgid ""%[1]s septillion""
msgid_plural ""%[1]s septillion""
msgstr[0] ""septilioni %[1]s""
msgstr[1] ""septilioni %[1]s""

msgid ""%[1]s sextillion""
msgid_plural ""%[1]s sextillion""
msgstr[0] ""seksitilioni %[1]s""
msgstr[1] ""seksitilioni %[1]s""

msgid ""%[1]s trillion""
msgid_plural ""%[1]s trillion""
msgstr[0] ""trilioni %[1]s""
msgstr[1] ""trilioni %[1]s""

msgid ""%s GB""
msgstr ""GB %s""

msgid ""%s KB""
msgstr ""KB %s""

msgid ""%s MB""
msgstr ""MB %s""

msgid ""%s PB""
msgstr ""PB %s""

msgid ""%s TB""
msgstr ""TB %s""

msgid "", ""
msgstr "", ""

msgid ""AM""
msgstr ""AM""

msgid ""Afrikaans""
msgstr ""Kiafrikaani""

msgid ""Albanian""
msgstr ""Kialbania""

msgid ""April""
msgstr ""Aprili""

msgid ""Arabic""
msgstr ""Kiarabu""

msgid ""Argentinian Spanish""
msgstr ""Kihispania cha Argentina""

msgid ""Armenian""
msgstr """"

msgid ""Asturian""
msgstr """"

msgid ""August""
msgstr ""Agosti""

msgid ""Australian English""
msgstr ""Kiingereza cha Kiaustalia""

msgid ""Azerbaijani""
msgstr ""Kiazerbaijani""

msgid ""Basque""
msgstr ""Kibaskyue""

msgid ""Belarusian""
msgstr ""Kibelarusi""

msgid ""Bengali""
msgstr ""Kibengali""

msgid ""Bosnian""
msgstr ""Kibosnia""

msgid ""Brazilian Portuguese""
msgstr ""Kireno cha Kibrazili""

msgid ""Breton""
msgstr ""Kibretoni""

msgid ""British English""
msgstr ""Kiingereza cha Uingereza""

msgid ""Bulgarian""
msgstr ""Kibulgaria""

msgid ""Burmese""
msgstr """"

msgid ""Catalan""
msgstr ""Kikatalani""

msgid ""Colombian Spanish""
msgstr """"

msgid ""Croatian""
msgstr ""Kikroeshia""

msgid ""Czech""
msgstr ""Kicheki""

msgid ""Danish""
msgstr ""Kideni""

msgid ""December""
msgstr ""Disemba""

msgid ""Dutch""
msgstr ""Kidachi""

msgid ""English""
msgstr ""Kiingereza""

msgid ""Esperanto""
msgstr ""Kiesperanto""

msgid ""Estonian""
msgstr ""Kiestonia""

msgid ""February""
msgstr ""Februari""

msgid ""Finnish""
msgstr ""Kifini""

msgid ""French""
msgstr ""Kifaransa""

msgid ""Fri""
msgstr ""Ijmaa""

msgid ""Friday""
msgstr ""Ijumaa""

msgid ""Frisian""
msgstr ""Kifrisi""

msgid ""Galician""
msgstr ""Kigalatia""

msgid ""Georgian""
msgstr ""Kijiojia""

msgid ""German""
msgstr ""Kijerumani""

msgid ""Greek""
msgstr ""Kigiriki""

msgid ""Hebrew""
msgstr ""Kiyahudi""

msgid ""Hindi""
msgstr ""Kihindi""

msgid ""Hungarian""
msgstr ""Kihangaria""

msgid ""Icelandic""
msgstr ""Kiaiselandi""

msgid ""Ido""
msgstr """"

msgid ""Indonesian""
msgstr ""Kiindonesia""

msgid ""Interlingua""
msgstr """"

msgid ""Irish""
msgstr ""Kiairishi""

msgid ""Italian""
msgstr ""Kiitaliano""

msgid ""January""
msgstr ""Januari""

msgid ""Japanese""
msgstr ""Kijapani""

msgid ""July""
msgstr ""Julai""

msgid ""June""
msgstr ""Juni""

msgid ""Kabyle""
msgstr """"

msgid ""Kannada""
msgstr ""Kikanada""

msgid ""Kazakh""
msgstr ""Kizakhi""

msgid ""Khmer""
msgstr ""Kihema""

msgid ""Korean""
msgstr ""Kikorea""

msgid ""Latvian""
msgstr ""Kilatvia""

msgid ""Lithuanian""
msgstr ""Kilithuania""

msgid ""Lower Sorbian""
msgstr """"

msgid ""Luxembourgish""
msgstr """"

msgid ""Macedonian""
msgstr ""Kimacedonia""

msgid ""Malayalam""
msgstr ""Kimalayalam""

msgid ""Marathi""
msgstr """"

msgid ""March""
msgstr ""Machi""

msgid ""May""
msgstr ""Mei""

msgid ""Mexican Spanish""
msgstr ""Kihispania cha Mexico""

msgid ""Mon""
msgstr ""Jtatu""

msgid ""Monday""
msgstr ""Jumatatu""

msgid ""Mongolian""
msgstr ""Kimongolia""

msgid ""Nepali""
msgstr ""Kinepali""

msgid ""Nicaraguan Spanish""
msgstr ""Kihispania cha Nikaragua""

msgid ""Norwegian Bokmål""
msgstr """"

msgid ""Norwegian Nynorsk""
msgstr ""Kinynorki cha Kinorwei""

msgid ""November""
msgstr ""Novemba""

msgid ""October""
msgstr ""Oktoba""

msgid ""Ossetic""
msgstr """"

msgid ""PM""
msgstr ""PM""

msgid ""Persian""
msgstr ""Kipershia""

msgid ""Polish""
msgstr ""Kipolishi""

msgid ""Portuguese""
msgstr ""Kireno""

msgid ""Punjabi""
msgstr ""Kipanjabi""

msgid ""Romanian""
msgstr ""Kiromania""

msgid ""Russian""
msgstr ""Kirusi""

msgid ""Sat""
msgstr ""Jmosi""

msgid ""Saturday""
msgstr ""Jumamosi""

msgid ""Scottish Gaelic""
msgstr """"

msgid ""September""
msgstr ""Septemba""

msgid ""Serbian""
msgstr ""Kiserbia""

msgid ""Serbian Latin""
msgstr ""Kilatini cha Kiserbia""

msgid ""Simplified Chinese""
msgstr ""Kichina Kilichorahisishwa""

msgid ""Slovak""
msgstr ""Kislovakia""

msgid ""Slovenian""
msgstr ""Kislovenia""

msgid ""Spanish""
msgstr ""Kihispania""

msgid ""Sun""
msgstr ""Jpili""

msgid ""Sunday""
msgstr ""Jumapili""

msgid ""Swahili""
msgstr ""Kiswahili""

msgid ""Swedish""
msgstr ""Kiswidi""

msgid ""Tamil""
msgstr ""Kitamili""

msgid ""Tatar""
msgstr ""Kitatari""

msgid ""Telugu""
msgstr ""kitegulu""

msgid ""Thai""
msgstr ""Kithai""

msgid ""Thu""
msgstr ""Alh""

msgid ""Thursday""
msgstr ""Alhamisi""

msgid ""Traditional Chinese""
msgstr ""Kichina Asilia""

msgid ""Tue""
msgstr ""Jnne""

msgid ""Tuesday""
msgstr ""Jumanne""

msgid ""Turkish""
msgstr ""Kituruki""

msgid ""Udmurt""
msgstr """"

msgid ""Ukrainian""
msgstr ""Kiukreni""

msgid ""Upper Sorbian""
msgstr """"

msgid ""Urdu""
msgstr ""Kiurdu""

msgid ""Uzbek""
msgstr """"

msgid ""Venezuelan Spanish""
msgstr ""Kihispania cha Kivenezuela""

msgid ""Vietnamese""
msgstr ""Kivietinamu""

msgid ""Wed""
msgstr ""jtano""

msgid ""Wednesday""
msgstr ""Jumatano""

msgid ""Welsh""
msgstr ""Kiweli""

msgid ""a minute ago""
msgid_plural ""%[1]v minutes ago""
msgstr[0] ""Dakika iliyopita""
msgstr[1] ""Dakika %[1]v zilizopita""

msgid ""a minute from now""
msgid_plural ""%[1]v minutes from now""
msgstr[0] ""Dakika moja kutoka sasa""
msgstr[1] ""Dakika %[1]v kutoka sasa""

msgid ""a second ago""
msgid_plural ""%[1]v seconds ago""
msgstr[0] ""Sekunde iliyopita""
msgstr[1] ""Sekunde %[1]v zilizopita""

msgid ""a second from now""
msgid_plural ""%[1]v seconds from now""
msgstr[0] ""Sekunde moja kutoka sasa""
msgstr[1] ""Sekunde %[1]v kutoka sasa""

msgid ""a.m.""
msgstr ""a.m""

msgid ""an hour ago""
msgid_plural ""%[1]v hours ago""
msgstr[0] ""Saa lililopita""
msgstr[1] ""Masaa %[1]v yaliyopita""

msgid ""an hour from now""
msgid_plural ""%[1]v hours from now""
msgstr[0] ""Saa limoja kutoka sasa ""
msgstr[1] ""Masaa %[1]v kutoka sasa""

msgid ""apr""
msgstr ""apr""

msgid ""aug""
msgstr ""ago""

msgid ""dec""
msgstr ""dis""

msgid ""eight""
msgstr ""nane""

msgid ""feb""
msgstr ""feb""

msgid ""five""
msgstr ""tano""

msgid ""four""
msgstr ""nne""

msgid ""jan""
msgstr ""jan""

msgid ""jul""
msgstr ""jul""

msgid ""jun""
msgstr ""Juni""

msgid ""mar""
msgstr ""machi""

msgid ""may""
msgstr ""mei""

msgid ""midnight""
msgstr ""usiku wa manane""

msgid ""nine""
msgstr ""tisa""

msgid ""noon""
msgstr ""mchana""

msgid ""nov""
msgstr ""nov""

msgid ""now""
msgstr ""sasa""

msgid ""oct""
msgstr ""okt""

msgid ""one""
msgstr ""moja""

msgid ""p.m.""
msgstr ""p.m""

msgid ""sep""
msgstr ""sep""

msgid ""seven""
msgstr ""saba""

msgid ""six""
msgstr ""sita""

msgid ""three""
msgstr ""tatu""

msgid ""today""
msgstr ""leo""

msgid ""tomorrow""
msgstr ""kesho""

msgid ""two""
msgstr ""mbili""

msgid ""yesterday""
msgstr ""jana""

msgctxt ""abbrev. month""
msgid ""April""
msgstr ""Aprili""

msgctxt ""abbrev. month""
msgid ""Aug.""
msgstr ""Ago.""

msgctxt ""abbrev. month""
msgid ""Dec.""
msgstr ""Dis.""

msgctxt ""abbrev. month""
msgid ""Feb.""
msgstr ""Feb.""

msgctxt ""abbrev. month""
msgid ""Jan.""
msgstr ""Jan.""

msgctxt ""abbrev. month""
msgid ""July""
msgstr ""Julai""

msgctxt ""abbrev. month""
msgid ""June""
msgstr ""Juni""

msgctxt ""abbrev. month""
msgid ""March""
msgstr ""Machi""

msgctxt ""abbrev. month""
msgid ""May""
msgstr ""Mei""

msgctxt ""abbrev. month""
msgid ""Nov.""
msgstr ""Nov.""

msgctxt ""abbrev. month""
msgid ""Oct.""
msgstr ""Okt.""

msgctxt ""abbrev. month""
msgid ""Sept.""
msgstr ""Sep.""

msgctxt ""alt. month""
msgid ""April""
msgstr ""Aprili""

msgctxt ""alt. month""
msgid ""August""
msgstr ""Agosti""

msgctxt ""alt. month""
msgid ""December""
msgstr ""Disemba""

msgctxt ""alt. month""
msgid ""February""
msgstr ""Februari""

msgctxt ""alt. month""
msgid ""January""
msgstr ""Januari""

msgctxt ""alt. month""
msgid ""July""
msgstr ""Julai""

msgctxt ""alt. month""
msgid ""June""
msgstr ""Juni""

msgctxt ""alt. month""
msgid ""March""
msgstr ""Machi""

msgctxt ""alt. month""
msgid ""May""
msgstr ""Mei""

msgctxt ""alt. month""
msgid ""November""
msgstr ""Novemba""

msgctxt ""alt. month""
msgid ""October""
msgstr ""Oktoba""

msgctxt ""alt. month""
msgid ""September""
msgstr ""Septemba""
".
(** humanize/locale/sw/locale.go (New) *)
Definition loc_sw : locale_data := LD (bs "sw") [(bs "django.po", po_sw)]
  (None).

(** humanize/locale/ta/django.po *)
Definition po_ta : bytes := bs "# This file is distributed under the same license as the Django package.
# 
# Translators:
# Claude Paroz <claude@2xlibre.net>, 2020
# Jannis Leidel <jannis@leidel.info>, 2011
msgid """"
msgstr """"
""Project-Id-Version: django\n""
""Report-Msgid-Bugs-To: \n""
""POT-Creation-Date: 2020-05-19 20:23+0200\n""
""PO-Revision-Date: 2020-07-14 21:42+0000\n""
""Last-Translator: Transifex Bot <>\n""
""Language-Team: Tamil (http://www.transifex.com/django/django/language/ta/)\n""
""Language: ta\n""
""MIME-Version: 1.0\n""
""Content-Type: text/plain; charset=UTF-8\n""
""Content-Transfer-Encoding: 8bit\n""
""Plural-Forms: nplurals=2; plural=(n != 1);\n""

msgid ""%[1]d byte""
msgid_plural ""%[1]d bytes""
msgstr[0] """"
msgstr[1] """"

msgid ""%[1]s billion""
msgid_plural ""%[1]s billion""
msgstr[0] """"
msgstr[1] """"

msgid ""%[1]s decillion""
msgid_plural ""%[1]s decillion""
msgstr[0] """"
msgstr[1] """"

msgid ""%[1]s googol""
msgid_plural ""%[1]s googol""
msgstr[0] """"
msgstr[1] """"

msgid ""%[1]s million""
msgid_plural ""%[1]s million""
msgstr[0] """"
msgstr[1] """"

msgid ""%[1]s nonillion""
msgid_plural ""%[1]s nonillion""
msgstr[0] """"
msgstr[1] """"

msgid ""%[1]s octillion""
msgid_plural ""%[1]s octillion""
msgstr[0] """"
msgstr[1] """"

msgid ""%[1]s quadrillion""
msgid_plural ""%[1]s quadrillion""
msgstr[0] """"
msgstr[1] """"

msgid ""%[1]s quintillion""
msgid_plural ""%[1]s quintillion""
msgstr[0] """"
msgstr[1] """"

msgid ""%[1]s septillion""
msgid_plural ""%[1]s septillion""
msgstr[0] """"
msgstr[1] """"

msgid ""%[1]s sextillion""
msgid_plural ""%[1]s sextillion""
msgstr[0] """"
msgstr[1] """"

msgid ""%[1]s trillion""
msgid_plural ""%[1]s trillion""
msgstr[0] """"
msgstr[1] """"

msgid ""%s GB""
msgstr """"

msgid ""%s KB""
msgstr """"

msgid ""%s MB""
msgstr """"

msgid ""%s PB""
msgstr """"

msgid ""%s TB""
msgstr """"

msgid "", ""
msgstr """"

msgid ""AM""
msgstr """"

msgid ""Afrikaans""
msgstr """"

msgid ""Albanian""
msgstr """"

msgid ""Algerian Arabic""
msgstr """"

msgid ""April""
msgstr ""ஏப்ரல்""

msgid ""Arabic""
msgstr ""அரபிக்""

msgid ""Argentinian Spanish""
msgstr """"

msgid ""Armenian""
msgstr """"

msgid ""Asturian""
msgstr """"

msgid ""August""
msgstr ""ஆகஸ்டு""

msgid ""Australian English""
msgstr """"

msgid ""Azerbaijani""
msgstr """"

msgid ""Basque""
msgstr """"

msgid ""Belarusian""
msgstr """"

msgid ""Bengali""
msgstr ""பெங்காலி""

msgid ""Bosnian""
msgstr """"

msgid ""Brazilian Portuguese""
msgstr """"

msgid ""Breton""
msgstr """"

msgid ""British English""
msgstr """"

msgid ""Bulgarian""
msgstr """"

msgid ""Burmese""
msgstr """"

msgid ""Catalan""
msgstr """"

msgid ""Colombian Spanish""
msgstr """"

msgid ""Croatian""
msgstr """"

msgid ""Czech""
msgstr ""செக்""

msgid ""Danish""
msgstr ""டேனிஷ்""

msgid ""December""
msgstr ""டிசம்பர்""

msgid ""Dutch""
msgstr ""டச்சு""

msgid ""English""
msgstr ""ஆங்கிலம்""

msgid ""Esperanto""
msgstr """"

msgid ""Estonian""
msgstr """"

msgid ""February""
msgstr ""பிப்ரவரி""

msgid ""Finnish""
msgstr ""பீனீஷ்""

msgid ""French""
msgstr ""ப்ரென்சு""

msgid ""Fri""
msgstr """"

msgid ""Friday""
msgstr ""வெள்ளி""

msgid ""Frisian""
msgstr """"

msgid ""Galician""
msgstr ""கலீஷீயன்""

msgid ""Georgian""
msgstr """"

msgid ""German""
msgstr ""ஜெர்மன்""

msgid ""Greek""
msgstr ""கிரேக்கம்""

msgid ""Hebrew""
msgstr ""ஹீப்ரு""

msgid ""Hindi""
msgstr """"

msgid ""Hungarian""
msgstr ""ஹங்கேரியன்""

msgid ""Icelandic""
msgstr ""ஐஸ்லான்டிக்""

msgid ""Ido""
msgstr """"

msgid ""Igbo""
msgstr """"

msgid ""Indonesian""
msgstr """"

msgid ""Interlingua""
msgstr """"

msgid ""Irish""
msgstr """"

msgid ""Italian""
msgstr ""இத்தாலியன்""

msgid ""January""
msgstr ""ஜனவரி""

msgid ""Japanese""
msgstr ""ஜப்பானிய""

msgid ""July""
msgstr ""ஜூலை""

msgid ""June""
msgstr ""ஜூன்""

msgid ""Kabyle""
msgstr """"

msgid ""Kannada""
msgstr """"

msgid ""Kazakh""
msgstr """"

msgid ""Khmer""
msgstr """"

msgid ""Korean""
msgstr """"

msgid ""Kyrgyz""
msgstr """"

msgid ""Latvian""
msgstr """"

msgid ""Lithuanian""
msgstr """"

msgid ""Lower Sorbian""
msgstr """"

msgid ""Luxembourgish""
msgstr """"

msgid ""Macedonian""
msgstr """"

msgid ""Malayalam""
msgstr """"

msgid ""Marathi""
msgstr """"

msgid ""March""
msgstr ""மார்ச்""

msgid ""May""
msgstr ""மே""

msgid ""Mexican Spanish""
msgstr """"

msgid ""Mon""
msgstr """"

msgid ""Monday""
msgstr ""திங்கள்""

msgid ""Mongolian""
msgstr """"

msgid ""Nepali""
msgstr """"

msgid ""Nicaraguan Spanish""
msgstr """"

msgid ""Norwegian Bokmål""
msgstr """"

msgid ""Norwegian Nynorsk""
msgstr """"

msgid ""November""
msgstr ""நவம்பர்""

msgid ""October""
msgstr ""அக்டோபர்""

msgid ""Ossetic""
msgstr """"

msgid ""PM""
msgstr """"

msgid ""Persian""
msgstr """"

msgid ""Polish""
msgstr """"

msgid ""Portuguese""
msgstr """"

msgid ""Punjabi""
msgstr """"

msgid ""Romanian""
msgstr ""ரோமானியன்""

msgid ""Russian""
msgstr ""ரஷ்யன்""

msgid ""Sat""
msgstr """"

msgid ""Saturday""
msgstr ""சனி""

msgid ""Scottish Gaelic""
msgstr """"

msgid ""September""
msgstr ""செப்டம்பர்""

msgid ""Serbian""
msgstr ""செர்பியன்""

msgid ""Serbian Latin""
msgstr """"

msgid ""Simplified Chinese""
msgstr ""எளிய சீன மொழி""

msgid ""Slovak""
msgstr ""சுலோவாக்""

msgid ""Slovenian""
msgstr ""ஸ்லோவேனியன்""

msgid ""Spanish""
msgstr ""ஸ்பானிஷ்""

msgid ""Sun""
msgstr """"

msgid ""Sunday""
msgstr ""ஞாயிறு""

msgid ""Swahili""
msgstr """"

msgid ""Swedish""
msgstr ""சுவிடிஷ்""

msgid ""Tajik""
msgstr """"

msgid ""Tamil""
msgstr ""தமிழ்""

msgid ""Tatar""
msgstr """"

msgid ""Telugu""
msgstr """"

msgid ""Thai""
msgstr """"

msgid ""Thu""
msgstr """"

msgid ""Thursday""
msgstr ""வியாழன்""

msgid ""Traditional Chinese""
msgstr ""மரபு சீன மொழி""

msgid ""Tue""
msgstr """"

msgid ""Tuesday""
msgstr ""செவ்வாய்""

msgid ""Turkish""
msgstr ""துருக்கிஷ்""

msgid ""Turkmen""
msgstr """"

msgid ""Udmurt""
msgstr """"

msgid ""Ukrainian""
msgstr ""உக்ரேனியன்""

msgid ""Upper Sorbian""
msgstr """"

msgid ""Urdu""
msgstr """"

msgid ""Uzbek""
msgstr """"

msgid ""Venezuelan Spanish""
msgstr """"

msgid ""Vietnamese""
msgstr """"

msgid ""Wed""
msgstr """"

msgid ""Wednesday""
msgstr ""புதன்""

msgid ""Welsh""
msgstr ""வெல்ஸ்""

msgid ""a minute ago""
msgid_plural ""%[1]v minutes ago""
msgstr[0] """"
msgstr[1] """"

msgid ""a minute from now""
msgid_plural ""%[1]v minutes from now""
msgstr[0] """"
msgstr[1] """"

msgid ""a second ago""
msgid_plural ""%[1]v seconds ago""
msgstr[0] """"
msgstr[1] """"

msgid ""a second from now""
msgid_plural ""%[1]v seconds from now""
msgstr[0] """"
msgstr[1] """"

msgid ""a.m.""
msgstr """"

msgid ""an hour ago""
msgid_plural ""%[1]v hours ago""
msgstr[0] """"
msgstr[1] """"

msgid ""an hour from now""
msgid_plural ""%[1]v hours from now""
msgstr[0] """"
msgstr[1] """"

msgid ""apr""
msgstr ""ஏப்""

msgid ""aug""
msgstr ""ஆக""

msgid ""dec""
msgstr ""டிச""

msgid ""eight""
msgstr """"

msgid ""feb""
msgstr ""பிப்""

msgid ""five""
msgstr """"

msgid ""four""
msgstr """"

msgid ""jan""
msgstr ""ஜன""

msgid ""jul""
msgstr ""ஜூலை""

msgid ""jun""
msgstr ""ஜூன்""

msgid ""mar""
msgstr ""மார்""

msgid ""may""
msgstr ""மே""

msgid ""midnight""
msgstr """"

msgid ""nine""
msgstr """"

msgid ""noon""
msgstr """"

msgid ""nov""
msgstr ""நவ""

msgid ""now""
msgstr """"

msgid ""oct""
msgstr ""அக்""

msgid ""one""
msgstr """"

msgid ""p.m.""
msgstr """"

msgid ""sep""
msgstr ""செப்""

msgid ""seven""
msgstr """"

msgid ""six""
msgstr """"

msgid ""three""
msgstr """"

msgid ""today""
msgstr """"

msgid ""tomorrow""
msgstr """"

msgid ""two""
msgstr """"

msgid ""yesterday""
msgstr """"

msgctxt ""abbrev. month""
msgid ""April""
msgstr ""ஏப்ரல்""

msgctxt ""abbrev. month""
msgid ""Aug.""
msgstr """"

msgctxt ""abbrev. month""
msgid ""Dec.""
msgstr """"

msgctxt ""abbrev. month""
msgid ""Feb.""
msgstr """"

msgctxt ""abbrev. month""
msgid ""Jan.""
msgstr """"

msgctxt ""abbrev. month""
msgid ""July""
msgstr ""ஜூலை""

msgctxt ""abbrev. month""
msgid ""June""
msgstr ""ஜூன்""

msgctxt ""abbrev. month""
msgid ""March""
msgstr ""மார்ச்""

msgctxt ""abbrev. month""
msgid ""May""
msgstr ""மே""

msgctxt ""abbrev. month""
msgid ""Nov.""
msgstr """"

msgctxt ""abbrev. month""
msgid ""Oct.""
msgstr """"

msgctxt ""abbrev. month""
msgid ""Sept.""
msgstr """"

msgctxt ""alt. month""
msgid ""April""
msgstr ""ஏப்ரல்""

msgctxt ""alt. month""
msgid ""August""
msgstr ""ஆகஸ்டு""

msgctxt ""alt. month""
msgid ""December""
msgstr ""டிசம்பர்""

msgctxt ""alt. month""
msgid ""February""
msgstr ""பிப்ரவரி""

msgctxt ""alt. month""
msgid ""January""
msgstr ""ஜனவரி""

msgctxt ""alt. month""
msgid ""July""
msgstr ""ஜூலை""

msgctxt ""alt. month""
msgid ""June""
msgstr ""ஜூன்""

msgctxt ""alt. month""
msgid ""March""
msgstr ""மார்ச்""

msgctxt ""alt. month""
msgid ""May""
msgstr ""மே""

msgctxt ""alt. month""
msgid ""November""
msgstr ""நவம்பர்""

msgctxt ""alt. month""
msgid ""October""
msgstr ""அக்டோபர்""

msgctxt ""alt. month""
msgid ""September""
msgstr ""செப்டம்பர்""
".
(** humanize/locale/ta/locale.go (New) *)
Definition loc_ta : locale_data := LD (bs "ta") [(bs "django.po", po_ta)]
  (Some (FD (bs "j F, Y") (bs "g:i A") (bs "") (bs "") (bs "j F") (bs "j M, Y") (bs ""))).

(** humanize/locale/te/django.po *)
Definition po_te : bytes := bs "# This file is distributed under the same license as the Django package.
# 
# Translators:
# bhaskar teja yerneni <prudhviy@gmail.com>, 2011
# Claude Paroz <claude@2xlibre.net>, 2020
# Jannis Leidel <jannis@leidel.info>, 2011
# ప్రవీణ్ ఇళ్ళ <mail2ipn@gmail.com>, 2013
# వీవెన్ <veeven@gmail.com>, 2011
msgid """"
msgstr """"
""Project-Id-Version: django\n""
""Report-Msgid-Bugs-To: \n""
""POT-Creation-Date: 2020-05-19 20:23+0200\n""
""PO-Revision-Date: 2020-07-14 21:42+0000\n""
""Last-Translator: Transifex Bot <>\n""
""Language-Team: Telugu (http://www.transifex.com/django/django/language/te/)\n""
""Language: te\n""
""MIME-Version: 1.0\n""
""Content-Type: text/plain; charset=UTF-8\n""
""Content-Transfer-Encoding: 8bit\n""
""Plural-Forms: nplurals=2; plural=(n != 1);\n""

msgid ""%[1]d byte""
msgid_plural ""%[1]d bytes""
msgstr[0] ""%[1]d బైటు""
msgstr[1] ""%[1]d బైట్లు""

msgid ""%[1]s billion""
msgid_plural ""%[1]s billion""
msgstr[0] """"
msgstr[1] """"

msgid ""%[1]s decillion""
msgid_plural ""%[1]s decillion""
msgstr[0] """"
msgstr[1] """"

msgid ""%[1]s googol""
msgid_plural ""%[1]s googol""
msgstr[0] """"
msgstr[1] """"

msgid ""%[1]s million""
msgid_plural ""%[1]s million""
msgstr[0] """"
msgstr[1] """"

msgid ""%[1]s nonillion""
msgid_plural ""%[1]s nonillion""
msgstr[0] """"
msgstr[1] """"

msgid ""%[1]s octillion""
msgid_plural ""%[1]s octillion""
msgstr[0] """"
msgstr[1] """"

msgid ""%[1]s quadrillion""
msgid_plural ""%[1]s quadrillion""
msgstr[0] """"
msgstr[1] """"

msgid ""%[1]s quintillion""
msgid_plural ""%[1]s quintillion""
msgstr[0] """"
msgstr[1] """"

msgid ""%[1]s septillion""
msgid_plural ""%[1]s septillion""
msgstr[0] """"
msgstr[1] """"

msgid ""%[1]s sextillion""
msgid_plural ""%[1]s sextillion""
msgstr[0] """"
msgstr[1] """"

msgid ""%[1]s trillion""
msgid_plural ""%[1]s trillion""
msgstr[0] """"
msgstr[1] """"

msgid ""%s GB""
msgstr ""%s గిబై""

msgid ""%s KB""
msgstr ""%s కిబై""

msgid ""%s MB""
msgstr ""%s మెబై""

msgid ""%s PB""
msgstr """"

msgid ""%s TB""
msgstr """"

msgid "", ""
msgstr "", ""

msgid ""AM""
msgstr ""AM""

msgid ""Afrikaans""
msgstr ""ఆఫ్రికాన్స్""

msgid ""Albanian""
msgstr ""అల్బేనియన్""

msgid ""Algerian Arabic""
msgstr """"

msgid ""April""
msgstr ""ఎప్రిల్""

msgid ""Arabic""
msgstr ""ఆరబిక్""

msgid ""Argentinian Spanish""
msgstr ""అర్జెంటీనా స్పానిష్""

msgid ""Armenian""
msgstr """"

msgid ""Asturian""
msgstr """"

msgid ""August""
msgstr ""ఆగష్టు""

msgid ""Australian English""
msgstr """"

msgid ""Azerbaijani""
msgstr ""అజేర్బైజని ""

msgid ""Basque""
msgstr ""బాస్క్""

msgid ""Belarusian""
msgstr ""బెలారషియన్""

msgid ""Bengali""
msgstr ""బెంగాలీ""

msgid ""Bosnian""
msgstr ""బోస్నియన్""

msgid ""Brazilian Portuguese""
msgstr ""బ్రజీలియన్  పోర్చుగీస్""

msgid ""Breton""
msgstr ""బ్రిటన్""

msgid ""British English""
msgstr ""బ్రిటీష్ ఆంగ్లం""

msgid ""Bulgarian""
msgstr ""బల్గేరియన్""

msgid ""Burmese""
msgstr ""బర్మీస్""

msgid ""Catalan""
msgstr ""కాటలాన్""

msgid ""Colombian Spanish""
msgstr """"

msgid ""Croatian""
msgstr ""క్రొయేషియన్""

msgid ""Czech""
msgstr ""ఛెక్""

msgid ""Danish""
msgstr ""డానిష్""

msgid ""December""
msgstr ""డిసెంబర్""

msgid ""Dutch""
msgstr ""డచ్""

msgid ""English""
msgstr ""ఆంగ్లం""

msgid ""Esperanto""
msgstr ""ఎస్పరాంటో""

msgid ""Estonian""
msgstr ""ఎస్టొనియన్""

msgid ""February""
msgstr ""ఫిబ్రవరి""

msgid ""Finnish""
msgstr ""ఫీన్నిష్""

msgid ""French""
msgstr ""ఫ్రెంచ్""

msgid ""Fri""
msgstr ""శుక్ర""

msgid ""Friday""
msgstr ""శుక్రవారం""

msgid ""Frisian""
msgstr ""ఫ్రిసియన్""

msgid ""Galician""
msgstr ""గలిసియన్""

msgid ""Georgian""
msgstr ""జార్జియన్""

msgid ""German""
msgstr ""జెర్మన్""

msgid ""Greek""
msgstr ""గ్రీక్""

msgid ""Hebrew""
msgstr ""హీబ్రూ""

msgid ""Hindi""
msgstr ""హిందీ""

msgid ""Hungarian""
msgstr ""హంగేరియన్""

msgid ""Icelandic""
msgstr ""ఐస్లాండిక్""

msgid ""Ido""
msgstr """"

msgid ""Igbo""
msgstr """"

msgid ""Indonesian""
msgstr ""ఇండోనేషియన్""

msgid ""Interlingua""
msgstr ""ఇంటర్లింగ్వా""

msgid ""Irish""
msgstr ""ఐరిష్""

msgid ""Italian""
msgstr ""ఇటాలియవ్""

msgid ""January""
msgstr ""జనవరి""

msgid ""Japanese""
msgstr ""జపనీ""

msgid ""July""
msgstr ""జులై""

msgid ""June""
msgstr ""జూన్""

msgid ""Kabyle""
msgstr """"

msgid ""Kannada""
msgstr ""కన్నడ""

msgid ""Kazakh""
msgstr ""కజఖ్""

msgid ""Khmer""
msgstr ""ఖ్మెర్""

msgid ""Korean""
msgstr ""కొరియన్""

msgid ""Kyrgyz""
msgstr """"

msgid ""Latvian""
msgstr ""లాత్వియన్""

msgid ""Lithuanian""
msgstr ""లిథుయేనియన్""

msgid ""Lower Sorbian""
msgstr """"

msgid ""Luxembourgish""
msgstr ""లగ్జెంబర్గిష్""

msgid ""Macedonian""
msgstr ""మెసిడోనియన్""

msgid ""Malayalam""
msgstr ""మలయాళం""

msgid ""Marathi""
msgstr """"

msgid ""March""
msgstr ""మార్చి""

msgid ""May""
msgstr ""మే""

msgid ""Mexican Spanish""
msgstr ""మెక్షికన్  స్పానిష్ ""

msgid ""Mon""
msgstr ""సోమ""

msgid ""Monday""
msgstr ""సోమవారం""

msgid ""Mongolian""
msgstr ""మంగోలియన్""

msgid ""Nepali""
msgstr ""నేపాలీ""

msgid ""Nicaraguan Spanish""
msgstr """"

msgid ""Norwegian Bokmål""
msgstr """"

msgid ""Norwegian Nynorsk""
msgstr ""నోర్వేగియన్ న్య్నోర్స్క్ ""

msgid ""November""
msgstr ""నవంబర్""

msgid ""October""
msgstr ""అక్టోబర్""

msgid ""Ossetic""
msgstr """"

msgid ""PM""
msgstr ""PM""

msgid ""Persian""
msgstr ""పారసీ""

msgid ""Polish""
msgstr ""పొలిష్""

msgid ""Portuguese""
msgstr ""పోర్చుగీస్""

msgid ""Punjabi""
msgstr ""పంజాబీ""

msgid ""Romanian""
msgstr ""రొమానియన్""

msgid ""Russian""
msgstr ""రష్యన్""

msgid ""Sat""
msgstr ""శని""

msgid ""Saturday""
msgstr ""శనివారం""

msgid ""Scottish Gaelic""
msgstr """"

msgid ""September""
msgstr ""సెప్టెంబర్""

msgid ""Serbian""
msgstr ""సెర్బియన్""

msgid ""Serbian Latin""
msgstr ""సెర్బియన్ లాటిన్""

msgid ""Simplified Chinese""
msgstr ""సరళ చైనీ""

msgid ""Slovak""
msgstr ""స్లొవాక్""

msgid ""Slovenian""
msgstr ""స్లొవానియన్""

msgid ""Spanish""
msgstr ""స్పానిష్""

msgid ""Sun""
msgstr ""ఆది""

msgid ""Sunday""
msgstr ""ఆదివారం""

msgid ""Swahili""
msgstr ""స్వాహిలి""

msgid ""Swedish""
msgstr ""స్వీడిష్""

msgid ""Tajik""
msgstr """"

msgid ""Tamil""
msgstr ""తమిళం""

msgid ""Tatar""
msgstr ""టటర్""

msgid ""Telugu""
msgstr ""తెలుగు""

msgid ""Thai""
msgstr ""థాయి""

msgid ""Thu""
msgstr ""గురు""

msgid ""Thursday""
msgstr ""గురువారం""

msgid ""Traditional Chinese""
msgstr ""సాంప్రదాయ  చైనీ""

msgid ""Tue""
msgstr ""మంగళ""

msgid ""Tuesday""
msgstr ""మంగళవారం""

msgid ""Turkish""
msgstr ""టర్కిష్""

msgid ""Turkmen""
msgstr """"

msgid ""Udmurt""
msgstr """"

msgid ""Ukrainian""
msgstr ""ఉక్రేనియన్""

msgid ""Upper Sorbian""
msgstr """"

msgid ""Urdu""
msgstr ""ఉర్దూ""

msgid ""Uzbek""
msgstr """"

msgid ""Venezuelan Spanish""
msgstr ""వెనుజులా స్పానిష్""

msgid ""Vietnamese""
msgstr ""వియెత్నామీ""

msgid ""Wed""
msgstr ""బుధ""

msgid ""Wednesday""
msgstr ""బుధవారం""

msgid ""Welsh""
msgstr ""వెల్ష్""

msgid ""a minute ago""
msgid_plural ""%[1]v minutes ago""
msgstr[0] """"
msgstr[1] """"

msgid ""a minute from now""
msgid_plural ""%[1]v minutes from now""
msgstr[0] """"
msgstr[1] """"

msgid ""a second ago""
msgid_plural ""%[1]v seconds ago""
msgstr[0] """"
msgstr[1] """"

msgid ""a second from now""
msgid_plural ""%[1]v seconds from now""
msgstr[0] """"
msgstr[1] """"

msgid ""a.m.""
msgstr ""a.m.""

msgid ""an hour ago""
msgid_plural ""%[1]v hours ago""
msgstr[0] """"
msgstr[1] """"

msgid ""an hour from now""
msgid_plural ""%[1]v hours from now""
msgstr[0] """"
msgstr[1] """"

msgid ""apr""
msgstr ""ఎప్రి""

msgid ""aug""
msgstr ""ఆగ""

msgid ""dec""
msgstr ""డిసెం""

msgid ""eight""
msgstr ""ఎనిమిది ""

msgid ""feb""
msgstr ""ఫిబ్ర""

msgid ""five""
msgstr ""ఐదు""

msgid ""four""
msgstr ""నాలుగు""

msgid ""jan""
msgstr ""జన""

msgid ""jul""
msgstr ""జూలై""

msgid ""jun""
msgstr ""జూన్""

msgid ""mar""
msgstr ""మార్చి""

msgid ""may""
msgstr ""మే""

msgid ""midnight""
msgstr ""అర్ధరాత్రి""

msgid ""nine""
msgstr ""తొమ్మిది""

msgid ""noon""
msgstr ""మధ్యాహ్నం""

msgid ""nov""
msgstr ""నవం""

msgid ""now""
msgstr ""ఇప్పుడు ""

msgid ""oct""
msgstr ""అక్టో""

msgid ""one""
msgstr ""ఒక్కటి""

msgid ""p.m.""
msgstr ""p.m.""

msgid ""sep""
msgstr ""సెప్టెం""

msgid ""seven""
msgstr ""ఏడు""

msgid ""six""
msgstr ""ఆరు""

msgid ""three""
msgstr ""మూడు""

msgid ""today""
msgstr ""ఈ రోజు""

msgid ""tomorrow""
msgstr ""రెపు""

msgid ""two""
msgstr ""రెండు""

msgid ""yesterday""
msgstr ""నిన్న""

msgctxt ""abbrev. month""
msgid ""April""
msgstr ""ఏప్రి.""

msgctxt ""abbrev. month""
msgid ""Aug.""
msgstr ""ఆగ.""

msgctxt ""abbrev. month""
msgid ""Dec.""
msgstr ""డిసెం.""

msgctxt ""abbrev. month""
msgid ""Feb.""
msgstr ""ఫిబ్ర.""

msgctxt ""abbrev. month""
msgid ""Jan.""
msgstr ""జన.""

msgctxt ""abbrev. month""
msgid ""July""
msgstr ""జూలై""

msgctxt ""abbrev. month""
msgid ""June""
msgstr ""జూన్""

msgctxt ""abbrev. month""
msgid ""March""
msgstr ""మార్చి""

msgctxt ""abbrev. month""
msgid ""May""
msgstr ""మే""

msgctxt ""abbrev. month""
msgid ""Nov.""
msgstr ""నవం.""

msgctxt ""abbrev. month""
msgid ""Oct.""
msgstr ""అక్టో.""

msgctxt ""abbrev. month""
msgid ""Sept.""
msgstr ""సెప్టెం.""

msgctxt ""alt. month""
msgid ""April""
msgstr ""ఏప్రిల్""

msgctxt ""alt. month""
msgid ""August""
msgstr ""ఆగస్ట్""

msgctxt ""alt. month""
msgid ""December""
msgstr ""డిసెంబర్""

msgctxt ""alt. month""
msgid ""February""
msgstr ""ఫిబ్రవరి""

msgctxt ""alt. month""
msgid ""January""
msgstr ""జనవరి""

msgctxt ""alt. month""
msgid ""July""
msgstr ""జూలై""

msgctxt ""alt. month""
msgid ""June""
msgstr ""జూన్""

msgctxt ""alt. month""
msgid ""March""
msgstr ""మార్చి""

msgctxt ""alt. month""
msgid ""May""
msgstr ""మే""

msgctxt ""alt. month""
msgid ""November""
msgstr ""నవంబర్""

msgctxt ""alt. month""
msgid ""October""
msgstr ""అక్టోబర్""

msgctxt ""alt. month""
msgid ""September""
msgstr ""సెప్టెంబర్""
".
(** humanize/locale/te/locale.go (New) *)
Definition loc_te : locale_data := LD (bs "te") [(bs "django.po", po_te)]
  (Some (FD (bs "j F Y") (bs "g:i A") (bs "") (bs "") (bs "j F") (bs "j M Y") (bs ""))).

(** humanize/locale/tg/django.po *)
Definition po_tg : bytes := bs "# This file is distributed under the same license as the Django package.
# 
# Translators:
# Mariusz Felisiak <felisiak.mariusz@gmail.com>, 2020
# Surush Sufiew <siriusproger@gmail.com>, 2020
# Siroj Sufiew <alibabasiroj@gmail.com>, 2020
# Surush Sufiew <siriusproger@gmail.com>, 2020
msgid """"
msgstr """"
""Project-Id-Version: django\n""
""Report-Msgid-Bugs-To: \n""
""POT-Creation-Date: 2020-05-19 20:23+0200\n""
""PO-Revision-Date: 2020-07-30 18:50+0000\n""
""Last-Translator: Mariusz Felisiak <felisiak.mariusz@gmail.com>\n""
""Language-Team: Tajik (http://www.transifex.com/django/django/language/tg/)\n""
""Language: tg\n""
""MIME-Version: 1.0\n""
""Content-Type: text/plain; charset=UTF-8\n""
""Content-Transfer-Encoding: 8bit\n""
""Plural-Forms: nplurals=2; plural=(n != 1);\n""

msgid ""%[1]d byte""
msgid_plural ""%[1]d bytes""
msgstr[0] """"
msgstr[1] """"

msgid ""%[1]s billion""
msgid_plural ""%[1]s billion""
msgstr[0] """"
msgstr[1] """"

msgid ""%[1]s decillion""
msgid_plural ""%[1]s decillion""
msgstr[0] """"
msgstr[1] """"

msgid ""%[1]s googol""
msgid_plural ""%[1]s googol""
msgstr[0] """"
msgstr[1] """"

msgid ""%[1]s million""
msgid_plural ""%[1]s million""
msgstr[0] """"
msgstr[1] """"

msgid ""%[1]s nonillion""
msgid_plural ""%[1]s nonillion""
msgstr[0] """"
msgstr[1] """"

msgid ""%[1]s octillion""
msgid_plural ""%[1]s octillion""
msgstr[0] """"
msgstr[1] """"

msgid ""%[1]s quadrillion""
msgid_plural ""%[1]s quadrillion""
msgstr[0] """"
msgstr[1] """"

msgid ""%[1]s quintillion""
msgid_plural ""%[1]s quintillion""
msgstr[0] """"
msgstr[1] """"

msgid ""%[1]s septillion""
msgid_plural ""%[1]s septillion""
msgstr[0] """"
msgstr[1] """"

msgid ""%[1]s sextillion""
msgid_plural ""%[1]s sextillion""
msgstr[0] """"
msgstr[1] """"

msgid ""%[1]s trillion""
msgid_plural ""%[1]s trillion""
msgstr[0] """"
msgstr[1] """"

msgid ""%[1]v ago""
msgstr ""%[1]v пеш""

msgid ""%[1]v from now""
msgstr ""баъд аз %[1]v""

msgid ""%s GB""
msgstr ""%s ГБ""

msgid ""%s KB""
msgstr ""%s КБ""

msgid ""%s MB""
msgstr ""%s МБ""

msgid ""%s PB""
msgstr ""%s ПБ""

msgid ""%s TB""
msgstr ""%s ТБ""

msgid "", ""
msgstr "", ""

msgid ""AM""
msgstr ""НР""

msgid ""Afrikaans""
msgstr ""Ҳолландӣ""

msgid ""Albanian""
msgstr ""Албанӣ""

msgid ""Algerian Arabic""
msgstr ""Арабӣ""

msgid ""April""
msgstr ""Апрел""

msgid ""Arabic""
msgstr ""Арабӣ""

msgid ""Argentinian Spanish""
msgstr ""Испании аргентиноӣ""

msgid ""Armenian""
msgstr ""Арманӣ""

msgid ""Asturian""
msgstr ""Астурӣ""

msgid ""August""
msgstr ""Август""

msgid ""Australian English""
msgstr ""Англисии австралиёӣ""

msgid ""Azerbaijani""
msgstr ""Озарбойҷонӣ""

msgid ""Basque""
msgstr ""Баскувӣ""

msgid ""Belarusian""
msgstr ""Белорусӣ""

msgid ""Bengali""
msgstr ""Бенгалӣ""

msgid ""Bosnian""
msgstr ""Боснӣ""

msgid ""Brazilian Portuguese""
msgstr ""Португалии бразилиёгӣ""

msgid ""Breton""
msgstr ""Бретонӣ""

msgid ""British English""
msgstr ""Ангилисии бритониёӣ""

msgid ""Bulgarian""
msgstr ""Булғорӣ""

msgid ""Burmese""
msgstr """"

msgid ""Catalan""
msgstr ""Каталанӣ""

msgid ""Colombian Spanish""
msgstr ""Испании колумбигӣ""

msgid ""Croatian""
msgstr ""Хорватӣ""

msgid ""Czech""
msgstr ""Чехӣ""

msgid ""Danish""
msgstr ""Даниягӣ""

msgid ""December""
msgstr ""Декабр""

msgid ""Dutch""
msgstr ""Голландӣ""

msgid ""English""
msgstr ""Англисӣ""

msgid ""Esperanto""
msgstr ""Эсперантоӣ""

msgid ""Estonian""
msgstr ""Эстонӣ""

msgid ""February""
msgstr ""Феврал""

msgid ""Finnish""
msgstr ""Финикӣ""

msgid ""French""
msgstr ""Фаронсавӣ""

msgid ""Fri""
msgstr ""Ҷ""

msgid ""Friday""
msgstr ""Ҷумъа""

msgid ""Frisian""
msgstr ""Фризӣ""

msgid ""Galician""
msgstr """"

msgid ""Georgian""
msgstr ""Грузӣ""

msgid ""German""
msgstr ""Олмонӣ""

msgid ""Greek""
msgstr ""Юнонӣ""

msgid ""Hebrew""
msgstr ""Ивритӣ""

msgid ""Hindi""
msgstr ""Ҳиндӣ""

msgid ""Hungarian""
msgstr """"

msgid ""Icelandic""
msgstr ""Исландӣ""

msgid ""Ido""
msgstr """"

msgid ""Igbo""
msgstr """"

msgid ""Indonesian""
msgstr ""Индонезӣ""

msgid ""Interlingua""
msgstr """"

msgid ""Irish""
msgstr ""Ирландӣ""

msgid ""Italian""
msgstr ""Итолиёвӣ""

msgid ""January""
msgstr ""Январ""

msgid ""Japanese""
msgstr ""Японӣ""

msgid ""July""
msgstr ""Июл""

msgid ""June""
msgstr ""Июн""

msgid ""Kabyle""
msgstr ""Кабилӣ""

msgid ""Kannada""
msgstr """"

msgid ""Kazakh""
msgstr ""Қазоқӣ""

msgid ""Khmer""
msgstr """"

msgid ""Korean""
msgstr ""Кореӣ""

msgid ""Kyrgyz""
msgstr """"

msgid ""Latvian""
msgstr ""Латвигӣ""

msgid ""Lithuanian""
msgstr ""Литвигӣ""

msgid ""Lower Sorbian""
msgstr ""Сербиягӣ""

msgid ""Luxembourgish""
msgstr ""Люксембургӣ""

msgid ""Macedonian""
msgstr ""Македонӣ""

msgid ""Malayalam""
msgstr """"

msgid ""Marathi""
msgstr """"

msgid ""March""
msgstr ""Март""

msgid ""May""
msgstr ""Май""

msgid ""Mexican Spanish""
msgstr ""Испании мексикоӣ""

msgid ""Mon""
msgstr ""Дш""

msgid ""Monday""
msgstr ""Душанбе""

msgid ""Mongolian""
msgstr ""Монголӣ""

msgid ""Nepali""
msgstr ""Непалӣ""

msgid ""Nicaraguan Spanish""
msgstr ""Никарагуанский испанский""

msgid ""Norwegian Bokmål""
msgstr ""Норвежский (Букмол)""

msgid ""Norwegian Nynorsk""
msgstr ""Норвегӣ""

msgid ""November""
msgstr ""Ноябр""

msgid ""October""
msgstr ""Октябр""

msgid ""Ossetic""
msgstr ""Осетинӣ""

msgid ""PM""
msgstr ""НШ""

msgid ""Persian""
msgstr ""Форсӣ""

msgid ""Polish""
msgstr ""Полякӣ""

msgid ""Portuguese""
msgstr ""Португалӣ""

msgid ""Punjabi""
msgstr ""Панҷобӣ""

msgid ""Romanian""
msgstr ""Руминӣ""

msgid ""Russian""
msgstr ""Руссӣ""

msgid ""Sat""
msgstr ""Ш""

msgid ""Saturday""
msgstr ""Шанбе""

msgid ""Scottish Gaelic""
msgstr ""Шотландӣ""

msgid ""September""
msgstr ""Сентябр""

msgid ""Serbian""
msgstr ""Сербӣ""

msgid ""Serbian Latin""
msgstr ""Сербӣ""

msgid ""Simplified Chinese""
msgstr ""Хитоӣ""

msgid ""Slovak""
msgstr ""Словакӣ""

msgid ""Slovenian""
msgstr ""Словенӣ""

msgid ""Spanish""
msgstr ""Испанӣ""

msgid ""Sun""
msgstr ""Яш""

msgid ""Sunday""
msgstr ""Якшанбе""

msgid ""Swahili""
msgstr ""Суахили""

msgid ""Swedish""
msgstr ""Шведӣ""

msgid ""Tajik""
msgstr """"

msgid ""Tamil""
msgstr ""Тамилӣ""

msgid ""Tatar""
msgstr ""Тоторӣ""

msgid ""Telugu""
msgstr ""Телугу""

msgid ""Thai""
msgstr ""Тайский""

msgid ""Thu""
msgstr ""Пш""

msgid ""Thursday""
msgstr ""Панҷшанбе""

msgid ""Traditional Chinese""
msgstr ""Хитоӣ""

msgid ""Tue""
msgstr ""Яш""

msgid ""Tuesday""
msgstr ""Сешанбе""

msgid ""Turkish""
msgstr ""Туркӣ""

msgid ""Turkmen""
msgstr """"

msgid ""Udmurt""
msgstr ""Удмуртӣ""

msgid ""Ukrainian""
msgstr ""Украинӣ""

msgid ""Upper Sorbian""
msgstr ""Себриягӣ""

msgid ""Urdu""
msgstr ""Урдуӣ""

msgid ""Uzbek""
msgstr ""Узбекӣ""

msgid ""Venezuelan Spanish""
msgstr ""Испании венесуэлӣ""

msgid ""Vietnamese""
msgstr ""Вэтнамӣ""

msgid ""Wed""
msgstr ""Чш""

msgid ""Wednesday""
msgstr ""Чоршанбе""

msgid ""Welsh""
msgstr ""Уэлсӣ""

msgid ""a minute ago""
msgid_plural ""%[1]v minutes ago""
msgstr[0] """"
msgstr[1] """"

msgid ""a minute from now""
msgid_plural ""%[1]v minutes from now""
msgstr[0] """"
msgstr[1] """"

msgid ""a second ago""
msgid_plural ""%[1]v seconds ago""
msgstr[0] """"
msgstr[1] """"

msgid ""a second from now""
msgid_plural ""%[1]v seconds from now""
msgstr[0] """"
msgstr[1] """"

msgid ""a.m.""
msgstr ""н.р.""

msgid ""an hour ago""
msgid_plural ""%[1]v hours ago""
msgstr[0] """"
msgstr[1] """"

msgid ""an hour from now""
msgid_plural ""%[1]v hours from now""
msgstr[0] """"
msgstr[1] """"

msgid ""apr""
msgstr ""апр""

msgid ""aug""
msgstr ""авг""

msgid ""dec""
msgstr ""дек""

msgid ""eight""
msgstr ""ҳашт""

msgid ""feb""
msgstr ""фев""

msgid ""five""
msgstr ""панҷ""

msgid ""four""
msgstr ""чор""

msgid ""jan""
msgstr ""янв""

msgid ""jul""
msgstr ""июл""

msgid ""jun""
msgstr ""июн""

msgid ""mar""
msgstr ""мар""

msgid ""may""
msgstr ""май""

msgid ""midnight""
msgstr ""нимашабӣ""

msgid ""nine""
msgstr ""нуҳ""

msgid ""noon""
msgstr ""нисфирузӣ""

msgid ""nov""
msgstr ""ноя""

msgid ""now""
msgstr ""ҳозир""

msgid ""oct""
msgstr ""окт""

msgid ""one""
msgstr ""як""

msgid ""p.m.""
msgstr ""н.ш.""

msgid ""sep""
msgstr ""сен""

msgid ""seven""
msgstr ""ҳафт""

msgid ""six""
msgstr ""шаш""

msgid ""three""
msgstr ""се""

msgid ""today""
msgstr ""имрӯз""

msgid ""tomorrow""
msgstr ""пагоҳ""

msgid ""two""
msgstr ""ду""

msgid ""yesterday""
msgstr ""дирӯз""

msgctxt ""abbrev. month""
msgid ""April""
msgstr ""Апрел""

msgctxt ""abbrev. month""
msgid ""Aug.""
msgstr ""Авг.""

msgctxt ""abbrev. month""
msgid ""Dec.""
msgstr ""Дек.""

msgctxt ""abbrev. month""
msgid ""Feb.""
msgstr ""Фев.""

msgctxt ""abbrev. month""
msgid ""Jan.""
msgstr ""Янв.""

msgctxt ""abbrev. month""
msgid ""July""
msgstr ""Июл""

msgctxt ""abbrev. month""
msgid ""June""
msgstr ""Июн""

msgctxt ""abbrev. month""
msgid ""March""
msgstr ""Март""

msgctxt ""abbrev. month""
msgid ""May""
msgstr ""Май""

msgctxt ""abbrev. month""
msgid ""Nov.""
msgstr ""Ноя.""

msgctxt ""abbrev. month""
msgid ""Oct.""
msgstr ""Окт.""

msgctxt ""abbrev. month""
msgid ""Sept.""
msgstr ""Сен.""

msgctxt ""alt. month""
msgid ""April""
msgstr ""апрел""

msgctxt ""alt. month""
msgid ""August""
msgstr ""август""

msgctxt ""alt. month""
msgid ""December""
msgstr ""декабр""

msgctxt ""alt. month""
msgid ""February""
msgstr ""феврал""

msgctxt ""alt. month""
msgid ""January""
msgstr ""январ""

msgctxt ""alt. month""
msgid ""July""
msgstr ""июл""

msgctxt ""alt. month""
msgid ""June""
msgstr ""июн""

msgctxt ""alt. month""
msgid ""March""
msgstr ""март""

msgctxt ""alt. month""
msgid ""May""
msgstr ""май""

msgctxt ""alt. month""
msgid ""November""
msgstr ""ноябр""

msgctxt ""alt. month""
msgid ""October""
msgstr ""октябр""

msgctxt ""alt. month""
msgid ""September""
msgstr ""сентябр""

msgctxt ""ordinal 0""
msgid ""%vth""
msgstr ""%v-ум""

msgctxt ""ordinal 1""
msgid ""%vst""
msgstr ""%v-ум""

msgctxt ""ordinal 11, 12, 13""
msgid ""%vth""
msgstr ""%v-ум""

msgctxt ""ordinal 2""
msgid ""%vnd""
msgstr ""%v-ум""

msgctxt ""ordinal 3""
msgid ""%vrd""
msgstr ""%v-ум""

msgctxt ""ordinal 4""
msgid ""%vth""
msgstr ""%v-ум""

msgctxt ""ordinal 5""
msgid ""%vth""
msgstr ""%v-ум""

msgctxt ""ordinal 6""
msgid ""%vth""
msgstr ""%v-ум""

msgctxt ""ordinal 7""
msgid ""%vth""
msgstr ""%v-ум""

msgctxt ""ordinal 8""
msgid ""%vth""
msgstr ""%v-ум""

msgctxt ""ordinal 9""
msgid ""%vth""
msgstr ""%v-ум""
".
(** humanize/locale/tg/locale.go (New) *)
Definition loc_tg : locale_data := LD (bs "tg") [(bs "django.po", po_tg)]
  (Some (FD (bs "j E Y г.") (bs "G:i") (bs "j E Y г. G:i") (bs "F Y г.") (bs "j F") (bs "d.m.Y") (bs "d.m.Y H:i"))).

(** humanize/locale/th/django.po *)
Definition po_th : bytes := bs "# This file is distributed under the same license as the Django package.
# 
# Translators:
# Abhabongse Janthong, 2015
# Jannis Leidel <jannis@leidel.info>, 2011
# Kowit Charoenratchatabhan <kowit.s.c@gmail.com>, 2014,2018-2019
# Naowal Siripatana <naowalzaza@gmail.com>, 2017
# sipp11 <sipp11@mycapsules.com>, 2014
# Suteepat Damrongyingsupab <tianissimo@hotmail.com>, 2011-2012
# Suteepat Damrongyingsupab <tianissimo@hotmail.com>, 2013
# Vichai Vongvorakul <vongvichai@gmail.com>, 2013
msgid """"
msgstr """"
""Project-Id-Version: django\n""
""Report-Msgid-Bugs-To: \n""
""POT-Creation-Date: 2019-09-27 22:40+0200\n""
""PO-Revision-Date: 2019-11-05 00:38+0000\n""
""Last-Translator: Ramiro Morales\n""
""Language-Team: Thai (http://www.transifex.com/django/django/language/th/)\n""
""Language: th\n""
""MIME-Version: 1.0\n""
""Content-Type: text/plain; charset=UTF-8\n""
""Content-Transfer-Encoding: 8bit\n""
""Plural-Forms: nplurals=1; plural=0;\n""

msgid ""%[1]d byte""
msgid_plural ""%[1]d bytes""
msgstr[0] ""%[1]d ไบต์""
msgstr[1] """"

msgid ""%[1]s billion""
msgid_plural ""%[1]s billion""
msgstr[0] ""%[1]s พันล้าน""
msgstr[1] """"

msgid ""%[1]s decillion""
msgid_plural ""%[1]s decillion""
msgstr[0] ""%[1]s decillion""
msgstr[1] """"

msgid ""%[1]s googol""
msgid_plural ""%[1]s googol""
msgstr[0] ""%[1]s googol""
msgstr[1] """"

msgid ""%[1]s million""
msgid_plural ""%[1]s million""
msgstr[0] ""%[1]s ล้าน""
msgstr[1] """"

msgid ""%[1]s nonillion""
msgid_plural ""%[1]s nonillion""
msgstr[0] ""%[1]s nonillion""
msgstr[1] """"

msgid ""%[1]s octillion""
msgid_plural ""%[1]s octillion""
msgstr[0] ""%[1]s octillion""
msgstr[1] """"

msgid ""%[1]s quadrillion""
msgid_plural ""%[1]s quadrillion""
msgstr[0] ""%[1]s quadrillion""
msgstr[1] """"

msgid ""%[1]s quintillion""
msgid_plural ""%[1]s quintillion""
msgstr[0] ""%[1]s quintillion""
msgstr[1] """"

msgid ""%[1]s septillion""
msgid_plural ""%[1]s septillion""
msgstr[0] ""%[1]s septillion""
msgstr[1] """"

msgid ""%[1]s sextillion""
msgid_plural ""%[1]s sextillion""
msgstr[0] ""%[1]s sextillion""
msgstr[1] """"

msgid ""%[1]s trillion""
msgid_plural ""%[1]s trillion""
msgstr[0] "" %[1]s  ล้านล้าน""
msgstr[1] """"

msgid ""%[1]v ago""
msgstr """"

msgid ""%[1]v from now""
msgstr """"

msgid ""%s GB""
msgstr ""%s GB""

msgid ""%s KB""
msgstr ""%s KB""

msgid ""%s MB""
msgstr ""%s MB""

msgid ""%s PB""
msgstr ""%s PB""

msgid ""%s TB""
msgstr ""%s TB""

msgid "", ""
msgstr "", ""

msgid ""AM""
msgstr ""AM""

msgid ""Afrikaans""
msgstr ""อาฟฟริกัน""

msgid ""Albanian""
msgstr ""อัลแบเนีย""

msgid ""April""
msgstr ""เมษายน""

msgid ""Arabic""
msgstr ""อารบิก""

msgid ""Argentinian Spanish""
msgstr ""สเปน - อาร์เจนติน่า""

msgid ""Armenian""
msgstr ""อาร์เมเนียน""

msgid ""Asturian""
msgstr ""อัสตูเรียน""

msgid ""August""
msgstr ""สิงหาคม""

msgid ""Australian English""
msgstr ""อังกฤษ - ออสเตรเลีย""

msgid ""Azerbaijani""
msgstr ""อาเซอร์ไบจาน""

msgid ""Basque""
msgstr ""แบ็ซค์""

msgid ""Belarusian""
msgstr ""เบลารุส""

msgid ""Bengali""
msgstr ""เบ็งกาลี""

msgid ""Bosnian""
msgstr ""บอสเนีย""

msgid ""Brazilian Portuguese""
msgstr ""โปรตุเกส (บราซิล)""

msgid ""Breton""
msgstr ""เบรตัน""

msgid ""British English""
msgstr ""อังกฤษ - สหราชอาณาจักร""

msgid ""Bulgarian""
msgstr ""บัลแกเรีย""

msgid ""Burmese""
msgstr ""พม่า""

msgid ""Catalan""
msgstr ""คาตะลาน""

msgid ""Colombian Spanish""
msgstr ""สเปน - โคลัมเบีย""

msgid ""Croatian""
msgstr ""โครเอเชีย""

msgid ""Czech""
msgstr ""เช็ก""

msgid ""Danish""
msgstr ""เดนมาร์ก""

msgid ""December""
msgstr ""ธันวาคม""

msgid ""Dutch""
msgstr ""ดัตช์""

msgid ""English""
msgstr ""อังกฤษ""

msgid ""Esperanto""
msgstr ""เอสเปรันโต""

msgid ""Estonian""
msgstr ""เอสโตเนีย""

msgid ""February""
msgstr ""กุมภาพันธ์""

msgid ""Finnish""
msgstr ""ฟินแลนด์""

msgid ""French""
msgstr ""ฝรั่งเศส""

msgid ""Fri""
msgstr ""ศ.""

msgid ""Friday""
msgstr ""ศุกร์""

msgid ""Frisian""
msgstr ""ฟริเซียน""

msgid ""Galician""
msgstr ""กาลิเซีย""

msgid ""Georgian""
msgstr ""จอร์เจีย""

msgid ""German""
msgstr ""เยอรมัน""

msgid ""Greek""
msgstr ""กรีก""

msgid ""Hebrew""
msgstr ""ฮีบรู""

msgid ""Hindi""
msgstr ""ฮินดี""

msgid ""Hungarian""
msgstr ""ฮังการี""

msgid ""Icelandic""
msgstr ""ไอซ์แลนด์""

msgid ""Ido""
msgstr """"

msgid ""Indonesian""
msgstr ""อินโดนิเซีย""

msgid ""Interlingua""
msgstr ""ภาษากลาง""

msgid ""Irish""
msgstr ""ไอริช""

msgid ""Italian""
msgstr ""อิตาลี""

msgid ""January""
msgstr ""มกราคม""

msgid ""Japanese""
msgstr ""ญี่ปุ่น""

msgid ""July""
msgstr ""กรกฎาคม""

msgid ""June""
msgstr ""มิถุนายน""

msgid ""Kabyle""
msgstr """"

msgid ""Kannada""
msgstr ""กัณณาท""

msgid ""Kazakh""
msgstr ""คาซัค""

msgid ""Khmer""
msgstr ""เขมร""

msgid ""Korean""
msgstr ""เกาหลี""

msgid ""Latvian""
msgstr ""ลัตเวีย""

msgid ""Lithuanian""
msgstr ""ลิทัวเนีย""

msgid ""Lower Sorbian""
msgstr """"

msgid ""Luxembourgish""
msgstr ""ลักแซมเบิร์ก""

msgid ""Macedonian""
msgstr ""มาซิโดเนีย""

msgid ""Malayalam""
msgstr ""มลายู""

msgid ""Marathi""
msgstr """"

msgid ""March""
msgstr ""มีนาคม""

msgid ""May""
msgstr ""พฤษภาคม""

msgid ""Mexican Spanish""
msgstr ""สเปน - เม็กซิกัน""

msgid ""Mon""
msgstr ""จ.""

msgid ""Monday""
msgstr ""จันทร์""

msgid ""Mongolian""
msgstr ""มองโกเลีย""

msgid ""Nepali""
msgstr ""เนปาล""

msgid ""Nicaraguan Spanish""
msgstr ""นิการากัวสเปน""

msgid ""Norwegian Bokmål""
msgstr """"

msgid ""Norwegian Nynorsk""
msgstr ""นอร์เวย์ - Nynorsk""

msgid ""November""
msgstr ""พฤศจิกายน""

msgid ""October""
msgstr ""ตุลาคม""

msgid ""Ossetic""
msgstr """"

msgid ""PM""
msgstr ""PM""

msgid ""Persian""
msgstr ""เปอร์เชีย""

msgid ""Polish""
msgstr ""โปแลนด์""

msgid ""Portuguese""
msgstr ""โปรตุเกส""

msgid ""Punjabi""
msgstr ""ปัญจาบี""

msgid ""Romanian""
msgstr ""โรมาเนีย""

msgid ""Russian""
msgstr ""รัสเซีย""

msgid ""Sat""
msgstr ""ส.""

msgid ""Saturday""
msgstr ""เสาร์""

msgid ""Scottish Gaelic""
msgstr """"

msgid ""September""
msgstr ""กันยายน""

msgid ""Serbian""
msgstr ""เซอร์เบีย""

msgid ""Serbian Latin""
msgstr ""เซอร์เบียละติน""

msgid ""Simplified Chinese""
msgstr ""จีนตัวย่อ""

msgid ""Slovak""
msgstr ""สโลวัก""

msgid ""Slovenian""
msgstr ""สโลวีเนีย""

msgid ""Spanish""
msgstr ""สเปน""

msgid ""Sun""
msgstr ""อา.""

msgid ""Sunday""
msgstr ""อาทิตย์""

msgid ""Swahili""
msgstr ""สวาฮีลี""

msgid ""Swedish""
msgstr ""สวีเดน""

msgid ""Tamil""
msgstr ""ทมิฬ""

msgid ""Tatar""
msgstr ""ตาตาร์""

msgid ""Telugu""
msgstr ""เตลุคู""

msgid ""Thai""
msgstr ""ไทย""

msgid ""Thu""
msgstr ""พฤ.""

msgid ""Thursday""
msgstr ""พฤหัสบดี""

msgid ""Traditional Chinese""
msgstr ""จีนตัวเต็ม""

msgid ""Tue""
msgstr ""อ.""

msgid ""Tuesday""
msgstr ""อังคาร""

msgid ""Turkish""
msgstr ""ตุรกี""

msgid ""Udmurt""
msgstr ""อัดเมิร์ท""

msgid ""Ukrainian""
msgstr ""ยูเครน""

msgid ""Upper Sorbian""
msgstr """"

msgid ""Urdu""
msgstr ""เออร์ดู""

msgid ""Uzbek""
msgstr """"

msgid ""Venezuelan Spanish""
msgstr ""เวเนซุเอลาสเปน""

msgid ""Vietnamese""
msgstr ""เวียดนาม""

msgid ""Wed""
msgstr ""พ.""

msgid ""Wednesday""
msgstr ""พุธ""

msgid ""Welsh""
msgstr ""เวลส์""

msgid ""a minute ago""
msgid_plural ""%[1]v minutes ago""
msgstr[0] ""%[1]v นาทีที่ผ่านมา""
msgstr[1] """"

msgid ""a minute from now""
msgid_plural ""%[1]v minutes from now""
msgstr[0] ""%[1]v นาทีต่อจากนี้""
msgstr[1] """"

msgid ""a second ago""
msgid_plural ""%[1]v seconds ago""
msgstr[0] ""%[1]v วินาทีที่ผ่านมา""
msgstr[1] """"

msgid ""a second from now""
msgid_plural ""%[1]v seconds from now""
msgstr[0] ""%[1]v วินาทีต่อจากนี้""
msgstr[1] """"

msgid ""a.m.""
msgstr ""a.m.""

msgid ""an hour ago""
msgid_plural ""%[1]v hours ago""
msgstr[0] ""%[1]v ชั่วโมงที่ผ่านมา""
msgstr[1] """"

msgid ""an hour from now""
msgid_plural ""%[1]v hours from now""
msgstr[0] ""%[1]v ชั่วโมงต่อจากนี้""
msgstr[1] """"

msgid ""apr""
msgstr ""เม.ย.""

msgid ""aug""
msgstr ""ส.ค.""

msgid ""dec""
msgstr ""ธ.ค.""

msgid ""eight""
msgstr ""แปด""

msgid ""feb""
msgstr ""ก.พ.""

msgid ""five""
msgstr ""ห้า""

msgid ""four""
msgstr ""สี่""

msgid ""jan""
msgstr ""ม.ค.""

msgid ""jul""
msgstr ""ก.ค.""

msgid ""jun""
msgstr ""มิ.ย.""

msgid ""mar""
msgstr ""มี.ค.""

msgid ""may""
msgstr ""พ.ค.""

msgid ""midnight""
msgstr ""เที่ยงคืน""

msgid ""nine""
msgstr ""เก้า""

msgid ""noon""
msgstr ""เที่ยงวัน""

msgid ""nov""
msgstr ""พ.ย.""

msgid ""now""
msgstr ""ขณะนี้""

msgid ""oct""
msgstr ""ต.ค.""

msgid ""one""
msgstr ""หนึ่ง""

msgid ""p.m.""
msgstr ""p.m.""

msgid ""sep""
msgstr ""ก.ย.""

msgid ""seven""
msgstr ""เจ็ด""

msgid ""six""
msgstr ""หก""

msgid ""three""
msgstr ""สาม""

msgid ""today""
msgstr ""วันนี้""

msgid ""tomorrow""
msgstr ""พรุ่งนี้""

msgid ""two""
msgstr ""สอง""

msgid ""yesterday""
msgstr ""เมื่อวานนี้""

msgctxt ""abbrev. month""
msgid ""April""
msgstr ""เม.ย.""

msgctxt ""abbrev. month""
msgid ""Aug.""
msgstr ""ส.ค.""

msgctxt ""abbrev. month""
msgid ""Dec.""
msgstr ""ธ.ค.""

msgctxt ""abbrev. month""
msgid ""Feb.""
msgstr ""ก.พ.""

msgctxt ""abbrev. month""
msgid ""Jan.""
msgstr ""ม.ค.""

msgctxt ""abbrev. month""
msgid ""July""
msgstr ""ก.ค.""

msgctxt ""abbrev. month""
msgid ""June""
msgstr ""มิ.ย.""

msgctxt ""abbrev. month""
msgid ""March""
msgstr ""มี.ค.""

msgctxt ""abbrev. month""
msgid ""May""
msgstr ""พ.ค.""

msgctxt ""abbrev. month""
msgid ""Nov.""
msgstr ""พ.ย.""

msgctxt ""abbrev. month""
msgid ""Oct.""
msgstr ""ต.ค.""

msgctxt ""abbrev. month""
msgid ""Sept.""
msgstr ""ก.ย.""

msgctxt ""alt. month""
msgid ""April""
msgstr ""เมษายน""

msgctxt ""alt. month""
msgid ""August""
msgstr ""สิงหาคม""

msgctxt ""alt. month""
msgid ""December""
msgstr ""ธันวาคม""

msgctxt ""alt. month""
msgid ""February""
msgstr ""กุมภาพันธ์""

msgctxt ""alt. month""
msgid ""January""
msgstr ""มกราคม""

msgctxt ""alt. month""
msgid ""July""
msgstr ""กรกฎาคม""

msgctxt ""alt. month""
msgid ""June""
msgstr ""มิถุนายน""

msgctxt ""alt. month""
msgid ""March""
msgstr ""มีนาคม""

msgctxt ""alt. month""
msgid ""May""
msgstr ""พฤษภาคม""

msgctxt ""alt. month""
msgid ""November""
msgstr ""พฤศจิกายน""

msgctxt ""alt. month""
msgid ""October""
msgstr ""ตุลาคม""

msgctxt ""alt. month""
msgid ""September""
msgstr ""กันยายน""

msgctxt ""ordinal 0""
msgid ""%vth""
msgstr """"

msgctxt ""ordinal 1""
msgid ""%vst""
msgstr """"

msgctxt ""ordinal 11, 12, 13""
msgid ""%vth""
msgstr """"

msgctxt ""ordinal 2""
msgid ""%vnd""
msgstr """"

msgctxt ""ordinal 3""
msgid ""%vrd""
msgstr """"

msgctxt ""ordinal 4""
msgid ""%vth""
msgstr """"

msgctxt ""ordinal 5""
msgid ""%vth""
msgstr """"

msgctxt ""ordinal 6""
msgid ""%vth""
msgstr """"

msgctxt ""ordinal 7""
msgid ""%vth""
msgstr """"

msgctxt ""ordinal 8""
msgid ""%vth""
msgstr """"

msgctxt ""ordinal 9""
msgid ""%vth""
msgstr """"
".
(** humanize/locale/th/locale.go (New) *)
Definition loc_th : locale_data := LD (bs "th") [(bs "django.po", po_th)]
  (Some (FD (bs "j F Y") (bs "G:i") (bs "j F Y, G:i") (bs "F Y") (bs "j F") (bs "j M Y") (bs "j M Y, G:i"))).

(** humanize/locale/tk/django.po *)
Definition po_tk : bytes := bs "# This file is distributed under the same license as the Django package.
# 
# Translators:
# Mariusz Felisiak <felisiak.mariusz@gmail.com>, 2020-2021
# Resul <resulsaparov@gmail.com>, 2020
# Resul <resulsaparov@gmail.com>, 2022-2024
# Welbeck Garli <welbeckgrlyw@gmail.com>, 2020
msgid """"
msgstr """"
""Project-Id-Version: django\n""
""Report-Msgid-Bugs-To: \n""
""POT-Creation-Date: 2024-05-22 11:46-0300\n""
""PO-Revision-Date: 2024-08-07 06:49+0000\n""
""Last-Translator: Resul <resulsaparov@gmail.com>, 2022-2024\n""
""Language-Team: Turkmen (http://app.transifex.com/django/django/language/tk/)\n""
""Language: tk\n""
""MIME-Version: 1.0\n""
""Content-Type: text/plain; charset=UTF-8\n""
""Content-Transfer-Encoding: 8bit\n""
""Plural-Forms: nplurals=2; plural=(n != 1);\n""

msgid ""%[1]d byte""
msgid_plural ""%[1]d bytes""
msgstr[0] ""%[1]d baýt""
msgstr[1] ""%[1]d baýt""

msgid ""%[1]s billion""
msgid_plural ""%[1]s billion""
msgstr[0] ""%[1]s milliard""
msgstr[1] ""%[1]s milliard""

msgid ""%[1]s decillion""
msgid_plural ""%[1]s decillion""
msgstr[0] ""%[1]s desillion""
msgstr[1] ""%[1]s desillion""

msgid ""%[1]s googol""
msgid_plural ""%[1]s googol""
msgstr[0] ""%[1]s googol""
msgstr[1] ""%[1]s googol""

msgid ""%[1]s million""
msgid_plural ""%[1]s million""
msgstr[0] ""%[1]s million""
msgstr[1] ""%[1]s million""

msgid ""%[1]s nonillion""
msgid_plural ""%[1]s nonillion""
msgstr[0] ""%[1]s nonillion""
msgstr[1] ""%[1]s nonillion""

msgid ""%[1]s octillion""
msgid_plural ""%[1]s octillion""
msgstr[0] ""%[1]s oktillion""
msgstr[1] ""%[1]s oktillion""

msgid ""%[1]s quadrillion""
msgid_plural ""%[1]s quadrillion""
msgstr[0] ""%[1]s kwadrillion""
msgstr[1] ""%[1]s kwadrillion""

msgid ""%[1]s quintillion""
msgid_plural ""%[1]s quintillion""
msgstr[0] ""%[1]s kwintillion""
msgstr[1] ""%[1]s kwintillion""

msgid ""%[1]s septillion""
msgid_plural ""%[1]s septillion""
msgstr[0] ""%[1]s septillion""
msgstr[1] ""%[1]s septillion""

msgid ""%[1]s sextillion""
msgid_plural ""%[1]s sextillion""
msgstr[0] ""%[1]s sekstillion""
msgstr[1] ""%[1]s sekstillion""

msgid ""%[1]s trillion""
msgid_plural ""%[1]s trillion""
msgstr[0] ""%[1]s trillion""
msgstr[1] ""%[1]s trillion""

msgid ""%[1]v ago""
msgstr ""%[1]v öň""

msgid ""%[1]v day""
msgid_plural ""%[1]v days""
msgstr[0] ""%[1]v gün""
msgstr[1] ""%[1]v gün""

msgid ""%[1]v from now""
msgstr ""şu wagtdan %[1]v soň""

msgid ""%[1]v hour""
msgid_plural ""%[1]v hours""
msgstr[0] ""%[1]v sagat""
msgstr[1] ""%[1]v sagat""

msgid ""%[1]v minute""
msgid_plural ""%[1]v minutes""
msgstr[0] ""%[1]v minut""
msgstr[1] ""%[1]v minut""

msgid ""%[1]v month""
msgid_plural ""%[1]v months""
msgstr[0] ""%[1]v aý""
msgstr[1] ""%[1]v aý""

msgid ""%[1]v week""
msgid_plural ""%[1]v weeks""
msgstr[0] ""%[1]v hepde""
msgstr[1] ""%[1]v hepde""

msgid ""%[1]v year""
msgid_plural ""%[1]v years""
msgstr[0] ""%[1]v ýyl""
msgstr[1] ""%[1]v ýyl""

msgid ""%s GB""
msgstr ""%s GB""

msgid ""%s KB""
msgstr ""%s KB""

msgid ""%s MB""
msgstr ""%s MB""

msgid ""%s PB""
msgstr ""%s PB""

msgid ""%s TB""
msgstr ""%s TB""

msgid "", ""
msgstr ""\""""

msgid ""AM""
msgstr ""AM""

msgid ""Afrikaans""
msgstr ""Afrikaans""

msgid ""Albanian""
msgstr ""Albança""

msgid ""Algerian Arabic""
msgstr ""Alžir Arapçasy""

msgid ""April""
msgstr ""Aprel""

msgid ""Arabic""
msgstr ""Arapça""

msgid ""Argentinian Spanish""
msgstr ""Argentina Ispançasy""

msgid ""Armenian""
msgstr ""Ermeniçe""

msgid ""Asturian""
msgstr ""Asturian""

msgid ""August""
msgstr ""Awgust""

msgid ""Australian English""
msgstr ""Awstraliýa Iňlisçesi""

msgid ""Azerbaijani""
msgstr ""Azeri Türkçesi""

msgid ""Basque""
msgstr ""Baskça""

msgid ""Belarusian""
msgstr ""Belarusça""

msgid ""Bengali""
msgstr ""Bengali""

msgid ""Bosnian""
msgstr ""Bosniýaça""

msgid ""Brazilian Portuguese""
msgstr ""Braziliýa Portugalçasy""

msgid ""Breton""
msgstr ""Breton""

msgid ""British English""
msgstr ""Britan Iňlisçesi""

msgid ""Bulgarian""
msgstr ""Bolgar""

msgid ""Burmese""
msgstr ""Birma""

msgid ""Catalan""
msgstr ""Katalan""

msgid ""Central Kurdish (Sorani)""
msgstr ""Merkezi Kürtçe (Soraniçe)""

msgid ""Colombian Spanish""
msgstr ""Kolumbiýa Ispançasy""

msgid ""Croatian""
msgstr ""Horwatça""

msgid ""Czech""
msgstr ""Çehçe""

msgid ""Danish""
msgstr ""Daniýaça""

msgid ""December""
msgstr ""Dekabr""

msgid ""Dutch""
msgstr ""Gollandça""

msgid ""English""
msgstr ""Iňlisçe""

msgid ""Esperanto""
msgstr ""Esperanto""

msgid ""Estonian""
msgstr ""Estonça""

msgid ""February""
msgstr ""Fewral""

msgid ""Finnish""
msgstr ""Finçe""

msgid ""French""
msgstr ""Fransuzça""

msgid ""Fri""
msgstr ""Anna""

msgid ""Friday""
msgstr ""Anna""

msgid ""Frisian""
msgstr ""Frisça""

msgid ""Galician""
msgstr ""Galisiýaça""

msgid ""Georgian""
msgstr ""Gruzinçe""

msgid ""German""
msgstr ""Nemesçe""

msgid ""Greek""
msgstr ""Grekçe""

msgid ""Hebrew""
msgstr ""Ýewreýçe""

msgid ""Hindi""
msgstr ""Hindi""

msgid ""Hungarian""
msgstr ""Wengerçe""

msgid ""Icelandic""
msgstr ""Islandça""

msgid ""Ido""
msgstr ""Ido""

msgid ""Igbo""
msgstr ""Igbo""

msgid ""Indonesian""
msgstr ""Indonezça""

msgid ""Interlingua""
msgstr ""Interlingua""

msgid ""Irish""
msgstr ""Irlandça""

msgid ""Italian""
msgstr ""Italýança""

msgid ""January""
msgstr ""Ýanwar""

msgid ""Japanese""
msgstr ""Ýaponça""

msgid ""July""
msgstr ""Iýul""

msgid ""June""
msgstr ""Iýun""

msgid ""Kabyle""
msgstr ""Kabyle""

msgid ""Kannada""
msgstr ""Kannada""

msgid ""Kazakh""
msgstr ""Gazakça""

msgid ""Khmer""
msgstr ""Hmerçe""

msgid ""Korean""
msgstr ""Koreýçe""

msgid ""Kyrgyz""
msgstr ""Gyrgyzça""

msgid ""Latvian""
msgstr ""Latwiýaça""

msgid ""Lithuanian""
msgstr ""Litwança""

msgid ""Lower Sorbian""
msgstr ""Aşaky Sorbian""

msgid ""Luxembourgish""
msgstr ""Lýuksemburgça""

msgid ""Macedonian""
msgstr ""Makedonça""

msgid ""Malay""
msgstr ""Malaý""

msgid ""Malayalam""
msgstr ""Malaýalam""

msgid ""Marathi""
msgstr ""Marasi""

msgid ""March""
msgstr ""Mart""

msgid ""May""
msgstr ""Maý""

msgid ""Mexican Spanish""
msgstr ""Meksika Ispançasy""

msgid ""Mon""
msgstr ""Duş""

msgid ""Monday""
msgstr ""Duşenbe""

msgid ""Mongolian""
msgstr ""Mongolça""

msgid ""Nepali""
msgstr ""Nepali""

msgid ""Nicaraguan Spanish""
msgstr ""Nikaragua Ispançasy""

msgid ""Norwegian Bokmål""
msgstr ""Norwegiýa Bokmaly""

msgid ""Norwegian Nynorsk""
msgstr ""Norwegiýa Nynorskçasy""

msgid ""November""
msgstr ""Noýabr""

msgid ""October""
msgstr ""Oktýabr""

msgid ""Ossetic""
msgstr ""Osetikçe""

msgid ""PM""
msgstr ""PM""

msgid ""Persian""
msgstr ""Parsça""

msgid ""Polish""
msgstr ""Polýakça""

msgid ""Portuguese""
msgstr ""Portugalça""

msgid ""Punjabi""
msgstr ""Penjebiçe""

msgid ""Romanian""
msgstr ""Rumynça""

msgid ""Russian""
msgstr ""Rusça""

msgid ""Sat""
msgstr ""Şen""

msgid ""Saturday""
msgstr ""Şenbe""

msgid ""Scottish Gaelic""
msgstr ""Şotlandiýa Gaelçasy""

msgid ""September""
msgstr ""Sentýabr""

msgid ""Serbian""
msgstr ""Serbçe""

msgid ""Serbian Latin""
msgstr ""Serb Latynçasy""

msgid ""Simplified Chinese""
msgstr ""Ýönekeýleşdirilen Hytaýça""

msgid ""Slovak""
msgstr ""Slowakça""

msgid ""Slovenian""
msgstr ""Slowençe""

msgid ""Spanish""
msgstr ""Ispança""

msgid ""Sun""
msgstr ""Ýek""

msgid ""Sunday""
msgstr ""Ýekşenbe""

msgid ""Swahili""
msgstr ""Swahili""

msgid ""Swedish""
msgstr ""Şwedçe""

msgid ""Tajik""
msgstr ""Täjik""

msgid ""Tamil""
msgstr ""Tamil""

msgid ""Tatar""
msgstr ""Tatarça""

msgid ""Telugu""
msgstr ""Telugu""

msgid ""Thai""
msgstr ""Taýça""

msgid ""Thu""
msgstr ""Pen""

msgid ""Thursday""
msgstr ""Penşenbe""

msgid ""Traditional Chinese""
msgstr ""Adaty Hytaýça""

msgid ""Tue""
msgstr ""Siş""

msgid ""Tuesday""
msgstr ""Sişenbe""

msgid ""Turkish""
msgstr ""Türkçe""

msgid ""Turkmen""
msgstr ""Türkmençe""

msgid ""Udmurt""
msgstr ""Udmurt""

msgid ""Ukrainian""
msgstr ""Ukrainçe""

msgid ""Upper Sorbian""
msgstr ""Ýokarky Sorbian""

msgid ""Urdu""
msgstr ""Urduça""

msgid ""Uyghur""
msgstr ""Uýgur""

msgid ""Uzbek""
msgstr ""Özbekçe""

msgid ""Venezuelan Spanish""
msgstr ""Wenezuela Ispançasy""

msgid ""Vietnamese""
msgstr ""Wýetnamça""

msgid ""Wed""
msgstr ""Çarş""

msgid ""Wednesday""
msgstr ""Çarşenbe""

msgid ""Welsh""
msgstr ""Uelsçe""

msgid ""a minute ago""
msgid_plural ""%[1]v minutes ago""
msgstr[0] ""bir minut öň""
msgstr[1] ""%[1]v minut öň""

msgid ""a minute from now""
msgid_plural ""%[1]v minutes from now""
msgstr[0] ""şu wagtdan bir minut soň""
msgstr[1] ""şu wagtdan %[1]v minut soň""

msgid ""a second ago""
msgid_plural ""%[1]v seconds ago""
msgstr[0] ""bir sekunt öň""
msgstr[1] ""%[1]v sekunt öň""

msgid ""a second from now""
msgid_plural ""%[1]v seconds from now""
msgstr[0] ""şu wagtdan bir sekunt soň""
msgstr[1] ""şu wagtdan %[1]v sekunt soň""

msgid ""a.m.""
msgstr ""a.m""

msgid ""an hour ago""
msgid_plural ""%[1]v hours ago""
msgstr[0] ""bir sagat öň""
msgstr[1] ""%[1]v sagat öň""

msgid ""an hour from now""
msgid_plural ""%[1]v hours from now""
msgstr[0] ""şu wagtdan bir sagat soň""
msgstr[1] ""şu wagtdan  %[1]v sagat soň""

msgid ""apr""
msgstr ""apr""

msgid ""aug""
msgstr ""awg""

msgid ""dec""
msgstr ""dek""

msgid ""eight""
msgstr ""sekiz""

msgid ""feb""
msgstr ""few""

msgid ""five""
msgstr ""bäş""

msgid ""four""
msgstr ""dört""

msgid ""jan""
msgstr ""ýan""

msgid ""jul""
msgstr ""iýul""

msgid ""jun""
msgstr ""iýun""

msgid ""mar""
msgstr ""mart""

msgid ""may""
msgstr ""maý""

msgid ""midnight""
msgstr ""ýary gije""

msgid ""nine""
msgstr ""dokuz""

msgid ""noon""
msgstr ""günortan""

msgid ""nov""
msgstr ""noý""

msgid ""now""
msgstr ""şu wagt""

msgid ""oct""
msgstr ""okt""

msgid ""one""
msgstr ""bir""

msgid ""p.m.""
msgstr ""p.m""

msgid ""sep""
msgstr ""sent""

msgid ""seven""
msgstr ""ýedi""

msgid ""six""
msgstr ""alty""

msgid ""three""
msgstr ""üç""

msgid ""today""
msgstr ""şu gün""

msgid ""tomorrow""
msgstr ""ertir""

msgid ""two""
msgstr ""iki""

msgid ""yesterday""
msgstr ""düýn""

msgctxt ""abbrev. month""
msgid ""April""
msgstr ""Aprel""

msgctxt ""abbrev. month""
msgid ""Aug.""
msgstr ""Awg.""

msgctxt ""abbrev. month""
msgid ""Dec.""
msgstr ""Dek.""

msgctxt ""abbrev. month""
msgid ""Feb.""
msgstr ""Few.""

msgctxt ""abbrev. month""
msgid ""Jan.""
msgstr ""Ýan.""

msgctxt ""abbrev. month""
msgid ""July""
msgstr ""Iýul""

msgctxt ""abbrev. month""
msgid ""June""
msgstr ""Iýun""

msgctxt ""abbrev. month""
msgid ""March""
msgstr ""Mart""

msgctxt ""abbrev. month""
msgid ""May""
msgstr ""Maý""

msgctxt ""abbrev. month""
msgid ""Nov.""
msgstr ""Noý.""

msgctxt ""abbrev. month""
msgid ""Oct.""
msgstr ""Okt.""

msgctxt ""abbrev. month""
msgid ""Sept.""
msgstr ""Sent.""

msgctxt ""alt. month""
msgid ""April""
msgstr ""Aprel""

msgctxt ""alt. month""
msgid ""August""
msgstr ""Awgust""

msgctxt ""alt. month""
msgid ""December""
msgstr ""Dekabr""

msgctxt ""alt. month""
msgid ""February""
msgstr ""Fewral""

msgctxt ""alt. month""
msgid ""January""
msgstr ""Ýanwar""

msgctxt ""alt. month""
msgid ""July""
msgstr ""Iýul""

msgctxt ""alt. month""
msgid ""June""
msgstr ""Iýun""

msgctxt ""alt. month""
msgid ""March""
msgstr ""Mart""

msgctxt ""alt. month""
msgid ""May""
msgstr ""Maý""

msgctxt ""alt. month""
msgid ""November""
msgstr ""Noýabr""

msgctxt ""alt. month""
msgid ""October""
msgstr ""Oktýabr""

msgctxt ""alt. month""
msgid ""September""
msgstr ""Sentýabr""

msgctxt ""naturaltime-future""
msgid ""%[1]v day""
msgid_plural ""%[1]v days""
msgstr[0] ""%[1]v gün""
msgstr[1] ""%[1]v gün""

msgctxt ""naturaltime-future""
msgid ""%[1]v hour""
msgid_plural ""%[1]v hours""
msgstr[0] ""%[1]v sagat""
msgstr[1] ""%[1]v sagat""

msgctxt ""naturaltime-future""
msgid ""%[1]v minute""
msgid_plural ""%[1]v minutes""
msgstr[0] ""%[1]v minut""
msgstr[1] ""%[1]v minut""

msgctxt ""naturaltime-future""
msgid ""%[1]v month""
msgid_plural ""%[1]v months""
msgstr[0] ""%[1]v aý""
msgstr[1] ""%[1]v aý""

msgctxt ""naturaltime-future""
msgid ""%[1]v week""
msgid_plural ""%[1]v weeks""
msgstr[0] ""%[1]v hepde""
msgstr[1] ""%[1]v hepde""

msgctxt ""naturaltime-future""
msgid ""%[1]v year""
msgid_plural ""%[1]v years""
msgstr[0] ""%[1]v ýyl""
msgstr[1] ""%[1]v ýyl""

msgctxt ""naturaltime-past""
msgid ""%[1]v day""
msgid_plural ""%[1]v days""
msgstr[0] ""%[1]v gün""
msgstr[1] ""%[1]v gün""

msgctxt ""naturaltime-past""
msgid ""%[1]v hour""
msgid_plural ""%[1]v hours""
msgstr[0] ""%[1]v sagat""
msgstr[1] ""%[1]v sagat""

msgctxt ""naturaltime-past""
msgid ""%[1]v minute""
msgid_plural ""%[1]v minutes""
msgstr[0] ""%[1]v minut""
msgstr[1] ""%[1]v minut""

msgctxt ""naturaltime-past""
msgid ""%[1]v month""
msgid_plural ""%[1]v months""
msgstr[0] ""%[1]v aý""
msgstr[1] ""%[1]v aý""

msgctxt ""naturaltime-past""
msgid ""%[1]v week""
msgid_plural ""%[1]v weeks""
msgstr[0] ""%[1]v hepde""
msgstr[1] ""%[1]v hepde""

msgctxt ""naturaltime-past""
msgid ""%[1]v year""
msgid_plural ""%[1]v years""
msgstr[0] ""%[1]v ýyl""
msgstr[1] ""%[1]v ýyl""

msgctxt ""ordinal 0""
msgid ""%vth""
msgstr ""%v-nji""

msgctxt ""ordinal 1""
msgid ""%vst""
msgstr ""%v-inji""

msgctxt ""ordinal 11, 12, 13""
msgid ""%vth""
msgstr ""%v-nji""

msgctxt ""ordinal 2""
msgid ""%vnd""
msgstr ""%v-nji""

msgctxt ""ordinal 3""
msgid ""%vrd""
msgstr ""%v-nji""

msgctxt ""ordinal 4""
msgid ""%vth""
msgstr ""%v-nji""

msgctxt ""ordinal 5""
msgid ""%vth""
msgstr ""%v-nji""

msgctxt ""ordinal 6""
msgid ""%vth""
msgstr ""%v-njy""

msgctxt ""ordinal 7""
msgid ""%vth""
msgstr ""%v-nji""

msgctxt ""ordinal 8""
msgid ""%vth""
msgstr ""%v-nji""

msgctxt ""ordinal 9""
msgid ""%vth""
msgstr ""%v-njy""
".
(** humanize/locale/tk/locale.go (New) *)
Definition loc_tk : locale_data := LD (bs "tk") [(bs "django.po", po_tk)]
  (Some (FD (bs "j E Y г.") (bs "G:i") (bs "j E Y г. G:i") (bs "F Y г.") (bs "j F") (bs "d.m.Y") (bs "d.m.Y H:i"))).

(** humanize/locale/tr/django.po *)
Definition po_tr : bytes := bs "# This file is distributed under the same license as the Django package.
# 
# Translators:
# Ahmet Emre Aladağ <emre.aladag@isik.edu.tr>, 2013
# BouRock, 2015-2025
# BouRock, 2014-2015
# Caner Başaran <basaran.caner@gmail.com>, 2013
# Cihad GÜNDOĞDU <cihadgundogdu@gmail.com>, 2012
# Cihad GÜNDOĞDU <cihadgundogdu@gmail.com>, 2013-2014
# Gökmen Görgen <gokmen@alageek.com>, 2013
# Jannis Leidel <jannis@leidel.info>, 2011
# Mesut Can Gürle <mesutcang@gmail.com>, 2013
# Murat Çorlu <muratcorlu@me.com>, 2012
# Murat Sahin <martinamca@gmail.com>, 2011-2012
# Türker Sezer <dirigeant@gmail.com>, 2019
msgid """"
msgstr """"
""Project-Id-Version: django\n""
""Report-Msgid-Bugs-To: \n""
""POT-Creation-Date: 2025-03-19 11:30-0500\n""
""PO-Revision-Date: 2025-04-01 15:04-0500\n""
""Last-Translator: BouRock, 2015-2025\n""
""Language-Team: Turkish (http://app.transifex.com/django/django/language/tr/)\n""
""Language: tr\n""
""MIME-Version: 1.0\n""
""Content-Type: text/plain; charset=UTF-8\n""
""Content-Transfer-Encoding: 8bit\n""
""Plural-Forms: nplurals=2; plural=(n > 1);\n""

msgid ""%[1]d byte""
msgid_plural ""%[1]d bytes""
msgstr[0] ""%[1]d bayt""
msgstr[1] ""%[1]d bayt""

msgid ""%[1]s billion""
msgid_plural ""%[1]s billion""
msgstr[0] ""%[1]s milyar""
msgstr[1] ""%[1]s milyar""

msgid ""%[1]s decillion""
msgid_plural ""%[1]s decillion""
msgstr[0] ""%[1]s desilyon""
msgstr[1] ""%[1]s desilyon""

msgid ""%[1]s googol""
msgid_plural ""%[1]s googol""
msgstr[0] ""%[1]s googol""
msgstr[1] ""%[1]s googol""

msgid ""%[1]s million""
msgid_plural ""%[1]s million""
msgstr[0] ""%[1]s milyon""
msgstr[1] ""%[1]s milyon""

msgid ""%[1]s nonillion""
msgid_plural ""%[1]s nonillion""
msgstr[0] ""%[1]s nonilyon""
msgstr[1] ""%[1]s nonilyon""

msgid ""%[1]s octillion""
msgid_plural ""%[1]s octillion""
msgstr[0] ""%[1]s oktilyon""
msgstr[1] ""%[1]s oktilyon""

msgid ""%[1]s quadrillion""
msgid_plural ""%[1]s quadrillion""
msgstr[0] ""%[1]s katrilyon""
msgstr[1] ""%[1]s katrilyon""

msgid ""%[1]s quintillion""
msgid_plural ""%[1]s quintillion""
msgstr[0] ""%[1]s kentilyon""
msgstr[1] ""%[1]s kentilyon""

msgid ""%[1]s septillion""
msgid_plural ""%[1]s septillion""
msgstr[0] ""%[1]s septilyon""
msgstr[1] ""%[1]s septilyon""

msgid ""%[1]s sextillion""
msgid_plural ""%[1]s sextillion""
msgstr[0] ""%[1]s seksilyon""
msgstr[1] ""%[1]s seksilyon""

msgid ""%[1]s trillion""
msgid_plural ""%[1]s trillion""
msgstr[0] ""%[1]s trilyon""
msgstr[1] ""%[1]s trilyon""

msgid ""%[1]v ago""
msgstr ""%[1]v önce""

msgid ""%[1]v day""
msgid_plural ""%[1]v days""
msgstr[0] ""%[1]v gün""
msgstr[1] ""%[1]v gün""

msgid ""%[1]v from now""
msgstr ""şu andan itibaren %[1]v""

msgid ""%[1]v hour""
msgid_plural ""%[1]v hours""
msgstr[0] ""%[1]v saat""
msgstr[1] ""%[1]v saat""

msgid ""%[1]v minute""
msgid_plural ""%[1]v minutes""
msgstr[0] ""%[1]v dakika""
msgstr[1] ""%[1]v dakika""

msgid ""%[1]v month""
msgid_plural ""%[1]v months""
msgstr[0] ""%[1]v ay""
msgstr[1] ""%[1]v ay""

msgid ""%[1]v week""
msgid_plural ""%[1]v weeks""
msgstr[0] ""%[1]v hafta""
msgstr[1] ""%[1]v hafta""

msgid ""%[1]v year""
msgid_plural ""%[1]v years""
msgstr[0] ""%[1]v yıl""
msgstr[1] ""%[1]v yıl""

msgid ""%s GB""
msgstr ""%s GB""

msgid ""%s KB""
msgstr ""%s KB""

msgid ""%s MB""
msgstr ""%s MB""

msgid ""%s PB""
msgstr ""%s PB""

msgid ""%s TB""
msgstr ""%s TB""

msgid "", ""
msgstr "", ""

msgid ""AM""
msgstr ""ÖÖ""

msgid ""Afrikaans""
msgstr ""Afrikanca""

msgid ""Albanian""
msgstr ""Arnavutça""

msgid ""Algerian Arabic""
msgstr ""Cezayir Arapçası""

msgid ""April""
msgstr ""Nisan""

msgid ""Arabic""
msgstr ""Arapça""

msgid ""Argentinian Spanish""
msgstr ""Arjantin İspanyolcası""

msgid ""Armenian""
msgstr ""Ermenice""

msgid ""Asturian""
msgstr ""Asturyaca""

msgid ""August""
msgstr ""Ağustos""

msgid ""Australian English""
msgstr ""Avusturya İngilizcesi""

msgid ""Azerbaijani""
msgstr ""Azerice""

msgid ""Basque""
msgstr ""Baskça""

msgid ""Belarusian""
msgstr ""Beyaz Rusça""

msgid ""Bengali""
msgstr ""Bengalce""

msgid ""Bosnian""
msgstr ""Boşnakça""

msgid ""Brazilian Portuguese""
msgstr ""Brezilya Portekizcesi""

msgid ""Breton""
msgstr ""Bretonca""

msgid ""British English""
msgstr ""İngiliz İngilizcesi""

msgid ""Bulgarian""
msgstr ""Bulgarca""

msgid ""Burmese""
msgstr ""Birmanca""

msgid ""Catalan""
msgstr ""Katalanca""

msgid ""Central Kurdish (Sorani)""
msgstr ""Orta Kürtçe (Sorani)""

msgid ""Colombian Spanish""
msgstr ""Kolomiya İspanyolcası""

msgid ""Croatian""
msgstr ""Hırvatça""

msgid ""Czech""
msgstr ""Çekçe""

msgid ""Danish""
msgstr ""Danca""

msgid ""December""
msgstr ""Aralık""

msgid ""Dutch""
msgstr ""Flemenkçe""

msgid ""English""
msgstr ""İngilizce""

msgid ""Esperanto""
msgstr ""Esperanto dili""

msgid ""Estonian""
msgstr ""Estonca""

msgid ""February""
msgstr ""Şubat""

msgid ""Finnish""
msgstr ""Fince""

msgid ""French""
msgstr ""Fransızca""

msgid ""Fri""
msgstr ""Cum""

msgid ""Friday""
msgstr ""Cuma""

msgid ""Frisian""
msgstr ""Frizce""

msgid ""Galician""
msgstr ""Galiçyaca""

msgid ""Georgian""
msgstr ""Gürcüce""

msgid ""German""
msgstr ""Almanca""

msgid ""Greek""
msgstr ""Yunanca""

msgid ""Hebrew""
msgstr ""İbranice""

msgid ""Hindi""
msgstr ""Hintçe""

msgid ""Hungarian""
msgstr ""Macarca""

msgid ""Icelandic""
msgstr ""İzlandaca""

msgid ""Ido""
msgstr ""Ido dili""

msgid ""Igbo""
msgstr ""Igbo dili""

msgid ""Indonesian""
msgstr ""Endonezce""

msgid ""Interlingua""
msgstr ""Interlingua""

msgid ""Irish""
msgstr ""İrlandaca""

msgid ""Italian""
msgstr ""İtalyanca""

msgid ""January""
msgstr ""Ocak""

msgid ""Japanese""
msgstr ""Japonca""

msgid ""July""
msgstr ""Temmuz""

msgid ""June""
msgstr ""Haziran""

msgid ""Kabyle""
msgstr ""Kabiliye dili""

msgid ""Kannada""
msgstr ""Kannada dili""

msgid ""Kazakh""
msgstr ""Kazakça""

msgid ""Khmer""
msgstr ""Kmerce""

msgid ""Korean""
msgstr ""Korece""

msgid ""Kyrgyz""
msgstr ""Kırgızca""

msgid ""Latvian""
msgstr ""Letonca""

msgid ""Lithuanian""
msgstr ""Litovca""

msgid ""Lower Sorbian""
msgstr ""Aşağı Sorb dili""

msgid ""Luxembourgish""
msgstr ""Lüksemburgca""

msgid ""Macedonian""
msgstr ""Makedonca""

msgid ""Malay""
msgstr ""Malayca""

msgid ""Malayalam""
msgstr ""Malayamca""

msgid ""Marathi""
msgstr ""Marathi dili""

msgid ""March""
msgstr ""Mart""

msgid ""May""
msgstr ""Mayıs""

msgid ""Mexican Spanish""
msgstr ""Meksika İspanyolcası""

msgid ""Mon""
msgstr ""Pzt""

msgid ""Monday""
msgstr ""Pazartesi""

msgid ""Mongolian""
msgstr ""Moğolca""

msgid ""Nepali""
msgstr ""Nepalce""

msgid ""Nicaraguan Spanish""
msgstr ""Nikaragua İspanyolcası""

msgid ""Norwegian Bokmål""
msgstr ""Norveççe Bokmal""

msgid ""Norwegian Nynorsk""
msgstr ""Norveççe Nynorsk""

msgid ""November""
msgstr ""Kasım""

msgid ""October""
msgstr ""Ekim""

msgid ""Ossetic""
msgstr ""Osetçe""

msgid ""PM""
msgstr ""ÖS""

msgid ""Persian""
msgstr ""Farsça""

msgid ""Polish""
msgstr ""Lehçe""

msgid ""Portuguese""
msgstr ""Portekizce""

msgid ""Punjabi""
msgstr ""Pencapça""

msgid ""Romanian""
msgstr ""Romence""

msgid ""Russian""
msgstr ""Rusça""

msgid ""Sat""
msgstr ""Cmt""

msgid ""Saturday""
msgstr ""Cumartesi""

msgid ""Scottish Gaelic""
msgstr ""İskoçça Galcesi""

msgid ""September""
msgstr ""Eylül""

msgid ""Serbian""
msgstr ""Sırpça""

msgid ""Serbian Latin""
msgstr ""Sırpça Latin""

msgid ""Simplified Chinese""
msgstr ""Basitleştirilmiş Çince""

msgid ""Slovak""
msgstr ""Slovakça""

msgid ""Slovenian""
msgstr ""Slovence""

msgid ""Spanish""
msgstr ""İspanyolca""

msgid ""Sun""
msgstr ""Paz""

msgid ""Sunday""
msgstr ""Pazar""

msgid ""Swahili""
msgstr ""Savahilice""

msgid ""Swedish""
msgstr ""İsveççe""

msgid ""Tajik""
msgstr ""Tacikçe""

msgid ""Tamil""
msgstr ""Tamilce""

msgid ""Tatar""
msgstr ""Tatarca""

msgid ""Telugu""
msgstr ""Telugu dili""

msgid ""Thai""
msgstr ""Tayca""

msgid ""Thu""
msgstr ""Prş""

msgid ""Thursday""
msgstr ""Perşembe""

msgid ""Traditional Chinese""
msgstr ""Geleneksel Çince""

msgid ""Tue""
msgstr ""Sal""

msgid ""Tuesday""
msgstr ""Salı""

msgid ""Turkish""
msgstr ""Türkçe""

msgid ""Turkmen""
msgstr ""Türkmence""

msgid ""Udmurt""
msgstr ""Udmurtça""

msgid ""Ukrainian""
msgstr ""Ukraynaca""

msgid ""Upper Sorbian""
msgstr ""Yukarı Sorb dili""

msgid ""Urdu""
msgstr ""Urduca""

msgid ""Uyghur""
msgstr ""Uygur""

msgid ""Uzbek""
msgstr ""‎Özbekçe""

msgid ""Venezuelan Spanish""
msgstr ""Venezüella İspanyolcası""

msgid ""Vietnamese""
msgstr ""Vietnamca""

msgid ""Wed""
msgstr ""Çrş""

msgid ""Wednesday""
msgstr ""Çarşamba""

msgid ""Welsh""
msgstr ""Galce""

msgid ""a minute ago""
msgid_plural ""%[1]v minutes ago""
msgstr[0] ""bir dakika önce""
msgstr[1] ""%[1]v dakika önce""

msgid ""a minute from now""
msgid_plural ""%[1]v minutes from now""
msgstr[0] ""şu andan itibaren bir dakika""
msgstr[1] ""şu andan itibaren %[1]v dakika""

msgid ""a second ago""
msgid_plural ""%[1]v seconds ago""
msgstr[0] ""bir saniye önce""
msgstr[1] ""%[1]v saniye önce""

msgid ""a second from now""
msgid_plural ""%[1]v seconds from now""
msgstr[0] ""şu andan itibaren bir saniye""
msgstr[1] ""şu andan itibaren %[1]v saniye""

msgid ""a.m.""
msgstr ""ö.ö.""

msgid ""an hour ago""
msgid_plural ""%[1]v hours ago""
msgstr[0] ""bir saat önce""
msgstr[1] ""%[1]v saat önce""

msgid ""an hour from now""
msgid_plural ""%[1]v hours from now""
msgstr[0] ""şu andan itibaren bir saat""
msgstr[1] ""şu andan itibaren %[1]v saat""

msgid ""apr""
msgstr ""nis""

msgid ""aug""
msgstr ""ağu""

msgid ""dec""
msgstr ""ara""

msgid ""eight""
msgstr ""sekiz""

msgid ""feb""
msgstr ""şub""

msgid ""five""
msgstr ""beş""

msgid ""four""
msgstr ""dört""

msgid ""jan""
msgstr ""oca""

msgid ""jul""
msgstr ""tem""

msgid ""jun""
msgstr ""haz""

msgid ""mar""
msgstr ""mar""

msgid ""may""
msgstr ""may""

msgid ""midnight""
msgstr ""gece yarısı""

msgid ""nine""
msgstr ""dokuz""

msgid ""noon""
msgstr ""öğlen""

msgid ""nov""
msgstr ""kas""

msgid ""now""
msgstr ""şimdi""

msgid ""oct""
msgstr ""eki""

msgid ""one""
msgstr ""bir""

msgid ""p.m.""
msgstr ""ö.s.""

msgid ""sep""
msgstr ""eyl""

msgid ""seven""
msgstr ""yedi""

msgid ""six""
msgstr ""altı""

msgid ""three""
msgstr ""üç""

msgid ""today""
msgstr ""bugün""

msgid ""tomorrow""
msgstr ""yarın""

msgid ""two""
msgstr ""iki""

msgid ""yesterday""
msgstr ""dün""

msgctxt ""abbrev. month""
msgid ""April""
msgstr ""Nisan""

msgctxt ""abbrev. month""
msgid ""Aug.""
msgstr ""Ağu.""

msgctxt ""abbrev. month""
msgid ""Dec.""
msgstr ""Ara.""

msgctxt ""abbrev. month""
msgid ""Feb.""
msgstr ""Şub.""

msgctxt ""abbrev. month""
msgid ""Jan.""
msgstr ""Oca.""

msgctxt ""abbrev. month""
msgid ""July""
msgstr ""Tem.""

msgctxt ""abbrev. month""
msgid ""June""
msgstr ""Haz.""

msgctxt ""abbrev. month""
msgid ""March""
msgstr ""Mart""

msgctxt ""abbrev. month""
msgid ""May""
msgstr ""Mayıs""

msgctxt ""abbrev. month""
msgid ""Nov.""
msgstr ""Kas.""

msgctxt ""abbrev. month""
msgid ""Oct.""
msgstr ""Eki.""

msgctxt ""abbrev. month""
msgid ""Sept.""
msgstr ""Eyl.""

msgctxt ""alt. month""
msgid ""April""
msgstr ""Nisan""

msgctxt ""alt. month""
msgid ""August""
msgstr ""Ağustos""

msgctxt ""alt. month""
msgid ""December""
msgstr ""Aralık""

msgctxt ""alt. month""
msgid ""February""
msgstr ""Şubat""

msgctxt ""alt. month""
msgid ""January""
msgstr ""Ocak""

msgctxt ""alt. month""
msgid ""July""
msgstr ""Temmuz""

msgctxt ""alt. month""
msgid ""June""
msgstr ""Haziran""

msgctxt ""alt. month""
msgid ""March""
msgstr ""Mart""

msgctxt ""alt. month""
msgid ""May""
msgstr ""Mayıs""

msgctxt ""alt. month""
msgid ""November""
msgstr ""Kasım""

msgctxt ""alt. month""
msgid ""October""
msgstr ""Ekim""

msgctxt ""alt. month""
msgid ""September""
msgstr ""Eylül""

msgctxt ""naturaltime-future""
msgid ""%[1]v day""
msgid_plural ""%[1]v days""
msgstr[0] ""%[1]v gün""
msgstr[1] ""%[1]v gün""

msgctxt ""naturaltime-future""
msgid ""%[1]v hour""
msgid_plural ""%[1]v hours""
msgstr[0] ""%[1]v saat""
msgstr[1] ""%[1]v saat""

msgctxt ""naturaltime-future""
msgid ""%[1]v minute""
msgid_plural ""%[1]v minutes""
msgstr[0] ""%[1]v dakika""
msgstr[1] ""%[1]v dakika""

msgctxt ""naturaltime-future""
msgid ""%[1]v month""
msgid_plural ""%[1]v months""
msgstr[0] ""%[1]v ay""
msgstr[1] ""%[1]v ay""

msgctxt ""naturaltime-future""
msgid ""%[1]v week""
msgid_plural ""%[1]v weeks""
msgstr[0] ""%[1]v hafta""
msgstr[1] ""%[1]v hafta""

msgctxt ""naturaltime-future""
msgid ""%[1]v year""
msgid_plural ""%[1]v years""
msgstr[0] ""%[1]v yıl""
msgstr[1] ""%[1]v yıl""

msgctxt ""naturaltime-past""
msgid ""%[1]v day""
msgid_plural ""%[1]v days""
msgstr[0] ""%[1]v gün""
msgstr[1] ""%[1]v gün""

msgctxt ""naturaltime-past""
msgid ""%[1]v hour""
msgid_plural ""%[1]v hours""
msgstr[0] ""%[1]v saat""
msgstr[1] ""%[1]v saat""

msgctxt ""naturaltime-past""
msgid ""%[1]v minute""
msgid_plural ""%[1]v minutes""
msgstr[0] ""%[1]v dakika""
msgstr[1] ""%[1]v dakika""

msgctxt ""naturaltime-past""
msgid ""%[1]v month""
msgid_plural ""%[1]v months""
msgstr[0] ""%[1]v ay""
msgstr[1] ""%[1]v ay""

msgctxt ""naturaltime-past""
msgid ""%[1]v week""
msgid_plural ""%[1]v weeks""
msgstr[0] ""%[1]v hafta""
msgstr[1] ""%[1]v hafta""

msgctxt ""naturaltime-past""
msgid ""%[1]v year""
msgid_plural ""%[1]v years""
msgstr[0] ""%[1]v yıl""
msgstr[1] ""%[1]v yıl""

msgctxt ""ordinal 0""
msgid ""%vth""
msgstr ""%v.""

msgctxt ""ordinal 1""
msgid ""%vst""
msgstr ""%v.""

msgctxt ""ordinal 11, 12, 13""
msgid ""%vth""
msgstr ""%v.""

msgctxt ""ordinal 2""
msgid ""%vnd""
msgstr ""%v.""

msgctxt ""ordinal 3""
msgid ""%vrd""
msgstr ""%v.""

msgctxt ""ordinal 4""
msgid ""%vth""
msgstr ""%v.""

msgctxt ""ordinal 5""
msgid ""%vth""
msgstr ""%v.""

msgctxt ""ordinal 6""
msgid ""%vth""
msgstr ""%v.""

msgctxt ""ordinal 7""
msgid ""%vth""
msgstr ""%v.""

msgctxt ""ordinal 8""
msgid ""%vth""
msgstr ""%v.""

msgctxt ""ordinal 9""
msgid ""%vth""
msgstr ""%v.""
".
(** humanize/locale/tr/locale.go (New) *)
Definition loc_tr : locale_data := LD (bs "tr") [(bs "django.po", po_tr)]
  (Some (FD (bs "d F Y") (bs "H:i") (bs "d F Y H:i") (bs "F Y") (bs "d F") (bs "d M Y") (bs "d M Y H:i"))).

(** humanize/locale/tt/django.po *)
Definition po_tt : bytes := bs "# This file is distributed under the same license as the Django package.
# 
# Translators:
# Azat Khasanshin <lordofbazuks@gmail.com>, 2011
# v_ildar <v_ildar@bk.ru>, 2014
msgid """"
msgstr """"
""Project-Id-Version: django\n""
""Report-Msgid-Bugs-To: \n""
""POT-Creation-Date: 2019-09-27 22:40+0200\n""
""PO-Revision-Date: 2019-11-05 00:38+0000\n""
""Last-Translator: Ramiro Morales\n""
""Language-Team: Tatar (http://www.transifex.com/django/django/language/tt/)\n""
""Language: tt\n""
""MIME-Version: 1.0\n""
""Content-Type: text/plain; charset=UTF-8\n""
""Content-Transfer-Encoding: 8bit\n""
""Plural-Forms: nplurals=1; plural=0;\n""

msgid ""%[1]d byte""
msgid_plural ""%[1]d bytes""
msgstr[0] ""%[1]d байт""
msgstr[1] """"

msgid ""%[1]s billion""
msgid_plural ""%[1]s billion""
msgstr[0] ""%[1]s миллиард""
msgstr[1] """"

msgid ""%[1]s decillion""
msgid_plural ""%[1]s decillion""
msgstr[0] ""%[1]s дециллион""
msgstr[1] """"

msgid ""%[1]s googol""
msgid_plural ""%[1]s googol""
msgstr[0] ""%[1]s гугол""
msgstr[1] """"

msgid ""%[1]s million""
msgid_plural ""%[1]s million""
msgstr[0] ""%[1]s миллион""
msgstr[1] """"

msgid ""%[1]s nonillion""
msgid_plural ""%[1]s nonillion""
msgstr[0] ""%[1]s нониллион""
msgstr[1] """"

msgid ""%[1]s octillion""
msgid_plural ""%[1]s octillion""
msgstr[0] ""%[1]s октиллион""
msgstr[1] """"

msgid ""%[1]s quadrillion""
msgid_plural ""%[1]s quadrillion""
msgstr[0] ""%[1]s квадриллион""
msgstr[1] """"

msgid ""%[1]s quintillion""
msgid_plural ""%[1]s quintillion""
msgstr[0] ""%[1]s квинтиллион""
msgstr[1] """"

msgid ""%[1]s septillion""
msgid_plural ""%[1]s septillion""
msgstr[0] ""%[1]s септиллион""
msgstr[1] """"

msgid ""%[1]s sextillion""
msgid_plural ""%[1]s sextillion""
msgstr[0] ""%[1]s секстиллион""
msgstr[1] """"

msgid ""%[1]s trillion""
msgid_plural ""%[1]s trillion""
msgstr[0] ""%[1]s триллион""
msgstr[1] """"

msgid ""%s GB""
msgstr ""%s ГБ""

msgid ""%s KB""
msgstr ""%s КБ""

msgid ""%s MB""
msgstr ""%s МБ""

msgid ""%s PB""
msgstr ""%s ПБ""

msgid ""%s TB""
msgstr ""%s ТБ""

msgid "", ""
msgstr "",""

msgid ""AM""
msgstr ""ТК""

msgid ""Afrikaans""
msgstr """"

msgid ""Albanian""
msgstr ""Албан теле""

msgid ""April""
msgstr ""Апрель""

msgid ""Arabic""
msgstr ""Гарәп теле""

msgid ""Argentinian Spanish""
msgstr ""Аргентина испан теле""

msgid ""Armenian""
msgstr """"

msgid ""Asturian""
msgstr """"

msgid ""August""
msgstr ""Август""

msgid ""Australian English""
msgstr """"

msgid ""Azerbaijani""
msgstr ""Азәрбайҗан""

msgid ""Basque""
msgstr ""Баск теле""

msgid ""Belarusian""
msgstr """"

msgid ""Bengali""
msgstr ""Бенгалия теле""

msgid ""Bosnian""
msgstr ""Босния теле""

msgid ""Brazilian Portuguese""
msgstr ""Бразилия португал теле""

msgid ""Breton""
msgstr """"

msgid ""British English""
msgstr ""Британ инглиз теле""

msgid ""Bulgarian""
msgstr ""Болгар теле""

msgid ""Burmese""
msgstr """"

msgid ""Catalan""
msgstr ""Каталан теле""

msgid ""Colombian Spanish""
msgstr """"

msgid ""Croatian""
msgstr ""Хорват теле""

msgid ""Czech""
msgstr ""Чех теле""

msgid ""Danish""
msgstr ""Дания теле""

msgid ""December""
msgstr ""Декабрь""

msgid ""Dutch""
msgstr ""Голланд теле""

msgid ""English""
msgstr ""Инглиз теле""

msgid ""Esperanto""
msgstr ""Эсперанто теле""

msgid ""Estonian""
msgstr ""Эстон теле""

msgid ""February""
msgstr ""Февраль""

msgid ""Finnish""
msgstr ""Финн теле""

msgid ""French""
msgstr ""Француз теле""

msgid ""Fri""
msgstr ""Җом""

msgid ""Friday""
msgstr ""Җомга""

msgid ""Frisian""
msgstr ""Фриз теле""

msgid ""Galician""
msgstr ""Галлий теле""

msgid ""Georgian""
msgstr ""Грузин теле""

msgid ""German""
msgstr ""Алман теле""

msgid ""Greek""
msgstr ""Грек теле""

msgid ""Hebrew""
msgstr ""Яһүд теле""

msgid ""Hindi""
msgstr ""Хинд теле""

msgid ""Hungarian""
msgstr ""Венгр теле""

msgid ""Icelandic""
msgstr ""Исланд теле""

msgid ""Ido""
msgstr """"

msgid ""Indonesian""
msgstr ""Индонезия теле""

msgid ""Interlingua""
msgstr """"

msgid ""Irish""
msgstr ""Ирланд теле""

msgid ""Italian""
msgstr ""Итальян теле""

msgid ""January""
msgstr ""Гыйнвар""

msgid ""Japanese""
msgstr ""Япон теле""

msgid ""July""
msgstr ""Июль""

msgid ""June""
msgstr ""Июнь""

msgid ""Kabyle""
msgstr """"

msgid ""Kannada""
msgstr ""Каннада теле""

msgid ""Kazakh""
msgstr ""Казах теле""

msgid ""Khmer""
msgstr ""Кхмер теле""

msgid ""Korean""
msgstr ""Корея теле""

msgid ""Latvian""
msgstr ""Латвия теле""

msgid ""Lithuanian""
msgstr ""Литвалылар теле""

msgid ""Lower Sorbian""
msgstr """"

msgid ""Luxembourgish""
msgstr ""Люксембург теле""

msgid ""Macedonian""
msgstr ""Македон теле""

msgid ""Malayalam""
msgstr ""Малаялам теле""

msgid ""Marathi""
msgstr """"

msgid ""March""
msgstr ""Март""

msgid ""May""
msgstr ""Май""

msgid ""Mexican Spanish""
msgstr ""Мексикалы испан""

msgid ""Mon""
msgstr ""Дүш""

msgid ""Monday""
msgstr ""Дүшәмбе""

msgid ""Mongolian""
msgstr ""Монгол теле""

msgid ""Nepali""
msgstr """"

msgid ""Nicaraguan Spanish""
msgstr ""Никарагуалы испан""

msgid ""Norwegian Bokmål""
msgstr """"

msgid ""Norwegian Nynorsk""
msgstr ""Норвегиялеләр (Нюнорск) теле""

msgid ""November""
msgstr ""Ноябрь""

msgid ""October""
msgstr ""Октябрь""

msgid ""Ossetic""
msgstr """"

msgid ""PM""
msgstr ""ТС""

msgid ""Persian""
msgstr ""Фарсы теле""

msgid ""Polish""
msgstr ""Поляк теле""

msgid ""Portuguese""
msgstr ""Португал теле""

msgid ""Punjabi""
msgstr ""Паджаби теле""

msgid ""Romanian""
msgstr ""Румын теле""

msgid ""Russian""
msgstr ""Рус теле""

msgid ""Sat""
msgstr ""Шим""

msgid ""Saturday""
msgstr ""Шимбә""

msgid ""Scottish Gaelic""
msgstr """"

msgid ""September""
msgstr ""Сентябрь""

msgid ""Serbian""
msgstr ""Серб теле""

msgid ""Serbian Latin""
msgstr ""Серб теле (латин алфавиты)""

msgid ""Simplified Chinese""
msgstr ""Гадиләштерелгән кытай теле""

msgid ""Slovak""
msgstr ""Словак теле""

msgid ""Slovenian""
msgstr ""Словен теле""

msgid ""Spanish""
msgstr ""Испан теле""

msgid ""Sun""
msgstr ""Якш""

msgid ""Sunday""
msgstr ""Якшәмбе""

msgid ""Swahili""
msgstr """"

msgid ""Swedish""
msgstr ""Швед теле""

msgid ""Tamil""
msgstr ""Тамиль теле""

msgid ""Tatar""
msgstr ""Татар теле""

msgid ""Telugu""
msgstr ""Телугу теле""

msgid ""Thai""
msgstr ""Тай теле""

msgid ""Thu""
msgstr ""Пнҗ""

msgid ""Thursday""
msgstr ""Пәнҗешәмбе""

msgid ""Traditional Chinese""
msgstr ""Традицион кытай теле""

msgid ""Tue""
msgstr ""Сиш""

msgid ""Tuesday""
msgstr ""Сишәмбе""

msgid ""Turkish""
msgstr ""Төрек теле""

msgid ""Udmurt""
msgstr """"

msgid ""Ukrainian""
msgstr ""Украин теле""

msgid ""Upper Sorbian""
msgstr """"

msgid ""Urdu""
msgstr ""Урду""

msgid ""Uzbek""
msgstr """"

msgid ""Venezuelan Spanish""
msgstr """"

msgid ""Vietnamese""
msgstr ""Вьетнам теле""

msgid ""Wed""
msgstr ""Чәр""

msgid ""Wednesday""
msgstr ""Чәршәмбе""

msgid ""Welsh""
msgstr ""Уэльс теле""

msgid ""a minute ago""
msgid_plural ""%[1]v minutes ago""
msgstr[0] """"
msgstr[1] """"

msgid ""a minute from now""
msgid_plural ""%[1]v minutes from now""
msgstr[0] """"
msgstr[1] """"

msgid ""a second ago""
msgid_plural ""%[1]v seconds ago""
msgstr[0] """"
msgstr[1] """"

msgid ""a second from now""
msgid_plural ""%[1]v seconds from now""
msgstr[0] """"
msgstr[1] """"

msgid ""a.m.""
msgstr ""т.к.""

msgid ""an hour ago""
msgid_plural ""%[1]v hours ago""
msgstr[0] """"
msgstr[1] """"

msgid ""an hour from now""
msgid_plural ""%[1]v hours from now""
msgstr[0] """"
msgstr[1] """"

msgid ""apr""
msgstr ""апр""

msgid ""aug""
msgstr ""авг""

msgid ""dec""
msgstr ""дек""

msgid ""eight""
msgstr ""сигез""

msgid ""feb""
msgstr ""фев""

msgid ""five""
msgstr ""биш""

msgid ""four""
msgstr ""дүрт""

msgid ""jan""
msgstr ""гый""

msgid ""jul""
msgstr ""июл""

msgid ""jun""
msgstr ""июн""

msgid ""mar""
msgstr ""мар""

msgid ""may""
msgstr ""май""

msgid ""midnight""
msgstr ""төн уртасы""

msgid ""nine""
msgstr ""тугыз""

msgid ""noon""
msgstr ""көн уртасы""

msgid ""nov""
msgstr ""ноя""

msgid ""now""
msgstr ""хәзер""

msgid ""oct""
msgstr ""окт""

msgid ""one""
msgstr ""бер""

msgid ""p.m.""
msgstr ""т.с.""

msgid ""sep""
msgstr ""сен""

msgid ""seven""
msgstr ""җиде""

msgid ""six""
msgstr ""алты""

msgid ""three""
msgstr ""өч""

msgid ""today""
msgstr ""бүген""

msgid ""tomorrow""
msgstr ""иртәгә""

msgid ""two""
msgstr ""ике""

msgid ""yesterday""
msgstr ""кичә""

msgctxt ""abbrev. month""
msgid ""April""
msgstr ""Апрель""

msgctxt ""abbrev. month""
msgid ""Aug.""
msgstr ""Авг.""

msgctxt ""abbrev. month""
msgid ""Dec.""
msgstr ""Дек.""

msgctxt ""abbrev. month""
msgid ""Feb.""
msgstr ""Фев.""

msgctxt ""abbrev. month""
msgid ""Jan.""
msgstr ""Гый.""

msgctxt ""abbrev. month""
msgid ""July""
msgstr ""Июль""

msgctxt ""abbrev. month""
msgid ""June""
msgstr ""Июнь""

msgctxt ""abbrev. month""
msgid ""March""
msgstr ""Март""

msgctxt ""abbrev. month""
msgid ""May""
msgstr ""Май""

msgctxt ""abbrev. month""
msgid ""Nov.""
msgstr ""Ноя.""

msgctxt ""abbrev. month""
msgid ""Oct.""
msgstr ""Окт.""

msgctxt ""abbrev. month""
msgid ""Sept.""
msgstr ""Сен.""

msgctxt ""alt. month""
msgid ""April""
msgstr ""апрель""

msgctxt ""alt. month""
msgid ""August""
msgstr ""август""

msgctxt ""alt. month""
msgid ""December""
msgstr ""декабрь""

msgctxt ""alt. month""
msgid ""February""
msgstr ""февраль""

msgctxt ""alt. month""
msgid ""January""
msgstr ""гыйнвар""

msgctxt ""alt. month""
msgid ""July""
msgstr ""июль""

msgctxt ""alt. month""
msgid ""June""
msgstr ""июнь""

msgctxt ""alt. month""
msgid ""March""
msgstr ""март""

msgctxt ""alt. month""
msgid ""May""
msgstr ""май""

msgctxt ""alt. month""
msgid ""November""
msgstr ""ноябрь""

msgctxt ""alt. month""
msgid ""October""
msgstr ""октябрь""

msgctxt ""alt. month""
msgid ""September""
msgstr ""сентябрь""
".
(** humanize/locale/tt/locale.go (New) *)
Definition loc_tt : locale_data := LD (bs "tt") [(bs "django.po", po_tt)]
  (None).

(** humanize/locale/udm/django.po *)
Definition po_udm : bytes := bs "# This file is distributed under the same license as the Django package.
# 
# Translators:
msgid """"
msgstr """"
""Project-Id-Version: django\n""
""Report-Msgid-Bugs-To: \n""
""POT-Creation-Date: 2019-09-27 22:40+0200\n""
""PO-Revision-Date: 2019-11-05 00:38+0000\n""
""Last-Translator: Ramiro Morales\n""
""Language-Team: Udmurt (http://www.transifex.com/django/django/language/udm/)\n""
""Language: udm\n""
""MIME-Version: 1.0\n""
""Content-Type: text/plain; charset=UTF-8\n""
""Content-Transfer-Encoding: 8bit\n""
""Plural-Forms: nplurals=1; plural=0;\n""

msgid ""%[1]d byte""
msgid_plural ""%[1]d bytes""
msgstr[0] ""%[1]d байт""
msgstr[1] """"

msgid ""%[1]s billion""
msgid_plural ""%[1]s billion""
msgstr[0] """"
msgstr[1] """"

msgid ""%[1]s decillion""
msgid_plural ""%[1]s decillion""
msgstr[0] """"
msgstr[1] """"

msgid ""%[1]s googol""
msgid_plural ""%[1]s googol""
msgstr[0] """"
msgstr[1] """"

msgid ""%[1]s million""
msgid_plural ""%[1]s million""
msgstr[0] """"
msgstr[1] """"

msgid ""%[1]s nonillion""
msgid_plural ""%[1]s nonillion""
msgstr[0] """"
msgstr[1] """"

msgid ""%[1]s octillion""
msgid_plural ""%[1]s octillion""
msgstr[0] """"
msgstr[1] """"

msgid ""%[1]s quadrillion""
msgid_plural ""%[1]s quadrillion""
msgstr[0] """"
msgstr[1] """"

msgid ""%[1]s quintillion""
msgid_plural ""%[1]s quintillion""
msgstr[0] """"
msgstr[1] """"

msgid ""%[1]s septillion""
msgid_plural ""%[1]s septillion""
msgstr[0] """"
msgstr[1] """"

msgid ""%[1]s sextillion""
msgid_plural ""%[1]s sextillion""
msgstr[0] """"
msgstr[1] """"

msgid ""%[1]s trillion""
msgid_plural ""%[1]s trillion""
msgstr[0] """"
msgstr[1] """"

msgid ""%s GB""
msgstr ""%s МБ""

msgid ""%s KB""
msgstr ""%s КБ""

msgid ""%s MB""
msgstr ""%s МБ""

msgid ""%s PB""
msgstr ""%s ПБ""

msgid ""%s TB""
msgstr ""%s ТБ""

msgid "", ""
msgstr "",""

msgid ""AM""
msgstr ""лымшор азе""

msgid ""Afrikaans""
msgstr ""Африкаанс""

msgid ""Albanian""
msgstr ""Албан""

msgid ""April""
msgstr ""оштолэзь""

msgid ""Arabic""
msgstr ""Араб""

msgid ""Argentinian Spanish""
msgstr ""Аргентинаысь испан""

msgid ""Armenian""
msgstr """"

msgid ""Asturian""
msgstr """"

msgid ""August""
msgstr ""гудырикошкон""

msgid ""Australian English""
msgstr """"

msgid ""Azerbaijani""
msgstr ""Азербайджан""

msgid ""Basque""
msgstr ""Баск""

msgid ""Belarusian""
msgstr ""Беларус""

msgid ""Bengali""
msgstr ""Бенгал""

msgid ""Bosnian""
msgstr ""Босниец""

msgid ""Brazilian Portuguese""
msgstr ""Бразилиысь португал""

msgid ""Breton""
msgstr ""Бретон""

msgid ""British English""
msgstr ""Британиысь англи""

msgid ""Bulgarian""
msgstr ""Болгар""

msgid ""Burmese""
msgstr """"

msgid ""Catalan""
msgstr ""Каталан""

msgid ""Colombian Spanish""
msgstr """"

msgid ""Croatian""
msgstr ""Хорват""

msgid ""Czech""
msgstr ""Чех""

msgid ""Danish""
msgstr ""Датчан""

msgid ""December""
msgstr ""толсур""

msgid ""Dutch""
msgstr ""Голланд""

msgid ""English""
msgstr ""Англи""

msgid ""Esperanto""
msgstr ""Эсперанто""

msgid ""Estonian""
msgstr ""Эстон""

msgid ""February""
msgstr ""тулыспал""

msgid ""Finnish""
msgstr ""Финн""

msgid ""French""
msgstr ""Француз""

msgid ""Fri""
msgstr ""удм""

msgid ""Friday""
msgstr ""Удмуртарня""

msgid ""Frisian""
msgstr ""Фриз""

msgid ""Galician""
msgstr ""Галисий""

msgid ""Georgian""
msgstr ""Грузин""

msgid ""German""
msgstr ""Немец""

msgid ""Greek""
msgstr ""Грек""

msgid ""Hebrew""
msgstr ""Иврит""

msgid ""Hindi""
msgstr ""Хинди""

msgid ""Hungarian""
msgstr ""Венгер""

msgid ""Icelandic""
msgstr ""Исланд""

msgid ""Ido""
msgstr """"

msgid ""Indonesian""
msgstr ""Индонези""

msgid ""Interlingua""
msgstr ""Интерлингва""

msgid ""Irish""
msgstr ""Ирланд""

msgid ""Italian""
msgstr ""Итальян""

msgid ""January""
msgstr ""толшор""

msgid ""Japanese""
msgstr ""Япон""

msgid ""July""
msgstr ""пӧсьтолэзь""

msgid ""June""
msgstr ""инвожо""

msgid ""Kabyle""
msgstr """"

msgid ""Kannada""
msgstr ""Каннада""

msgid ""Kazakh""
msgstr ""Казах""

msgid ""Khmer""
msgstr ""Кхмер""

msgid ""Korean""
msgstr ""Корей""

msgid ""Latvian""
msgstr ""Латвий""

msgid ""Lithuanian""
msgstr ""Литва""

msgid ""Lower Sorbian""
msgstr """"

msgid ""Luxembourgish""
msgstr ""Люксембург""

msgid ""Macedonian""
msgstr ""Македон""

msgid ""Malayalam""
msgstr ""Малаялам""

msgid ""Marathi""
msgstr """"

msgid ""March""
msgstr ""южтолэзь""

msgid ""May""
msgstr ""куартолэзь""

msgid ""Mexican Spanish""
msgstr ""Мексикаысь испан""

msgid ""Mon""
msgstr ""врд""

msgid ""Monday""
msgstr ""Вордӥськон""

msgid ""Mongolian""
msgstr ""Монгол""

msgid ""Nepali""
msgstr ""Непал""

msgid ""Nicaraguan Spanish""
msgstr ""Никарагуаысь испан""

msgid ""Norwegian Bokmål""
msgstr """"

msgid ""Norwegian Nynorsk""
msgstr ""Норвег (нюнорск)""

msgid ""November""
msgstr ""шуркынмон""

msgid ""October""
msgstr ""коньывуон""

msgid ""Ossetic""
msgstr """"

msgid ""PM""
msgstr ""лымшор бере""

msgid ""Persian""
msgstr ""Перс""

msgid ""Polish""
msgstr ""Поляк""

msgid ""Portuguese""
msgstr ""Португал""

msgid ""Punjabi""
msgstr ""Панджаби""

msgid ""Romanian""
msgstr ""Румын""

msgid ""Russian""
msgstr ""Ӟуч""

msgid ""Sat""
msgstr ""ксн""

msgid ""Saturday""
msgstr ""Кӧснунал""

msgid ""Scottish Gaelic""
msgstr """"

msgid ""September""
msgstr ""куарусён""

msgid ""Serbian""
msgstr ""Серб""

msgid ""Serbian Latin""
msgstr ""Серб (латиницаен)""

msgid ""Simplified Chinese""
msgstr ""Китай (капчиятэм)""

msgid ""Slovak""
msgstr ""Словак""

msgid ""Slovenian""
msgstr ""Словен""

msgid ""Spanish""
msgstr ""Испан""

msgid ""Sun""
msgstr ""арн""

msgid ""Sunday""
msgstr ""Арнянунал""

msgid ""Swahili""
msgstr ""Суахили""

msgid ""Swedish""
msgstr ""Швед""

msgid ""Tamil""
msgstr ""Тамиль""

msgid ""Tatar""
msgstr ""Бигер""

msgid ""Telugu""
msgstr ""Телугу""

msgid ""Thai""
msgstr ""Тай""

msgid ""Thu""
msgstr ""пкч""

msgid ""Thursday""
msgstr ""Покчиарня""

msgid ""Traditional Chinese""
msgstr ""Китай (традици)""

msgid ""Tue""
msgstr ""пкс""

msgid ""Tuesday""
msgstr ""Пуксён""

msgid ""Turkish""
msgstr ""Турок""

msgid ""Udmurt""
msgstr ""Удмурт""

msgid ""Ukrainian""
msgstr ""Украин""

msgid ""Upper Sorbian""
msgstr """"

msgid ""Urdu""
msgstr ""Урду""

msgid ""Uzbek""
msgstr """"

msgid ""Venezuelan Spanish""
msgstr ""Венесуэлаысь испан""

msgid ""Vietnamese""
msgstr ""Вьетнам""

msgid ""Wed""
msgstr ""врн""

msgid ""Wednesday""
msgstr ""Вирнунал""

msgid ""Welsh""
msgstr ""Уэльс""

msgid ""a minute ago""
msgid_plural ""%[1]v minutes ago""
msgstr[0] """"
msgstr[1] """"

msgid ""a minute from now""
msgid_plural ""%[1]v minutes from now""
msgstr[0] """"
msgstr[1] """"

msgid ""a second ago""
msgid_plural ""%[1]v seconds ago""
msgstr[0] """"
msgstr[1] """"

msgid ""a second from now""
msgid_plural ""%[1]v seconds from now""
msgstr[0] """"
msgstr[1] """"

msgid ""a.m.""
msgstr ""лымшор азе""

msgid ""an hour ago""
msgid_plural ""%[1]v hours ago""
msgstr[0] """"
msgstr[1] """"

msgid ""an hour from now""
msgid_plural ""%[1]v hours from now""
msgstr[0] """"
msgstr[1] """"

msgid ""apr""
msgstr ""ошт""

msgid ""aug""
msgstr ""гкт""

msgid ""dec""
msgstr ""тст""

msgid ""eight""
msgstr """"

msgid ""feb""
msgstr ""тпт""

msgid ""five""
msgstr """"

msgid ""four""
msgstr """"

msgid ""jan""
msgstr ""тшт""

msgid ""jul""
msgstr ""пст""

msgid ""jun""
msgstr ""ивт""

msgid ""mar""
msgstr ""южт""

msgid ""may""
msgstr ""крт""

msgid ""midnight""
msgstr ""уйшор""

msgid ""nine""
msgstr """"

msgid ""noon""
msgstr ""лымшор""

msgid ""nov""
msgstr ""шкт""

msgid ""now""
msgstr """"

msgid ""oct""
msgstr ""квт""

msgid ""one""
msgstr """"

msgid ""p.m.""
msgstr ""лымшор бере""

msgid ""sep""
msgstr ""кут""

msgid ""seven""
msgstr """"

msgid ""six""
msgstr """"

msgid ""three""
msgstr """"

msgid ""today""
msgstr """"

msgid ""tomorrow""
msgstr """"

msgid ""two""
msgstr """"

msgid ""yesterday""
msgstr """"

msgctxt ""abbrev. month""
msgid ""April""
msgstr ""ошт""

msgctxt ""abbrev. month""
msgid ""Aug.""
msgstr ""гкт""

msgctxt ""abbrev. month""
msgid ""Dec.""
msgstr ""тст""

msgctxt ""abbrev. month""
msgid ""Feb.""
msgstr ""тпт""

msgctxt ""abbrev. month""
msgid ""Jan.""
msgstr ""тшт""

msgctxt ""abbrev. month""
msgid ""July""
msgstr ""пст""

msgctxt ""abbrev. month""
msgid ""June""
msgstr ""ивт""

msgctxt ""abbrev. month""
msgid ""March""
msgstr ""южт""

msgctxt ""abbrev. month""
msgid ""May""
msgstr ""крт""

msgctxt ""abbrev. month""
msgid ""Nov.""
msgstr ""шкт""

msgctxt ""abbrev. month""
msgid ""Oct.""
msgstr ""квт""

msgctxt ""abbrev. month""
msgid ""Sept.""
msgstr ""кут""

msgctxt ""alt. month""
msgid ""April""
msgstr ""оштолэзе""

msgctxt ""alt. month""
msgid ""August""
msgstr ""гудырикошконэ""

msgctxt ""alt. month""
msgid ""December""
msgstr ""толсуре""

msgctxt ""alt. month""
msgid ""February""
msgstr ""тулыспалэ""

msgctxt ""alt. month""
msgid ""January""
msgstr ""толшоре""

msgctxt ""alt. month""
msgid ""July""
msgstr ""пӧсьтолэзе""

msgctxt ""alt. month""
msgid ""June""
msgstr ""инвожое""

msgctxt ""alt. month""
msgid ""March""
msgstr ""южтолэзе""

msgctxt ""alt. month""
msgid ""May""
msgstr ""куартолэзе""

msgctxt ""alt. month""
msgid ""November""
msgstr ""шуркынмонэ""

msgctxt ""alt. month""
msgid ""October""
msgstr ""коньывуонэ""

msgctxt ""alt. month""
msgid ""September""
msgstr ""куарусёнэ""
".
(** humanize/locale/udm/locale.go (New) *)
Definition loc_udm : locale_data := LD (bs "udm") [(bs "django.po", po_udm)]
  (None).

Definition shipped_9 : list (bytes * locale_data) :=
  [(bs "sv", loc_sv);
   (bs "sw", loc_sw);
   (bs "ta", loc_ta);
   (bs "te", loc_te);
   (bs "tg", loc_tg);
   (bs "th", loc_th);
   (bs "tk", loc_tk);
   (bs "tr", loc_tr);
   (bs "tt", loc_tt);
   (bs "udm", loc_udm)].
