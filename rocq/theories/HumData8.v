(** Translations and formats that come with humanize, part 8: generated by
    tools/gen_humdata.py from /repo/humanize/locale, django.po and the Go file of
    each package. *)
From Coq Require Import String Ascii List.
From Verif Require Import Base DfmtModel HumLocModel.
Import ListNotations.

(** humanize/locale/pl/django.po *)
Definition po_pl : bytes := bs "# This file is distributed under the same license as the Django package.
# 
# Translators:
# 8ffa075ab2f53c280beb2c066769d1ac_169beb5 <462ee687bbf3107fab5af73e8cc690d0_217822>, 2014
# Adam Stachowicz <saibamenppl@gmail.com>, 2015
# angularcircle, 2011,2013
# angularcircle, 2011,2013
# angularcircle, 2014
# Dariusz Paluch <taxido0@gmail.com>, 2015
# Darek, 2022
# Jannis Leidel <jannis@leidel.info>, 2011
# Janusz Harkot <jh@trilab.pl>, 2014-2015
# Kacper Krupa <pagenoare@gmail.com>, 2013
# Karol <kfuks2@o2.pl>, 2012
# 0d5641585fd67fbdb97037c19ab83e4c_18c98b0 <f6e7dac08616696bd890d93a38e13b13_5231>, 2011
# 0d5641585fd67fbdb97037c19ab83e4c_18c98b0 <f6e7dac08616696bd890d93a38e13b13_5231>, 2011
# Łukasz Rekucki (lqc) <lrekucki@gmail.com>, 2011
# Maciej Olko <maciej.olko@gmail.com>, 2016-2021
# Maciej Olko <maciej.olko@gmail.com>, 2023-2024
# Maciej Olko <maciej.olko@gmail.com>, 2015
# Mariusz Felisiak <felisiak.mariusz@gmail.com>, 2020-2021,2023-2025
# Michał Pasternak <michal.dtz@gmail.com>, 2013
# c10516f0462e552b4c3672569f0745a7_cc5cca2 <841826256cd8f47d0e443806a8e56601_19204>, 2012
# Piotr Meuś <piotr.meus@gmail.com>, 2014
# c10516f0462e552b4c3672569f0745a7_cc5cca2 <841826256cd8f47d0e443806a8e56601_19204>, 2012
# Quadric <quadmachine@wp.pl>, 2014
# Radek Czajka <radoslaw.czajka@nowoczesnapolska.org.pl>, 2013
# Radek Czajka <radoslaw.czajka@nowoczesnapolska.org.pl>, 2013
# Roman Barczyński, 2012
# 8ffa075ab2f53c280beb2c066769d1ac_169beb5 <462ee687bbf3107fab5af73e8cc690d0_217822>, 2014
# Tomasz Kajtoch <tomekkaj@tomekkaj.pl>, 2016-2017
msgid """"
msgstr """"
""Project-Id-Version: django\n""
""Report-Msgid-Bugs-To: \n""
""POT-Creation-Date: 2025-03-19 11:30-0500\n""
""PO-Revision-Date: 2025-04-01 15:04-0500\n""
""Last-Translator: Mariusz Felisiak <felisiak.mariusz@gmail.com>, 2020-2021,2023-2025\n""
""Language-Team: Polish (http://app.transifex.com/django/django/language/pl/)\n""
""Language: pl\n""
""MIME-Version: 1.0\n""
""Content-Type: text/plain; charset=UTF-8\n""
""Content-Transfer-Encoding: 8bit\n""
""Plural-Forms: nplurals=4; plural=(n==1 ? 0 : (n%10>=2 && n%10<=4) && (n%100<12 || n%100>14) ? 1 : n!=1 && (n%10>=0 && n%10<=1) || (n%10>=5 && n%10<=9) || (n%100>=12 && n%100<=14) ? 2 : 3);\n""

msgid ""%[1]d byte""
msgid_plural ""%[1]d bytes""
msgstr[0] ""%[1]d bajt""
msgstr[1] ""%[1]d bajty""
msgstr[2] ""%[1]d bajtów""
msgstr[3] ""%[1]d bajtów""

msgid ""%[1]s billion""
msgid_plural ""%[1]s billion""
msgstr[0] ""%[1]s miliard""
msgstr[1] ""%[1]s miliardy""
msgstr[2] ""%[1]s miliardów""
msgstr[3] ""%[1]s miliardów""

msgid ""%[1]s decillion""
msgid_plural ""%[1]s decillion""
msgstr[0] ""%[1]s kwintyliard""
msgstr[1] ""%[1]s kwintyliardy""
msgstr[2] ""%[1]s kwintyliardów""
msgstr[3] ""%[1]s kwintyliardów""

msgid ""%[1]s googol""
msgid_plural ""%[1]s googol""
msgstr[0] ""%[1]s googol""
msgstr[1] ""%[1]s googole""
msgstr[2] ""%[1]s googolów""
msgstr[3] ""%[1]s googolów""

msgid ""%[1]s million""
msgid_plural ""%[1]s million""
msgstr[0] ""%[1]s milion""
msgstr[1] ""%[1]s miliony""
msgstr[2] ""%[1]s milionów""
msgstr[3] ""%[1]s milionów""

msgid ""%[1]s nonillion""
msgid_plural ""%[1]s nonillion""
msgstr[0] ""%[1]s kwintylion""
msgstr[1] ""%[1]s kwintyliony""
msgstr[2] ""%[1]s kwintylionów""
msgstr[3] ""%[1]s kwintylionów""

msgid ""%[1]s octillion""
msgid_plural ""%[1]s octillion""
msgstr[0] ""%[1]s kwadryliard""
msgstr[1] ""%[1]s kwardyliardy""
msgstr[2] ""%[1]s kwadryliardów""
msgstr[3] ""%[1]s kwadryliardów""

msgid ""%[1]s quadrillion""
msgid_plural ""%[1]s quadrillion""
msgstr[0] ""%[1]s kwadrylion""
msgstr[1] ""%[1]s biliardy""
msgstr[2] ""%[1]s kwadrylionów""
msgstr[3] ""%[1]s kwadrylionów""

msgid ""%[1]s quintillion""
msgid_plural ""%[1]s quintillion""
msgstr[0] ""%[1]s trylion""
msgstr[1] ""%[1]s tryliony""
msgstr[2] ""%[1]s trylionyów""
msgstr[3] ""%[1]s trylionyów""

msgid ""%[1]s septillion""
msgid_plural ""%[1]s septillion""
msgstr[0] ""%[1]s septylion""
msgstr[1] ""%[1]s septyliony""
msgstr[2] ""%[1]s septylionów""
msgstr[3] ""%[1]s septylionów""

msgid ""%[1]s sextillion""
msgid_plural ""%[1]s sextillion""
msgstr[0] "" %[1]s tryliard""
msgstr[1] ""%[1]s tryliardy""
msgstr[2] ""%[1]s tryliardów""
msgstr[3] ""%[1]s tryliardów""

msgid ""%[1]s trillion""
msgid_plural ""%[1]s trillion""
msgstr[0] ""%[1]s kwintylion""
msgstr[1] ""%[1]s biliony""
msgstr[2] ""%[1]s kwintylionów""
msgstr[3] ""%[1]s kwintylionów""

msgid ""%[1]v ago""
msgstr ""%[1]v temu""

msgid ""%[1]v day""
msgid_plural ""%[1]v days""
msgstr[0] ""%[1]v dzień""
msgstr[1] ""%[1]v dni""
msgstr[2] ""%[1]v dni""
msgstr[3] ""%[1]v dnia""

msgid ""%[1]v from now""
msgstr ""za %[1]v""

msgid ""%[1]v hour""
msgid_plural ""%[1]v hours""
msgstr[0] ""%[1]v godzina""
msgstr[1] ""%[1]v godziny""
msgstr[2] ""%[1]v godzin""
msgstr[3] ""%[1]v godziny""

msgid ""%[1]v minute""
msgid_plural ""%[1]v minutes""
msgstr[0] ""%[1]v minuta""
msgstr[1] ""%[1]v minuty""
msgstr[2] ""%[1]v minut""
msgstr[3] ""%[1]v minut""

msgid ""%[1]v month""
msgid_plural ""%[1]v months""
msgstr[0] ""%[1]v miesiąc""
msgstr[1] ""%[1]v miesiące""
msgstr[2] ""%[1]v miesięcy""
msgstr[3] ""%[1]v miesiąca""

msgid ""%[1]v week""
msgid_plural ""%[1]v weeks""
msgstr[0] ""%[1]v tydzień""
msgstr[1] ""%[1]v tygodnie""
msgstr[2] ""%[1]v tygodni""
msgstr[3] ""%[1]v tygodnia""

msgid ""%[1]v year""
msgid_plural ""%[1]v years""
msgstr[0] ""%[1]v rok""
msgstr[1] ""%[1]v lata""
msgstr[2] ""%[1]v lat""
msgstr[3] ""%[1]v roku""

msgid ""%s GB""
msgstr ""%s GB""

msgid ""%s KB""
msgstr ""%s KB""

msgid ""%s MB""
msgstr ""%s MB""

msgid ""%s PB""
msgstr ""%s PB""

msgid ""%s TB""
msgstr ""%s TB""

msgid "", ""
msgstr "", ""

msgid ""AM""
msgstr ""rano""

msgid ""Afrikaans""
msgstr ""afrykanerski""

msgid ""Albanian""
msgstr ""albański""

msgid ""Algerian Arabic""
msgstr ""algierski arabski""

msgid ""April""
msgstr ""Kwiecień""

msgid ""Arabic""
msgstr ""arabski""

msgid ""Argentinian Spanish""
msgstr ""hiszpański argentyński""

msgid ""Armenian""
msgstr ""ormiański""

msgid ""Asturian""
msgstr ""asturyjski""

msgid ""August""
msgstr ""Sierpień""

msgid ""Australian English""
msgstr ""australijski angielski""

msgid ""Azerbaijani""
msgstr ""azerski""

msgid ""Basque""
msgstr ""baskijski""

msgid ""Belarusian""
msgstr ""białoruski""

msgid ""Bengali""
msgstr ""bengalski""

msgid ""Bosnian""
msgstr ""bośniacki""

msgid ""Brazilian Portuguese""
msgstr ""portugalski brazylijski""

msgid ""Breton""
msgstr ""bretoński""

msgid ""British English""
msgstr ""brytyjski angielski""

msgid ""Bulgarian""
msgstr ""bułgarski""

msgid ""Burmese""
msgstr ""birmański""

msgid ""Catalan""
msgstr ""kataloński""

msgid ""Central Kurdish (Sorani)""
msgstr ""sorani""

msgid ""Colombian Spanish""
msgstr ""hiszpański kolumbijski""

msgid ""Croatian""
msgstr ""chorwacki""

msgid ""Czech""
msgstr ""czeski""

msgid ""Danish""
msgstr ""duński""

msgid ""December""
msgstr ""Grudzień""

msgid ""Dutch""
msgstr ""holenderski""

msgid ""English""
msgstr ""angielski""

msgid ""Esperanto""
msgstr ""esperanto""

msgid ""Estonian""
msgstr ""estoński""

msgid ""February""
msgstr ""Luty""

msgid ""Finnish""
msgstr ""fiński""

msgid ""French""
msgstr ""francuski""

msgid ""Fri""
msgstr ""Pt""

msgid ""Friday""
msgstr ""Piątek""

msgid ""Frisian""
msgstr ""fryzyjski""

msgid ""Galician""
msgstr ""galicyjski""

msgid ""Georgian""
msgstr ""gruziński""

msgid ""German""
msgstr ""niemiecki""

msgid ""Greek""
msgstr ""grecki""

msgid ""Hebrew""
msgstr ""hebrajski""

msgid ""Hindi""
msgstr ""hindi""

msgid ""Hungarian""
msgstr ""węgierski""

msgid ""Icelandic""
msgstr ""islandzki""

msgid ""Ido""
msgstr ""ido""

msgid ""Igbo""
msgstr ""igbo""

msgid ""Indonesian""
msgstr ""indonezyjski""

msgid ""Interlingua""
msgstr ""interlingua""

msgid ""Irish""
msgstr ""irlandzki""

msgid ""Italian""
msgstr ""włoski""

msgid ""January""
msgstr ""Styczeń""

msgid ""Japanese""
msgstr ""japoński""

msgid ""July""
msgstr ""Lipiec""

msgid ""June""
msgstr ""Czerwiec""

msgid ""Kabyle""
msgstr ""kabylski""

msgid ""Kannada""
msgstr ""kannada""

msgid ""Kazakh""
msgstr ""kazachski""

msgid ""Khmer""
msgstr ""khmerski""

msgid ""Korean""
msgstr ""koreański""

msgid ""Kyrgyz""
msgstr ""kirgiski""

msgid ""Latvian""
msgstr ""łotewski""

msgid ""Lithuanian""
msgstr ""litewski""

msgid ""Lower Sorbian""
msgstr ""dolnołużycki""

msgid ""Luxembourgish""
msgstr ""luksemburski""

msgid ""Macedonian""
msgstr ""macedoński""

msgid ""Malay""
msgstr ""malajski""

msgid ""Malayalam""
msgstr ""malajski""

msgid ""Marathi""
msgstr ""marathi""

msgid ""March""
msgstr ""Marzec""

msgid ""May""
msgstr ""Maj""

msgid ""Mexican Spanish""
msgstr ""hiszpański meksykański""

msgid ""Mon""
msgstr ""Pon""

msgid ""Monday""
msgstr ""Poniedziałek""

msgid ""Mongolian""
msgstr ""mongolski""

msgid ""Nepali""
msgstr ""nepalski""

msgid ""Nicaraguan Spanish""
msgstr ""hiszpański nikaraguański""

msgid ""Norwegian Bokmål""
msgstr ""norweski (bokmål)""

msgid ""Norwegian Nynorsk""
msgstr ""norweski (nynorsk)""

msgid ""November""
msgstr ""Listopad""

msgid ""October""
msgstr ""Październik""

msgid ""Ossetic""
msgstr ""osetyjski""

msgid ""PM""
msgstr ""po południu""

msgid ""Persian""
msgstr ""perski""

msgid ""Polish""
msgstr ""polski""

msgid ""Portuguese""
msgstr ""portugalski""

msgid ""Punjabi""
msgstr ""pendżabski""

msgid ""Romanian""
msgstr ""rumuński""

msgid ""Russian""
msgstr ""rosyjski""

msgid ""Sat""
msgstr ""So""

msgid ""Saturday""
msgstr ""Sobota""

msgid ""Scottish Gaelic""
msgstr ""Szkocki gaelicki""

msgid ""September""
msgstr ""Wrzesień""

msgid ""Serbian""
msgstr ""serbski""

msgid ""Serbian Latin""
msgstr ""serbski (łaciński)""

msgid ""Simplified Chinese""
msgstr ""chiński uproszczony""

msgid ""Slovak""
msgstr ""słowacki""

msgid ""Slovenian""
msgstr ""słoweński""

msgid ""Spanish""
msgstr ""hiszpański""

msgid ""Sun""
msgstr ""Nd""

msgid ""Sunday""
msgstr ""Niedziela""

msgid ""Swahili""
msgstr ""suahili""

msgid ""Swedish""
msgstr ""szwedzki""

msgid ""Tajik""
msgstr ""tadżycki""

msgid ""Tamil""
msgstr ""tamilski""

msgid ""Tatar""
msgstr ""tatarski""

msgid ""Telugu""
msgstr ""telugu""

msgid ""Thai""
msgstr ""tajski""

msgid ""Thu""
msgstr ""Czw""

msgid ""Thursday""
msgstr ""Czwartek""

msgid ""Traditional Chinese""
msgstr ""chiński tradycyjny""

msgid ""Tue""
msgstr ""Wt""

msgid ""Tuesday""
msgstr ""Wtorek""

msgid ""Turkish""
msgstr ""turecki""

msgid ""Turkmen""
msgstr ""turkmeński""

msgid ""Udmurt""
msgstr ""udmurcki""

msgid ""Ukrainian""
msgstr ""ukraiński""

msgid ""Upper Sorbian""
msgstr ""górnołużycki""

msgid ""Urdu""
msgstr ""urdu""

msgid ""Uyghur""
msgstr ""ujgurski""

msgid ""Uzbek""
msgstr ""uzbecki""

msgid ""Venezuelan Spanish""
msgstr ""hiszpański wenezuelski""

msgid ""Vietnamese""
msgstr ""wietnamski""

msgid ""Wed""
msgstr ""Śr""

msgid ""Wednesday""
msgstr ""Środa""

msgid ""Welsh""
msgstr ""walijski""

msgid ""a minute ago""
msgid_plural ""%[1]v minutes ago""
msgstr[0] ""minutę temu""
msgstr[1] ""%[1]v minuty temu""
msgstr[2] ""%[1]v minut temu""
msgstr[3] ""%[1]v minut temu""

msgid ""a minute from now""
msgid_plural ""%[1]v minutes from now""
msgstr[0] ""za minutę""
msgstr[1] ""za %[1]v minuty""
msgstr[2] ""za %[1]v minut""
msgstr[3] ""za %[1]v minut""

msgid ""a second ago""
msgid_plural ""%[1]v seconds ago""
msgstr[0] ""sekundę temu""
msgstr[1] ""%[1]v sekundy temu""
msgstr[2] ""%[1]v sekund temu""
msgstr[3] ""%[1]v sekund temu""

msgid ""a second from now""
msgid_plural ""%[1]v seconds from now""
msgstr[0] ""za sekundę""
msgstr[1] ""za %[1]v sekundy""
msgstr[2] ""za %[1]v sekund""
msgstr[3] ""za %[1]v sekund""

msgid ""a.m.""
msgstr ""rano""

msgid ""an hour ago""
msgid_plural ""%[1]v hours ago""
msgstr[0] ""godzinę temu""
msgstr[1] ""%[1]v godziny temu""
msgstr[2] ""%[1]v godzin temu""
msgstr[3] ""%[1]v godzin temu""

msgid ""an hour from now""
msgid_plural ""%[1]v hours from now""
msgstr[0] ""za godzinę""
msgstr[1] ""za %[1]v godziny""
msgstr[2] ""za %[1]v godzin""
msgstr[3] ""za %[1]v godzin""

msgid ""apr""
msgstr ""kwi""

msgid ""aug""
msgstr ""sie""

msgid ""dec""
msgstr ""gru""

msgid ""eight""
msgstr ""osiem""

msgid ""feb""
msgstr ""lut""

msgid ""five""
msgstr ""pięć""

msgid ""four""
msgstr ""cztery""

msgid ""jan""
msgstr ""sty""

msgid ""jul""
msgstr ""lip""

msgid ""jun""
msgstr ""cze""

msgid ""mar""
msgstr ""mar""

msgid ""may""
msgstr ""maj""

msgid ""midnight""
msgstr ""północ""

msgid ""nine""
msgstr ""dziewięć""

msgid ""noon""
msgstr ""południe""

msgid ""nov""
msgstr ""lis""

msgid ""now""
msgstr ""teraz""

msgid ""oct""
msgstr ""paź""

msgid ""one""
msgstr ""jeden""

msgid ""p.m.""
msgstr ""po południu""

msgid ""sep""
msgstr ""wrz""

msgid ""seven""
msgstr ""siedem""

msgid ""six""
msgstr ""sześć""

msgid ""three""
msgstr ""trzy""

msgid ""today""
msgstr ""dzisiaj""

msgid ""tomorrow""
msgstr ""jutro""

msgid ""two""
msgstr ""dwa""

msgid ""yesterday""
msgstr ""wczoraj""

msgctxt ""abbrev. month""
msgid ""April""
msgstr ""Kwi.""

msgctxt ""abbrev. month""
msgid ""Aug.""
msgstr ""Sie.""

msgctxt ""abbrev. month""
msgid ""Dec.""
msgstr ""Gru""

msgctxt ""abbrev. month""
msgid ""Feb.""
msgstr ""Lut.""

msgctxt ""abbrev. month""
msgid ""Jan.""
msgstr ""Sty.""

msgctxt ""abbrev. month""
msgid ""July""
msgstr ""Lip.""

msgctxt ""abbrev. month""
msgid ""June""
msgstr ""Cze.""

msgctxt ""abbrev. month""
msgid ""March""
msgstr ""Mar.""

msgctxt ""abbrev. month""
msgid ""May""
msgstr ""Maj""

msgctxt ""abbrev. month""
msgid ""Nov.""
msgstr ""Lis.""

msgctxt ""abbrev. month""
msgid ""Oct.""
msgstr ""Paź.""

msgctxt ""abbrev. month""
msgid ""Sept.""
msgstr ""Wrz.""

msgctxt ""alt. month""
msgid ""April""
msgstr ""kwietnia""

msgctxt ""alt. month""
msgid ""August""
msgstr ""sierpnia""

msgctxt ""alt. month""
msgid ""December""
msgstr ""grudnia""

msgctxt ""alt. month""
msgid ""February""
msgstr ""lutego""

msgctxt ""alt. month""
msgid ""January""
msgstr ""stycznia""

msgctxt ""alt. month""
msgid ""July""
msgstr ""lipca""

msgctxt ""alt. month""
msgid ""June""
msgstr ""czerwca""

msgctxt ""alt. month""
msgid ""March""
msgstr ""marca""

msgctxt ""alt. month""
msgid ""May""
msgstr ""maja""

msgctxt ""alt. month""
msgid ""November""
msgstr ""listopada""

msgctxt ""alt. month""
msgid ""October""
msgstr ""października""

msgctxt ""alt. month""
msgid ""September""
msgstr ""września""

msgctxt ""naturaltime-future""
msgid ""%[1]v day""
msgid_plural ""%[1]v days""
msgstr[0] ""%[1]v dzień""
msgstr[1] ""%[1]v dni""
msgstr[2] ""%[1]v dni""
msgstr[3] ""%[1]v dnia""

msgctxt ""naturaltime-future""
msgid ""%[1]v hour""
msgid_plural ""%[1]v hours""
msgstr[0] ""%[1]v godzinę""
msgstr[1] ""%[1]v godziny""
msgstr[2] ""%[1]v godzin""
msgstr[3] ""%[1]v godziny""

msgctxt ""naturaltime-future""
msgid ""%[1]v minute""
msgid_plural ""%[1]v minutes""
msgstr[0] ""%[1]v minutę""
msgstr[1] ""%[1]v minuty""
msgstr[2] ""%[1]v minut""
msgstr[3] ""%[1]v minuty""

msgctxt ""naturaltime-future""
msgid ""%[1]v month""
msgid_plural ""%[1]v months""
msgstr[0] ""%[1]v miesiąc""
msgstr[1] ""%[1]v miesiące""
msgstr[2] ""%[1]v miesięcy""
msgstr[3] ""%[1]vmiesiąca""

msgctxt ""naturaltime-future""
msgid ""%[1]v week""
msgid_plural ""%[1]v weeks""
msgstr[0] ""%[1]v tydzień""
msgstr[1] ""%[1]v tygodnie""
msgstr[2] ""%[1]v tygodni""
msgstr[3] ""%[1]v tygodnia""

msgctxt ""naturaltime-future""
msgid ""%[1]v year""
msgid_plural ""%[1]v years""
msgstr[0] ""%[1]v rok""
msgstr[1] ""%[1]v lata""
msgstr[2] ""%[1]v lat""
msgstr[3] ""%[1]v roku""

msgctxt ""naturaltime-past""
msgid ""%[1]v day""
msgid_plural ""%[1]v days""
msgstr[0] ""%[1]v dzień""
msgstr[1] ""%[1]v dni""
msgstr[2] ""%[1]v dni""
msgstr[3] ""%[1]v dnia""

msgctxt ""naturaltime-past""
msgid ""%[1]v hour""
msgid_plural ""%[1]v hours""
msgstr[0] ""%[1]v godzinę""
msgstr[1] ""%[1]v godziny""
msgstr[2] ""%[1]v godzin""
msgstr[3] ""%[1]v godziny""

msgctxt ""naturaltime-past""
msgid ""%[1]v minute""
msgid_plural ""%[1]v minutes""
msgstr[0] ""%[1]v minutę""
msgstr[1] ""%[1]v minuty""
msgstr[2] ""%[1]v minut""
msgstr[3] ""%[1]v minuty""

msgctxt ""naturaltime-past""
msgid ""%[1]v month""
msgid_plural ""%[1]v months""
msgstr[0] ""%[1]v miesiąc""
msgstr[1] ""%[1]v miesiące""
msgstr[2] ""%[1]v miesięcy""
msgstr[3] ""%[1]v miesiąca""

msgctxt ""naturaltime-past""
msgid ""%[1]v week""
msgid_plural ""%[1]v weeks""
msgstr[0] ""%[1]v tydzień""
msgstr[1] ""%[1]v tygodnie""
msgstr[2] ""%[1]v tygodni""
msgstr[3] ""%[1]v tygodnia""

msgctxt ""naturaltime-past""
msgid ""%[1]v year""
msgid_plural ""%[1]v years""
msgstr[0] ""%[1]v rok""
msgstr[1] ""%[1]v lata""
msgstr[2] ""%[1]v lat""
msgstr[3] ""%[1]v roku""

msgctxt ""ordinal 0""
msgid ""%vth""
msgstr ""%v.""

msgctxt ""ordinal 1""
msgid ""%vst""
msgstr ""%v.""

msgctxt ""ordinal 11, 12, 13""
msgid ""%vth""
msgstr ""%v.""

msgctxt ""ordinal 2""
msgid ""%vnd""
msgstr ""%v.""

msgctxt ""ordinal 3""
msgid ""%vrd""
msgstr ""%v.""

msgctxt ""ordinal 4""
msgid ""%vth""
msgstr ""%v.""

msgctxt ""ordinal 5""
msgid ""%vth""
msgstr ""%v.""

msgctxt ""ordinal 6""
msgid ""%vth""
msgstr ""%v.""

msgctxt ""ordinal 7""
msgid ""%vth""
msgstr ""%v.""

msgctxt ""ordinal 8""
msgid ""%vth""
msgstr ""%v.""

msgctxt ""ordinal 9""
msgid ""%vth""
msgstr ""%v.""
".
(** humanize/locale/pl/locale.go (New) *)
Definition loc_pl : locale_data := LD (bs "pl") [(bs "django.po", po_pl)]
  (Some (FD (bs "j E Y") (bs "H:i") (bs "j E Y H:i") (bs "F Y") (bs "j E") (bs "d-m-Y") (bs "d-m-Y  H:i"))).

(** humanize/locale/pt/django.po *)
Definition po_pt : bytes := bs "# This file is distributed under the same license as the Django package.
# 
# Translators:
# Raúl Pedro Fernandes Santos, 2014
# Bruno Miguel Custódio <bruno@brunomcustodio.com>, 2012
# Claudio Fernandes <squeral@gmail.com>, 2015
# Jannis Leidel <jannis@leidel.info>, 2011
# José Durães <jdmduraes@gmail.com>, 2014
# jorgecarleitao <jorgecarleitao@gmail.com>, 2014-2015
# Manuela Silva <mmsrs@sky.com>, 2025
# Nuno Mariz <nmariz@gmail.com>, 2011-2013,2015-2018
# 12574c6d66324e145c1d19e02acecb73_84badd8 <4e8d94859927eab3b50486d21249c068_5346>, 2011
# Raúl Pedro Fernandes Santos, 2014
msgid """"
msgstr """"
""Project-Id-Version: django\n""
""Report-Msgid-Bugs-To: \n""
""POT-Creation-Date: 2025-03-19 11:30-0500\n""
""PO-Revision-Date: 2025-09-17 06:49+0000\n""
""Last-Translator: Manuela Silva <mmsrs@sky.com>, 2025\n""
""Language-Team: Portuguese (http://app.transifex.com/django/django/language/pt/)\n""
""Language: pt\n""
""MIME-Version: 1.0\n""
""Content-Type: text/plain; charset=UTF-8\n""
""Content-Transfer-Encoding: 8bit\n""
""Plural-Forms: nplurals=2; plural=(n != 1);\n""

msgid ""%[1]d byte""
msgid_plural ""%[1]d bytes""
msgstr[0] ""%[1]d byte""
msgstr[1] ""%[1]d bytes""
msgstr[2] ""%[1]d bytes""

msgid ""%[1]s billion""
msgid_plural ""%[1]s billion""
msgstr[0] ""%[1]s bilião""
msgstr[1] ""%[1]s biliões""
msgstr[2] ""%[1]s biliões""

msgid ""%[1]s decillion""
msgid_plural ""%[1]s decillion""
msgstr[0] ""%[1]s decilião""
msgstr[1] ""%[1]s deciliões""
msgstr[2] ""%[1]s deciliões""

msgid ""%[1]s googol""
msgid_plural ""%[1]s googol""
msgstr[0] ""%[1]s googol""
msgstr[1] ""%[1]s googol""
msgstr[2] ""%[1]s googol""

msgid ""%[1]s million""
msgid_plural ""%[1]s million""
msgstr[0] ""%[1]s milhão""
msgstr[1] ""%[1]s milhões""
msgstr[2] ""%[1]s milhões""

msgid ""%[1]s nonillion""
msgid_plural ""%[1]s nonillion""
msgstr[0] ""%[1]s nonilião""
msgstr[1] ""%[1]s noniliões""
msgstr[2] ""%[1]s noniliões""

msgid ""%[1]s octillion""
msgid_plural ""%[1]s octillion""
msgstr[0] ""%[1]s octilião""
msgstr[1] ""%[1]s octiliões""
msgstr[2] ""%[1]s octiliões""

msgid ""%[1]s quadrillion""
msgid_plural ""%[1]s quadrillion""
msgstr[0] ""%[1]s quadrilião""
msgstr[1] ""%[1]s quatriliões""
msgstr[2] ""%[1]s quatriliões""

msgid ""%[1]s quintillion""
msgid_plural ""%[1]s quintillion""
msgstr[0] ""%[1]s quintilião""
msgstr[1] ""%[1]s quintiliões""
msgstr[2] ""%[1]s quintiliões""

msgid ""%[1]s septillion""
msgid_plural ""%[1]s septillion""
msgstr[0] ""%[1]s septilião""
msgstr[1] ""%[1]s septiliões""
msgstr[2] ""%[1]s septiliões""

msgid ""%[1]s sextillion""
msgid_plural ""%[1]s sextillion""
msgstr[0] ""%[1]s sextilião""
msgstr[1] ""%[1]s sextiliões""
msgstr[2] ""%[1]s sextiliões""

msgid ""%[1]s trillion""
msgid_plural ""%[1]s trillion""
msgstr[0] ""%[1]s trilião""
msgstr[1] ""%[1]s triliões""
msgstr[2] ""%[1]s triliões""

msgid ""%[1]v ago""
msgstr ""%[1]v atrás""

msgid ""%[1]v day""
msgid_plural ""%[1]v days""
msgstr[0] ""%[1]v dia""
msgstr[1] ""%[1]v dias""
msgstr[2] ""%[1]v dias""

msgid ""%[1]v from now""
msgstr ""%[1]v a partir de agora""

msgid ""%[1]v hour""
msgid_plural ""%[1]v hours""
msgstr[0] ""%[1]v hora""
msgstr[1] ""%[1]v horas""
msgstr[2] ""%[1]v horas""

msgid ""%[1]v minute""
msgid_plural ""%[1]v minutes""
msgstr[0] ""%[1]v minuto""
msgstr[1] ""%[1]v minutos""
msgstr[2] ""%[1]v minutos""

msgid ""%[1]v month""
msgid_plural ""%[1]v months""
msgstr[0] ""%[1]v mês""
msgstr[1] ""%[1]v meses""
msgstr[2] ""%[1]v meses""

msgid ""%[1]v week""
msgid_plural ""%[1]v weeks""
msgstr[0] ""%[1]v semana""
msgstr[1] ""%[1]v semanas""
msgstr[2] ""%[1]v semanas""

msgid ""%[1]v year""
msgid_plural ""%[1]v years""
msgstr[0] ""%[1]v ano""
msgstr[1] ""%[1]v anos""
msgstr[2] ""%[1]v anos""

msgid ""%s GB""
msgstr ""%s GB""

msgid ""%s KB""
msgstr ""%s KB""

msgid ""%s MB""
msgstr ""%s MB""

msgid ""%s PB""
msgstr ""%s PB""

msgid ""%s TB""
msgstr ""%s TB""

msgid "", ""
msgstr "", ""

msgid ""AM""
msgstr ""AM""

msgid ""Afrikaans""
msgstr ""Africâner""

msgid ""Albanian""
msgstr ""Albanês""

msgid ""Algerian Arabic""
msgstr ""Árabe Argelino""

msgid ""April""
msgstr ""Abril""

msgid ""Arabic""
msgstr ""Árabe""

msgid ""Argentinian Spanish""
msgstr ""Espanhol Argentino""

msgid ""Armenian""
msgstr ""Arménio""

msgid ""Asturian""
msgstr ""Asturiano""

msgid ""August""
msgstr ""Agosto""

msgid ""Australian English""
msgstr ""Inglês da Austrália""

msgid ""Azerbaijani""
msgstr ""Azerbaijano""

msgid ""Basque""
msgstr ""Basco""

msgid ""Belarusian""
msgstr ""Bielorusso""

msgid ""Bengali""
msgstr ""Bengalês""

msgid ""Bosnian""
msgstr ""Bósnio""

msgid ""Brazilian Portuguese""
msgstr ""Português Brasileiro""

msgid ""Breton""
msgstr ""Bretão""

msgid ""British English""
msgstr ""Inglês Britânico""

msgid ""Bulgarian""
msgstr ""Búlgaro""

msgid ""Burmese""
msgstr ""Birmanês""

msgid ""Catalan""
msgstr ""Catalão""

msgid ""Central Kurdish (Sorani)""
msgstr ""Curdo Central (Sorani)""

msgid ""Colombian Spanish""
msgstr ""Espanhol Colombiano""

msgid ""Croatian""
msgstr ""Croata""

msgid ""Czech""
msgstr ""Checo""

msgid ""Danish""
msgstr ""Dinamarquês""

msgid ""December""
msgstr ""Dezembro""

msgid ""Dutch""
msgstr ""Holandês""

msgid ""English""
msgstr ""Inglês""

msgid ""Esperanto""
msgstr ""Esperanto""

msgid ""Estonian""
msgstr ""Estónio""

msgid ""February""
msgstr ""Fevereiro""

msgid ""Finnish""
msgstr ""Filandês""

msgid ""French""
msgstr ""Francês""

msgid ""Fri""
msgstr ""Sex""

msgid ""Friday""
msgstr ""Sexta-feira""

msgid ""Frisian""
msgstr ""Frisão""

msgid ""Galician""
msgstr ""Galaciano""

msgid ""Georgian""
msgstr ""Georgiano""

msgid ""German""
msgstr ""Alemão""

msgid ""Greek""
msgstr ""Grego""

msgid ""Hebrew""
msgstr ""Hebraico""

msgid ""Hindi""
msgstr ""Hindi""

msgid ""Hungarian""
msgstr ""Húngaro""

msgid ""Icelandic""
msgstr ""Islandês""

msgid ""Ido""
msgstr ""Ido""

msgid ""Igbo""
msgstr ""Igbo""

msgid ""Indonesian""
msgstr ""Indonésio""

msgid ""Interlingua""
msgstr ""Interlíngua""

msgid ""Irish""
msgstr ""Irlandês""

msgid ""Italian""
msgstr ""Italiano""

msgid ""January""
msgstr ""Janeiro""

msgid ""Japanese""
msgstr ""Japonês""

msgid ""July""
msgstr ""Julho""

msgid ""June""
msgstr ""Junho""

msgid ""Kabyle""
msgstr ""Kabyle""

msgid ""Kannada""
msgstr ""Canarês""

msgid ""Kazakh""
msgstr ""Cazaque""

msgid ""Khmer""
msgstr ""Khmer""

msgid ""Korean""
msgstr ""Coreano""

msgid ""Kyrgyz""
msgstr """"

msgid ""Latvian""
msgstr ""Letão""

msgid ""Lithuanian""
msgstr ""Lituano""

msgid ""Lower Sorbian""
msgstr ""Sorbedo inferior""

msgid ""Luxembourgish""
msgstr ""Luxemburguês""

msgid ""Macedonian""
msgstr ""Macedónio""

msgid ""Malay""
msgstr """"

msgid ""Malayalam""
msgstr ""Malaiala""

msgid ""Marathi""
msgstr ""Marathi""

msgid ""March""
msgstr ""Março""

msgid ""May""
msgstr ""Maio""

msgid ""Mexican Spanish""
msgstr ""Espanhol mexicano""

msgid ""Mon""
msgstr ""Seg""

msgid ""Monday""
msgstr ""Segunda-feira""

msgid ""Mongolian""
msgstr ""Mongol""

msgid ""Nepali""
msgstr ""Nepali""

msgid ""Nicaraguan Spanish""
msgstr ""Nicarágua Espanhol""

msgid ""Norwegian Bokmål""
msgstr ""Norueguês Bokmål""

msgid ""Norwegian Nynorsk""
msgstr ""Norueguês (Nynors)""

msgid ""November""
msgstr ""Novembro""

msgid ""October""
msgstr ""Outubro""

msgid ""Ossetic""
msgstr ""Ossetic""

msgid ""PM""
msgstr ""PM""

msgid ""Persian""
msgstr ""Persa""

msgid ""Polish""
msgstr ""Polaco""

msgid ""Portuguese""
msgstr ""Português""

msgid ""Punjabi""
msgstr ""Panjabi""

msgid ""Romanian""
msgstr ""Romeno""

msgid ""Russian""
msgstr ""Russo""

msgid ""Sat""
msgstr ""Sáb""

msgid ""Saturday""
msgstr ""Sábado""

msgid ""Scottish Gaelic""
msgstr ""Escocês Gaélico""

msgid ""September""
msgstr ""Setembro""

msgid ""Serbian""
msgstr ""Sérvio""

msgid ""Serbian Latin""
msgstr ""Sérvio Latim""

msgid ""Simplified Chinese""
msgstr ""Chinês Simplificado""

msgid ""Slovak""
msgstr ""Eslovaco""

msgid ""Slovenian""
msgstr ""Esloveno""

msgid ""Spanish""
msgstr ""Espanhol""

msgid ""Sun""
msgstr ""Dom""

msgid ""Sunday""
msgstr ""Domingo""

msgid ""Swahili""
msgstr ""Suaíli""

msgid ""Swedish""
msgstr ""Sueco""

msgid ""Tajik""
msgstr ""Tajique""

msgid ""Tamil""
msgstr ""Tamil""

msgid ""Tatar""
msgstr ""Tatar""

msgid ""Telugu""
msgstr ""Telugu""

msgid ""Thai""
msgstr ""Thai""

msgid ""Thu""
msgstr ""Qui""

msgid ""Thursday""
msgstr ""Quinta-feira""

msgid ""Traditional Chinese""
msgstr ""Chinês Tradicional""

msgid ""Tue""
msgstr ""Ter""

msgid ""Tuesday""
msgstr ""Terça-feira""

msgid ""Turkish""
msgstr ""Turco""

msgid ""Turkmen""
msgstr """"

msgid ""Udmurt""
msgstr ""Udmurte""

msgid ""Ukrainian""
msgstr ""Ucraniano""

msgid ""Upper Sorbian""
msgstr ""Sorbedo superior""

msgid ""Urdu""
msgstr ""Urdu""

msgid ""Uyghur""
msgstr """"

msgid ""Uzbek""
msgstr """"

msgid ""Venezuelan Spanish""
msgstr ""Espanhol Venezuelano""

msgid ""Vietnamese""
msgstr ""Vietnamita""

msgid ""Wed""
msgstr ""Qua""

msgid ""Wednesday""
msgstr ""Quarta-feira""

msgid ""Welsh""
msgstr ""Galês""

msgid ""a minute ago""
msgid_plural ""%[1]v minutes ago""
msgstr[0] ""há um minuto atrás""
msgstr[1] ""há %[1]v minutos atrás""
msgstr[2] ""há %[1]v minutos atrás""

msgid ""a minute from now""
msgid_plural ""%[1]v minutes from now""
msgstr[0] ""daqui a um minuto""
msgstr[1] ""daqui a %[1]v minutos""
msgstr[2] ""daqui a %[1]v minutos""

msgid ""a second ago""
msgid_plural ""%[1]v seconds ago""
msgstr[0] ""há um segundo atrás""
msgstr[1] ""há %[1]v segundos atrás""
msgstr[2] ""há %[1]v segundos atrás""

msgid ""a second from now""
msgid_plural ""%[1]v seconds from now""
msgstr[0] ""daqui a um segundo""
msgstr[1] ""daqui a %[1]v segundos""
msgstr[2] ""daqui a %[1]v segundos""

msgid ""a.m.""
msgstr ""a.m.""

msgid ""an hour ago""
msgid_plural ""%[1]v hours ago""
msgstr[0] ""há uma hora atrás""
msgstr[1] ""há %[1]v horas atrás""
msgstr[2] ""há %[1]v horas atrás""

msgid ""an hour from now""
msgid_plural ""%[1]v hours from now""
msgstr[0] ""daqui a uma hora""
msgstr[1] ""daqui a %[1]v horas""
msgstr[2] ""daqui a %[1]v horas""

msgid ""apr""
msgstr ""abr""

msgid ""aug""
msgstr ""ago""

msgid ""dec""
msgstr ""dez""

msgid ""eight""
msgstr ""oito""

msgid ""feb""
msgstr ""fev""

msgid ""five""
msgstr ""cinco""

msgid ""four""
msgstr ""quatro""

msgid ""jan""
msgstr ""jan""

msgid ""jul""
msgstr ""jul""

msgid ""jun""
msgstr ""jun""

msgid ""mar""
msgstr ""mar""

msgid ""may""
msgstr ""mai""

msgid ""midnight""
msgstr ""meia-noite""

msgid ""nine""
msgstr ""nove""

msgid ""noon""
msgstr ""meio-dia""

msgid ""nov""
msgstr ""nov""

msgid ""now""
msgstr ""agora""

msgid ""oct""
msgstr ""out""

msgid ""one""
msgstr ""um""

msgid ""p.m.""
msgstr ""p.m.""

msgid ""sep""
msgstr ""set""

msgid ""seven""
msgstr ""sete""

msgid ""six""
msgstr ""seis""

msgid ""three""
msgstr ""três""

msgid ""today""
msgstr ""hoje""

msgid ""tomorrow""
msgstr ""amanhã""

msgid ""two""
msgstr ""dois""

msgid ""yesterday""
msgstr ""ontem""

msgctxt ""abbrev. month""
msgid ""April""
msgstr ""Abril""

msgctxt ""abbrev. month""
msgid ""Aug.""
msgstr ""Ago.""

msgctxt ""abbrev. month""
msgid ""Dec.""
msgstr ""Dez.""

msgctxt ""abbrev. month""
msgid ""Feb.""
msgstr ""Fev.""

msgctxt ""abbrev. month""
msgid ""Jan.""
msgstr ""Jan.""

msgctxt ""abbrev. month""
msgid ""July""
msgstr ""Jul.""

msgctxt ""abbrev. month""
msgid ""June""
msgstr ""Jun.""

msgctxt ""abbrev. month""
msgid ""March""
msgstr ""Março""

msgctxt ""abbrev. month""
msgid ""May""
msgstr ""Maio""

msgctxt ""abbrev. month""
msgid ""Nov.""
msgstr ""Nov.""

msgctxt ""abbrev. month""
msgid ""Oct.""
msgstr ""Out.""

msgctxt ""abbrev. month""
msgid ""Sept.""
msgstr ""Set.""

msgctxt ""alt. month""
msgid ""April""
msgstr ""Abril""

msgctxt ""alt. month""
msgid ""August""
msgstr ""Agosto""

msgctxt ""alt. month""
msgid ""December""
msgstr ""Dezembro""

msgctxt ""alt. month""
msgid ""February""
msgstr ""Fevereiro""

msgctxt ""alt. month""
msgid ""January""
msgstr ""Janeiro""

msgctxt ""alt. month""
msgid ""July""
msgstr ""Julho""

msgctxt ""alt. month""
msgid ""June""
msgstr ""Junho""

msgctxt ""alt. month""
msgid ""March""
msgstr ""Março""

msgctxt ""alt. month""
msgid ""May""
msgstr ""Maio""

msgctxt ""alt. month""
msgid ""November""
msgstr ""Novembro""

msgctxt ""alt. month""
msgid ""October""
msgstr ""Outubro""

msgctxt ""alt. month""
msgid ""September""
msgstr ""Setembro""

msgctxt ""naturaltime-future""
msgid ""%[1]v day""
msgid_plural ""%[1]v days""
msgstr[0] ""%[1]v dia""
msgstr[1] ""%[1]v dias""
msgstr[2] ""%[1]v dias""

msgctxt ""naturaltime-future""
msgid ""%[1]v hour""
msgid_plural ""%[1]v hours""
msgstr[0] ""%[1]v hora""
msgstr[1] ""%[1]v horas""
msgstr[2] ""%[1]v horas""

msgctxt ""naturaltime-future""
msgid ""%[1]v minute""
msgid_plural ""%[1]v minutes""
msgstr[0] ""%[1]v minuto""
msgstr[1] ""%[1]v minutos""
msgstr[2] ""%[1]v minutos""

msgctxt ""naturaltime-future""
msgid ""%[1]v month""
msgid_plural ""%[1]v months""
msgstr[0] ""%[1]v mês""
msgstr[1] ""%[1]v meses""
msgstr[2] ""%[1]v meses""

msgctxt ""naturaltime-future""
msgid ""%[1]v week""
msgid_plural ""%[1]v weeks""
msgstr[0] ""%[1]v semana""
msgstr[1] ""%[1]v semanas""
msgstr[2] ""%[1]v semanas""

msgctxt ""naturaltime-future""
msgid ""%[1]v year""
msgid_plural ""%[1]v years""
msgstr[0] ""%[1]v ano""
msgstr[1] ""%[1]v anos""
msgstr[2] ""%[1]v anos""

msgctxt ""naturaltime-past""
msgid ""%[1]v day""
msgid_plural ""%[1]v days""
msgstr[0] ""%[1]v dia""
msgstr[1] ""%[1]v dias""
msgstr[2] ""%[1]v dias""

msgctxt ""naturaltime-past""
msgid ""%[1]v hour""
msgid_plural ""%[1]v hours""
msgstr[0] ""%[1]v hora""
msgstr[1] ""%[1]v horas""
msgstr[2] ""%[1]v horas""

msgctxt ""naturaltime-past""
msgid ""%[1]v minute""
msgid_plural ""%[1]v minutes""
msgstr[0] ""%[1]v minuto""
msgstr[1] ""%[1]v minutos""
msgstr[2] ""%[1]v minutos""

msgctxt ""naturaltime-past""
msgid ""%[1]v month""
msgid_plural ""%[1]v months""
msgstr[0] ""%[1]v mês""
msgstr[1] ""%[1]v meses""
msgstr[2] ""%[1]v meses""

msgctxt ""naturaltime-past""
msgid ""%[1]v week""
msgid_plural ""%[1]v weeks""
msgstr[0] ""%[1]v semana""
msgstr[1] ""%[1]v semanas""
msgstr[2] ""%[1]v semanas""

msgctxt ""naturaltime-past""
msgid ""%[1]v year""
msgid_plural ""%[1]v years""
msgstr[0] ""%[1]v ano""
msgstr[1] ""%[1]v anos""
msgstr[2] ""%[1]v anos""

msgctxt ""ordinal 0""
msgid ""%vth""
msgstr ""%v.º""

msgctxt ""ordinal 1""
msgid ""%vst""
msgstr ""%v.º""

msgctxt ""ordinal 11, 12, 13""
msgid ""%vth""
msgstr ""%v.º""

msgctxt ""ordinal 2""
msgid ""%vnd""
msgstr ""%v.º""

msgctxt ""ordinal 3""
msgid ""%vrd""
msgstr ""%v.º""

msgctxt ""ordinal 4""
msgid ""%vth""
msgstr ""%v.º""

msgctxt ""ordinal 5""
msgid ""%vth""
msgstr ""%v.º""

msgctxt ""ordinal 6""
msgid ""%vth""
msgstr ""%v.º""

msgctxt ""ordinal 7""
msgid ""%vth""
msgstr ""%v.º""

msgctxt ""ordinal 8""
msgid ""%vth""
msgstr ""%v.º""

msgctxt ""ordinal 9""
msgid ""%vth""
msgstr ""%v.º""
".
(** humanize/locale/pt/locale.go (New) *)
Definition loc_pt : locale_data := LD (bs "pt") [(bs "django.po", po_pt)]
  (Some (FD (bs "j \d\e F \d\e Y") (bs "H:i") (bs "j \d\e F \d\e Y à\s H:i") (bs "F \d\e Y") (bs "j \d\e F") (bs "d/m/Y") (bs "d/m/Y H:i"))).

(** humanize/locale/ptBR/django.po *)
Definition po_ptBR : bytes := bs "# This file is distributed under the same license as the Django package.
# 
# Translators:
# Allisson Azevedo <allisson@gmail.com>, 2014
# Amanda Savluchinske <amandasavluchinske@gmail.com>, 2019
# amcorreia <mutley.sandro@gmail.com>, 2018
# andrewsmedina <andrewsmedina@gmail.com>, 2014-2015
# Arthur Silva <arxdsilva@gmail.com>, 2017
# bruno.devpod <bruno.devpod@gmail.com>, 2014
# Camilo B. Moreira <camilo.moreira@fatec.sp.gov.br>, 2017
# Carlos Cadu “Cadu” Leite <caduado@gmail.com>, 2020
# Carlos Cadu “Cadu” Leite <caduado@gmail.com>, 2016,2019
# Filipe Cifali <cifali.filipe@gmail.com>, 2016
# Claudio Rogerio Carvalho Filho <excriptbrasil@gmail.com>, 2020
# dudanogueira <dudanogueira@gmail.com>, 2012
# dudanogueira <dudanogueira@gmail.com>, 2019
# Eduardo Felipe Castegnaro <eduardo@onsign.tv>, 2024
# Elyézer Rezende <elyezermr@gmail.com>, 2013
# Fábio C. Barrionuevo da Luz <bnafta@gmail.com>, 2014-2015
# Felipe Rodrigues <bidu.pub@gmail.com>, 2016
# Filipe Cifali <cifali.filipe@gmail.com>, 2019
# Gladson <gladsonbrito@gmail.com>, 2013
# fa9e10542e458baef0599ae856e43651_13d2225, 2011-2014
# Guilherme <guilherme0xff@proton.me>, 2022
# Heron Fonsaca, 2022
# Hugo Tácito <hugotacito@gmail.com>, 2024
# Igor Cavalcante <igorcavlim@gmail.com>, 2017
# Jannis Leidel <jannis@leidel.info>, 2011
# Jonas Rodrigues, 2023
# Leonardo Gregianin, 2023
# Lucas Infante <maccinza@gmail.com>, 2015
# Luiz Boaretto <lboaretto@gmail.com>, 2017
# Marssal Jr. <marssaljr@gmail.com>, 2022
# Marcelo Moro Brondani <mbrondani@inf.ufsm.br>, 2018
# Mariusz Felisiak <felisiak.mariusz@gmail.com>, 2021
# Rafael Fontenelle <rffontenelle@gmail.com>, 2021-2022,2025
# Samuel Nogueira Bacelar <samuelnbacelar@hotmail.com>, 2020
# Sandro <sandrossv@hotmail.com>, 2011
# Sergio Garcia <sergio@ginx.com.br>, 2015
# Tânia Andrea <taniaa.moreira@gmail.com>, 2017
# Wiliam Souza <wiliamsouza83@gmail.com>, 2015
# Francisco Petry Rauber <xico.petry@gmail.com>, 2018
msgid """"
msgstr """"
""Project-Id-Version: django\n""
""Report-Msgid-Bugs-To: \n""
""POT-Creation-Date: 2024-05-22 11:46-0300\n""
""PO-Revision-Date: 2025-03-19 11:30-0500\n""
""Last-Translator: Rafael Fontenelle <rffontenelle@gmail.com>, 2021-2022,2025\n""
""Language-Team: Portuguese (Brazil) (http://app.transifex.com/django/django/language/pt_BR/)\n""
""Language: pt_BR\n""
""MIME-Version: 1.0\n""
""Content-Type: text/plain; charset=UTF-8\n""
""Content-Transfer-Encoding: 8bit\n""
""Plural-Forms: nplurals=2; plural=(n > 1);\n""

msgid ""%[1]d byte""
msgid_plural ""%[1]d bytes""
msgstr[0] ""%[1]d byte""
msgstr[1] ""%[1]d bytes""
msgstr[2] ""%[1]d bytes""

msgid ""%[1]s billion""
msgid_plural ""%[1]s billion""
msgstr[0] ""%[1]s bilhão""
msgstr[1] ""%[1]s bilhões""
msgstr[2] ""%[1]s bilhões""

msgid ""%[1]s decillion""
msgid_plural ""%[1]s decillion""
msgstr[0] ""%[1]s decilhão""
msgstr[1] ""%[1]s decilhões""
msgstr[2] ""%[1]s decilhões""

msgid ""%[1]s googol""
msgid_plural ""%[1]s googol""
msgstr[0] ""%[1]s googol""
msgstr[1] ""%[1]s googol""
msgstr[2] ""%[1]s googol""

msgid ""%[1]s million""
msgid_plural ""%[1]s million""
msgstr[0] ""%[1]s milhão""
msgstr[1] ""%[1]s milhões""
msgstr[2] ""%[1]s milhões""

msgid ""%[1]s nonillion""
msgid_plural ""%[1]s nonillion""
msgstr[0] ""%[1]s nonilhão""
msgstr[1] ""%[1]s nonilhões""
msgstr[2] ""%[1]s nonilhões""

msgid ""%[1]s octillion""
msgid_plural ""%[1]s octillion""
msgstr[0] ""%[1]s octilhão""
msgstr[1] ""%[1]s octilhões""
msgstr[2] ""%[1]s octilhões""

msgid ""%[1]s quadrillion""
msgid_plural ""%[1]s quadrillion""
msgstr[0] ""%[1]s quadrilhão""
msgstr[1] ""%[1]s quadrilhões""
msgstr[2] ""%[1]s quadrilhões""

msgid ""%[1]s quintillion""
msgid_plural ""%[1]s quintillion""
msgstr[0] ""%[1]s quintilhão""
msgstr[1] ""%[1]s quintilhões""
msgstr[2] ""%[1]s quintilhões""

msgid ""%[1]s septillion""
msgid_plural ""%[1]s septillion""
msgstr[0] ""%[1]s septilhão""
msgstr[1] ""%[1]s septilhões""
msgstr[2] ""%[1]s septilhões""

msgid ""%[1]s sextillion""
msgid_plural ""%[1]s sextillion""
msgstr[0] ""%[1]s sextilhão""
msgstr[1] ""%[1]s sextilhões""
msgstr[2] ""%[1]s sextilhões""

msgid ""%[1]s trillion""
msgid_plural ""%[1]s trillion""
msgstr[0] ""%[1]s trilhão""
msgstr[1] ""%[1]s trilhões""
msgstr[2] ""%[1]s trilhões""

msgid ""%[1]v ago""
msgstr ""%[1]v atrás""

msgid ""%[1]v day""
msgid_plural ""%[1]v days""
msgstr[0] ""%[1]v dia""
msgstr[1] ""%[1]v dias""
msgstr[2] ""%[1]v dias""

msgid ""%[1]v from now""
msgstr ""%[1]v a partir de agora""

msgid ""%[1]v hour""
msgid_plural ""%[1]v hours""
msgstr[0] ""%[1]v hora""
msgstr[1] ""%[1]v horas""
msgstr[2] ""%[1]v horas""

msgid ""%[1]v minute""
msgid_plural ""%[1]v minutes""
msgstr[0] ""%[1]v minuto""
msgstr[1] ""%[1]v minutos""
msgstr[2] ""%[1]v minutos""

msgid ""%[1]v month""
msgid_plural ""%[1]v months""
msgstr[0] ""%[1]v mês""
msgstr[1] ""%[1]v meses""
msgstr[2] ""%[1]v meses""

msgid ""%[1]v week""
msgid_plural ""%[1]v weeks""
msgstr[0] ""%[1]v semana""
msgstr[1] ""%[1]v semanas""
msgstr[2] ""%[1]v semanas""

msgid ""%[1]v year""
msgid_plural ""%[1]v years""
msgstr[0] ""%[1]v ano""
msgstr[1] ""%[1]v anos""
msgstr[2] ""%[1]v anos""

msgid ""%s GB""
msgstr ""%s GB""

msgid ""%s KB""
msgstr ""%s KB""

msgid ""%s MB""
msgstr ""%s MB""

msgid ""%s PB""
msgstr ""%s PB""

msgid ""%s TB""
msgstr ""%s TB""

msgid "", ""
msgstr "", ""

msgid ""AM""
msgstr ""AM""

msgid ""Afrikaans""
msgstr ""Africânder""

msgid ""Albanian""
msgstr ""Albanesa""

msgid ""Algerian Arabic""
msgstr ""Árabe Argelino""

msgid ""April""
msgstr ""Abril""

msgid ""Arabic""
msgstr ""Árabe""

msgid ""Argentinian Spanish""
msgstr ""Espanhol Argentino""

msgid ""Armenian""
msgstr ""Armênio""

msgid ""Asturian""
msgstr ""Asturiano""

msgid ""August""
msgstr ""Agosto""

msgid ""Australian English""
msgstr ""Inglês Australiano""

msgid ""Azerbaijani""
msgstr ""Azerbaijão""

msgid ""Basque""
msgstr ""Basco""

msgid ""Belarusian""
msgstr ""Bielorrussa""

msgid ""Bengali""
msgstr ""Bengali""

msgid ""Bosnian""
msgstr ""Bósnio""

msgid ""Brazilian Portuguese""
msgstr ""Português Brasileiro""

msgid ""Breton""
msgstr ""Bretão""

msgid ""British English""
msgstr ""Inglês Britânico""

msgid ""Bulgarian""
msgstr ""Búlgaro""

msgid ""Burmese""
msgstr ""Birmanês""

msgid ""Catalan""
msgstr ""Catalão""

msgid ""Central Kurdish (Sorani)""
msgstr ""Curdo Central (Sorâni)""

msgid ""Colombian Spanish""
msgstr ""Espanhol Colombiano""

msgid ""Croatian""
msgstr ""Croata""

msgid ""Czech""
msgstr ""Tcheco""

msgid ""Danish""
msgstr ""Dinamarquês""

msgid ""December""
msgstr ""Dezembro""

msgid ""Dutch""
msgstr ""Neerlandês""

msgid ""English""
msgstr ""Inglês""

msgid ""Esperanto""
msgstr ""Esperanto""

msgid ""Estonian""
msgstr ""Estoniano""

msgid ""February""
msgstr ""Fevereiro""

msgid ""Finnish""
msgstr ""Finlandês""

msgid ""French""
msgstr ""Francês""

msgid ""Fri""
msgstr ""Sex""

msgid ""Friday""
msgstr ""Sexta-feira""

msgid ""Frisian""
msgstr ""Frísia""

msgid ""Galician""
msgstr ""Galiciano""

msgid ""Georgian""
msgstr ""Georgiano""

msgid ""German""
msgstr ""Alemão""

msgid ""Greek""
msgstr ""Grego""

msgid ""Hebrew""
msgstr ""Hebraico""

msgid ""Hindi""
msgstr ""Hindi""

msgid ""Hungarian""
msgstr ""Húngaro""

msgid ""Icelandic""
msgstr ""Islandês""

msgid ""Ido""
msgstr ""Ido""

msgid ""Igbo""
msgstr ""Igbo""

msgid ""Indonesian""
msgstr ""Indonésio""

msgid ""Interlingua""
msgstr ""Interlíngua""

msgid ""Irish""
msgstr ""Irlandês""

msgid ""Italian""
msgstr ""Italiano""

msgid ""January""
msgstr ""Janeiro""

msgid ""Japanese""
msgstr ""Japonês""

msgid ""July""
msgstr ""Julho""

msgid ""June""
msgstr ""Junho""

msgid ""Kabyle""
msgstr ""Cabila""

msgid ""Kannada""
msgstr ""Canarês""

msgid ""Kazakh""
msgstr ""Cazaque""

msgid ""Khmer""
msgstr ""Khmer""

msgid ""Korean""
msgstr ""Coreano""

msgid ""Kyrgyz""
msgstr ""Quirguiz""

msgid ""Latvian""
msgstr ""Letão""

msgid ""Lithuanian""
msgstr ""Lituano""

msgid ""Lower Sorbian""
msgstr ""Sorábio Baixo""

msgid ""Luxembourgish""
msgstr ""Luxemburguês""

msgid ""Macedonian""
msgstr ""Macedônio""

msgid ""Malay""
msgstr ""Malaia""

msgid ""Malayalam""
msgstr ""Malaiala""

msgid ""Marathi""
msgstr ""Marathi""

msgid ""March""
msgstr ""Março""

msgid ""May""
msgstr ""Maio""

msgid ""Mexican Spanish""
msgstr ""Espanhol Mexicano""

msgid ""Mon""
msgstr ""Seg""

msgid ""Monday""
msgstr ""Segunda-feira""

msgid ""Mongolian""
msgstr ""Mongol""

msgid ""Nepali""
msgstr ""Nepalês""

msgid ""Nicaraguan Spanish""
msgstr ""Espanhol Nicaraguense""

msgid ""Norwegian Bokmål""
msgstr ""Dano-norueguês""

msgid ""Norwegian Nynorsk""
msgstr ""Novo Norueguês""

msgid ""November""
msgstr ""Novembro""

msgid ""October""
msgstr ""Outubro""

msgid ""Ossetic""
msgstr ""Osseto""

msgid ""PM""
msgstr ""PM""

msgid ""Persian""
msgstr ""Persa""

msgid ""Polish""
msgstr ""Polonês""

msgid ""Portuguese""
msgstr ""Português""

msgid ""Punjabi""
msgstr ""Punjabi""

msgid ""Romanian""
msgstr ""Romeno""

msgid ""Russian""
msgstr ""Russo""

msgid ""Sat""
msgstr ""Sab""

msgid ""Saturday""
msgstr ""Sábado""

msgid ""Scottish Gaelic""
msgstr ""Gaélico Escocês""

msgid ""September""
msgstr ""Setembro""

msgid ""Serbian""
msgstr ""Sérvio""

msgid ""Serbian Latin""
msgstr ""Sérvio Latino""

msgid ""Simplified Chinese""
msgstr ""Chinês Simplificado""

msgid ""Slovak""
msgstr ""Eslovaco""

msgid ""Slovenian""
msgstr ""Esloveno""

msgid ""Spanish""
msgstr ""Espanhol""

msgid ""Sun""
msgstr ""Dom""

msgid ""Sunday""
msgstr ""Domingo""

msgid ""Swahili""
msgstr ""Suaíli""

msgid ""Swedish""
msgstr ""Sueco""

msgid ""Tajik""
msgstr ""Tadjique""

msgid ""Tamil""
msgstr ""Tâmil""

msgid ""Tatar""
msgstr ""Tatar""

msgid ""Telugu""
msgstr ""Telugu""

msgid ""Thai""
msgstr ""Tailandês""

msgid ""Thu""
msgstr ""Qui""

msgid ""Thursday""
msgstr ""Quinta-feira""

msgid ""Traditional Chinese""
msgstr ""Chinês Tradicional""

msgid ""Tue""
msgstr ""Ter""

msgid ""Tuesday""
msgstr ""Terça-feira""

msgid ""Turkish""
msgstr ""Turco""

msgid ""Turkmen""
msgstr ""Turcomano""

msgid ""Udmurt""
msgstr ""Udmurt""

msgid ""Ukrainian""
msgstr ""Ucraniano""

msgid ""Upper Sorbian""
msgstr ""Sorábio Alto""

msgid ""Urdu""
msgstr ""Urdu""

msgid ""Uyghur""
msgstr ""Uigur""

msgid ""Uzbek""
msgstr ""Uzbeque""

msgid ""Venezuelan Spanish""
msgstr ""Espanhol Venuzuelano""

msgid ""Vietnamese""
msgstr ""Vietnamita""

msgid ""Wed""
msgstr ""Qua""

msgid ""Wednesday""
msgstr ""Quarta-feira""

msgid ""Welsh""
msgstr ""Galês""

msgid ""a minute ago""
msgid_plural ""%[1]v minutes ago""
msgstr[0] ""um minuto atrás""
msgstr[1] ""%[1]v minutos atrás""
msgstr[2] ""%[1]v minutos atrás""

msgid ""a minute from now""
msgid_plural ""%[1]v minutes from now""
msgstr[0] ""um minuto a partir de agora""
msgstr[1] ""%[1]v minutos a partir de agora""
msgstr[2] ""%[1]v minutos a partir de agora""

msgid ""a second ago""
msgid_plural ""%[1]v seconds ago""
msgstr[0] ""um segundo atrás""
msgstr[1] ""%[1]v segundos atrás""
msgstr[2] ""%[1]v segundos atrás""

msgid ""a second from now""
msgid_plural ""%[1]v seconds from now""
msgstr[0] ""um segundo a partir de agora""
msgstr[1] ""%[1]v segundos a partir de agora""
msgstr[2] ""%[1]v segundos a partir de agora""

msgid ""a.m.""
msgstr ""a.m.""

msgid ""an hour ago""
msgid_plural ""%[1]v hours ago""
msgstr[0] ""uma hora atrás""
msgstr[1] ""%[1]v horas atrás""
msgstr[2] ""%[1]v horas atrás""

msgid ""an hour from now""
msgid_plural ""%[1]v hours from now""
msgstr[0] ""uma hora a partir de agora""
msgstr[1] ""%[1]v horas a partir de agora""
msgstr[2] ""%[1]v horas a partir de agora""

msgid ""apr""
msgstr ""abr""

msgid ""aug""
msgstr ""ago""

msgid ""dec""
msgstr ""dez""

msgid ""eight""
msgstr ""oito""

msgid ""feb""
msgstr ""fev""

msgid ""five""
msgstr ""cinco""

msgid ""four""
msgstr ""quatro""

msgid ""jan""
msgstr ""jan""

msgid ""jul""
msgstr ""jul""

msgid ""jun""
msgstr ""jun""

msgid ""mar""
msgstr ""mar""

msgid ""may""
msgstr ""mai""

msgid ""midnight""
msgstr ""meia-noite""

msgid ""nine""
msgstr ""nove""

msgid ""noon""
msgstr ""meio-dia""

msgid ""nov""
msgstr ""nov""

msgid ""now""
msgstr ""agora""

msgid ""oct""
msgstr ""out""

msgid ""one""
msgstr ""um""

msgid ""p.m.""
msgstr ""p.m.""

msgid ""sep""
msgstr ""set""

msgid ""seven""
msgstr ""sete""

msgid ""six""
msgstr ""seis""

msgid ""three""
msgstr ""três""

msgid ""today""
msgstr ""hoje""

msgid ""tomorrow""
msgstr ""amanhã""

msgid ""two""
msgstr ""dois""

msgid ""yesterday""
msgstr ""ontem""

msgctxt ""abbrev. month""
msgid ""April""
msgstr ""Abril""

msgctxt ""abbrev. month""
msgid ""Aug.""
msgstr ""Ago.""

msgctxt ""abbrev. month""
msgid ""Dec.""
msgstr ""Dez.""

msgctxt ""abbrev. month""
msgid ""Feb.""
msgstr ""Fev.""

msgctxt ""abbrev. month""
msgid ""Jan.""
msgstr ""Jan.""

msgctxt ""abbrev. month""
msgid ""July""
msgstr ""Julho""

msgctxt ""abbrev. month""
msgid ""June""
msgstr ""Junho""

msgctxt ""abbrev. month""
msgid ""March""
msgstr ""Março""

msgctxt ""abbrev. month""
msgid ""May""
msgstr ""Maio""

msgctxt ""abbrev. month""
msgid ""Nov.""
msgstr ""Nov.""

msgctxt ""abbrev. month""
msgid ""Oct.""
msgstr ""Out.""

msgctxt ""abbrev. month""
msgid ""Sept.""
msgstr ""Set.""

msgctxt ""alt. month""
msgid ""April""
msgstr ""Abril""

msgctxt ""alt. month""
msgid ""August""
msgstr ""Agosto""

msgctxt ""alt. month""
msgid ""December""
msgstr ""Dezembro""

msgctxt ""alt. month""
msgid ""February""
msgstr ""Fevereiro""

msgctxt ""alt. month""
msgid ""January""
msgstr ""Janeiro""

msgctxt ""alt. month""
msgid ""July""
msgstr ""Julho""

msgctxt ""alt. month""
msgid ""June""
msgstr ""Junho""

msgctxt ""alt. month""
msgid ""March""
msgstr ""Março""

msgctxt ""alt. month""
msgid ""May""
msgstr ""Maio""

msgctxt ""alt. month""
msgid ""November""
msgstr ""Novembro""

msgctxt ""alt. month""
msgid ""October""
msgstr ""Outubro""

msgctxt ""alt. month""
msgid ""September""
msgstr ""Setembro""

msgctxt ""naturaltime-future""
msgid ""%[1]v day""
msgid_plural ""%[1]v days""
msgstr[0] ""%[1]v dia""
msgstr[1] ""%[1]v dias""
msgstr[2] ""%[1]v dias""

msgctxt ""naturaltime-future""
msgid ""%[1]v hour""
msgid_plural ""%[1]v hours""
msgstr[0] ""%[1]v hora""
msgstr[1] ""%[1]v horas""
msgstr[2] ""%[1]v horas""

msgctxt ""naturaltime-future""
msgid ""%[1]v minute""
msgid_plural ""%[1]v minutes""
msgstr[0] ""%[1]v minuto""
msgstr[1] ""%[1]v minutos""
msgstr[2] ""%[1]v minutos""

msgctxt ""naturaltime-future""
msgid ""%[1]v month""
msgid_plural ""%[1]v months""
msgstr[0] ""%[1]v mês""
msgstr[1] ""%[1]v meses""
msgstr[2] ""%[1]v meses""

msgctxt ""naturaltime-future""
msgid ""%[1]v week""
msgid_plural ""%[1]v weeks""
msgstr[0] ""%[1]v semana""
msgstr[1] ""%[1]v semanas""
msgstr[2] ""%[1]v semanas""

msgctxt ""naturaltime-future""
msgid ""%[1]v year""
msgid_plural ""%[1]v years""
msgstr[0] ""%[1]v ano""
msgstr[1] ""%[1]v anos""
msgstr[2] ""%[1]v anos""

msgctxt ""naturaltime-past""
msgid ""%[1]v day""
msgid_plural ""%[1]v days""
msgstr[0] ""%[1]v dia""
msgstr[1] ""%[1]v dias""
msgstr[2] ""%[1]v dias""

msgctxt ""naturaltime-past""
msgid ""%[1]v hour""
msgid_plural ""%[1]v hours""
msgstr[0] ""%[1]v hora""
msgstr[1] ""%[1]v horas""
msgstr[2] ""%[1]v horas""

msgctxt ""naturaltime-past""
msgid ""%[1]v minute""
msgid_plural ""%[1]v minutes""
msgstr[0] ""%[1]v minuto""
msgstr[1] ""%[1]v minutos""
msgstr[2] ""%[1]v minutos""

msgctxt ""naturaltime-past""
msgid ""%[1]v month""
msgid_plural ""%[1]v months""
msgstr[0] ""%[1]v mês""
msgstr[1] ""%[1]v meses""
msgstr[2] ""%[1]v meses""

msgctxt ""naturaltime-past""
msgid ""%[1]v week""
msgid_plural ""%[1]v weeks""
msgstr[0] ""%[1]v semana""
msgstr[1] ""%[1]v semanas""
msgstr[2] ""%[1]v semanas""

msgctxt ""naturaltime-past""
msgid ""%[1]v year""
msgid_plural ""%[1]v years""
msgstr[0] ""%[1]v ano""
msgstr[1] ""%[1]v anos""
msgstr[2] ""%[1]v anos""

msgctxt ""ordinal 0""
msgid ""%vth""
msgstr ""%vº""

msgctxt ""ordinal 1""
msgid ""%vst""
msgstr ""%vº""

msgctxt ""ordinal 11, 12, 13""
msgid ""%vth""
msgstr ""%vº""

msgctxt ""ordinal 2""
msgid ""%vnd""
msgstr ""%vº""

msgctxt ""ordinal 3""
msgid ""%vrd""
msgstr ""%vº""

msgctxt ""ordinal 4""
msgid ""%vth""
msgstr ""%vº""

msgctxt ""ordinal 5""
msgid ""%vth""
msgstr ""%vº""

msgctxt ""ordinal 6""
msgid ""%vth""
msgstr ""%vº""

msgctxt ""ordinal 7""
msgid ""%vth""
msgstr ""%vº""

msgctxt ""ordinal 8""
msgid ""%vth""
msgstr ""%vº""

msgctxt ""ordinal 9""
msgid ""%vth""
msgstr ""%vº""
".
(** humanize/locale/ptBR/locale.go (New) *)
Definition loc_ptBR : locale_data := LD (bs "pt-BR") [(bs "django.po", po_ptBR)]
  (Some (FD (bs "j \d\e F \d\e Y") (bs "H:i") (bs "j \d\e F \d\e Y à\s H:i") (bs "F \d\e Y") (bs "j \d\e F") (bs "d/m/Y") (bs "d/m/Y H:i"))).

(** humanize/locale/ro/django.po *)
Definition po_ro : bytes := bs "# This file is distributed under the same license as the Django package.
# 
# Translators:
# Abel Radac <abelradac@gmail.com>, 2017
# Bogdan Mateescu, 2018-2019,2021
# mihneasim <contact@mesimian.com>, 2011
# Daniel Ursache-Dogariu, 2011
# Denis Darii <denis.darii@gmail.com>, 2011,2014
# Ionel Cristian Mărieș <ionel.mc@gmail.com>, 2012
# Jannis Leidel <jannis@leidel.info>, 2011
# razvan ionescu <ionescu77@gmail.com>, 2015
# Razvan Stefanescu <razvan.stefanescu@gmail.com>, 2016-2017
msgid """"
msgstr """"
""Project-Id-Version: django\n""
""Report-Msgid-Bugs-To: \n""
""POT-Creation-Date: 2023-01-17 02:13-0600\n""
""PO-Revision-Date: 2023-04-25 06:49+0000\n""
""Last-Translator: Bogdan Mateescu, 2018-2019,2021\n""
""Language-Team: Romanian (http://www.transifex.com/django/django/language/ro/)\n""
""Language: ro\n""
""MIME-Version: 1.0\n""
""Content-Type: text/plain; charset=UTF-8\n""
""Content-Transfer-Encoding: 8bit\n""
""Plural-Forms: nplurals=3; plural=(n==1?0:(((n%100>19)||((n%100==0)&&(n!=0)))?2:1));\n""

msgid ""%[1]d byte""
msgid_plural ""%[1]d bytes""
msgstr[0] ""%[1]d octet""
msgstr[1] ""%[1]d octeţi""
msgstr[2] ""%[1]d de octeţi""

msgid ""%[1]s billion""
msgid_plural ""%[1]s billion""
msgstr[0] ""%[1]s miliard""
msgstr[1] ""%[1]s miliarde""
msgstr[2] ""%[1]s de miliarde""

msgid ""%[1]s decillion""
msgid_plural ""%[1]s decillion""
msgstr[0] ""%[1]s decilion""
msgstr[1] ""%[1]s decilioane""
msgstr[2] ""%[1]s de decilioane""

msgid ""%[1]s googol""
msgid_plural ""%[1]s googol""
msgstr[0] ""%[1]s googol""
msgstr[1] ""%[1]s googol""
msgstr[2] ""%[1]s de googol""

msgid ""%[1]s million""
msgid_plural ""%[1]s million""
msgstr[0] ""%[1]s milion""
msgstr[1] ""%[1]s milioane""
msgstr[2] ""%[1]s de milioane""

msgid ""%[1]s nonillion""
msgid_plural ""%[1]s nonillion""
msgstr[0] ""%[1]s nonilion""
msgstr[1] ""%[1]s nonilioane""
msgstr[2] ""%[1]s de nonilioane""

msgid ""%[1]s octillion""
msgid_plural ""%[1]s octillion""
msgstr[0] ""%[1]s octilion""
msgstr[1] ""%[1]s octilioane""
msgstr[2] ""%[1]s de octilioane""

msgid ""%[1]s quadrillion""
msgid_plural ""%[1]s quadrillion""
msgstr[0] ""%[1]s cuadrilion""
msgstr[1] ""%[1]s cuadrilioane""
msgstr[2] ""%[1]s de cuadrilioane""

msgid ""%[1]s quintillion""
msgid_plural ""%[1]s quintillion""
msgstr[0] ""%[1]s cuntilion""
msgstr[1] ""%[1]s cuntilioane""
msgstr[2] ""%[1]s de cuntilioane""

msgid ""%[1]s septillion""
msgid_plural ""%[1]s septillion""
msgstr[0] ""%[1]s septilion""
msgstr[1] ""%[1]s septilioane""
msgstr[2] ""%[1]s de septilioane""

msgid ""%[1]s sextillion""
msgid_plural ""%[1]s sextillion""
msgstr[0] ""%[1]s sextilion""
msgstr[1] ""%[1]s sextilioane""
msgstr[2] ""%[1]s de sextilioane""

msgid ""%[1]s trillion""
msgid_plural ""%[1]s trillion""
msgstr[0] ""%[1]s trilion""
msgstr[1] ""%[1]s trilioane""
msgstr[2] ""%[1]s de trilioane""

msgid ""%[1]v ago""
msgstr ""Acum %[1]v""

msgid ""%[1]v day""
msgid_plural ""%[1]v days""
msgstr[0] ""%[1]v zi""
msgstr[1] ""%[1]v zile""
msgstr[2] ""%[1]v de zile""

msgid ""%[1]v from now""
msgstr ""În %[1]v""

msgid ""%[1]v hour""
msgid_plural ""%[1]v hours""
msgstr[0] ""%[1]v oră""
msgstr[1] ""%[1]v ore""
msgstr[2] ""%[1]v de ore""

msgid ""%[1]v minute""
msgid_plural ""%[1]v minutes""
msgstr[0] ""%[1]v minut""
msgstr[1] ""%[1]v minute""
msgstr[2] ""%[1]v de minute""

msgid ""%[1]v month""
msgid_plural ""%[1]v months""
msgstr[0] ""%[1]v lună""
msgstr[1] ""%[1]v luni""
msgstr[2] ""%[1]v de luni""

msgid ""%[1]v week""
msgid_plural ""%[1]v weeks""
msgstr[0] ""%[1]v săptămână""
msgstr[1] ""%[1]v săptămâni""
msgstr[2] ""%[1]v de săptămâni""

msgid ""%[1]v year""
msgid_plural ""%[1]v years""
msgstr[0] ""%[1]v an""
msgstr[1] ""%[1]v ani""
msgstr[2] ""%[1]v de ani""

msgid ""%s GB""
msgstr ""%s GO""

msgid ""%s KB""
msgstr ""%s KO""

msgid ""%s MB""
msgstr ""%s MO""

msgid ""%s PB""
msgstr ""%s PO""

msgid ""%s TB""
msgstr ""%s TO""

msgid "", ""
msgstr "", ""

msgid ""AM""
msgstr ""AM""

msgid ""Afrikaans""
msgstr ""Afrikaans""

msgid ""Albanian""
msgstr ""Albaneză""

msgid ""Algerian Arabic""
msgstr """"

msgid ""April""
msgstr ""Aprilie""

msgid ""Arabic""
msgstr ""Arabă""

msgid ""Argentinian Spanish""
msgstr ""Spaniolă Argentiniană""

msgid ""Armenian""
msgstr ""Armeană""

msgid ""Asturian""
msgstr ""Asturiană""

msgid ""August""
msgstr ""August""

msgid ""Australian English""
msgstr ""Engleză australiană""

msgid ""Azerbaijani""
msgstr ""Azeră""

msgid ""Basque""
msgstr ""Bască""

msgid ""Belarusian""
msgstr ""Bielorusă""

msgid ""Bengali""
msgstr ""Bengaleză""

msgid ""Bosnian""
msgstr ""Bosniacă""

msgid ""Brazilian Portuguese""
msgstr ""Portugheză braziliană""

msgid ""Breton""
msgstr ""Bretonă""

msgid ""British English""
msgstr ""Engleză britanică""

msgid ""Bulgarian""
msgstr ""Bulgară""

msgid ""Burmese""
msgstr ""Burmeză""

msgid ""Catalan""
msgstr ""Catalană""

msgid ""Central Kurdish (Sorani)""
msgstr """"

msgid ""Colombian Spanish""
msgstr ""Spaniolă Columbiană""

msgid ""Croatian""
msgstr ""Croată""

msgid ""Czech""
msgstr ""Cehă""

msgid ""Danish""
msgstr ""Daneză""

msgid ""December""
msgstr ""Decembrie""

msgid ""Dutch""
msgstr ""Olandeză""

msgid ""English""
msgstr ""Engleză""

msgid ""Esperanto""
msgstr ""Esperanto""

msgid ""Estonian""
msgstr ""Estonă""

msgid ""February""
msgstr ""Februarie""

msgid ""Finnish""
msgstr ""Finlandeză""

msgid ""French""
msgstr ""Franceză""

msgid ""Fri""
msgstr ""Vin""

msgid ""Friday""
msgstr ""Vineri""

msgid ""Frisian""
msgstr ""Frizian""

msgid ""Galician""
msgstr ""Galiciană""

msgid ""Georgian""
msgstr ""Georgiană""

msgid ""German""
msgstr ""Germană""

msgid ""Greek""
msgstr ""Greacă""

msgid ""Hebrew""
msgstr ""Ebraică""

msgid ""Hindi""
msgstr ""Hindi""

msgid ""Hungarian""
msgstr ""Ungară""

msgid ""Icelandic""
msgstr ""Islandeză""

msgid ""Ido""
msgstr ""Ido""

msgid ""Igbo""
msgstr """"

msgid ""Indonesian""
msgstr ""Indoneză""

msgid ""Interlingua""
msgstr ""Interlingua""

msgid ""Irish""
msgstr ""Irlandeză""

msgid ""Italian""
msgstr ""Italiană""

msgid ""January""
msgstr ""Ianuarie""

msgid ""Japanese""
msgstr ""Japoneză""

msgid ""July""
msgstr ""Iulie""

msgid ""June""
msgstr ""Iunie""

msgid ""Kabyle""
msgstr ""Kabyle""

msgid ""Kannada""
msgstr ""Limba kannada""

msgid ""Kazakh""
msgstr ""Kazahă""

msgid ""Khmer""
msgstr ""Khmeră""

msgid ""Korean""
msgstr ""Koreană""

msgid ""Kyrgyz""
msgstr """"

msgid ""Latvian""
msgstr ""Letonă""

msgid ""Lithuanian""
msgstr ""Lituaniană""

msgid ""Lower Sorbian""
msgstr ""Soraba Inferioară""

msgid ""Luxembourgish""
msgstr ""Luxemburgheză""

msgid ""Macedonian""
msgstr ""Macedoneană""

msgid ""Malay""
msgstr """"

msgid ""Malayalam""
msgstr ""Malayalam""

msgid ""Marathi""
msgstr ""Marathi""

msgid ""March""
msgstr ""Martie""

msgid ""May""
msgstr ""Mai""

msgid ""Mexican Spanish""
msgstr ""Spaniolă Mexicană""

msgid ""Mon""
msgstr ""Lun""

msgid ""Monday""
msgstr ""Luni""

msgid ""Mongolian""
msgstr ""Mongolă""

msgid ""Nepali""
msgstr ""Nepaleză""

msgid ""Nicaraguan Spanish""
msgstr ""Spaniolă Nicaragua""

msgid ""Norwegian Bokmål""
msgstr ""Norvegiana modernă""

msgid ""Norwegian Nynorsk""
msgstr ""Norvegiană Nynorsk""

msgid ""November""
msgstr ""Noiembrie""

msgid ""October""
msgstr ""Octombrie""

msgid ""Ossetic""
msgstr ""Osețiană""

msgid ""PM""
msgstr ""PM""

msgid ""Persian""
msgstr ""Persană""

msgid ""Polish""
msgstr ""Poloneză""

msgid ""Portuguese""
msgstr ""Portugheză""

msgid ""Punjabi""
msgstr ""Punjabi""

msgid ""Romanian""
msgstr ""Română""

msgid ""Russian""
msgstr ""Rusă""

msgid ""Sat""
msgstr ""Sâm""

msgid ""Saturday""
msgstr ""Sâmbătă""

msgid ""Scottish Gaelic""
msgstr ""Galeză Scoțiană""

msgid ""September""
msgstr ""Septembrie""

msgid ""Serbian""
msgstr ""Sârbă""

msgid ""Serbian Latin""
msgstr ""Sârbă latină""

msgid ""Simplified Chinese""
msgstr ""Chineză simplificată""

msgid ""Slovak""
msgstr ""Slovacă""

msgid ""Slovenian""
msgstr ""Slovenă""

msgid ""Spanish""
msgstr ""Spaniolă""

msgid ""Sun""
msgstr ""Dum""

msgid ""Sunday""
msgstr ""Duminică""

msgid ""Swahili""
msgstr ""Swahili""

msgid ""Swedish""
msgstr ""Suedeză""

msgid ""Tajik""
msgstr """"

msgid ""Tamil""
msgstr ""Limba tamila""

msgid ""Tatar""
msgstr ""Tătară""

msgid ""Telugu""
msgstr ""Limba telugu""

msgid ""Thai""
msgstr ""Tailandeză""

msgid ""Thu""
msgstr ""Joi""

msgid ""Thursday""
msgstr ""Joi""

msgid ""Traditional Chinese""
msgstr ""Chineză tradițională""

msgid ""Tue""
msgstr ""Mar""

msgid ""Tuesday""
msgstr ""Marți""

msgid ""Turkish""
msgstr ""Turcă""

msgid ""Turkmen""
msgstr """"

msgid ""Udmurt""
msgstr ""Udmurtă""

msgid ""Ukrainian""
msgstr ""Ucraineană""

msgid ""Upper Sorbian""
msgstr ""Soraba Superioară""

msgid ""Urdu""
msgstr ""Urdu""

msgid ""Uzbek""
msgstr ""Uzbecă""

msgid ""Venezuelan Spanish""
msgstr ""Spaniolă venezueleană""

msgid ""Vietnamese""
msgstr ""Vietnameză""

msgid ""Wed""
msgstr ""Mie""

msgid ""Wednesday""
msgstr ""Miercuri""

msgid ""Welsh""
msgstr ""Galeză""

msgid ""a minute ago""
msgid_plural ""%[1]v minutes ago""
msgstr[0] ""Acum un minut""
msgstr[1] ""Acum %[1]v minute""
msgstr[2] ""Acum %[1]v de minute""

msgid ""a minute from now""
msgid_plural ""%[1]v minutes from now""
msgstr[0] ""Într-un minut""
msgstr[1] ""În %[1]v minute""
msgstr[2] ""În %[1]v de minute""

msgid ""a second ago""
msgid_plural ""%[1]v seconds ago""
msgstr[0] ""Acum o secundă""
msgstr[1] ""Acum %[1]v secunde""
msgstr[2] ""Acum %[1]v de secunde""

msgid ""a second from now""
msgid_plural ""%[1]v seconds from now""
msgstr[0] ""Într-o secundă""
msgstr[1] ""În %[1]v secunde""
msgstr[2] ""În %[1]v de secunde""

msgid ""a.m.""
msgstr ""a.m.""

msgid ""an hour ago""
msgid_plural ""%[1]v hours ago""
msgstr[0] ""Acum o oră""
msgstr[1] ""Acum %[1]v ore""
msgstr[2] ""Acum %[1]v de ore""

msgid ""an hour from now""
msgid_plural ""%[1]v hours from now""
msgstr[0] ""Într-o oră""
msgstr[1] ""În %[1]v ore""
msgstr[2] ""În %[1]v de ore""

msgid ""apr""
msgstr ""apr""

msgid ""aug""
msgstr ""aug""

msgid ""dec""
msgstr ""dec""

msgid ""eight""
msgstr ""opt""

msgid ""feb""
msgstr ""feb""

msgid ""five""
msgstr ""cinci""

msgid ""four""
msgstr ""patru""

msgid ""jan""
msgstr ""ian""

msgid ""jul""
msgstr ""iul""

msgid ""jun""
msgstr ""iun""

msgid ""mar""
msgstr ""mar""

msgid ""may""
msgstr ""mai""

msgid ""midnight""
msgstr ""miezul nopții""

msgid ""nine""
msgstr ""nouă""

msgid ""noon""
msgstr ""amiază""

msgid ""nov""
msgstr ""noi""

msgid ""now""
msgstr ""acum""

msgid ""oct""
msgstr ""oct""

msgid ""one""
msgstr ""unu""

msgid ""p.m.""
msgstr ""p.m.""

msgid ""sep""
msgstr ""sep""

msgid ""seven""
msgstr ""șapte""

msgid ""six""
msgstr ""șase""

msgid ""three""
msgstr ""trei""

msgid ""today""
msgstr ""astăzi""

msgid ""tomorrow""
msgstr ""mâine""

msgid ""two""
msgstr ""doi""

msgid ""yesterday""
msgstr ""ieri""

msgctxt ""abbrev. month""
msgid ""April""
msgstr ""Aprilie""

msgctxt ""abbrev. month""
msgid ""Aug.""
msgstr ""Aug.""

msgctxt ""abbrev. month""
msgid ""Dec.""
msgstr ""Dec.""

msgctxt ""abbrev. month""
msgid ""Feb.""
msgstr ""Feb.""

msgctxt ""abbrev. month""
msgid ""Jan.""
msgstr ""Ian.""

msgctxt ""abbrev. month""
msgid ""July""
msgstr ""Iulie""

msgctxt ""abbrev. month""
msgid ""June""
msgstr ""Iunie""

msgctxt ""abbrev. month""
msgid ""March""
msgstr ""Martie""

msgctxt ""abbrev. month""
msgid ""May""
msgstr ""Mai""

msgctxt ""abbrev. month""
msgid ""Nov.""
msgstr ""Noie.""

msgctxt ""abbrev. month""
msgid ""Oct.""
msgstr ""Oct.""

msgctxt ""abbrev. month""
msgid ""Sept.""
msgstr ""Sept.""

msgctxt ""alt. month""
msgid ""April""
msgstr ""Aprilie""

msgctxt ""alt. month""
msgid ""August""
msgstr ""August""

msgctxt ""alt. month""
msgid ""December""
msgstr ""Decembrie""

msgctxt ""alt. month""
msgid ""February""
msgstr ""Februarie""

msgctxt ""alt. month""
msgid ""January""
msgstr ""Ianuarie""

msgctxt ""alt. month""
msgid ""July""
msgstr ""Iulie""

msgctxt ""alt. month""
msgid ""June""
msgstr ""Iunie""

msgctxt ""alt. month""
msgid ""March""
msgstr ""Martie""

msgctxt ""alt. month""
msgid ""May""
msgstr ""Mai""

msgctxt ""alt. month""
msgid ""November""
msgstr ""Noiembrie""

msgctxt ""alt. month""
msgid ""October""
msgstr ""Octombrie""

msgctxt ""alt. month""
msgid ""September""
msgstr ""Septembrie""

msgctxt ""ordinal 0""
msgid ""%vth""
msgstr ""al %v-lea""

msgctxt ""ordinal 1""
msgid ""%vst""
msgstr ""%v""

msgctxt ""ordinal 11, 12, 13""
msgid ""%vth""
msgstr ""al %v-lea""

msgctxt ""ordinal 2""
msgid ""%vnd""
msgstr ""al %v-lea""

msgctxt ""ordinal 3""
msgid ""%vrd""
msgstr ""al %v-lea""

msgctxt ""ordinal 4""
msgid ""%vth""
msgstr ""al %v-lea""

msgctxt ""ordinal 5""
msgid ""%vth""
msgstr ""al %v-lea""

msgctxt ""ordinal 6""
msgid ""%vth""
msgstr ""al %v-lea""

msgctxt ""ordinal 7""
msgid ""%vth""
msgstr ""al %v-lea""

msgctxt ""ordinal 8""
msgid ""%vth""
msgstr ""al %v-lea""

msgctxt ""ordinal 9""
msgid ""%vth""
msgstr ""al %v-lea""
".
(** humanize/locale/ro/locale.go (New) *)
Definition loc_ro : locale_data := LD (bs "ro") [(bs "django.po", po_ro)]
  (Some (FD (bs "j F Y") (bs "H:i") (bs "j F Y, H:i") (bs "F Y") (bs "j F") (bs "d.m.Y") (bs "d.m.Y, H:i"))).

(** humanize/locale/ru/django.po *)
Definition po_ru : bytes := bs "# This file is distributed under the same license as the Django package.
# 
# Translators:
# Mingun <Alexander_Sergey@mail.ru>, 2014
# Anton Bazhanov <bazanton@yandex.ru>, 2017
# Denis Darii <denis.darii@gmail.com>, 2011
# Dimmus <dmitri.chudinov@gmail.com>, 2011
# eigrad <andrew@ei-grad.ru>, 2012
# Eugene <eugene.mechanism@gmail.com>, 2013
# Eugene Morozov <transifex@emorozov.net>, 2021
# eXtractor <evg.kirov@gmail.com>, 2015
# crazyzubr <hjcnbckfd@gmail.com>, 2020
# Igor Melnyk, 2014
# Ivan Khomutov <iskhomutov@gmail.com>, 2017
# Jannis Leidel <jannis@leidel.info>, 2011
# lilo.panic, 2016
# Mikhail Zholobov <legal90@gmail.com>, 2013
# Nikolay Korotkiy <sikmir@disroot.org>, 2018
# Panasoft, 2021
# Вася Аникин <anikin.vasya@gmail.com>, 2017
# SeryiMysh <vital@dorokhin.kz>, 2020
# Алексей Борискин <sun.void@gmail.com>, 2013-2017,2019-2020,2022-2025
# Bobsans <mr.bobsans@gmail.com>, 2016,2018
msgid """"
msgstr """"
""Project-Id-Version: django\n""
""Report-Msgid-Bugs-To: \n""
""POT-Creation-Date: 2025-03-19 11:30-0500\n""
""PO-Revision-Date: 2025-09-17 06:49+0000\n""
""Last-Translator: Алексей Борискин <sun.void@gmail.com>, 2013-2017,2019-2020,2022-2025\n""
""Language-Team: Russian (http://app.transifex.com/django/django/language/ru/)\n""
""Language: ru\n""
""MIME-Version: 1.0\n""
""Content-Type: text/plain; charset=UTF-8\n""
""Content-Transfer-Encoding: 8bit\n""
""Plural-Forms: nplurals=4; plural=(n%10==1 && n%100!=11 ? 0 : n%10>=2 && n%10<=4 && (n%100<12 || n%100>14) ? 1 : n%10==0 || (n%10>=5 && n%10<=9) || (n%100>=11 && n%100<=14)? 2 : 3);\n""

msgid ""%[1]d byte""
msgid_plural ""%[1]d bytes""
msgstr[0] ""%[1]d байт""
msgstr[1] ""%[1]d байта""
msgstr[2] ""%[1]d байт""
msgstr[3] ""%[1]d байт""

msgid ""%[1]s billion""
msgid_plural ""%[1]s billion""
msgstr[0] ""%[1]s миллиард""
msgstr[1] ""%[1]s миллиарда""
msgstr[2] ""%[1]s миллиардов""
msgstr[3] ""%[1]s миллиардов""

msgid ""%[1]s decillion""
msgid_plural ""%[1]s decillion""
msgstr[0] ""%[1]s дециллион""
msgstr[1] ""%[1]s дециллиона""
msgstr[2] ""%[1]s дециллионов""
msgstr[3] ""%[1]s дециллионов""

msgid ""%[1]s googol""
msgid_plural ""%[1]s googol""
msgstr[0] ""%[1]s гугол""
msgstr[1] ""%[1]s гугола""
msgstr[2] ""%[1]s гуголов""
msgstr[3] ""%[1]s гуголов""

msgid ""%[1]s million""
msgid_plural ""%[1]s million""
msgstr[0] ""%[1]s миллион""
msgstr[1] ""%[1]s миллиона""
msgstr[2] ""%[1]s миллионов""
msgstr[3] ""%[1]s миллионов""

msgid ""%[1]s nonillion""
msgid_plural ""%[1]s nonillion""
msgstr[0] ""%[1]s нониллион""
msgstr[1] ""%[1]s нониллиона""
msgstr[2] ""%[1]s нониллионов""
msgstr[3] ""%[1]s нониллионов""

msgid ""%[1]s octillion""
msgid_plural ""%[1]s octillion""
msgstr[0] ""%[1]s октиллион""
msgstr[1] ""%[1]s октиллиона""
msgstr[2] ""%[1]s октиллионов""
msgstr[3] ""%[1]s октиллионов""

msgid ""%[1]s quadrillion""
msgid_plural ""%[1]s quadrillion""
msgstr[0] ""%[1]s квадриллион""
msgstr[1] ""%[1]s квадриллиона""
msgstr[2] ""%[1]s квадриллионов""
msgstr[3] ""%[1]s квадриллионов""

msgid ""%[1]s quintillion""
msgid_plural ""%[1]s quintillion""
msgstr[0] ""%[1]s квинтиллион""
msgstr[1] ""%[1]s квинтиллиона""
msgstr[2] ""%[1]s квинтиллионов""
msgstr[3] ""%[1]s квинтиллионов""

msgid ""%[1]s septillion""
msgid_plural ""%[1]s septillion""
msgstr[0] ""%[1]s септиллион""
msgstr[1] ""%[1]s септиллиона""
msgstr[2] ""%[1]s септиллионов""
msgstr[3] ""%[1]s септиллионов""

msgid ""%[1]s sextillion""
msgid_plural ""%[1]s sextillion""
msgstr[0] ""%[1]s секстиллион""
msgstr[1] ""%[1]s секстиллиона""
msgstr[2] ""%[1]s секстиллионов""
msgstr[3] ""%[1]s секстиллионов""

msgid ""%[1]s trillion""
msgid_plural ""%[1]s trillion""
msgstr[0] ""%[1]s триллион""
msgstr[1] ""%[1]s триллиона""
msgstr[2] ""%[1]s триллионов""
msgstr[3] ""%[1]s триллионов""

msgid ""%[1]v ago""
msgstr ""%[1]v назад""

msgid ""%[1]v day""
msgid_plural ""%[1]v days""
msgstr[0] ""%[1]v день""
msgstr[1] ""%[1]v дня""
msgstr[2] ""%[1]v дней""
msgstr[3] ""%[1]v дней""

msgid ""%[1]v from now""
msgstr ""через %[1]v""

msgid ""%[1]v hour""
msgid_plural ""%[1]v hours""
msgstr[0] ""%[1]v час""
msgstr[1] ""%[1]v часа""
msgstr[2] ""%[1]v часов""
msgstr[3] ""%[1]v часов""

msgid ""%[1]v minute""
msgid_plural ""%[1]v minutes""
msgstr[0] ""%[1]v минута""
msgstr[1] ""%[1]v минуты""
msgstr[2] ""%[1]v минут""
msgstr[3] ""%[1]v минут""

msgid ""%[1]v month""
msgid_plural ""%[1]v months""
msgstr[0] ""%[1]v месяц""
msgstr[1] ""%[1]v месяца""
msgstr[2] ""%[1]v месяцев""
msgstr[3] ""%[1]v месяцев""

msgid ""%[1]v week""
msgid_plural ""%[1]v weeks""
msgstr[0] ""%[1]v неделя""
msgstr[1] ""%[1]v недели""
msgstr[2] ""%[1]v недель""
msgstr[3] ""%[1]v недель""

msgid ""%[1]v year""
msgid_plural ""%[1]v years""
msgstr[0] ""%[1]v год""
msgstr[1] ""%[1]v года""
msgstr[2] ""%[1]v лет""
msgstr[3] ""%[1]v лет""

msgid ""%s GB""
msgstr ""%s ГБ""

msgid ""%s KB""
msgstr ""%s КБ""

msgid ""%s MB""
msgstr ""%s МБ""

msgid ""%s PB""
msgstr ""%s ПБ""

msgid ""%s TB""
msgstr ""%s ТБ""

msgid "", ""
msgstr "", ""

msgid ""AM""
msgstr ""ДП""

msgid ""Afrikaans""
msgstr ""Бурский""

msgid ""Albanian""
msgstr ""Албанский""

msgid ""Algerian Arabic""
msgstr ""Алжирский арабский""

msgid ""April""
msgstr ""Апрель""

msgid ""Arabic""
msgstr ""Арабский""

msgid ""Argentinian Spanish""
msgstr ""Аргентинский испанский""

msgid ""Armenian""
msgstr ""Армянский""

msgid ""Asturian""
msgstr ""Астурийский""

msgid ""August""
msgstr ""Август""

msgid ""Australian English""
msgstr ""Австралийский английский""

msgid ""Azerbaijani""
msgstr ""Азербайджанский""

msgid ""Basque""
msgstr ""Баскский""

msgid ""Belarusian""
msgstr ""Белоруский""

msgid ""Bengali""
msgstr ""Бенгальский""

msgid ""Bosnian""
msgstr ""Боснийский""

msgid ""Brazilian Portuguese""
msgstr ""Бразильский португальский""

msgid ""Breton""
msgstr ""Бретонский""

msgid ""British English""
msgstr ""Британский английский""

msgid ""Bulgarian""
msgstr ""Болгарский""

msgid ""Burmese""
msgstr ""Бирманский""

msgid ""Catalan""
msgstr ""Каталанский""

msgid ""Central Kurdish (Sorani)""
msgstr ""Центральнокурдский (Сорани)""

msgid ""Colombian Spanish""
msgstr ""Колумбийский испанский""

msgid ""Croatian""
msgstr ""Хорватский""

msgid ""Czech""
msgstr ""Чешский""

msgid ""Danish""
msgstr ""Датский""

msgid ""December""
msgstr ""Декабрь""

msgid ""Dutch""
msgstr ""Голландский""

msgid ""English""
msgstr ""Английский""

msgid ""Esperanto""
msgstr ""Эсперанто""

msgid ""Estonian""
msgstr ""Эстонский""

msgid ""February""
msgstr ""Февраль""

msgid ""Finnish""
msgstr ""Финский""

msgid ""French""
msgstr ""Французский""

msgid ""Fri""
msgstr ""Пт""

msgid ""Friday""
msgstr ""Пятница""

msgid ""Frisian""
msgstr ""Фризский""

msgid ""Galician""
msgstr ""Галисийский""

msgid ""Georgian""
msgstr ""Грузинский""

msgid ""German""
msgstr ""Немецкий""

msgid ""Greek""
msgstr ""Греческий""

msgid ""Hebrew""
msgstr ""Иврит""

msgid ""Hindi""
msgstr ""Хинди""

msgid ""Hungarian""
msgstr ""Венгерский""

msgid ""Icelandic""
msgstr ""Исландский""

msgid ""Ido""
msgstr ""Идо""

msgid ""Igbo""
msgstr ""Игбо""

msgid ""Indonesian""
msgstr ""Индонезийский""

msgid ""Interlingua""
msgstr ""Интерлингва""

msgid ""Irish""
msgstr ""Ирландский""

msgid ""Italian""
msgstr ""Итальянский""

msgid ""January""
msgstr ""Январь""

msgid ""Japanese""
msgstr ""Японский""

msgid ""July""
msgstr ""Июль""

msgid ""June""
msgstr ""Июнь""

msgid ""Kabyle""
msgstr ""Кабильский""

msgid ""Kannada""
msgstr ""Каннада""

msgid ""Kazakh""
msgstr ""Казахский""

msgid ""Khmer""
msgstr ""Кхмерский""

msgid ""Korean""
msgstr ""Корейский""

msgid ""Kyrgyz""
msgstr ""Киргизский""

msgid ""Latvian""
msgstr ""Латвийский""

msgid ""Lithuanian""
msgstr ""Литовский""

msgid ""Lower Sorbian""
msgstr ""Нижнелужицкий""

msgid ""Luxembourgish""
msgstr ""Люксембургский""

msgid ""Macedonian""
msgstr ""Македонский""

msgid ""Malay""
msgstr ""Малайский""

msgid ""Malayalam""
msgstr ""Малаялам""

msgid ""Marathi""
msgstr ""Маратхи""

msgid ""March""
msgstr ""Март""

msgid ""May""
msgstr ""Май""

msgid ""Mexican Spanish""
msgstr ""Мексиканский испанский""

msgid ""Mon""
msgstr ""Пн""

msgid ""Monday""
msgstr ""Понедельник""

msgid ""Mongolian""
msgstr ""Монгольский""

msgid ""Nepali""
msgstr ""Непальский""

msgid ""Nicaraguan Spanish""
msgstr ""Никарагуанский испанский""

msgid ""Norwegian Bokmål""
msgstr ""Норвежский (Букмол)""

msgid ""Norwegian Nynorsk""
msgstr ""Норвежский (Нюнорск)""

msgid ""November""
msgstr ""Ноябрь""

msgid ""October""
msgstr ""Октябрь""

msgid ""Ossetic""
msgstr ""Осетинский""

msgid ""PM""
msgstr ""ПП""

msgid ""Persian""
msgstr ""Персидский""

msgid ""Polish""
msgstr ""Польский""

msgid ""Portuguese""
msgstr ""Португальский""

msgid ""Punjabi""
msgstr ""Панджаби""

msgid ""Romanian""
msgstr ""Румынский""

msgid ""Russian""
msgstr ""Русский""

msgid ""Sat""
msgstr ""Сб""

msgid ""Saturday""
msgstr ""Суббота""

msgid ""Scottish Gaelic""
msgstr ""Шотландский гэльский""

msgid ""September""
msgstr ""Сентябрь""

msgid ""Serbian""
msgstr ""Сербский""

msgid ""Serbian Latin""
msgstr ""Сербский (латиница)""

msgid ""Simplified Chinese""
msgstr ""Упрощенный китайский""

msgid ""Slovak""
msgstr ""Словацкий""

msgid ""Slovenian""
msgstr ""Словенский""

msgid ""Spanish""
msgstr ""Испанский""

msgid ""Sun""
msgstr ""Вс""

msgid ""Sunday""
msgstr ""Воскресенье""

msgid ""Swahili""
msgstr ""Суахили""

msgid ""Swedish""
msgstr ""Шведский""

msgid ""Tajik""
msgstr ""Таджикский""

msgid ""Tamil""
msgstr ""Тамильский""

msgid ""Tatar""
msgstr ""Татарский""

msgid ""Telugu""
msgstr ""Телугу""

msgid ""Thai""
msgstr ""Тайский""

msgid ""Thu""
msgstr ""Чт""

msgid ""Thursday""
msgstr ""Четверг""

msgid ""Traditional Chinese""
msgstr ""Традиционный китайский""

msgid ""Tue""
msgstr ""Вт""

msgid ""Tuesday""
msgstr ""Вторник""

msgid ""Turkish""
msgstr ""Турецкий""

msgid ""Turkmen""
msgstr ""Туркменский""

msgid ""Udmurt""
msgstr ""Удмуртский""

msgid ""Ukrainian""
msgstr ""Украинский""

msgid ""Upper Sorbian""
msgstr ""Верхнелужицкий""

msgid ""Urdu""
msgstr ""Урду""

msgid ""Uyghur""
msgstr ""Уйгурский""

msgid ""Uzbek""
msgstr ""Узбекский""

msgid ""Venezuelan Spanish""
msgstr ""Венесуэльский Испанский""

msgid ""Vietnamese""
msgstr ""Вьетнамский""

msgid ""Wed""
msgstr ""Ср""

msgid ""Wednesday""
msgstr ""Среда""

msgid ""Welsh""
msgstr ""Уэльский""

msgid ""a minute ago""
msgid_plural ""%[1]v minutes ago""
msgstr[0] ""%[1]v минуту назад""
msgstr[1] ""%[1]v минуты назад""
msgstr[2] ""%[1]v минут назад""
msgstr[3] ""%[1]v минут назад""

msgid ""a minute from now""
msgid_plural ""%[1]v minutes from now""
msgstr[0] ""через %[1]v минуту""
msgstr[1] ""через %[1]v минуты""
msgstr[2] ""через %[1]v минут""
msgstr[3] ""через %[1]v минут""

msgid ""a second ago""
msgid_plural ""%[1]v seconds ago""
msgstr[0] ""%[1]v секунду назад""
msgstr[1] ""%[1]v секунды назад""
msgstr[2] ""%[1]v секунд назад""
msgstr[3] ""%[1]v секунд назад""

msgid ""a second from now""
msgid_plural ""%[1]v seconds from now""
msgstr[0] ""через %[1]v секунду""
msgstr[1] ""через %[1]v секунды""
msgstr[2] ""через %[1]v секунд""
msgstr[3] ""через %[1]v секунд""

msgid ""a.m.""
msgstr ""д.п.""

msgid ""an hour ago""
msgid_plural ""%[1]v hours ago""
msgstr[0] ""%[1]v час назад""
msgstr[1] ""%[1]v часа назад""
msgstr[2] ""%[1]v часов назад""
msgstr[3] ""%[1]v часов назад""

msgid ""an hour from now""
msgid_plural ""%[1]v hours from now""
msgstr[0] ""через %[1]v час""
msgstr[1] ""через %[1]v часа""
msgstr[2] ""через %[1]v часов""
msgstr[3] ""через %[1]v часов""

msgid ""apr""
msgstr ""апр""

msgid ""aug""
msgstr ""авг""

msgid ""dec""
msgstr ""дек""

msgid ""eight""
msgstr ""восемь""

msgid ""feb""
msgstr ""фев""

msgid ""five""
msgstr ""пять""

msgid ""four""
msgstr ""четыре""

msgid ""jan""
msgstr ""янв""

msgid ""jul""
msgstr ""июл""

msgid ""jun""
msgstr ""июн""

msgid ""mar""
msgstr ""мар""

msgid ""may""
msgstr ""май""

msgid ""midnight""
msgstr ""полночь""

msgid ""nine""
msgstr ""девять""

msgid ""noon""
msgstr ""полдень""

msgid ""nov""
msgstr ""ноя""

msgid ""now""
msgstr ""сейчас""

msgid ""oct""
msgstr ""окт""

msgid ""one""
msgstr ""один""

msgid ""p.m.""
msgstr ""п.п.""

msgid ""sep""
msgstr ""сен""

msgid ""seven""
msgstr ""семь""

msgid ""six""
msgstr ""шесть""

msgid ""three""
msgstr ""три""

msgid ""today""
msgstr ""сегодня""

msgid ""tomorrow""
msgstr ""завтра""

msgid ""two""
msgstr ""два""

msgid ""yesterday""
msgstr ""вчера""

msgctxt ""abbrev. month""
msgid ""April""
msgstr ""Апрель""

msgctxt ""abbrev. month""
msgid ""Aug.""
msgstr ""Авг.""

msgctxt ""abbrev. month""
msgid ""Dec.""
msgstr ""Дек.""

msgctxt ""abbrev. month""
msgid ""Feb.""
msgstr ""Фев.""

msgctxt ""abbrev. month""
msgid ""Jan.""
msgstr ""Янв.""

msgctxt ""abbrev. month""
msgid ""July""
msgstr ""Июль""

msgctxt ""abbrev. month""
msgid ""June""
msgstr ""Июнь""

msgctxt ""abbrev. month""
msgid ""March""
msgstr ""Март""

msgctxt ""abbrev. month""
msgid ""May""
msgstr ""Май""

msgctxt ""abbrev. month""
msgid ""Nov.""
msgstr ""Ноя.""

msgctxt ""abbrev. month""
msgid ""Oct.""
msgstr ""Окт.""

msgctxt ""abbrev. month""
msgid ""Sept.""
msgstr ""Сен.""

msgctxt ""alt. month""
msgid ""April""
msgstr ""апреля""

msgctxt ""alt. month""
msgid ""August""
msgstr ""августа""

msgctxt ""alt. month""
msgid ""December""
msgstr ""декабря""

msgctxt ""alt. month""
msgid ""February""
msgstr ""февраля""

msgctxt ""alt. month""
msgid ""January""
msgstr ""января""

msgctxt ""alt. month""
msgid ""July""
msgstr ""июля""

msgctxt ""alt. month""
msgid ""June""
msgstr ""июня""

msgctxt ""alt. month""
msgid ""March""
msgstr ""марта""

msgctxt ""alt. month""
msgid ""May""
msgstr ""мая""

msgctxt ""alt. month""
msgid ""November""
msgstr ""ноября""

msgctxt ""alt. month""
msgid ""October""
msgstr ""октября""

msgctxt ""alt. month""
msgid ""September""
msgstr ""сентября""

msgctxt ""naturaltime-future""
msgid ""%[1]v day""
msgid_plural ""%[1]v days""
msgstr[0] ""%[1]v день""
msgstr[1] ""%[1]v дня""
msgstr[2] ""%[1]v дней""
msgstr[3] ""%[1]v дней""

msgctxt ""naturaltime-future""
msgid ""%[1]v hour""
msgid_plural ""%[1]v hours""
msgstr[0] ""%[1]v час""
msgstr[1] ""%[1]v часа""
msgstr[2] ""%[1]v часов""
msgstr[3] ""%[1]v часов""

msgctxt ""naturaltime-future""
msgid ""%[1]v minute""
msgid_plural ""%[1]v minutes""
msgstr[0] ""%[1]v минуту""
msgstr[1] ""%[1]v минуты""
msgstr[2] ""%[1]v минут""
msgstr[3] ""%[1]v минут""

msgctxt ""naturaltime-future""
msgid ""%[1]v month""
msgid_plural ""%[1]v months""
msgstr[0] ""%[1]v месяц""
msgstr[1] ""%[1]v месяца""
msgstr[2] ""%[1]v месяцев""
msgstr[3] ""%[1]v месяцев""

msgctxt ""naturaltime-future""
msgid ""%[1]v week""
msgid_plural ""%[1]v weeks""
msgstr[0] ""%[1]v неделю""
msgstr[1] ""%[1]v недели""
msgstr[2] ""%[1]v недель""
msgstr[3] ""%[1]v недель""

msgctxt ""naturaltime-future""
msgid ""%[1]v year""
msgid_plural ""%[1]v years""
msgstr[0] ""%[1]v год""
msgstr[1] ""%[1]v года""
msgstr[2] ""%[1]v лет""
msgstr[3] ""%[1]v лет""

msgctxt ""naturaltime-past""
msgid ""%[1]v day""
msgid_plural ""%[1]v days""
msgstr[0] ""%[1]v день""
msgstr[1] ""%[1]v дня""
msgstr[2] ""%[1]v дней""
msgstr[3] ""%[1]v дней""

msgctxt ""naturaltime-past""
msgid ""%[1]v hour""
msgid_plural ""%[1]v hours""
msgstr[0] ""%[1]v час""
msgstr[1] ""%[1]v часа""
msgstr[2] ""%[1]v часов""
msgstr[3] ""%[1]v часов""

msgctxt ""naturaltime-past""
msgid ""%[1]v minute""
msgid_plural ""%[1]v minutes""
msgstr[0] ""%[1]v минуту""
msgstr[1] ""%[1]v минуты""
msgstr[2] ""%[1]v минут""
msgstr[3] ""%[1]v минут""

msgctxt ""naturaltime-past""
msgid ""%[1]v month""
msgid_plural ""%[1]v months""
msgstr[0] ""%[1]v месяц""
msgstr[1] ""%[1]v месяца""
msgstr[2] ""%[1]v месяцев""
msgstr[3] ""%[1]v месяцев""

msgctxt ""naturaltime-past""
msgid ""%[1]v week""
msgid_plural ""%[1]v weeks""
msgstr[0] ""%[1]v неделю""
msgstr[1] ""%[1]v недели""
msgstr[2] ""%[1]v недель""
msgstr[3] ""%[1]v недель""

msgctxt ""naturaltime-past""
msgid ""%[1]v year""
msgid_plural ""%[1]v years""
msgstr[0] ""%[1]v год""
msgstr[1] ""%[1]v года""
msgstr[2] ""%[1]v лет""
msgstr[3] ""%[1]v лет""

msgctxt ""ordinal 0""
msgid ""%vth""
msgstr ""%v-й""

msgctxt ""ordinal 1""
msgid ""%vst""
msgstr ""%v-й""

msgctxt ""ordinal 11, 12, 13""
msgid ""%vth""
msgstr ""%v-й""

msgctxt ""ordinal 2""
msgid ""%vnd""
msgstr ""%v-й""

msgctxt ""ordinal 3""
msgid ""%vrd""
msgstr ""%v-й""

msgctxt ""ordinal 4""
msgid ""%vth""
msgstr ""%v-й""

msgctxt ""ordinal 5""
msgid ""%vth""
msgstr ""%v-й""

msgctxt ""ordinal 6""
msgid ""%vth""
msgstr ""%v-й""

msgctxt ""ordinal 7""
msgid ""%vth""
msgstr ""%v-й""

msgctxt ""ordinal 8""
msgid ""%vth""
msgstr ""%v-й""

msgctxt ""ordinal 9""
msgid ""%vth""
msgstr ""%v-й""
".
(** humanize/locale/ru/locale.go (New) *)
Definition loc_ru : locale_data := LD (bs "ru") [(bs "django.po", po_ru)]
  (Some (FD (bs "j E Y г.") (bs "G:i") (bs "j E Y г. G:i") (bs "F Y г.") (bs "j F") (bs "d.m.Y") (bs "d.m.Y H:i"))).

(** humanize/locale/sk/django.po *)
Definition po_sk : bytes := bs "# This file is distributed under the same license as the Django package.
# 
# Translators:
# Adam Zahradník, 2023-2024
# Jannis Leidel <jannis@leidel.info>, 2011
# 18f25ad6fa9930fc67cb11aca9d16a27, 2012-2013
# Marian Andre <marian@andre.sk>, 2013,2015,2017-2018
# 29cf7e517570e1bc05a1509565db92ae_2a01508, 2011
# Martin Tóth <ezimir@gmail.com>, 2017,2023
# Miroslav Bendik <miroslav.bendik@gmail.com>, 2023
# Peter Kuma, 2021
# Peter Stríž <petulak8@gmail.com>, 2020
msgid """"
msgstr """"
""Project-Id-Version: django\n""
""Report-Msgid-Bugs-To: \n""
""POT-Creation-Date: 2024-05-22 11:46-0300\n""
""PO-Revision-Date: 2024-10-07 06:49+0000\n""
""Last-Translator: Adam Zahradník, 2023-2024\n""
""Language-Team: Slovak (http://app.transifex.com/django/django/language/sk/)\n""
""Language: sk\n""
""MIME-Version: 1.0\n""
""Content-Type: text/plain; charset=UTF-8\n""
""Content-Transfer-Encoding: 8bit\n""
""Plural-Forms: nplurals=4; plural=(n % 1 == 0 && n == 1 ? 0 : n % 1 == 0 && n >= 2 && n <= 4 ? 1 : n % 1 != 0 ? 2: 3);\n""

msgid ""%[1]d byte""
msgid_plural ""%[1]d bytes""
msgstr[0] ""%[1]d bajt""
msgstr[1] ""%[1]d bajty""
msgstr[2] ""%[1]d bajtov""
msgstr[3] ""%[1]d bajtov""

msgid ""%[1]s billion""
msgid_plural ""%[1]s billion""
msgstr[0] ""%[1]s miliarda""
msgstr[1] ""%[1]s miliardy""
msgstr[2] ""%[1]s miliárd""
msgstr[3] ""%[1]s miliárd""

msgid ""%[1]s decillion""
msgid_plural ""%[1]s decillion""
msgstr[0] ""%[1]s kvintiliarda""
msgstr[1] ""%[1]s kvintiliardy""
msgstr[2] ""%[1]s kvintiliárd""
msgstr[3] ""%[1]s kvintiliárd""

msgid ""%[1]s googol""
msgid_plural ""%[1]s googol""
msgstr[0] ""%[1]s googol""
msgstr[1] ""%[1]s googol""
msgstr[2] ""%[1]s googol""
msgstr[3] ""%[1]s googol""

msgid ""%[1]s million""
msgid_plural ""%[1]s million""
msgstr[0] ""%[1]s milión""
msgstr[1] ""%[1]s milióny""
msgstr[2] ""%[1]s miliónov""
msgstr[3] ""%[1]s miliónov""

msgid ""%[1]s nonillion""
msgid_plural ""%[1]s nonillion""
msgstr[0] ""%[1]s kvintilión""
msgstr[1] ""%[1]s kvintilióny""
msgstr[2] ""%[1]s kvintiliónov""
msgstr[3] ""%[1]s kvintiliónov""

msgid ""%[1]s octillion""
msgid_plural ""%[1]s octillion""
msgstr[0] ""%[1]s kvadriliarda""
msgstr[1] ""%[1]s kvadriliardy""
msgstr[2] ""%[1]s kvadriliárd""
msgstr[3] ""%[1]s kvadriliárd""

msgid ""%[1]s quadrillion""
msgid_plural ""%[1]s quadrillion""
msgstr[0] ""%[1]s biliarda""
msgstr[1] ""%[1]s biliardy""
msgstr[2] ""%[1]s biliárd""
msgstr[3] ""%[1]s biliárd""

msgid ""%[1]s quintillion""
msgid_plural ""%[1]s quintillion""
msgstr[0] ""%[1]s trilión""
msgstr[1] ""%[1]s trilióny""
msgstr[2] ""%[1]s triliónov""
msgstr[3] ""%[1]s triliónov""

msgid ""%[1]s septillion""
msgid_plural ""%[1]s septillion""
msgstr[0] ""%[1]s kvadrilión""
msgstr[1] ""%[1]s kvadrilióny""
msgstr[2] ""%[1]s kvadriliónov""
msgstr[3] ""%[1]s kvadriliónov""

msgid ""%[1]s sextillion""
msgid_plural ""%[1]s sextillion""
msgstr[0] ""%[1]s triliarda""
msgstr[1] ""%[1]s triliardy""
msgstr[2] ""%[1]s triliárd""
msgstr[3] ""%[1]s triliárd""

msgid ""%[1]s trillion""
msgid_plural ""%[1]s trillion""
msgstr[0] ""%[1]s bilión""
msgstr[1] ""%[1]s bilióny""
msgstr[2] ""%[1]s biliónov""
msgstr[3] ""%[1]s biliónov""

msgid ""%[1]v ago""
msgstr ""pred %[1]v""

msgid ""%[1]v day""
msgid_plural ""%[1]v days""
msgstr[0] ""%[1]v deň""
msgstr[1] ""%[1]v dni""
msgstr[2] ""%[1]v dní""
msgstr[3] ""%[1]v dní""

msgid ""%[1]v from now""
msgstr ""o %[1]v""

msgid ""%[1]v hour""
msgid_plural ""%[1]v hours""
msgstr[0] ""%[1]v hodina""
msgstr[1] ""%[1]v hodiny""
msgstr[2] ""%[1]v hodín""
msgstr[3] ""%[1]v hodiny""

msgid ""%[1]v minute""
msgid_plural ""%[1]v minutes""
msgstr[0] ""%[1]v minúta""
msgstr[1] ""%[1]v minúty""
msgstr[2] ""%[1]v minút""
msgstr[3] ""%[1]v minúty""

msgid ""%[1]v month""
msgid_plural ""%[1]v months""
msgstr[0] ""%[1]v mesiac""
msgstr[1] ""%[1]v mesiace""
msgstr[2] ""%[1]v mesiacov""
msgstr[3] ""%[1]v mesiacov""

msgid ""%[1]v week""
msgid_plural ""%[1]v weeks""
msgstr[0] ""%[1]v týždeň""
msgstr[1] ""%[1]v týždne""
msgstr[2] ""%[1]v týždňov""
msgstr[3] ""%[1]v týždňov""

msgid ""%[1]v year""
msgid_plural ""%[1]v years""
msgstr[0] ""%[1]v rok""
msgstr[1] ""%[1]v roky""
msgstr[2] ""%[1]v rokov""
msgstr[3] ""%[1]v rokov""

msgid ""%s GB""
msgstr ""%s GB""

msgid ""%s KB""
msgstr ""%s KB""

msgid ""%s MB""
msgstr ""%s MB""

msgid ""%s PB""
msgstr ""%s PB""

msgid ""%s TB""
msgstr ""%s TB""

msgid "", ""
msgstr "", ""

msgid ""AM""
msgstr ""predpoludním""

msgid ""Afrikaans""
msgstr ""afrikánsky""

msgid ""Albanian""
msgstr ""albánsky""

msgid ""Algerian Arabic""
msgstr ""alžírsky arabsky""

msgid ""April""
msgstr ""apríl""

msgid ""Arabic""
msgstr ""arabský""

msgid ""Argentinian Spanish""
msgstr ""argentínska španielčina""

msgid ""Armenian""
msgstr ""arménsky""

msgid ""Asturian""
msgstr ""astúrsky""

msgid ""August""
msgstr ""august""

msgid ""Australian English""
msgstr ""austrálskou angličtinou""

msgid ""Azerbaijani""
msgstr ""azerbajdžansky""

msgid ""Basque""
msgstr ""baskicky""

msgid ""Belarusian""
msgstr ""bielorusky""

msgid ""Bengali""
msgstr ""bengálsky""

msgid ""Bosnian""
msgstr ""bosniansky""

msgid ""Brazilian Portuguese""
msgstr ""portugalsky (Brazília)""

msgid ""Breton""
msgstr ""bretónsky""

msgid ""British English""
msgstr ""britskou angličtinou""

msgid ""Bulgarian""
msgstr ""bulharsky""

msgid ""Burmese""
msgstr ""barmsky""

msgid ""Catalan""
msgstr ""katalánsky""

msgid ""Central Kurdish (Sorani)""
msgstr ""stredná kurdčina (Sorani)""

msgid ""Colombian Spanish""
msgstr ""kolumbijská španielčina""

msgid ""Croatian""
msgstr ""chorvátsky""

msgid ""Czech""
msgstr ""česky""

msgid ""Danish""
msgstr ""dánsky""

msgid ""December""
msgstr ""december""

msgid ""Dutch""
msgstr ""holandsky""

msgid ""English""
msgstr ""anglicky""

msgid ""Esperanto""
msgstr ""esperantsky""

msgid ""Estonian""
msgstr ""estónsky""

msgid ""February""
msgstr ""február""

msgid ""Finnish""
msgstr ""fínsky""

msgid ""French""
msgstr ""francúzsky""

msgid ""Fri""
msgstr ""pi""

msgid ""Friday""
msgstr ""piatok""

msgid ""Frisian""
msgstr ""frízsky""

msgid ""Galician""
msgstr ""galícijsky""

msgid ""Georgian""
msgstr ""gruzínsky""

msgid ""German""
msgstr ""nemecky""

msgid ""Greek""
msgstr ""grécky""

msgid ""Hebrew""
msgstr ""hebrejsky""

msgid ""Hindi""
msgstr ""hindsky""

msgid ""Hungarian""
msgstr ""maďarsky""

msgid ""Icelandic""
msgstr ""islandsky""

msgid ""Ido""
msgstr ""ido""

msgid ""Igbo""
msgstr ""igbožsky""

msgid ""Indonesian""
msgstr ""indonézsky""

msgid ""Interlingua""
msgstr ""interlinguánsky""

msgid ""Irish""
msgstr ""írsky""

msgid ""Italian""
msgstr ""taliansky""

msgid ""January""
msgstr ""január""

msgid ""Japanese""
msgstr ""japonsky""

msgid ""July""
msgstr ""júl""

msgid ""June""
msgstr ""jún""

msgid ""Kabyle""
msgstr ""kabylsky""

msgid ""Kannada""
msgstr ""kannadsky""

msgid ""Kazakh""
msgstr ""kazašsky""

msgid ""Khmer""
msgstr ""kmérsky""

msgid ""Korean""
msgstr ""kórejsky""

msgid ""Kyrgyz""
msgstr ""kirgizsky""

msgid ""Latvian""
msgstr ""lotyšsky""

msgid ""Lithuanian""
msgstr ""litovsky""

msgid ""Lower Sorbian""
msgstr ""dolnolužická srbčina""

msgid ""Luxembourgish""
msgstr ""luxembursky""

msgid ""Macedonian""
msgstr ""macedónsky""

msgid ""Malay""
msgstr ""malajčina""

msgid ""Malayalam""
msgstr ""malajalámsky""

msgid ""Marathi""
msgstr ""maráthsky""

msgid ""March""
msgstr ""marec""

msgid ""May""
msgstr ""máj""

msgid ""Mexican Spanish""
msgstr ""mexická španielčina""

msgid ""Mon""
msgstr ""po""

msgid ""Monday""
msgstr ""pondelok""

msgid ""Mongolian""
msgstr ""mongolsky""

msgid ""Nepali""
msgstr ""nepálsky""

msgid ""Nicaraguan Spanish""
msgstr ""nikaragujská španielčina""

msgid ""Norwegian Bokmål""
msgstr ""nórsky (Bokmål)""

msgid ""Norwegian Nynorsk""
msgstr ""nórsky (Nynorsk)""

msgid ""November""
msgstr ""november""

msgid ""October""
msgstr ""október""

msgid ""Ossetic""
msgstr ""osetsky""

msgid ""PM""
msgstr ""popoludní""

msgid ""Persian""
msgstr ""perzsky""

msgid ""Polish""
msgstr ""poľsky""

msgid ""Portuguese""
msgstr ""portugalsky""

msgid ""Punjabi""
msgstr ""pandžábsky""

msgid ""Romanian""
msgstr ""rumunsky""

msgid ""Russian""
msgstr ""rusky""

msgid ""Sat""
msgstr ""so""

msgid ""Saturday""
msgstr ""sobota""

msgid ""Scottish Gaelic""
msgstr ""škótska gaelčina""

msgid ""September""
msgstr ""september""

msgid ""Serbian""
msgstr ""srbsky""

msgid ""Serbian Latin""
msgstr ""srbsky (Latin)""

msgid ""Simplified Chinese""
msgstr ""čínsky (zjednodušene)""

msgid ""Slovak""
msgstr ""slovensky""

msgid ""Slovenian""
msgstr ""slovinsky""

msgid ""Spanish""
msgstr ""španielsky""

msgid ""Sun""
msgstr ""ne""

msgid ""Sunday""
msgstr ""nedeľa""

msgid ""Swahili""
msgstr ""svahilsky""

msgid ""Swedish""
msgstr ""švédsky""

msgid ""Tajik""
msgstr ""tadžiksky""

msgid ""Tamil""
msgstr ""tamilsky""

msgid ""Tatar""
msgstr ""tatársky""

msgid ""Telugu""
msgstr ""telugsky""

msgid ""Thai""
msgstr ""thajsky""

msgid ""Thu""
msgstr ""št""

msgid ""Thursday""
msgstr ""štvrtok""

msgid ""Traditional Chinese""
msgstr ""čínsky (tradične)""

msgid ""Tue""
msgstr ""ut""

msgid ""Tuesday""
msgstr ""utorok""

msgid ""Turkish""
msgstr ""turecky""

msgid ""Turkmen""
msgstr ""turkménsky""

msgid ""Udmurt""
msgstr ""udmurtsky""

msgid ""Ukrainian""
msgstr ""ukrajinsky""

msgid ""Upper Sorbian""
msgstr ""hornolužická srbčina""

msgid ""Urdu""
msgstr ""urdsky""

msgid ""Uyghur""
msgstr ""ujgursky""

msgid ""Uzbek""
msgstr ""uzbecky""

msgid ""Venezuelan Spanish""
msgstr ""venezuelská španielčina""

msgid ""Vietnamese""
msgstr ""vietnamsky""

msgid ""Wed""
msgstr ""st""

msgid ""Wednesday""
msgstr ""streda""

msgid ""Welsh""
msgstr ""walesky""

msgid ""a minute ago""
msgid_plural ""%[1]v minutes ago""
msgstr[0] ""pred minútou""
msgstr[1] ""pred %[1]v minútami""
msgstr[2] ""pred %[1]v minútami""
msgstr[3] ""pred %[1]v minútami""

msgid ""a minute from now""
msgid_plural ""%[1]v minutes from now""
msgstr[0] ""o minútu""
msgstr[1] ""o %[1]v minúty""
msgstr[2] ""o %[1]v minút""
msgstr[3] ""o %[1]v minút""

msgid ""a second ago""
msgid_plural ""%[1]v seconds ago""
msgstr[0] ""pred sekundou""
msgstr[1] ""pred %[1]v sekundami""
msgstr[2] ""pred %[1]v sekundami""
msgstr[3] ""pred %[1]v sekundami""

msgid ""a second from now""
msgid_plural ""%[1]v seconds from now""
msgstr[0] ""o sekundu""
msgstr[1] ""o %[1]v sekundy""
msgstr[2] ""o %[1]v sekúnd""
msgstr[3] ""o %[1]v sekúnd""

msgid ""a.m.""
msgstr ""predpoludním""

msgid ""an hour ago""
msgid_plural ""%[1]v hours ago""
msgstr[0] ""pred hodinou""
msgstr[1] ""pred %[1]v hodinami""
msgstr[2] ""pred %[1]v hodinami""
msgstr[3] ""pred %[1]v hodinami""

msgid ""an hour from now""
msgid_plural ""%[1]v hours from now""
msgstr[0] ""o hodinu""
msgstr[1] ""o %[1]v hodiny""
msgstr[2] ""o %[1]v hodín""
msgstr[3] ""o %[1]v hodín""

msgid ""apr""
msgstr ""apr""

msgid ""aug""
msgstr ""aug""

msgid ""dec""
msgstr ""dec""

msgid ""eight""
msgstr ""osem""

msgid ""feb""
msgstr ""feb""

msgid ""five""
msgstr ""päť""

msgid ""four""
msgstr ""štyri""

msgid ""jan""
msgstr ""jan""

msgid ""jul""
msgstr ""júl""

msgid ""jun""
msgstr ""jún""

msgid ""mar""
msgstr ""mar""

msgid ""may""
msgstr ""máj""

msgid ""midnight""
msgstr ""polnoc""

msgid ""nine""
msgstr ""deväť""

msgid ""noon""
msgstr ""poludnie""

msgid ""nov""
msgstr ""nov""

msgid ""now""
msgstr ""teraz""

msgid ""oct""
msgstr ""okt""

msgid ""one""
msgstr ""jeden""

msgid ""p.m.""
msgstr ""popoludní""

msgid ""sep""
msgstr ""sep""

msgid ""seven""
msgstr ""sedem""

msgid ""six""
msgstr ""šesť""

msgid ""three""
msgstr ""tri""

msgid ""today""
msgstr ""dnes""

msgid ""tomorrow""
msgstr ""zajtra""

msgid ""two""
msgstr ""dva""

msgid ""yesterday""
msgstr ""včera""

msgctxt ""abbrev. month""
msgid ""April""
msgstr ""apr.""

msgctxt ""abbrev. month""
msgid ""Aug.""
msgstr ""aug.""

msgctxt ""abbrev. month""
msgid ""Dec.""
msgstr ""dec.""

msgctxt ""abbrev. month""
msgid ""Feb.""
msgstr ""feb.""

msgctxt ""abbrev. month""
msgid ""Jan.""
msgstr ""jan.""

msgctxt ""abbrev. month""
msgid ""July""
msgstr ""júl""

msgctxt ""abbrev. month""
msgid ""June""
msgstr ""jún""

msgctxt ""abbrev. month""
msgid ""March""
msgstr ""mar.""

msgctxt ""abbrev. month""
msgid ""May""
msgstr ""máj""

msgctxt ""abbrev. month""
msgid ""Nov.""
msgstr ""nov.""

msgctxt ""abbrev. month""
msgid ""Oct.""
msgstr ""okt.""

msgctxt ""abbrev. month""
msgid ""Sept.""
msgstr ""sep.""

msgctxt ""alt. month""
msgid ""April""
msgstr ""apríl""

msgctxt ""alt. month""
msgid ""August""
msgstr ""august""

msgctxt ""alt. month""
msgid ""December""
msgstr ""december""

msgctxt ""alt. month""
msgid ""February""
msgstr ""február""

msgctxt ""alt. month""
msgid ""January""
msgstr ""január""

msgctxt ""alt. month""
msgid ""July""
msgstr ""júl""

msgctxt ""alt. month""
msgid ""June""
msgstr ""jún""

msgctxt ""alt. month""
msgid ""March""
msgstr ""marec""

msgctxt ""alt. month""
msgid ""May""
msgstr ""máj""

msgctxt ""alt. month""
msgid ""November""
msgstr ""november""

msgctxt ""alt. month""
msgid ""October""
msgstr ""október""

msgctxt ""alt. month""
msgid ""September""
msgstr ""september""

msgctxt ""naturaltime-future""
msgid ""%[1]v day""
msgid_plural ""%[1]v days""
msgstr[0] ""%[1]v deň""
msgstr[1] ""%[1]v dni""
msgstr[2] ""%[1]v dní""
msgstr[3] ""%[1]v dní""

msgctxt ""naturaltime-future""
msgid ""%[1]v hour""
msgid_plural ""%[1]v hours""
msgstr[0] ""%[1]v hodinu""
msgstr[1] ""%[1]v hodiny""
msgstr[2] ""%[1]v hodín""
msgstr[3] ""%[1]v hodín""

msgctxt ""naturaltime-future""
msgid ""%[1]v minute""
msgid_plural ""%[1]v minutes""
msgstr[0] ""%[1]v minútu""
msgstr[1] ""%[1]v minúty""
msgstr[2] ""%[1]v minút""
msgstr[3] ""%[1]v minút""

msgctxt ""naturaltime-future""
msgid ""%[1]v month""
msgid_plural ""%[1]v months""
msgstr[0] ""%[1]v mesiac""
msgstr[1] ""%[1]v mesiace""
msgstr[2] ""%[1]v mesiacov""
msgstr[3] ""%[1]v mesiacov""

msgctxt ""naturaltime-future""
msgid ""%[1]v week""
msgid_plural ""%[1]v weeks""
msgstr[0] ""%[1]v týždeň""
msgstr[1] ""%[1]v týždne""
msgstr[2] ""%[1]v týždňov""
msgstr[3] ""%[1]v týždňov""

msgctxt ""naturaltime-future""
msgid ""%[1]v year""
msgid_plural ""%[1]v years""
msgstr[0] ""%[1]v rok""
msgstr[1] ""%[1]v roky""
msgstr[2] ""%[1]v rokov""
msgstr[3] ""%[1]v rokov""

msgctxt ""naturaltime-past""
msgid ""%[1]v day""
msgid_plural ""%[1]v days""
msgstr[0] ""%[1]v dňom""
msgstr[1] ""%[1]v dňami""
msgstr[2] ""%[1]v dňami""
msgstr[3] ""%[1]v dňami""

msgctxt ""naturaltime-past""
msgid ""%[1]v hour""
msgid_plural ""%[1]v hours""
msgstr[0] ""%[1]v hodinou""
msgstr[1] ""%[1]v hodinami""
msgstr[2] ""%[1]v hodinami""
msgstr[3] ""%[1]v hodinami""

msgctxt ""naturaltime-past""
msgid ""%[1]v minute""
msgid_plural ""%[1]v minutes""
msgstr[0] ""%[1]v minútou""
msgstr[1] ""%[1]v minútami""
msgstr[2] ""%[1]v minútami""
msgstr[3] ""%[1]v minútami""

msgctxt ""naturaltime-past""
msgid ""%[1]v month""
msgid_plural ""%[1]v months""
msgstr[0] ""%[1]v mesiacom""
msgstr[1] ""%[1]v mesiacmi""
msgstr[2] ""%[1]v mesiacmi""
msgstr[3] ""%[1]v mesiacmi""

msgctxt ""naturaltime-past""
msgid ""%[1]v week""
msgid_plural ""%[1]v weeks""
msgstr[0] ""%[1]v týždňom""
msgstr[1] ""%[1]v týždňami""
msgstr[2] ""%[1]v týždňami""
msgstr[3] ""%[1]v týždňami""

msgctxt ""naturaltime-past""
msgid ""%[1]v year""
msgid_plural ""%[1]v years""
msgstr[0] ""%[1]v rokom""
msgstr[1] ""%[1]v rokmi""
msgstr[2] ""%[1]v rokmi""
msgstr[3] ""%[1]v rokmi""

msgctxt ""ordinal 0""
msgid ""%vth""
msgstr ""%v.""

msgctxt ""ordinal 1""
msgid ""%vst""
msgstr ""%v.""

msgctxt ""ordinal 11, 12, 13""
msgid ""%vth""
msgstr ""%v.""

msgctxt ""ordinal 2""
msgid ""%vnd""
msgstr ""%v.""

msgctxt ""ordinal 3""
msgid ""%vrd""
msgstr ""%v.""

msgctxt ""ordinal 4""
msgid ""%vth""
msgstr ""%v.""

msgctxt ""ordinal 5""
msgid ""%vth""
msgstr ""%v.""

msgctxt ""ordinal 6""
msgid ""%vth""
msgstr ""%v.""

msgctxt ""ordinal 7""
msgid ""%vth""
msgstr ""%v.""

msgctxt ""ordinal 8""
msgid ""%vth""
msgstr ""%v.""

msgctxt ""ordinal 9""
msgid ""%vth""
msgstr ""%v.""
".
(** humanize/locale/sk/locale.go (New) *)
Definition loc_sk : locale_data := LD (bs "sk") [(bs "django.po", po_sk)]
  (Some (FD (bs "j. F Y") (bs "G:i") (bs "j. F Y G:i") (bs "F Y") (bs "j. F") (bs "d.m.Y") (bs "d.m.Y G:i"))).

(** humanize/locale/sl/django.po *)
Definition po_sl : bytes := bs "# This file is distributed under the same license as the Django package.
# 
# Translators:
# Andrej Marsetič, 2022-2023
# iElectric <domen@dev.si>, 2011-2012
# Jannis Leidel <jannis@leidel.info>, 2011
# Jure Cuhalev <gandalf@owca.info>, 2012-2013
# Marko Zabreznik <marko@zabreznik.net>, 2016
# Primoz Verdnik <primoz.verdnik@gmail.com>, 2017
# zejn <zelo.zejn+transifex@gmail.com>, 2013,2016-2017
# zejn <zelo.zejn+transifex@gmail.com>, 2011-2013
msgid """"
msgstr """"
""Project-Id-Version: django\n""
""Report-Msgid-Bugs-To: \n""
""POT-Creation-Date: 2023-09-18 11:41-0300\n""
""PO-Revision-Date: 2023-12-04 06:49+0000\n""
""Last-Translator: Andrej Marsetič, 2022-2023\n""
""Language-Team: Slovenian (http://app.transifex.com/django/django/language/sl/)\n""
""Language: sl\n""
""MIME-Version: 1.0\n""
""Content-Type: text/plain; charset=UTF-8\n""
""Content-Transfer-Encoding: 8bit\n""
""Plural-Forms: nplurals=4; plural=(n%100==1 ? 0 : n%100==2 ? 1 : n%100==3 || n%100==4 ? 2 : 3);\n""

msgid ""%[1]d byte""
msgid_plural ""%[1]d bytes""
msgstr[0] ""%[1]d bajt""
msgstr[1] ""%[1]d bajta""
msgstr[2] ""%[1]d bajti""
msgstr[3] ""%[1]d bajtov""

msgid ""%[1]s billion""
msgid_plural ""%[1]s billion""
msgstr[0] ""%[1]s miljarda""
msgstr[1] ""%[1]s miljardi""
msgstr[2] ""%[1]s miljarde""
msgstr[3] ""%[1]s miljard""

msgid ""%[1]s decillion""
msgid_plural ""%[1]s decillion""
msgstr[0] ""%[1]s decilijon""
msgstr[1] ""%[1]s decilijona""
msgstr[2] ""%[1]s decilijoni""
msgstr[3] ""%[1]s decilijonov""

msgid ""%[1]s googol""
msgid_plural ""%[1]s googol""
msgstr[0] ""%[1]s gugol""
msgstr[1] ""%[1]s gugola""
msgstr[2] ""%[1]s gugoli""
msgstr[3] ""%[1]s gugolov""

msgid ""%[1]s million""
msgid_plural ""%[1]s million""
msgstr[0] ""%[1]s milijon""
msgstr[1] ""%[1]s milijona""
msgstr[2] ""%[1]s milijoni""
msgstr[3] ""%[1]s milijonov""

msgid ""%[1]s nonillion""
msgid_plural ""%[1]s nonillion""
msgstr[0] ""%[1]s nonilijon""
msgstr[1] ""%[1]s nonilijona""
msgstr[2] ""%[1]s nonilijoni""
msgstr[3] ""%[1]s nonilijonov""

msgid ""%[1]s octillion""
msgid_plural ""%[1]s octillion""
msgstr[0] ""%[1]s oktilijon""
msgstr[1] ""%[1]s oktilijona""
msgstr[2] ""%[1]s oktilijoni""
msgstr[3] ""%[1]s oktilijonov""

msgid ""%[1]s quadrillion""
msgid_plural ""%[1]s quadrillion""
msgstr[0] ""%[1]s kvadrilijon""
msgstr[1] ""%[1]s kvadrilijona""
msgstr[2] ""%[1]s kvadrilijoni""
msgstr[3] ""%[1]s kvadrilijonov""

msgid ""%[1]s quintillion""
msgid_plural ""%[1]s quintillion""
msgstr[0] ""%[1]s kvintilijon""
msgstr[1] ""%[1]s kvintilijona""
msgstr[2] ""%[1]s kvintilijoni""
msgstr[3] ""%[1]s kvintilijonov""

msgid ""%[1]s septillion""
msgid_plural ""%[1]s septillion""
msgstr[0] ""%[1]s septilijon""
msgstr[1] ""%[1]s septilijona""
msgstr[2] ""%[1]s septilijoni""
msgstr[3] ""%[1]s septilijonov""

msgid ""%[1]s sextillion""
msgid_plural ""%[1]s sextillion""
msgstr[0] ""%[1]s sekstilijon""
msgstr[1] ""%[1]s sekstilijona""
msgstr[2] ""%[1]s sekstilijoni""
msgstr[3] ""%[1]s sekstilijonov""

msgid ""%[1]s trillion""
msgid_plural ""%[1]s trillion""
msgstr[0] ""%[1]s triljon""
msgstr[1] ""%[1]s triljona""
msgstr[2] ""%[1]s triljoni""
msgstr[3] ""%[1]s triljonov""

msgid ""%[1]v ago""
msgstr ""pred %[1]v""

msgid ""%[1]v day""
msgid_plural ""%[1]v days""
msgstr[0] ""%[1]v dan""
msgstr[1] ""%[1]v dneva""
msgstr[2] ""%[1]v dni""
msgstr[3] ""%[1]v dni""

msgid ""%[1]v from now""
msgstr ""%[1]vod zdaj""

msgid ""%[1]v hour""
msgid_plural ""%[1]v hours""
msgstr[0] ""%[1]v uro""
msgstr[1] ""%[1]v uri""
msgstr[2] ""%[1]v ure""
msgstr[3] ""%[1]v ur""

msgid ""%[1]v minute""
msgid_plural ""%[1]v minutes""
msgstr[0] ""%[1]v minuto""
msgstr[1] ""%[1]v minuti""
msgstr[2] ""%[1]v minute""
msgstr[3] ""%[1]v minut""

msgid ""%[1]v month""
msgid_plural ""%[1]v months""
msgstr[0] ""%[1]v mesec""
msgstr[1] ""%[1]v meseca ""
msgstr[2] ""%[1]v mesecev""
msgstr[3] ""%[1]v mesecev""

msgid ""%[1]v week""
msgid_plural ""%[1]v weeks""
msgstr[0] ""%[1]v teden""
msgstr[1] ""%[1]v tedna""
msgstr[2] ""%[1]v tednov""
msgstr[3] ""%[1]v tednov""

msgid ""%[1]v year""
msgid_plural ""%[1]v years""
msgstr[0] ""%[1]v leto""
msgstr[1] ""%[1]v leti""
msgstr[2] ""%[1]v let""
msgstr[3] ""%[1]v let""

msgid ""%s GB""
msgstr ""%s GB""

msgid ""%s KB""
msgstr ""%s KB""

msgid ""%s MB""
msgstr ""%s MB""

msgid ""%s PB""
msgstr ""%s PB""

msgid ""%s TB""
msgstr ""%s TB""

msgid "", ""
msgstr "", ""

msgid ""AM""
msgstr ""AM""

msgid ""Afrikaans""
msgstr ""Afrikanščina""

msgid ""Albanian""
msgstr ""Albanščina""

msgid ""Algerian Arabic""
msgstr ""alžirska arabščina""

msgid ""April""
msgstr ""april""

msgid ""Arabic""
msgstr ""Arabščina""

msgid ""Argentinian Spanish""
msgstr ""Argentinska španščina""

msgid ""Armenian""
msgstr ""armenščina""

msgid ""Asturian""
msgstr ""Asturijski jezik""

msgid ""August""
msgstr ""avgust""

msgid ""Australian English""
msgstr ""Avstralska angleščina""

msgid ""Azerbaijani""
msgstr ""Azerbajdžanščina""

msgid ""Basque""
msgstr ""Baskovščina""

msgid ""Belarusian""
msgstr ""Belorusko""

msgid ""Bengali""
msgstr ""Bengalščina""

msgid ""Bosnian""
msgstr ""Bosanščina""

msgid ""Brazilian Portuguese""
msgstr ""Brazilska portugalščina""

msgid ""Breton""
msgstr ""Bretonščina""

msgid ""British English""
msgstr ""Britanska Angleščina""

msgid ""Bulgarian""
msgstr ""Bolgarščina""

msgid ""Burmese""
msgstr ""Burmanski jezik""

msgid ""Catalan""
msgstr ""Katalonščina""

msgid ""Central Kurdish (Sorani)""
msgstr """"

msgid ""Colombian Spanish""
msgstr ""Kolumbijska španščina""

msgid ""Croatian""
msgstr ""Hrvaščina""

msgid ""Czech""
msgstr ""Češčina""

msgid ""Danish""
msgstr ""Danščina""

msgid ""December""
msgstr ""december""

msgid ""Dutch""
msgstr ""Nizozemščina""

msgid ""English""
msgstr ""Angleščina""

msgid ""Esperanto""
msgstr ""Esperanto""

msgid ""Estonian""
msgstr ""Estonščina""

msgid ""February""
msgstr ""februar""

msgid ""Finnish""
msgstr ""Finščina""

msgid ""French""
msgstr ""Francoščina""

msgid ""Fri""
msgstr ""pet""

msgid ""Friday""
msgstr ""petek""

msgid ""Frisian""
msgstr ""Frizijščina""

msgid ""Galician""
msgstr ""Galičanski jezik""

msgid ""Georgian""
msgstr ""Gruzijščina""

msgid ""German""
msgstr ""Nemščina""

msgid ""Greek""
msgstr ""Grščina""

msgid ""Hebrew""
msgstr ""Hebrejski jezik""

msgid ""Hindi""
msgstr ""Hindujščina""

msgid ""Hungarian""
msgstr ""Madžarščina""

msgid ""Icelandic""
msgstr ""Islandski jezik""

msgid ""Ido""
msgstr ""Jezik Ido""

msgid ""Igbo""
msgstr """"

msgid ""Indonesian""
msgstr ""Indonezijski""

msgid ""Interlingua""
msgstr ""Interlingua""

msgid ""Irish""
msgstr ""Irščina""

msgid ""Italian""
msgstr ""Italijanščina""

msgid ""January""
msgstr ""januar""

msgid ""Japanese""
msgstr ""Japonščina""

msgid ""July""
msgstr ""julij""

msgid ""June""
msgstr ""junij""

msgid ""Kabyle""
msgstr ""Kabilski jezik""

msgid ""Kannada""
msgstr ""Kanareščina""

msgid ""Kazakh""
msgstr ""Kazaščina""

msgid ""Khmer""
msgstr ""Kmerščina""

msgid ""Korean""
msgstr ""Korejščina""

msgid ""Kyrgyz""
msgstr """"

msgid ""Latvian""
msgstr ""Latvijščina""

msgid ""Lithuanian""
msgstr ""Litvanščina""

msgid ""Lower Sorbian""
msgstr ""Dolnjelužiška srbščina""

msgid ""Luxembourgish""
msgstr ""Luksemburščina""

msgid ""Macedonian""
msgstr ""Makedonščina""

msgid ""Malay""
msgstr """"

msgid ""Malayalam""
msgstr ""Malajalščina""

msgid ""Marathi""
msgstr ""Jezik Marathi""

msgid ""March""
msgstr ""marec""

msgid ""May""
msgstr ""maj""

msgid ""Mexican Spanish""
msgstr ""Mehiška španščina""

msgid ""Mon""
msgstr ""pon""

msgid ""Monday""
msgstr ""ponedeljek""

msgid ""Mongolian""
msgstr ""Mongolščina""

msgid ""Nepali""
msgstr ""Nepalščina""

msgid ""Nicaraguan Spanish""
msgstr ""Nikaragvijska španščina""

msgid ""Norwegian Bokmål""
msgstr ""Norveški jezik""

msgid ""Norwegian Nynorsk""
msgstr ""Norveščina Nynorsk""

msgid ""November""
msgstr ""november""

msgid ""October""
msgstr ""oktober""

msgid ""Ossetic""
msgstr ""Osetski jezik""

msgid ""PM""
msgstr ""PM""

msgid ""Persian""
msgstr ""Perzijščina""

msgid ""Polish""
msgstr ""Poljščina""

msgid ""Portuguese""
msgstr ""Portugalščina""

msgid ""Punjabi""
msgstr ""Pandžabščina""

msgid ""Romanian""
msgstr ""Romunščina""

msgid ""Russian""
msgstr ""Ruščina""

msgid ""Sat""
msgstr ""sob""

msgid ""Saturday""
msgstr ""sobota""

msgid ""Scottish Gaelic""
msgstr ""Škotska gelščina""

msgid ""September""
msgstr ""september""

msgid ""Serbian""
msgstr ""Srbščina""

msgid ""Serbian Latin""
msgstr ""Srbščina v latinici""

msgid ""Simplified Chinese""
msgstr ""Poenostavljena kitajščina""

msgid ""Slovak""
msgstr ""Slovaščina""

msgid ""Slovenian""
msgstr ""Slovenščina""

msgid ""Spanish""
msgstr ""Španščina""

msgid ""Sun""
msgstr ""ned""

msgid ""Sunday""
msgstr ""nedelja""

msgid ""Swahili""
msgstr ""Svahili""

msgid ""Swedish""
msgstr ""Švedščina""

msgid ""Tajik""
msgstr """"

msgid ""Tamil""
msgstr ""Tamilščina""

msgid ""Tatar""
msgstr ""Tatarščina""

msgid ""Telugu""
msgstr ""Teluščina""

msgid ""Thai""
msgstr ""Tajski jezik""

msgid ""Thu""
msgstr ""čet""

msgid ""Thursday""
msgstr ""četrtek""

msgid ""Traditional Chinese""
msgstr ""Tradicionalna kitajščina""

msgid ""Tue""
msgstr ""tor""

msgid ""Tuesday""
msgstr ""torek""

msgid ""Turkish""
msgstr ""Turščina""

msgid ""Turkmen""
msgstr """"

msgid ""Udmurt""
msgstr ""Udmurski jezik""

msgid ""Ukrainian""
msgstr ""Ukrajinščina""

msgid ""Upper Sorbian""
msgstr ""Gornjelužiška srbščina""

msgid ""Urdu""
msgstr ""Jezik Urdu""

msgid ""Uyghur""
msgstr """"

msgid ""Uzbek""
msgstr """"

msgid ""Venezuelan Spanish""
msgstr ""Španščina (Venezuela)""

msgid ""Vietnamese""
msgstr ""Vietnamščina""

msgid ""Wed""
msgstr ""sre""

msgid ""Wednesday""
msgstr ""sreda""

msgid ""Welsh""
msgstr ""Valežanski jezik""

msgid ""a minute ago""
msgid_plural ""%[1]v minutes ago""
msgstr[0] ""pred %[1]v minuto""
msgstr[1] ""pred %[1]v minutama""
msgstr[2] ""pred %[1]v minutami""
msgstr[3] ""pred %[1]v minutami""

msgid ""a minute from now""
msgid_plural ""%[1]v minutes from now""
msgstr[0] ""čez %[1]v minuto""
msgstr[1] ""čez %[1]v minuti""
msgstr[2] ""čez %[1]v minute""
msgstr[3] ""čez %[1]v minut""

msgid ""a second ago""
msgid_plural ""%[1]v seconds ago""
msgstr[0] ""pred %[1]v sekundo""
msgstr[1] ""pred %[1]v sekundama""
msgstr[2] ""pred %[1]v sekundami""
msgstr[3] ""pred %[1]v sekundami""

msgid ""a second from now""
msgid_plural ""%[1]v seconds from now""
msgstr[0] ""čez %[1]v sekundo""
msgstr[1] ""čez %[1]v sekundi""
msgstr[2] ""čez %[1]v sekunde""
msgstr[3] ""čez %[1]v sekund""

msgid ""a.m.""
msgstr ""a.m.""

msgid ""an hour ago""
msgid_plural ""%[1]v hours ago""
msgstr[0] ""pred %[1]v uro""
msgstr[1] ""pred %[1]v urama""
msgstr[2] ""pred %[1]v urami""
msgstr[3] ""pred %[1]v urami""

msgid ""an hour from now""
msgid_plural ""%[1]v hours from now""
msgstr[0] ""čez %[1]v uro""
msgstr[1] ""čez %[1]v uri""
msgstr[2] ""čez %[1]v ure""
msgstr[3] ""čez %[1]v ur""

msgid ""apr""
msgstr ""apr""

msgid ""aug""
msgstr ""avg""

msgid ""dec""
msgstr ""dec""

msgid ""eight""
msgstr ""osem""

msgid ""feb""
msgstr ""feb""

msgid ""five""
msgstr ""pet""

msgid ""four""
msgstr ""štiri""

msgid ""jan""
msgstr ""jan""

msgid ""jul""
msgstr ""jul""

msgid ""jun""
msgstr ""jun""

msgid ""mar""
msgstr ""mar""

msgid ""may""
msgstr ""maj""

msgid ""midnight""
msgstr ""polnoč""

msgid ""nine""
msgstr ""devet""

msgid ""noon""
msgstr ""poldne""

msgid ""nov""
msgstr ""nov""

msgid ""now""
msgstr ""zdaj""

msgid ""oct""
msgstr ""okt""

msgid ""one""
msgstr ""ena""

msgid ""p.m.""
msgstr ""p.m.""

msgid ""sep""
msgstr ""sep""

msgid ""seven""
msgstr ""sedem""

msgid ""six""
msgstr ""šest""

msgid ""three""
msgstr ""tri""

msgid ""today""
msgstr ""danes""

msgid ""tomorrow""
msgstr ""jutri""

msgid ""two""
msgstr ""dve""

msgid ""yesterday""
msgstr ""včeraj""

msgctxt ""abbrev. month""
msgid ""April""
msgstr ""April""

msgctxt ""abbrev. month""
msgid ""Aug.""
msgstr ""Avg.""

msgctxt ""abbrev. month""
msgid ""Dec.""
msgstr ""Dec.""

msgctxt ""abbrev. month""
msgid ""Feb.""
msgstr ""Feb.""

msgctxt ""abbrev. month""
msgid ""Jan.""
msgstr ""Jan""

msgctxt ""abbrev. month""
msgid ""July""
msgstr ""Julij""

msgctxt ""abbrev. month""
msgid ""June""
msgstr ""Junij""

msgctxt ""abbrev. month""
msgid ""March""
msgstr ""Marec""

msgctxt ""abbrev. month""
msgid ""May""
msgstr ""Maj""

msgctxt ""abbrev. month""
msgid ""Nov.""
msgstr ""Nov.""

msgctxt ""abbrev. month""
msgid ""Oct.""
msgstr ""Okt.""

msgctxt ""abbrev. month""
msgid ""Sept.""
msgstr ""Sept.""

msgctxt ""alt. month""
msgid ""April""
msgstr ""April""

msgctxt ""alt. month""
msgid ""August""
msgstr ""Avgust""

msgctxt ""alt. month""
msgid ""December""
msgstr ""December""

msgctxt ""alt. month""
msgid ""February""
msgstr ""Februar""

msgctxt ""alt. month""
msgid ""January""
msgstr ""Januar""

msgctxt ""alt. month""
msgid ""July""
msgstr ""Julij""

msgctxt ""alt. month""
msgid ""June""
msgstr ""Junij""

msgctxt ""alt. month""
msgid ""March""
msgstr ""Marec""

msgctxt ""alt. month""
msgid ""May""
msgstr ""Maj""

msgctxt ""alt. month""
msgid ""November""
msgstr ""November""

msgctxt ""alt. month""
msgid ""October""
msgstr ""Oktober""

msgctxt ""alt. month""
msgid ""September""
msgstr ""September""

msgctxt ""naturaltime-future""
msgid ""%[1]v day""
msgid_plural ""%[1]v days""
msgstr[0] ""%[1]v dan""
msgstr[1] ""%[1]v dneva""
msgstr[2] ""%[1]v dni""
msgstr[3] ""%[1]v dni""

msgctxt ""naturaltime-future""
msgid ""%[1]v hour""
msgid_plural ""%[1]v hours""
msgstr[0] ""%[1]v ura""
msgstr[1] ""%[1]v uri""
msgstr[2] ""%[1]v ure""
msgstr[3] ""%[1]v ure""

msgctxt ""naturaltime-future""
msgid ""%[1]v minute""
msgid_plural ""%[1]v minutes""
msgstr[0] ""%[1]v minuta""
msgstr[1] ""%[1]v minuti""
msgstr[2] ""%[1]v minut""
msgstr[3] ""%[1]v minut""

msgctxt ""naturaltime-future""
msgid ""%[1]v month""
msgid_plural ""%[1]v months""
msgstr[0] ""%[1]v mesec""
msgstr[1] ""%[1]v meseca""
msgstr[2] ""%[1]v mesecev""
msgstr[3] ""%[1]v mesecev""

msgctxt ""naturaltime-future""
msgid ""%[1]v week""
msgid_plural ""%[1]v weeks""
msgstr[0] ""%[1]v teden""
msgstr[1] ""%[1]v tedena""
msgstr[2] ""%[1]v tedne""
msgstr[3] ""%[1]v tedne""

msgctxt ""naturaltime-future""
msgid ""%[1]v year""
msgid_plural ""%[1]v years""
msgstr[0] ""%[1]v leto""
msgstr[1] ""%[1]v leti""
msgstr[2] ""%[1]v let""
msgstr[3] ""%[1]v let""

msgctxt ""naturaltime-past""
msgid ""%[1]v day""
msgid_plural ""%[1]v days""
msgstr[0] ""%[1]v dan""
msgstr[1] ""%[1]v dneva""
msgstr[2] ""%[1]v dni""
msgstr[3] ""%[1]v dni""

msgctxt ""naturaltime-past""
msgid ""%[1]v hour""
msgid_plural ""%[1]v hours""
msgstr[0] ""%[1]v ura""
msgstr[1] ""%[1]v uri""
msgstr[2] ""%[1]v ur""
msgstr[3] ""%[1]v ur""

msgctxt ""naturaltime-past""
msgid ""%[1]v minute""
msgid_plural ""%[1]v minutes""
msgstr[0] ""%[1]v minuta""
msgstr[1] ""%[1]v minuti""
msgstr[2] ""%[1]v minut""
msgstr[3] ""%[1]v minut""

msgctxt ""naturaltime-past""
msgid ""%[1]v month""
msgid_plural ""%[1]v months""
msgstr[0] ""%[1]v mesec""
msgstr[1] ""%[1]v meseca""
msgstr[2] ""%[1]v mesecev""
msgstr[3] ""%[1]v mesecev""

msgctxt ""naturaltime-past""
msgid ""%[1]v week""
msgid_plural ""%[1]v weeks""
msgstr[0] ""%[1]v teden""
msgstr[1] ""%[1]v tedna""
msgstr[2] ""%[1]v tednov""
msgstr[3] ""%[1]v tednov""

msgctxt ""naturaltime-past""
msgid ""%[1]v year""
msgid_plural ""%[1]v years""
msgstr[0] ""%[1]v leto""
msgstr[1] ""%[1]v leti""
msgstr[2] ""%[1]v let""
msgstr[3] ""%[1]v let""

msgctxt ""ordinal 0""
msgid ""%vth""
msgstr """"

msgctxt ""ordinal 1""
msgid ""%vst""
msgstr """"

msgctxt ""ordinal 11, 12, 13""
msgid ""%vth""
msgstr """"

msgctxt ""ordinal 2""
msgid ""%vnd""
msgstr """"

msgctxt ""ordinal 3""
msgid ""%vrd""
msgstr """"

msgctxt ""ordinal 4""
msgid ""%vth""
msgstr """"

msgctxt ""ordinal 5""
msgid ""%vth""
msgstr """"

msgctxt ""ordinal 6""
msgid ""%vth""
msgstr """"

msgctxt ""ordinal 7""
msgid ""%vth""
msgstr """"

msgctxt ""ordinal 8""
msgid ""%vth""
msgstr """"

msgctxt ""ordinal 9""
msgid ""%vth""
msgstr """"
".
(** humanize/locale/sl/locale.go (New) *)
Definition loc_sl : locale_data := LD (bs "sl") [(bs "django.po", po_sl)]
  (Some (FD (bs "d. F Y") (bs "H:i") (bs "j. F Y. H:i") (bs "F Y") (bs "j. F") (bs "j. M. Y") (bs "j.n.Y. H:i"))).

(** humanize/locale/sq/django.po *)
Definition po_sq : bytes := bs "# This file is distributed under the same license as the Django package.
# 
# Translators:
# Besnik Bleta <besnik@programeshqip.org>, 2011-2014
# Besnik Bleta <besnik@programeshqip.org>, 2020-2025
# Besnik Bleta <besnik@programeshqip.org>, 2015-2019
# Jannis Leidel <jannis@leidel.info>, 2011
msgid """"
msgstr """"
""Project-Id-Version: django\n""
""Report-Msgid-Bugs-To: \n""
""POT-Creation-Date: 2025-03-19 11:30-0500\n""
""PO-Revision-Date: 2025-04-01 15:04-0500\n""
""Last-Translator: Besnik Bleta <besnik@programeshqip.org>, 2020-2025\n""
""Language-Team: Albanian (http://app.transifex.com/django/django/language/sq/)\n""
""Language: sq\n""
""MIME-Version: 1.0\n""
""Content-Type: text/plain; charset=UTF-8\n""
""Content-Transfer-Encoding: 8bit\n""
""Plural-Forms: nplurals=2; plural=(n != 1);\n""

msgid ""%[1]d byte""
msgid_plural ""%[1]d bytes""
msgstr[0] ""%[1]d bajt""
msgstr[1] ""%[1]d bajte""

msgid ""%[1]s billion""
msgid_plural ""%[1]s billion""
msgstr[0] ""%[1]s miliard""
msgstr[1] ""%[1]s miliardë""

msgid ""%[1]s decillion""
msgid_plural ""%[1]s decillion""
msgstr[0] ""%[1]s decilion""
msgstr[1] ""%[1]s decilionë""

msgid ""%[1]s googol""
msgid_plural ""%[1]s googol""
msgstr[0] ""%[1]s gugol""
msgstr[1] ""%[1]s gugolë""

msgid ""%[1]s million""
msgid_plural ""%[1]s million""
msgstr[0] ""%[1]s milion""
msgstr[1] ""%[1]s milionë""

msgid ""%[1]s nonillion""
msgid_plural ""%[1]s nonillion""
msgstr[0] ""%[1]s nonilion""
msgstr[1] ""%[1]s nonilionë""

msgid ""%[1]s octillion""
msgid_plural ""%[1]s octillion""
msgstr[0] ""%[1]s oktilion""
msgstr[1] ""%[1]s oktilionë""

msgid ""%[1]s quadrillion""
msgid_plural ""%[1]s quadrillion""
msgstr[0] ""%[1]s kuadrilion""
msgstr[1] ""%[1]s kuadrilionë""

msgid ""%[1]s quintillion""
msgid_plural ""%[1]s quintillion""
msgstr[0] ""%[1]s kuintilionë""
msgstr[1] ""%[1]s kuintilionë""

msgid ""%[1]s septillion""
msgid_plural ""%[1]s septillion""
msgstr[0] ""%[1]s septilion""
msgstr[1] ""%[1]s septilionë""

msgid ""%[1]s sextillion""
msgid_plural ""%[1]s sextillion""
msgstr[0] ""%[1]s sestilion""
msgstr[1] ""%[1]s sestilionë""

msgid ""%[1]s trillion""
msgid_plural ""%[1]s trillion""
msgstr[0] ""%[1]s trilion""
msgstr[1] ""%[1]s trilionë""

msgid ""%[1]v ago""
msgstr ""%[1]v më parë""

msgid ""%[1]v day""
msgid_plural ""%[1]v days""
msgstr[0] ""%[1]v ditë""
msgstr[1] ""%[1]v ditë""

msgid ""%[1]v from now""
msgstr ""%[1]v nga tani""

msgid ""%[1]v hour""
msgid_plural ""%[1]v hours""
msgstr[0] ""%[1]v orë""
msgstr[1] ""%[1]v orë""

msgid ""%[1]v minute""
msgid_plural ""%[1]v minutes""
msgstr[0] ""%[1]v minutë""
msgstr[1] ""%[1]v minuta""

msgid ""%[1]v month""
msgid_plural ""%[1]v months""
msgstr[0] ""%[1]v muaj""
msgstr[1] ""%[1]v muaj""

msgid ""%[1]v week""
msgid_plural ""%[1]v weeks""
msgstr[0] ""%[1]v javë""
msgstr[1] ""%[1]v javë""

msgid ""%[1]v year""
msgid_plural ""%[1]v years""
msgstr[0] ""%[1]v vit""
msgstr[1] ""%[1]v vjet""

msgid ""%s GB""
msgstr ""%s GB""

msgid ""%s KB""
msgstr ""%s KB""

msgid ""%s MB""
msgstr ""%s MB""

msgid ""%s PB""
msgstr ""%s PB""

msgid ""%s TB""
msgstr ""%s TB""

msgid "", ""
msgstr "", ""

msgid ""AM""
msgstr ""AM""

msgid ""Afrikaans""
msgstr ""Afrikaans""

msgid ""Albanian""
msgstr ""Shqip""

msgid ""Algerian Arabic""
msgstr ""Arabishte Algjeriane""

msgid ""April""
msgstr ""Prill""

msgid ""Arabic""
msgstr ""Arabisht""

msgid ""Argentinian Spanish""
msgstr ""Spanjishte Argjentine""

msgid ""Armenian""
msgstr ""Armenisht""

msgid ""Asturian""
msgstr ""Asturiase""

msgid ""August""
msgstr ""Gusht""

msgid ""Australian English""
msgstr ""Anglishte Australie""

msgid ""Azerbaijani""
msgstr ""Azerbajxhanisht""

msgid ""Basque""
msgstr ""Baskisht""

msgid ""Belarusian""
msgstr ""Bjellorusisht""

msgid ""Bengali""
msgstr ""Bengalisht""

msgid ""Bosnian""
msgstr ""Boshnjake""

msgid ""Brazilian Portuguese""
msgstr ""Portugalishte Brazili""

msgid ""Breton""
msgstr ""Bretonisht""

msgid ""British English""
msgstr ""Anglishte Britanie""

msgid ""Bulgarian""
msgstr ""Bullgarisht""

msgid ""Burmese""
msgstr ""Burmeze""

msgid ""Catalan""
msgstr ""Katalanisht""

msgid ""Central Kurdish (Sorani)""
msgstr ""Kurdishte e Qendrës (Sorani)""

msgid ""Colombian Spanish""
msgstr ""Spanjishte Kolumbie""

msgid ""Croatian""
msgstr ""Kroatisht""

msgid ""Czech""
msgstr ""Çekisht""

msgid ""Danish""
msgstr ""Danisht""

msgid ""December""
msgstr ""Dhjetor""

msgid ""Dutch""
msgstr ""Holandisht""

msgid ""English""
msgstr ""Anglisht""

msgid ""Esperanto""
msgstr ""Esperanto""

msgid ""Estonian""
msgstr ""Estonisht""

msgid ""February""
msgstr ""Shkurt""

msgid ""Finnish""
msgstr ""Finlandisht""

msgid ""French""
msgstr ""Frënge""

msgid ""Fri""
msgstr ""Pre""

msgid ""Friday""
msgstr ""E premte""

msgid ""Frisian""
msgstr ""Frisisht""

msgid ""Galician""
msgstr ""Galike""

msgid ""Georgian""
msgstr ""Gjeorgjisht""

msgid ""German""
msgstr ""Gjermanisht""

msgid ""Greek""
msgstr ""Greqisht""

msgid ""Hebrew""
msgstr ""Hebraisht""

msgid ""Hindi""
msgstr ""Indisht""

msgid ""Hungarian""
msgstr ""Hungarisht""

msgid ""Icelandic""
msgstr ""Islandisht""

msgid ""Ido""
msgstr ""Ido""

msgid ""Igbo""
msgstr ""Igbo""

msgid ""Indonesian""
msgstr ""Indonezisht""

msgid ""Interlingua""
msgstr ""Interlingua""

msgid ""Irish""
msgstr ""Irlandisht""

msgid ""Italian""
msgstr ""Italisht""

msgid ""January""
msgstr ""Janar""

msgid ""Japanese""
msgstr ""Japonisht""

msgid ""July""
msgstr ""Korrik""

msgid ""June""
msgstr ""Qershor""

msgid ""Kabyle""
msgstr ""Kabilisht""

msgid ""Kannada""
msgstr ""Kannada""

msgid ""Kazakh""
msgstr ""Kazake""

msgid ""Khmer""
msgstr ""Khmere""

msgid ""Korean""
msgstr ""Koreanisht""

msgid ""Kyrgyz""
msgstr ""Kirgize""

msgid ""Latvian""
msgstr ""Letonisht""

msgid ""Lithuanian""
msgstr ""Lituanisht""

msgid ""Lower Sorbian""
msgstr ""Sorbishte e Poshtme""

msgid ""Luxembourgish""
msgstr ""Luksemburgase""

msgid ""Macedonian""
msgstr ""Maqedonisht""

msgid ""Malay""
msgstr ""Malajase""

msgid ""Malayalam""
msgstr ""Malajalame""

msgid ""Marathi""
msgstr ""Marati""

msgid ""March""
msgstr ""Mars""

msgid ""May""
msgstr ""Maj""

msgid ""Mexican Spanish""
msgstr ""Spanjishte Meksike""

msgid ""Mon""
msgstr ""Hën""

msgid ""Monday""
msgstr ""E hënë""

msgid ""Mongolian""
msgstr ""Mongoliisht""

msgid ""Nepali""
msgstr ""Nepalisht""

msgid ""Nicaraguan Spanish""
msgstr ""Spanjishte Nikaraguaje""

msgid ""Norwegian Bokmål""
msgstr ""Norvegjishte Bokmal""

msgid ""Norwegian Nynorsk""
msgstr ""Norvegjishte Nynorsk""

msgid ""November""
msgstr ""Nëntor""

msgid ""October""
msgstr ""Tetor""

msgid ""Ossetic""
msgstr ""Osetisht""

msgid ""PM""
msgstr ""PM""

msgid ""Persian""
msgstr ""Persisht""

msgid ""Polish""
msgstr ""Polonisht""

msgid ""Portuguese""
msgstr ""Portugalisht""

msgid ""Punjabi""
msgstr ""Panxhabisht""

msgid ""Romanian""
msgstr ""Rumanisht""

msgid ""Russian""
msgstr ""Rusisht""

msgid ""Sat""
msgstr ""Sht""

msgid ""Saturday""
msgstr ""E shtunë""

msgid ""Scottish Gaelic""
msgstr ""Skocisht Gaelike""

msgid ""September""
msgstr ""Shtator""

msgid ""Serbian""
msgstr ""Serbisht""

msgid ""Serbian Latin""
msgstr ""Serbisht Latine""

msgid ""Simplified Chinese""
msgstr ""Kineze e Thjeshtuar""

msgid ""Slovak""
msgstr ""Sllovakisht ""

msgid ""Slovenian""
msgstr ""Sllovenisht""

msgid ""Spanish""
msgstr ""Spanjisht""

msgid ""Sun""
msgstr ""Die""

msgid ""Sunday""
msgstr ""E dielë""

msgid ""Swahili""
msgstr ""Suahilisht""

msgid ""Swedish""
msgstr ""Suedisht""

msgid ""Tajik""
msgstr ""Taxhike""

msgid ""Tamil""
msgstr ""Tamilisht""

msgid ""Tatar""
msgstr ""Tatare""

msgid ""Telugu""
msgstr ""Telugu""

msgid ""Thai""
msgstr ""Tajlandisht""

msgid ""Thu""
msgstr ""Enj""

msgid ""Thursday""
msgstr ""E enjte""

msgid ""Traditional Chinese""
msgstr ""Kineze Tradicionale""

msgid ""Tue""
msgstr ""Mar""

msgid ""Tuesday""
msgstr ""E martë""

msgid ""Turkish""
msgstr ""Turqisht""

msgid ""Turkmen""
msgstr ""Turkmene""

msgid ""Udmurt""
msgstr ""Udmurt""

msgid ""Ukrainian""
msgstr ""Ukrainisht""

msgid ""Upper Sorbian""
msgstr ""Sorbishte e Sipërme""

msgid ""Urdu""
msgstr ""Urdu""

msgid ""Uyghur""
msgstr ""Ujgure""

msgid ""Uzbek""
msgstr ""Uzbeke""

msgid ""Venezuelan Spanish""
msgstr ""Spanjishte Venezuele""

msgid ""Vietnamese""
msgstr ""Vietnamisht""

msgid ""Wed""
msgstr ""Mër""

msgid ""Wednesday""
msgstr ""E mërkurë""

msgid ""Welsh""
msgstr ""Uellsisht""

msgid ""a minute ago""
msgid_plural ""%[1]v minutes ago""
msgstr[0] ""një minutë më parë""
msgstr[1] ""%[1]v minuta më parë""

msgid ""a minute from now""
msgid_plural ""%[1]v minutes from now""
msgstr[0] ""për një minutë""
msgstr[1] ""për %[1]v minuta""

msgid ""a second ago""
msgid_plural ""%[1]v seconds ago""
msgstr[0] ""një sekondë më parë""
msgstr[1] ""%[1]v sekonda më parë""

msgid ""a second from now""
msgid_plural ""%[1]v seconds from now""
msgstr[0] ""një sekondë më parë""
msgstr[1] ""%[1]v sekonda më parë""

msgid ""a.m.""
msgstr ""a.m.""

msgid ""an hour ago""
msgid_plural ""%[1]v hours ago""
msgstr[0] ""një orë më parë""
msgstr[1] ""%[1]v orë më parë""

msgid ""an hour from now""
msgid_plural ""%[1]v hours from now""
msgstr[0] ""për një orë""
msgstr[1] ""për %[1]v orë""

msgid ""apr""
msgstr ""pri""

msgid ""aug""
msgstr ""gus""

msgid ""dec""
msgstr ""dhj""

msgid ""eight""
msgstr ""tetë""

msgid ""feb""
msgstr ""shk""

msgid ""five""
msgstr ""pesë""

msgid ""four""
msgstr ""katër""

msgid ""jan""
msgstr ""jan""

msgid ""jul""
msgstr ""kor""

msgid ""jun""
msgstr ""qer""

msgid ""mar""
msgstr ""mar""

msgid ""may""
msgstr ""maj""

msgid ""midnight""
msgstr ""mesnatë""

msgid ""nine""
msgstr ""nëntë""

msgid ""noon""
msgstr ""mesditë""

msgid ""nov""
msgstr ""nën""

msgid ""now""
msgstr ""tani""

msgid ""oct""
msgstr ""tet""

msgid ""one""
msgstr ""një""

msgid ""p.m.""
msgstr ""p.m.""

msgid ""sep""
msgstr ""sht""

msgid ""seven""
msgstr ""shtatë""

msgid ""six""
msgstr ""gjashtë""

msgid ""three""
msgstr ""tre""

msgid ""today""
msgstr ""sot""

msgid ""tomorrow""
msgstr ""nesër""

msgid ""two""
msgstr ""dy""

msgid ""yesterday""
msgstr ""dje""

msgctxt ""abbrev. month""
msgid ""April""
msgstr ""Prill""

msgctxt ""abbrev. month""
msgid ""Aug.""
msgstr ""Gus.""

msgctxt ""abbrev. month""
msgid ""Dec.""
msgstr ""Dhj.""

msgctxt ""abbrev. month""
msgid ""Feb.""
msgstr ""Shk.""

msgctxt ""abbrev. month""
msgid ""Jan.""
msgstr ""Jan.""

msgctxt ""abbrev. month""
msgid ""July""
msgstr ""Korrik""

msgctxt ""abbrev. month""
msgid ""June""
msgstr ""Qershor""

msgctxt ""abbrev. month""
msgid ""March""
msgstr ""Mars""

msgctxt ""abbrev. month""
msgid ""May""
msgstr ""Maj""

msgctxt ""abbrev. month""
msgid ""Nov.""
msgstr ""Nën.""

msgctxt ""abbrev. month""
msgid ""Oct.""
msgstr ""Tet.""

msgctxt ""abbrev. month""
msgid ""Sept.""
msgstr ""Shta.""

msgctxt ""alt. month""
msgid ""April""
msgstr ""Prill""

msgctxt ""alt. month""
msgid ""August""
msgstr ""Gusht""

msgctxt ""alt. month""
msgid ""December""
msgstr ""Dhjetor""

msgctxt ""alt. month""
msgid ""February""
msgstr ""Shkurt""

msgctxt ""alt. month""
msgid ""January""
msgstr ""Janar""

msgctxt ""alt. month""
msgid ""July""
msgstr ""Korrik""

msgctxt ""alt. month""
msgid ""June""
msgstr ""Qershor""

msgctxt ""alt. month""
msgid ""March""
msgstr ""Mars""

msgctxt ""alt. month""
msgid ""May""
msgstr ""Maj""

msgctxt ""alt. month""
msgid ""November""
msgstr ""Nëntor""

msgctxt ""alt. month""
msgid ""October""
msgstr ""Tetor""

msgctxt ""alt. month""
msgid ""September""
msgstr ""Shtator""

msgctxt ""naturaltime-future""
msgid ""%[1]v day""
msgid_plural ""%[1]v days""
msgstr[0] ""%[1]v ditë""
msgstr[1] ""%[1]v ditë""

msgctxt ""naturaltime-future""
msgid ""%[1]v hour""
msgid_plural ""%[1]v hours""
msgstr[0] ""%[1]v orë""
msgstr[1] ""%[1]v orë""

msgctxt ""naturaltime-future""
msgid ""%[1]v minute""
msgid_plural ""%[1]v minutes""
msgstr[0] ""%[1]v minutë""
msgstr[1] ""%[1]v minuta""

msgctxt ""naturaltime-future""
msgid ""%[1]v month""
msgid_plural ""%[1]v months""
msgstr[0] ""%[1]v muaj""
msgstr[1] ""%[1]v muaj""

msgctxt ""naturaltime-future""
msgid ""%[1]v week""
msgid_plural ""%[1]v weeks""
msgstr[0] ""%[1]v javë""
msgstr[1] ""%[1]v javë""

msgctxt ""naturaltime-future""
msgid ""%[1]v year""
msgid_plural ""%[1]v years""
msgstr[0] ""%[1]v vjet""
msgstr[1] ""%[1]v vjet""

msgctxt ""naturaltime-past""
msgid ""%[1]v day""
msgid_plural ""%[1]v days""
msgstr[0] ""%[1]v ditë""
msgstr[1] ""%[1]v ditë""

msgctxt ""naturaltime-past""
msgid ""%[1]v hour""
msgid_plural ""%[1]v hours""
msgstr[0] ""%[1]v orë""
msgstr[1] ""%[1]v orë""

msgctxt ""naturaltime-past""
msgid ""%[1]v minute""
msgid_plural ""%[1]v minutes""
msgstr[0] ""%[1]v minutë""
msgstr[1] ""%[1]v minuta""

msgctxt ""naturaltime-past""
msgid ""%[1]v month""
msgid_plural ""%[1]v months""
msgstr[0] ""%[1]v muaj""
msgstr[1] ""%[1]v muaj""

msgctxt ""naturaltime-past""
msgid ""%[1]v week""
msgid_plural ""%[1]v weeks""
msgstr[0] ""%[1]v javë""
msgstr[1] ""%[1]v javë""

msgctxt ""naturaltime-past""
msgid ""%[1]v year""
msgid_plural ""%[1]v years""
msgstr[0] ""%[1]v vit""
msgstr[1] ""%[1]v vjet""

msgctxt ""ordinal 0""
msgid ""%vth""
msgstr ""-të""

msgctxt ""ordinal 1""
msgid ""%vst""
msgstr """"

msgctxt ""ordinal 11, 12, 13""
msgid ""%vth""
msgstr ""-të""

msgctxt ""ordinal 2""
msgid ""%vnd""
msgstr ""-të""

msgctxt ""ordinal 3""
msgid ""%vrd""
msgstr ""-të""

msgctxt ""ordinal 4""
msgid ""%vth""
msgstr ""-të""

msgctxt ""ordinal 5""
msgid ""%vth""
msgstr ""-të""

msgctxt ""ordinal 6""
msgid ""%vth""
msgstr ""-të""

msgctxt ""ordinal 7""
msgid ""%vth""
msgstr ""-të""

msgctxt ""ordinal 8""
msgid ""%vth""
msgstr ""-të""

msgctxt ""ordinal 9""
msgid ""%vth""
msgstr ""-të""
".
(** humanize/locale/sq/locale.go (New) *)
Definition loc_sq : locale_data := LD (bs "sq") [(bs "django.po", po_sq)]
  (Some (FD (bs "d F Y") (bs "g.i.A") (bs "") (bs "F Y") (bs "j F") (bs "Y-m-d") (bs ""))).

(** humanize/locale/sr/django.po *)
Definition po_sr : bytes := bs "# This file is distributed under the same license as the Django package.
# 
# Translators:
# Branko Kokanovic <branko@kokanovic.org>, 2018-2019
# Igor Jerosimić, 2019-2021,2023-2025
# Jannis Leidel <jannis@leidel.info>, 2011
# Janos Guljas <janos@resenje.org>, 2011-2012
# Mariusz Felisiak <felisiak.mariusz@gmail.com>, 2021
msgid """"
msgstr """"
""Project-Id-Version: django\n""
""Report-Msgid-Bugs-To: \n""
""POT-Creation-Date: 2025-03-19 11:30-0500\n""
""PO-Revision-Date: 2025-04-01 15:04-0500\n""
""Last-Translator: Igor Jerosimić, 2019-2021,2023-2025\n""
""Language-Team: Serbian (http://app.transifex.com/django/django/language/sr/)\n""
""Language: sr\n""
""MIME-Version: 1.0\n""
""Content-Type: text/plain; charset=UTF-8\n""
""Content-Transfer-Encoding: 8bit\n""
""Plural-Forms: nplurals=3; plural=(n%10==1 && n%100!=11 ? 0 : n%10>=2 && n%10<=4 && (n%100<10 || n%100>=20) ? 1 : 2);\n""

msgid ""%[1]d byte""
msgid_plural ""%[1]d bytes""
msgstr[0] ""%[1]d бајт""
msgstr[1] ""%[1]d бајта""
msgstr[2] ""%[1]d бајтова""

msgid ""%[1]s billion""
msgid_plural ""%[1]s billion""
msgstr[0] ""%[1]s милијарда""
msgstr[1] ""%[1]s милијарде""
msgstr[2] ""%[1]s милијарди""

msgid ""%[1]s decillion""
msgid_plural ""%[1]s decillion""
msgstr[0] ""%[1]s квантилијарда""
msgstr[1] ""%[1]s квантилијарде""
msgstr[2] ""%[1]s квантилијарди""

msgid ""%[1]s googol""
msgid_plural ""%[1]s googol""
msgstr[0] ""%[1]s гугол""
msgstr[1] ""%[1]s гугола""
msgstr[2] ""%[1]s гугола""

msgid ""%[1]s million""
msgid_plural ""%[1]s million""
msgstr[0] ""%[1]s милион""
msgstr[1] ""%[1]s милиона""
msgstr[2] ""%[1]s милиона""

msgid ""%[1]s nonillion""
msgid_plural ""%[1]s nonillion""
msgstr[0] ""%[1]s квантилион""
msgstr[1] ""%[1]s квантилиона""
msgstr[2] ""%[1]s квантилиона""

msgid ""%[1]s octillion""
msgid_plural ""%[1]s octillion""
msgstr[0] ""%[1]s квадрилијарда""
msgstr[1] ""%[1]s квадрилијарде""
msgstr[2] ""%[1]s квадрилијарди""

msgid ""%[1]s quadrillion""
msgid_plural ""%[1]s quadrillion""
msgstr[0] ""%[1]s билијарда""
msgstr[1] ""%[1]s билијарде""
msgstr[2] ""%[1]s билијарди""

msgid ""%[1]s quintillion""
msgid_plural ""%[1]s quintillion""
msgstr[0] ""%[1]s трилион""
msgstr[1] ""%[1]s трилиона""
msgstr[2] ""%[1]s трилиона""

msgid ""%[1]s septillion""
msgid_plural ""%[1]s septillion""
msgstr[0] ""%[1]s квадрилион""
msgstr[1] ""%[1]s квадрилиона""
msgstr[2] ""%[1]s квадрилиона""

msgid ""%[1]s sextillion""
msgid_plural ""%[1]s sextillion""
msgstr[0] ""%[1]s трилијарда""
msgstr[1] ""%[1]s трилијарде""
msgstr[2] ""%[1]s трилијарди""

msgid ""%[1]s trillion""
msgid_plural ""%[1]s trillion""
msgstr[0] ""%[1]s билион""
msgstr[1] ""%[1]s билиона""
msgstr[2] ""%[1]s билиона""

msgid ""%[1]v ago""
msgstr ""пре %[1]v""

msgid ""%[1]v day""
msgid_plural ""%[1]v days""
msgstr[0] ""%[1]v дан""
msgstr[1] ""%[1]v дана""
msgstr[2] ""%[1]v дана""

msgid ""%[1]v from now""
msgstr ""%[1]v од сад""

msgid ""%[1]v hour""
msgid_plural ""%[1]v hours""
msgstr[0] ""%[1]v сат""
msgstr[1] ""%[1]v сата""
msgstr[2] ""%[1]v сати""

msgid ""%[1]v minute""
msgid_plural ""%[1]v minutes""
msgstr[0] ""%[1]v минут""
msgstr[1] ""%[1]v минута""
msgstr[2] ""%[1]v минута""

msgid ""%[1]v month""
msgid_plural ""%[1]v months""
msgstr[0] ""%[1]v месец""
msgstr[1] ""%[1]v месеца""
msgstr[2] ""%[1]v месеци""

msgid ""%[1]v week""
msgid_plural ""%[1]v weeks""
msgstr[0] ""%[1]v недеља""
msgstr[1] ""%[1]v недеље""
msgstr[2] ""%[1]v недеља""

msgid ""%[1]v year""
msgid_plural ""%[1]v years""
msgstr[0] ""%[1]v година""
msgstr[1] ""%[1]v године""
msgstr[2] ""%[1]v година""

msgid ""%s GB""
msgstr ""%s GB""

msgid ""%s KB""
msgstr ""%s KB""

msgid ""%s MB""
msgstr ""%s MB""

msgid ""%s PB""
msgstr ""%s PB""

msgid ""%s TB""
msgstr ""%s TB""

msgid "", ""
msgstr "", ""

msgid ""AM""
msgstr ""AM""

msgid ""Afrikaans""
msgstr ""африкански""

msgid ""Albanian""
msgstr ""албански""

msgid ""Algerian Arabic""
msgstr ""Алжирски арапски""

msgid ""April""
msgstr ""април""

msgid ""Arabic""
msgstr ""арапски""

msgid ""Argentinian Spanish""
msgstr ""аргентински шпански""

msgid ""Armenian""
msgstr ""јерменски""

msgid ""Asturian""
msgstr ""астуријски""

msgid ""August""
msgstr ""август""

msgid ""Australian English""
msgstr ""аустралијски енглески""

msgid ""Azerbaijani""
msgstr ""азербејџански""

msgid ""Basque""
msgstr ""баскијски""

msgid ""Belarusian""
msgstr ""белоруски""

msgid ""Bengali""
msgstr ""бенгалски""

msgid ""Bosnian""
msgstr ""босански""

msgid ""Brazilian Portuguese""
msgstr ""бразилски португалски""

msgid ""Breton""
msgstr ""бретонски""

msgid ""British English""
msgstr ""британски енглески""

msgid ""Bulgarian""
msgstr ""бугарски""

msgid ""Burmese""
msgstr ""бурмански""

msgid ""Catalan""
msgstr ""каталонски""

msgid ""Central Kurdish (Sorani)""
msgstr ""централнокурдски (сорани)""

msgid ""Colombian Spanish""
msgstr ""колумбијски шпански""

msgid ""Croatian""
msgstr ""хрватски""

msgid ""Czech""
msgstr ""чешки""

msgid ""Danish""
msgstr ""дански""

msgid ""December""
msgstr ""децембар""

msgid ""Dutch""
msgstr ""холандски""

msgid ""English""
msgstr ""енглески""

msgid ""Esperanto""
msgstr ""есперанто""

msgid ""Estonian""
msgstr ""естонски""

msgid ""February""
msgstr ""фебруар""

msgid ""Finnish""
msgstr ""фински""

msgid ""French""
msgstr ""француски""

msgid ""Fri""
msgstr ""пет.""

msgid ""Friday""
msgstr ""петак""

msgid ""Frisian""
msgstr ""фризијски""

msgid ""Galician""
msgstr ""галицијски""

msgid ""Georgian""
msgstr ""грузијски""

msgid ""German""
msgstr ""немачки""

msgid ""Greek""
msgstr ""грчки""

msgid ""Hebrew""
msgstr ""хебрејски""

msgid ""Hindi""
msgstr ""хинду""

msgid ""Hungarian""
msgstr ""мађарски""

msgid ""Icelandic""
msgstr ""исландски""

msgid ""Ido""
msgstr ""идо""

msgid ""Igbo""
msgstr ""Игбо""

msgid ""Indonesian""
msgstr ""индонежански""

msgid ""Interlingua""
msgstr ""интерлингва""

msgid ""Irish""
msgstr ""ирски""

msgid ""Italian""
msgstr ""италијански""

msgid ""January""
msgstr ""јануар""

msgid ""Japanese""
msgstr ""јапански""

msgid ""July""
msgstr ""јул""

msgid ""June""
msgstr ""јун""

msgid ""Kabyle""
msgstr ""кабилски""

msgid ""Kannada""
msgstr ""канада""

msgid ""Kazakh""
msgstr ""казашки""

msgid ""Khmer""
msgstr ""кмерски""

msgid ""Korean""
msgstr ""корејски""

msgid ""Kyrgyz""
msgstr ""Киргиски""

msgid ""Latvian""
msgstr ""латвијски""

msgid ""Lithuanian""
msgstr ""литвански""

msgid ""Lower Sorbian""
msgstr ""доњолужичкосрпски""

msgid ""Luxembourgish""
msgstr ""луксембуршки""

msgid ""Macedonian""
msgstr ""македонски""

msgid ""Malay""
msgstr ""малајски""

msgid ""Malayalam""
msgstr ""малајаламски""

msgid ""Marathi""
msgstr ""маратхи""

msgid ""March""
msgstr ""март""

msgid ""May""
msgstr ""мај""

msgid ""Mexican Spanish""
msgstr ""мексички шпански""

msgid ""Mon""
msgstr ""пон.""

msgid ""Monday""
msgstr ""понедељак""

msgid ""Mongolian""
msgstr ""монголски""

msgid ""Nepali""
msgstr ""непалски""

msgid ""Nicaraguan Spanish""
msgstr ""никарагвански шпански""

msgid ""Norwegian Bokmål""
msgstr ""норвешки књижевни""

msgid ""Norwegian Nynorsk""
msgstr ""норвешки нови""

msgid ""November""
msgstr ""новембар""

msgid ""October""
msgstr ""октобар""

msgid ""Ossetic""
msgstr ""осетински""

msgid ""PM""
msgstr ""PM""

msgid ""Persian""
msgstr ""персијски""

msgid ""Polish""
msgstr ""пољски""

msgid ""Portuguese""
msgstr ""португалски""

msgid ""Punjabi""
msgstr ""панџаби""

msgid ""Romanian""
msgstr ""румунски""

msgid ""Russian""
msgstr ""руски""

msgid ""Sat""
msgstr ""суб.""

msgid ""Saturday""
msgstr ""субота""

msgid ""Scottish Gaelic""
msgstr ""шкотски гелски""

msgid ""September""
msgstr ""септембар""

msgid ""Serbian""
msgstr ""српски""

msgid ""Serbian Latin""
msgstr ""српски (латиница)""

msgid ""Simplified Chinese""
msgstr ""поједностављени кинески""

msgid ""Slovak""
msgstr ""словачки""

msgid ""Slovenian""
msgstr ""словеначки""

msgid ""Spanish""
msgstr ""шпански""

msgid ""Sun""
msgstr ""нед.""

msgid ""Sunday""
msgstr ""недеља""

msgid ""Swahili""
msgstr ""свахили""

msgid ""Swedish""
msgstr ""шведски""

msgid ""Tajik""
msgstr ""Таџики""

msgid ""Tamil""
msgstr ""тамилски""

msgid ""Tatar""
msgstr ""татарски""

msgid ""Telugu""
msgstr ""телугу""

msgid ""Thai""
msgstr ""тајландски""

msgid ""Thu""
msgstr ""чет.""

msgid ""Thursday""
msgstr ""четвртак""

msgid ""Traditional Chinese""
msgstr ""традиционални кинески""

msgid ""Tue""
msgstr ""уто.""

msgid ""Tuesday""
msgstr ""уторак""

msgid ""Turkish""
msgstr ""турски""

msgid ""Turkmen""
msgstr ""Туркменски""

msgid ""Udmurt""
msgstr ""удмуртски""

msgid ""Ukrainian""
msgstr ""украјински""

msgid ""Upper Sorbian""
msgstr ""горњолужичкосрпски""

msgid ""Urdu""
msgstr ""урду""

msgid ""Uyghur""
msgstr ""Ујгури""

msgid ""Uzbek""
msgstr ""Узбекистански""

msgid ""Venezuelan Spanish""
msgstr ""венецуелански шпански""

msgid ""Vietnamese""
msgstr ""вијетнамски""

msgid ""Wed""
msgstr ""сре.""

msgid ""Wednesday""
msgstr ""среда""

msgid ""Welsh""
msgstr ""велшки""

msgid ""a minute ago""
msgid_plural ""%[1]v minutes ago""
msgstr[0] ""пре %[1]v минута""
msgstr[1] ""пре %[1]v минута""
msgstr[2] ""пре %[1]v минута""

msgid ""a minute from now""
msgid_plural ""%[1]v minutes from now""
msgstr[0] ""%[1]v минут од сад""
msgstr[1] ""%[1]v минута од сада""
msgstr[2] ""%[1]v минута од сада""

msgid ""a second ago""
msgid_plural ""%[1]v seconds ago""
msgstr[0] ""пре %[1]v секунде""
msgstr[1] ""пре %[1]v секунде""
msgstr[2] ""пре %[1]v секунди""

msgid ""a second from now""
msgid_plural ""%[1]v seconds from now""
msgstr[0] ""%[1]v секунда од сад""
msgstr[1] ""%[1]v секунде од сада""
msgstr[2] ""%[1]v секунди од сада""

msgid ""a.m.""
msgstr ""пре п.""

msgid ""an hour ago""
msgid_plural ""%[1]v hours ago""
msgstr[0] ""пре %[1]v сата""
msgstr[1] ""пре %[1]v сата""
msgstr[2] ""пре %[1]v сати""

msgid ""an hour from now""
msgid_plural ""%[1]v hours from now""
msgstr[0] ""%[1]v сат од сад""
msgstr[1] ""%[1]v сата од сада""
msgstr[2] ""%[1]v сати од сада""

msgid ""apr""
msgstr ""апр.""

msgid ""aug""
msgstr ""ауг.""

msgid ""dec""
msgstr ""дец.""

msgid ""eight""
msgstr ""осам""

msgid ""feb""
msgstr ""феб.""

msgid ""five""
msgstr ""пет""

msgid ""four""
msgstr ""четири""

msgid ""jan""
msgstr ""јан.""

msgid ""jul""
msgstr ""јул.""

msgid ""jun""
msgstr ""јун.""

msgid ""mar""
msgstr ""мар.""

msgid ""may""
msgstr ""мај.""

msgid ""midnight""
msgstr ""поноћ""

msgid ""nine""
msgstr ""девет""

msgid ""noon""
msgstr ""подне""

msgid ""nov""
msgstr ""нов.""

msgid ""now""
msgstr ""сада""

msgid ""oct""
msgstr ""окт.""

msgid ""one""
msgstr ""један""

msgid ""p.m.""
msgstr ""по п.""

msgid ""sep""
msgstr ""сеп.""

msgid ""seven""
msgstr ""седам""

msgid ""six""
msgstr ""шест""

msgid ""three""
msgstr ""три""

msgid ""today""
msgstr ""данас""

msgid ""tomorrow""
msgstr ""сутра""

msgid ""two""
msgstr ""два""

msgid ""yesterday""
msgstr ""јуче""

msgctxt ""abbrev. month""
msgid ""April""
msgstr ""Април""

msgctxt ""abbrev. month""
msgid ""Aug.""
msgstr ""Авг.""

msgctxt ""abbrev. month""
msgid ""Dec.""
msgstr ""Дец.""

msgctxt ""abbrev. month""
msgid ""Feb.""
msgstr ""Феб.""

msgctxt ""abbrev. month""
msgid ""Jan.""
msgstr ""Јан.""

msgctxt ""abbrev. month""
msgid ""July""
msgstr ""Јул""

msgctxt ""abbrev. month""
msgid ""June""
msgstr ""Јун""

msgctxt ""abbrev. month""
msgid ""March""
msgstr ""Март""

msgctxt ""abbrev. month""
msgid ""May""
msgstr ""Мај""

msgctxt ""abbrev. month""
msgid ""Nov.""
msgstr ""Нов.""

msgctxt ""abbrev. month""
msgid ""Oct.""
msgstr ""Окт.""

msgctxt ""abbrev. month""
msgid ""Sept.""
msgstr ""Септ.""

msgctxt ""alt. month""
msgid ""April""
msgstr ""Април""

msgctxt ""alt. month""
msgid ""August""
msgstr ""Август""

msgctxt ""alt. month""
msgid ""December""
msgstr ""Децембар""

msgctxt ""alt. month""
msgid ""February""
msgstr ""Фебруар""

msgctxt ""alt. month""
msgid ""January""
msgstr ""Јануар""

msgctxt ""alt. month""
msgid ""July""
msgstr ""Јул""

msgctxt ""alt. month""
msgid ""June""
msgstr ""Јун""

msgctxt ""alt. month""
msgid ""March""
msgstr ""Март""

msgctxt ""alt. month""
msgid ""May""
msgstr ""Мај""

msgctxt ""alt. month""
msgid ""November""
msgstr ""Новембар""

msgctxt ""alt. month""
msgid ""October""
msgstr ""Октобар""

msgctxt ""alt. month""
msgid ""September""
msgstr ""Септембар""

msgctxt ""naturaltime-future""
msgid ""%[1]v day""
msgid_plural ""%[1]v days""
msgstr[0] ""%[1]v дан""
msgstr[1] ""%[1]v дана""
msgstr[2] ""%[1]v дана""

msgctxt ""naturaltime-future""
msgid ""%[1]v hour""
msgid_plural ""%[1]v hours""
msgstr[0] ""%[1]v сат""
msgstr[1] ""%[1]v сата""
msgstr[2] ""%[1]v сати""

msgctxt ""naturaltime-future""
msgid ""%[1]v minute""
msgid_plural ""%[1]v minutes""
msgstr[0] ""%[1]v минут""
msgstr[1] ""%[1]v минута""
msgstr[2] ""%[1]v минута""

msgctxt ""naturaltime-future""
msgid ""%[1]v month""
msgid_plural ""%[1]v months""
msgstr[0] ""%[1]v месец""
msgstr[1] ""%[1]v месеца""
msgstr[2] ""%[1]v месеци""

msgctxt ""naturaltime-future""
msgid ""%[1]v week""
msgid_plural ""%[1]v weeks""
msgstr[0] ""%[1]v недеља""
msgstr[1] ""%[1]v недеље""
msgstr[2] ""%[1]v недеља""

msgctxt ""naturaltime-future""
msgid ""%[1]v year""
msgid_plural ""%[1]v years""
msgstr[0] ""%[1]v година""
msgstr[1] ""%[1]v године""
msgstr[2] ""%[1]v година""

msgctxt ""naturaltime-past""
msgid ""%[1]v day""
msgid_plural ""%[1]v days""
msgstr[0] ""%[1]v дан""
msgstr[1] ""%[1]v дана""
msgstr[2] ""%[1]v дана""

msgctxt ""naturaltime-past""
msgid ""%[1]v hour""
msgid_plural ""%[1]v hours""
msgstr[0] ""%[1]v сат""
msgstr[1] ""%[1]v сата""
msgstr[2] ""%[1]v сати""

msgctxt ""naturaltime-past""
msgid ""%[1]v minute""
msgid_plural ""%[1]v minutes""
msgstr[0] ""%[1]v минут""
msgstr[1] ""%[1]v минута""
msgstr[2] ""%[1]v минута""

msgctxt ""naturaltime-past""
msgid ""%[1]v month""
msgid_plural ""%[1]v months""
msgstr[0] ""%[1]v месец""
msgstr[1] ""%[1]v месеца""
msgstr[2] ""%[1]v месеци""

msgctxt ""naturaltime-past""
msgid ""%[1]v week""
msgid_plural ""%[1]v weeks""
msgstr[0] ""%[1]v недеља""
msgstr[1] ""%[1]v недеље""
msgstr[2] ""%[1]v недеља""

msgctxt ""naturaltime-past""
msgid ""%[1]v year""
msgid_plural ""%[1]v years""
msgstr[0] ""%[1]v година""
msgstr[1] ""%[1]v године""
msgstr[2] ""%[1]v година""

msgctxt ""ordinal 0""
msgid ""%vth""
msgstr ""%v-ти""

msgctxt ""ordinal 1""
msgid ""%vst""
msgstr ""%v-и""

msgctxt ""ordinal 11, 12, 13""
msgid ""%vth""
msgstr ""%v-ти""

msgctxt ""ordinal 2""
msgid ""%vnd""
msgstr ""%v-и""

msgctxt ""ordinal 3""
msgid ""%vrd""
msgstr ""%v-и""

msgctxt ""ordinal 4""
msgid ""%vth""
msgstr ""%v-и""

msgctxt ""ordinal 5""
msgid ""%vth""
msgstr ""%v-и""

msgctxt ""ordinal 6""
msgid ""%vth""
msgstr ""%v-и""

msgctxt ""ordinal 7""
msgid ""%vth""
msgstr ""%v-и""

msgctxt ""ordinal 8""
msgid ""%vth""
msgstr ""%v-и""

msgctxt ""ordinal 9""
msgid ""%vth""
msgstr ""%v-и""
".
(** humanize/locale/sr/locale.go (New) *)
Definition loc_sr : locale_data := LD (bs "sr") [(bs "django.po", po_sr)]
  (Some (FD (bs "j. F Y.") (bs "H:i") (bs "j. F Y. H:i") (bs "F Y.") (bs "j. F") (bs "j.m.Y.") (bs "j.m.Y. H:i"))).

(** humanize/locale/srLatn/django.po *)
Definition po_srLatn : bytes := bs "# This file is distributed under the same license as the Django package.
# 
# Translators:
# Aleksa Cukovic` <aleksacukovic1@gmail.com>, 2020
# Danijela Popović, 2022
# Igor Jerosimić, 2019-2021,2023-2024
# Jannis Leidel <jannis@leidel.info>, 2011
# Janos Guljas <janos@resenje.org>, 2011-2012
msgid """"
msgstr """"
""Project-Id-Version: django\n""
""Report-Msgid-Bugs-To: \n""
""POT-Creation-Date: 2024-05-22 11:46-0300\n""
""PO-Revision-Date: 2024-08-07 06:49+0000\n""
""Last-Translator: Igor Jerosimić, 2019-2021,2023-2024\n""
""Language-Team: Serbian (Latin) (http://app.transifex.com/django/django/language/sr@latin/)\n""
""Language: sr@latin\n""
""MIME-Version: 1.0\n""
""Content-Type: text/plain; charset=UTF-8\n""
""Content-Transfer-Encoding: 8bit\n""
""Plural-Forms: nplurals=3; plural=(n%10==1 && n%100!=11 ? 0 : n%10>=2 && n%10<=4 && (n%100<10 || n%100>=20) ? 1 : 2);\n""

msgid ""%[1]d byte""
msgid_plural ""%[1]d bytes""
msgstr[0] ""%[1]d bajt""
msgstr[1] ""%[1]d bajta""
msgstr[2] ""%[1]d bajtova""

msgid ""%[1]s billion""
msgid_plural ""%[1]s billion""
msgstr[0] ""%[1]s milijarda""
msgstr[1] ""%[1]s milijarde""
msgstr[2] ""%[1]s milijardi""

msgid ""%[1]s decillion""
msgid_plural ""%[1]s decillion""
msgstr[0] ""%[1]s kvantilijarda""
msgstr[1] ""%[1]s kvantilijarde""
msgstr[2] ""%[1]s kvantilijardi""

msgid ""%[1]s googol""
msgid_plural ""%[1]s googol""
msgstr[0] ""%[1]s gugol""
msgstr[1] ""%[1]s gugola""
msgstr[2] ""%[1]s gugola""

msgid ""%[1]s million""
msgid_plural ""%[1]s million""
msgstr[0] ""%[1]s milion""
msgstr[1] ""%[1]s miliona""
msgstr[2] ""%[1]s miliona""

msgid ""%[1]s nonillion""
msgid_plural ""%[1]s nonillion""
msgstr[0] ""%[1]s kvantilion""
msgstr[1] ""%[1]s kvantiliona""
msgstr[2] ""%[1]s kvantiliona""

msgid ""%[1]s octillion""
msgid_plural ""%[1]s octillion""
msgstr[0] ""%[1]s kvadrilijarda""
msgstr[1] ""%[1]s kvadrilijarde""
msgstr[2] ""%[1]s kvadrilijardi""

msgid ""%[1]s quadrillion""
msgid_plural ""%[1]s quadrillion""
msgstr[0] ""%[1]s bilijarda""
msgstr[1] ""%[1]s bilijarde""
msgstr[2] ""%[1]s bilijardi""

msgid ""%[1]s quintillion""
msgid_plural ""%[1]s quintillion""
msgstr[0] ""%[1]s trilion""
msgstr[1] ""%[1]s triliona""
msgstr[2] ""%[1]s triliona""

msgid ""%[1]s septillion""
msgid_plural ""%[1]s septillion""
msgstr[0] ""%[1]s kvadrilion""
msgstr[1] ""%[1]s kvadriliona""
msgstr[2] ""%[1]s kvadriliona""

msgid ""%[1]s sextillion""
msgid_plural ""%[1]s sextillion""
msgstr[0] ""%[1]s trilijarda""
msgstr[1] ""%[1]s trilijarde""
msgstr[2] ""%[1]s trilijardi""

msgid ""%[1]s trillion""
msgid_plural ""%[1]s trillion""
msgstr[0] ""%[1]s bilion""
msgstr[1] ""%[1]s biliona""
msgstr[2] ""%[1]s biliona""

msgid ""%[1]v ago""
msgstr ""pre %[1]v""

msgid ""%[1]v day""
msgid_plural ""%[1]v days""
msgstr[0] ""%[1]v dan""
msgstr[1] ""%[1]v dana""
msgstr[2] ""%[1]v dana""

msgid ""%[1]v from now""
msgstr ""%[1]v od sad""

msgid ""%[1]v hour""
msgid_plural ""%[1]v hours""
msgstr[0] ""%[1]v sat""
msgstr[1] ""%[1]v sata""
msgstr[2] ""%[1]v sati""

msgid ""%[1]v minute""
msgid_plural ""%[1]v minutes""
msgstr[0] ""%[1]v minut""
msgstr[1] ""%[1]v minuta""
msgstr[2] ""%[1]v minuta""

msgid ""%[1]v month""
msgid_plural ""%[1]v months""
msgstr[0] ""%[1]v mesec""
msgstr[1] ""%[1]v meseca""
msgstr[2] ""%[1]v meseci""

msgid ""%[1]v week""
msgid_plural ""%[1]v weeks""
msgstr[0] ""%[1]v nedelja""
msgstr[1] ""%[1]v nedelje""
msgstr[2] ""%[1]v nedelja""

msgid ""%[1]v year""
msgid_plural ""%[1]v years""
msgstr[0] ""%[1]v godina""
msgstr[1] ""%[1]v godine""
msgstr[2] ""%[1]v godina""

msgid ""%s GB""
msgstr ""%s GB""

msgid ""%s KB""
msgstr ""%s KB""

msgid ""%s MB""
msgstr ""%s MB""

msgid ""%s PB""
msgstr ""%s PB""

msgid ""%s TB""
msgstr ""%s TB""

msgid "", ""
msgstr "",""

msgid ""AM""
msgstr ""AM""

msgid ""Afrikaans""
msgstr ""afrikanski""

msgid ""Albanian""
msgstr ""albanski""

msgid ""Algerian Arabic""
msgstr ""Alžirski arapski""

msgid ""April""
msgstr ""april""

msgid ""Arabic""
msgstr ""arapski""

msgid ""Argentinian Spanish""
msgstr ""argentinski španski""

msgid ""Armenian""
msgstr ""jermenski""

msgid ""Asturian""
msgstr ""asturijski""

msgid ""August""
msgstr ""avgust""

msgid ""Australian English""
msgstr ""australijski engleski""

msgid ""Azerbaijani""
msgstr ""azerbejdžanski""

msgid ""Basque""
msgstr ""baskijski""

msgid ""Belarusian""
msgstr ""beloruski""

msgid ""Bengali""
msgstr ""bengalski""

msgid ""Bosnian""
msgstr ""bosanski""

msgid ""Brazilian Portuguese""
msgstr ""brazilski portugalski""

msgid ""Breton""
msgstr ""bretonski""

msgid ""British English""
msgstr ""britanski engleski""

msgid ""Bulgarian""
msgstr ""bugarski""

msgid ""Burmese""
msgstr ""burmanski""

msgid ""Catalan""
msgstr ""katalonski""

msgid ""Central Kurdish (Sorani)""
msgstr ""centralnokurdski (sorani)""

msgid ""Colombian Spanish""
msgstr ""kolumbijski španski""

msgid ""Croatian""
msgstr ""hrvatski""

msgid ""Czech""
msgstr ""češki""

msgid ""Danish""
msgstr ""danski""

msgid ""December""
msgstr ""decembar""

msgid ""Dutch""
msgstr ""holandski""

msgid ""English""
msgstr ""engleski""

msgid ""Esperanto""
msgstr ""esperanto""

msgid ""Estonian""
msgstr ""estonski""

msgid ""February""
msgstr ""februar""

msgid ""Finnish""
msgstr ""finski""

msgid ""French""
msgstr ""francuski""

msgid ""Fri""
msgstr ""pet.""

msgid ""Friday""
msgstr ""petak""

msgid ""Frisian""
msgstr ""frizijski""

msgid ""Galician""
msgstr ""galski""

msgid ""Georgian""
msgstr ""gruzijski""

msgid ""German""
msgstr ""nemački""

msgid ""Greek""
msgstr ""grčki""

msgid ""Hebrew""
msgstr ""hebrejski""

msgid ""Hindi""
msgstr ""hindu""

msgid ""Hungarian""
msgstr ""mađarski""

msgid ""Icelandic""
msgstr ""islandski""

msgid ""Ido""
msgstr ""ido""

msgid ""Igbo""
msgstr ""Igbo""

msgid ""Indonesian""
msgstr ""indonežanski""

msgid ""Interlingua""
msgstr ""interlingva""

msgid ""Irish""
msgstr ""irski""

msgid ""Italian""
msgstr ""italijanski""

msgid ""January""
msgstr ""januar""

msgid ""Japanese""
msgstr ""japanski""

msgid ""July""
msgstr ""jul""

msgid ""June""
msgstr ""jun""

msgid ""Kabyle""
msgstr ""kabilski""

msgid ""Kannada""
msgstr ""kanada""

msgid ""Kazakh""
msgstr ""kazaški""

msgid ""Khmer""
msgstr ""kambodijski""

msgid ""Korean""
msgstr ""korejski""

msgid ""Kyrgyz""
msgstr ""Kirgiski""

msgid ""Latvian""
msgstr ""latvijski""

msgid ""Lithuanian""
msgstr ""litvanski""

msgid ""Lower Sorbian""
msgstr ""donjolužičkosrpski""

msgid ""Luxembourgish""
msgstr ""luksemburški""

msgid ""Macedonian""
msgstr ""makedonski""

msgid ""Malay""
msgstr ""malajski""

msgid ""Malayalam""
msgstr ""malajalamski""

msgid ""Marathi""
msgstr ""marathi""

msgid ""March""
msgstr ""mart""

msgid ""May""
msgstr ""maj""

msgid ""Mexican Spanish""
msgstr ""meksički španski""

msgid ""Mon""
msgstr ""pon.""

msgid ""Monday""
msgstr ""ponedeljak""

msgid ""Mongolian""
msgstr ""mongolski""

msgid ""Nepali""
msgstr ""nepalski""

msgid ""Nicaraguan Spanish""
msgstr ""nikaragvanski španski""

msgid ""Norwegian Bokmål""
msgstr ""norveški književni""

msgid ""Norwegian Nynorsk""
msgstr ""norveški novi""

msgid ""November""
msgstr ""novembar""

msgid ""October""
msgstr ""oktobar""

msgid ""Ossetic""
msgstr ""osetinski""

msgid ""PM""
msgstr ""PM""

msgid ""Persian""
msgstr ""persijski""

msgid ""Polish""
msgstr ""poljski""

msgid ""Portuguese""
msgstr ""portugalski""

msgid ""Punjabi""
msgstr ""Pandžabi""

msgid ""Romanian""
msgstr ""rumunski""

msgid ""Russian""
msgstr ""ruski""

msgid ""Sat""
msgstr ""sub.""

msgid ""Saturday""
msgstr ""subota""

msgid ""Scottish Gaelic""
msgstr ""škotski galski""

msgid ""September""
msgstr ""septembar""

msgid ""Serbian""
msgstr ""srpski""

msgid ""Serbian Latin""
msgstr ""srpski (latinica)""

msgid ""Simplified Chinese""
msgstr ""novokineski""

msgid ""Slovak""
msgstr ""slovački""

msgid ""Slovenian""
msgstr ""slovenački""

msgid ""Spanish""
msgstr ""španski""

msgid ""Sun""
msgstr ""ned.""

msgid ""Sunday""
msgstr ""nedelja""

msgid ""Swahili""
msgstr ""svahili""

msgid ""Swedish""
msgstr ""švedski""

msgid ""Tajik""
msgstr ""Tadžiki""

msgid ""Tamil""
msgstr ""tamilski""

msgid ""Tatar""
msgstr ""tatarski""

msgid ""Telugu""
msgstr ""telugu""

msgid ""Thai""
msgstr ""tajlandski""

msgid ""Thu""
msgstr ""čet.""

msgid ""Thursday""
msgstr ""četvrtak""

msgid ""Traditional Chinese""
msgstr ""starokineski""

msgid ""Tue""
msgstr ""uto.""

msgid ""Tuesday""
msgstr ""utorak""

msgid ""Turkish""
msgstr ""turski""

msgid ""Turkmen""
msgstr ""Turkmenski""

msgid ""Udmurt""
msgstr ""udmurtski""

msgid ""Ukrainian""
msgstr ""ukrajinski""

msgid ""Upper Sorbian""
msgstr ""gornjolužičkosrpski""

msgid ""Urdu""
msgstr ""Urdu""

msgid ""Uyghur""
msgstr ""Ujgur""

msgid ""Uzbek""
msgstr ""Uzbekistanski""

msgid ""Venezuelan Spanish""
msgstr ""venecuelanski španski""

msgid ""Vietnamese""
msgstr ""vijetnamski""

msgid ""Wed""
msgstr ""sre.""

msgid ""Wednesday""
msgstr ""sreda""

msgid ""Welsh""
msgstr ""velški""

msgid ""a minute ago""
msgid_plural ""%[1]v minutes ago""
msgstr[0] ""pre minut""
msgstr[1] ""pre %[1]v minuta""
msgstr[2] ""pre %[1]v minuta""

msgid ""a minute from now""
msgid_plural ""%[1]v minutes from now""
msgstr[0] ""minut od sad""
msgstr[1] ""%[1]v minuta od sada""
msgstr[2] ""%[1]v minuta od sada""

msgid ""a second ago""
msgid_plural ""%[1]v seconds ago""
msgstr[0] ""pre sekund""
msgstr[1] ""pre %[1]v sekunde""
msgstr[2] ""pre %[1]v sekundi""

msgid ""a second from now""
msgid_plural ""%[1]v seconds from now""
msgstr[0] ""sekund od sad""
msgstr[1] ""%[1]v sekunde od sada""
msgstr[2] ""%[1]v sekundi od sada""

msgid ""a.m.""
msgstr ""pre p.""

msgid ""an hour ago""
msgid_plural ""%[1]v hours ago""
msgstr[0] ""pre sat""
msgstr[1] ""pre %[1]v sata""
msgstr[2] ""pre %[1]v sati""

msgid ""an hour from now""
msgid_plural ""%[1]v hours from now""
msgstr[0] ""sat od sad""
msgstr[1] ""%[1]v sata od sada""
msgstr[2] ""%[1]v sati od sada""

msgid ""apr""
msgstr ""apr.""

msgid ""aug""
msgstr ""aug.""

msgid ""dec""
msgstr ""dec.""

msgid ""eight""
msgstr ""osam""

msgid ""feb""
msgstr ""feb.""

msgid ""five""
msgstr ""pet""

msgid ""four""
msgstr ""četiri""

msgid ""jan""
msgstr ""jan.""

msgid ""jul""
msgstr ""jul.""

msgid ""jun""
msgstr ""jun.""

msgid ""mar""
msgstr ""mar.""

msgid ""may""
msgstr ""maj.""

msgid ""midnight""
msgstr ""ponoć""

msgid ""nine""
msgstr ""devet""

msgid ""noon""
msgstr ""podne""

msgid ""nov""
msgstr ""nov.""

msgid ""now""
msgstr ""sada""

msgid ""oct""
msgstr ""okt.""

msgid ""one""
msgstr ""jedan""

msgid ""p.m.""
msgstr ""po p.""

msgid ""sep""
msgstr ""sep.""

msgid ""seven""
msgstr ""sedam""

msgid ""six""
msgstr ""šest""

msgid ""three""
msgstr ""tri""

msgid ""today""
msgstr ""danas""

msgid ""tomorrow""
msgstr ""sutra""

msgid ""two""
msgstr ""dva""

msgid ""yesterday""
msgstr ""juče""

msgctxt ""abbrev. month""
msgid ""April""
msgstr ""April""

msgctxt ""abbrev. month""
msgid ""Aug.""
msgstr ""Avg.""

msgctxt ""abbrev. month""
msgid ""Dec.""
msgstr ""Dec.""

msgctxt ""abbrev. month""
msgid ""Feb.""
msgstr ""Feb.""

msgctxt ""abbrev. month""
msgid ""Jan.""
msgstr ""Jan.""

msgctxt ""abbrev. month""
msgid ""July""
msgstr ""Jul""

msgctxt ""abbrev. month""
msgid ""June""
msgstr ""Jun""

msgctxt ""abbrev. month""
msgid ""March""
msgstr ""Mart""

msgctxt ""abbrev. month""
msgid ""May""
msgstr ""Maj""

msgctxt ""abbrev. month""
msgid ""Nov.""
msgstr ""Nov.""

msgctxt ""abbrev. month""
msgid ""Oct.""
msgstr ""Okt.""

msgctxt ""abbrev. month""
msgid ""Sept.""
msgstr ""Sept.""

msgctxt ""alt. month""
msgid ""April""
msgstr ""April""

msgctxt ""alt. month""
msgid ""August""
msgstr ""Avgust""

msgctxt ""alt. month""
msgid ""December""
msgstr ""Decembar""

msgctxt ""alt. month""
msgid ""February""
msgstr ""Februar""

msgctxt ""alt. month""
msgid ""January""
msgstr ""Januar""

msgctxt ""alt. month""
msgid ""July""
msgstr ""Jul""

msgctxt ""alt. month""
msgid ""June""
msgstr ""Jun""

msgctxt ""alt. month""
msgid ""March""
msgstr ""Mart""

msgctxt ""alt. month""
msgid ""May""
msgstr ""Maj""

msgctxt ""alt. month""
msgid ""November""
msgstr ""Novembar""

msgctxt ""alt. month""
msgid ""October""
msgstr ""Oktobar""

msgctxt ""alt. month""
msgid ""September""
msgstr ""Septembar""

msgctxt ""naturaltime-future""
msgid ""%[1]v day""
msgid_plural ""%[1]v days""
msgstr[0] ""%[1]v dan""
msgstr[1] ""%[1]v dana""
msgstr[2] ""%[1]v dana""

msgctxt ""naturaltime-future""
msgid ""%[1]v hour""
msgid_plural ""%[1]v hours""
msgstr[0] ""%[1]v sat""
msgstr[1] ""%[1]v sata""
msgstr[2] ""%[1]v sati""

msgctxt ""naturaltime-future""
msgid ""%[1]v minute""
msgid_plural ""%[1]v minutes""
msgstr[0] ""%[1]v minut""
msgstr[1] ""%[1]v minuta""
msgstr[2] ""%[1]v minuta""

msgctxt ""naturaltime-future""
msgid ""%[1]v month""
msgid_plural ""%[1]v months""
msgstr[0] ""%[1]v mesec""
msgstr[1] ""%[1]v meseca""
msgstr[2] ""%[1]v meseci""

msgctxt ""naturaltime-future""
msgid ""%[1]v week""
msgid_plural ""%[1]v weeks""
msgstr[0] ""%[1]v nedelja""
msgstr[1] ""%[1]v nedelje""
msgstr[2] ""%[1]v nedelja""

msgctxt ""naturaltime-future""
msgid ""%[1]v year""
msgid_plural ""%[1]v years""
msgstr[0] ""%[1]v godina""
msgstr[1] ""%[1]v godine""
msgstr[2] ""%[1]v godina""

msgctxt ""naturaltime-past""
msgid ""%[1]v day""
msgid_plural ""%[1]v days""
msgstr[0] ""%[1]v dan""
msgstr[1] ""%[1]v dana""
msgstr[2] ""%[1]v dana""

msgctxt ""naturaltime-past""
msgid ""%[1]v hour""
msgid_plural ""%[1]v hours""
msgstr[0] ""%[1]v sat""
msgstr[1] ""%[1]v sata""
msgstr[2] ""%[1]v sati""

msgctxt ""naturaltime-past""
msgid ""%[1]v minute""
msgid_plural ""%[1]v minutes""
msgstr[0] ""%[1]v minut""
msgstr[1] ""%[1]v minuta""
msgstr[2] ""%[1]v minuta""

msgctxt ""naturaltime-past""
msgid ""%[1]v month""
msgid_plural ""%[1]v months""
msgstr[0] ""%[1]v mesec""
msgstr[1] ""%[1]v meseca""
msgstr[2] ""%[1]v meseci""

msgctxt ""naturaltime-past""
msgid ""%[1]v week""
msgid_plural ""%[1]v weeks""
msgstr[0] ""%[1]v nedelja""
msgstr[1] ""%[1]v nedelje""
msgstr[2] ""%[1]v nedelja""

msgctxt ""naturaltime-past""
msgid ""%[1]v year""
msgid_plural ""%[1]v years""
msgstr[0] ""%[1]v godina""
msgstr[1] ""%[1]v godine""
msgstr[2] ""%[1]v godina""

msgctxt ""ordinal 0""
msgid ""%vth""
msgstr ""%v-ti""

msgctxt ""ordinal 1""
msgid ""%vst""
msgstr ""%v-i""

msgctxt ""ordinal 11, 12, 13""
msgid ""%vth""
msgstr ""%v-ti""

msgctxt ""ordinal 2""
msgid ""%vnd""
msgstr ""%v-i""

msgctxt ""ordinal 3""
msgid ""%vrd""
msgstr ""%v-i""

msgctxt ""ordinal 4""
msgid ""%vth""
msgstr ""%v-i""

msgctxt ""ordinal 5""
msgid ""%vth""
msgstr ""%v-i""

msgctxt ""ordinal 6""
msgid ""%vth""
msgstr ""%v-i""

msgctxt ""ordinal 7""
msgid ""%vth""
msgstr ""%v-i""

msgctxt ""ordinal 8""
msgid ""%vth""
msgstr ""%v-i""

msgctxt ""ordinal 9""
msgid ""%vth""
msgstr ""%v-i""
".
(** humanize/locale/srLatn/locale.go (New) *)
Definition loc_srLatn : locale_data := LD (bs "sr-Latn") [(bs "django.po", po_srLatn)]
  (Some (FD (bs "j. F Y.") (bs "H:i") (bs "j. F Y. H:i") (bs "F Y.") (bs "j. F") (bs "j.m.Y.") (bs "j.m.Y. H:i"))).

Definition shipped_8 : list (bytes * locale_data) :=
  [(bs "pl", loc_pl);
   (bs "pt", loc_pt);
   (bs "ptBR", loc_ptBR);
   (bs "ro", loc_ro);
   (bs "ru", loc_ru);
   (bs "sk", loc_sk);
   (bs "sl", loc_sl);
   (bs "sq", loc_sq);
   (bs "sr", loc_sr);
   (bs "srLatn", loc_srLatn)].
