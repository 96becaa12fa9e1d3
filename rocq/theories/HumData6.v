(** Translations and formats that come with humanize, part 6: generated by
    tools/gen_humdata.py from /repo/humanize/locale, django.po and the Go file of
    each package. *)
From Coq Require Import String Ascii List.
From Verif Require Import Base DfmtModel HumLocModel.
Import ListNotations.

(** humanize/locale/kk/django.po *)
Definition po_kk : bytes := bs "# This file is distributed under the same license as the Django package.
# 
# Translators:
# Baurzhan Muftakhidinov <baurthefirst@gmail.com>, 2015
# Zharzhan Kulmyrza <zharzhan@gmail.com>, 2011
# Leo Trubach <leotrubach@gmail.com>, 2017
# Nurlan Rakhimzhanov <nurlan.rakhimzhanov@gmail.com>, 2011
# yun_man_ger <germanilyin@gmail.com>, 2011
msgid """"
msgstr """"
""Project-Id-Version: django\n""
""Report-Msgid-Bugs-To: \n""
""POT-Creation-Date: 2019-09-27 22:40+0200\n""
""PO-Revision-Date: 2019-11-05 00:38+0000\n""
""Last-Translator: Ramiro Morales\n""
""Language-Team: Kazakh (http://www.transifex.com/django/django/language/kk/)\n""
""Language: kk\n""
""MIME-Version: 1.0\n""
""Content-Type: text/plain; charset=UTF-8\n""
""Content-Transfer-Encoding: 8bit\n""
""Plural-Forms: nplurals=2; plural=(n!=1);\n""

msgid ""%[1]d byte""
msgid_plural ""%[1]d bytes""
msgstr[0] ""%[1]d байт""
msgstr[1] ""%[1]d байт""

msgid ""%[1]s billion""
msgid_plural ""%[1]s billion""
msgstr[0] ""%[1]s миллиард""
msgstr[1] ""%[1]s миллиард""

msgid ""%[1]s decillion""
msgid_plural ""%[1]s decillion""
msgstr[0] """"
msgstr[1] """"

msgid ""%[1]s googol""
msgid_plural ""%[1]s googol""
msgstr[0] """"
msgstr[1] """"

msgid ""%[1]s million""
msgid_plural ""%[1]s million""
msgstr[0] ""%[1]s миллион""
msgstr[1] ""%[1]s миллион""

msgid ""%[1]s nonillion""
msgid_plural ""%[1]s nonillion""
msgstr[0] """"
msgstr[1] """"

msgid ""%[1]s octillion""
msgid_plural ""%[1]s octillion""
msgstr[0] """"
msgstr[1] """"

msgid ""%[1]s quadrillion""
msgid_plural ""%[1]s quadrillion""
msgstr[0] ""%[1]s квадриллион""
msgstr[1] ""%[1]s квадриллион""

msgid ""%[1]s quintillion""
msgid_plural ""%[1]s quintillion""
msgstr[0] ""%[1]s квинтиллион""
msgstr[1] ""%[1]s квинтиллион""

msgid ""%[1]s septillion""
msgid_plural ""%[1]s septillion""
msgstr[0] """"
msgstr[1] """"

msgid ""%[1]s sextillion""
msgid_plural ""%[1]s sextillion""
msgstr[0] """"
msgstr[1] """"

msgid ""%[1]s trillion""
msgid_plural ""%[1]s trillion""
msgstr[0] ""%[1]s trillion""
msgstr[1] ""%[1]s trillion""

msgid ""%[1]v ago""
msgstr """"

msgid ""%[1]v from now""
msgstr """"

msgid ""%s GB""
msgstr ""%s ГБ""

msgid ""%s KB""
msgstr ""%s КБ""

msgid ""%s MB""
msgstr ""%s МБ""

msgid ""%s PB""
msgstr ""%s ПБ""

msgid ""%s TB""
msgstr ""%s ТБ""

msgid "", ""
msgstr "", ""

msgid ""AM""
msgstr ""ТЖ""

msgid ""Afrikaans""
msgstr """"

msgid ""Albanian""
msgstr ""Албан""

msgid ""April""
msgstr ""Сәуір""

msgid ""Arabic""
msgstr ""Араб""

msgid ""Argentinian Spanish""
msgstr ""Аргентиналық испан""

msgid ""Armenian""
msgstr """"

msgid ""Asturian""
msgstr """"

msgid ""August""
msgstr ""Тамыз""

msgid ""Australian English""
msgstr """"

msgid ""Azerbaijani""
msgstr ""Әзірбайжан""

msgid ""Basque""
msgstr ""Баск""

msgid ""Belarusian""
msgstr """"

msgid ""Bengali""
msgstr ""Бенгал""

msgid ""Bosnian""
msgstr ""Босния""

msgid ""Brazilian Portuguese""
msgstr ""Бразилиялық португал""

msgid ""Breton""
msgstr """"

msgid ""British English""
msgstr ""Британдық ағылшын""

msgid ""Bulgarian""
msgstr ""Болгар""

msgid ""Burmese""
msgstr """"

msgid ""Catalan""
msgstr ""Каталан""

msgid ""Colombian Spanish""
msgstr """"

msgid ""Croatian""
msgstr ""Кроат""

msgid ""Czech""
msgstr ""Чех""

msgid ""Danish""
msgstr ""Дания""

msgid ""December""
msgstr ""Желтоқсан""

msgid ""Dutch""
msgstr ""Голланд""

msgid ""English""
msgstr ""Ағылшын""

msgid ""Esperanto""
msgstr """"

msgid ""Estonian""
msgstr ""Эстон""

msgid ""February""
msgstr ""Ақпан""

msgid ""Finnish""
msgstr ""Фин""

msgid ""French""
msgstr ""Француз""

msgid ""Fri""
msgstr ""Жм""

msgid ""Friday""
msgstr ""Жума""

msgid ""Frisian""
msgstr ""Фриз""

msgid ""Galician""
msgstr ""Галиц""

msgid ""Georgian""
msgstr ""Грузин""

msgid ""German""
msgstr ""Неміс""

msgid ""Greek""
msgstr ""Грек""

msgid ""Hebrew""
msgstr ""Иврит""

msgid ""Hindi""
msgstr ""Хинди""

msgid ""Hungarian""
msgstr ""Венгрия""

msgid ""Icelandic""
msgstr ""Исладия""

msgid ""Ido""
msgstr """"

msgid ""Indonesian""
msgstr ""Индонезия""

msgid ""Interlingua""
msgstr """"

msgid ""Irish""
msgstr ""Ирландия""

msgid ""Italian""
msgstr ""Итальян""

msgid ""January""
msgstr ""Қаңтар""

msgid ""Japanese""
msgstr ""Жапон""

msgid ""July""
msgstr ""Шілде""

msgid ""June""
msgstr ""Маусым""

msgid ""Kabyle""
msgstr """"

msgid ""Kannada""
msgstr ""Канада""

msgid ""Kazakh""
msgstr ""Қазақша""

msgid ""Khmer""
msgstr ""Кхмер""

msgid ""Korean""
msgstr ""Корей""

msgid ""Latvian""
msgstr ""Латвия""

msgid ""Lithuanian""
msgstr ""Литва""

msgid ""Lower Sorbian""
msgstr """"

msgid ""Luxembourgish""
msgstr """"

msgid ""Macedonian""
msgstr ""Македон""

msgid ""Malayalam""
msgstr ""Малаялам""

msgid ""Marathi""
msgstr """"

msgid ""March""
msgstr ""Наурыз""

msgid ""May""
msgstr ""Мамыр""

msgid ""Mexican Spanish""
msgstr ""Мексикалық испан""

msgid ""Mon""
msgstr ""Дб""

msgid ""Monday""
msgstr ""Дүйсенбі""

msgid ""Mongolian""
msgstr ""Монғол""

msgid ""Nepali""
msgstr """"

msgid ""Nicaraguan Spanish""
msgstr ""Никарагуа испан""

msgid ""Norwegian Bokmål""
msgstr """"

msgid ""Norwegian Nynorsk""
msgstr ""Норвегиялық нюнор""

msgid ""November""
msgstr ""Қараша""

msgid ""October""
msgstr ""Қазан""

msgid ""Ossetic""
msgstr """"

msgid ""PM""
msgstr ""ТҚ""

msgid ""Persian""
msgstr ""Парсы""

msgid ""Polish""
msgstr ""Поляк""

msgid ""Portuguese""
msgstr ""Португал""

msgid ""Punjabi""
msgstr ""Пенджаб""

msgid ""Romanian""
msgstr ""Роман""

msgid ""Russian""
msgstr ""Орыс""

msgid ""Sat""
msgstr ""Сн""

msgid ""Saturday""
msgstr ""Сенбі""

msgid ""Scottish Gaelic""
msgstr """"

msgid ""September""
msgstr ""Қыркүйек""

msgid ""Serbian""
msgstr ""Серб""

msgid ""Serbian Latin""
msgstr ""Сербиялық латын""

msgid ""Simplified Chinese""
msgstr ""Жеңілдетілген қытай""

msgid ""Slovak""
msgstr ""Словак""

msgid ""Slovenian""
msgstr ""Словениялық""

msgid ""Spanish""
msgstr ""Испан""

msgid ""Sun""
msgstr ""Жк""

msgid ""Sunday""
msgstr ""Жексенбі""

msgid ""Swahili""
msgstr """"

msgid ""Swedish""
msgstr ""Швед""

msgid ""Tamil""
msgstr ""Тамиль""

msgid ""Tatar""
msgstr """"

msgid ""Telugu""
msgstr ""Телугу""

msgid ""Thai""
msgstr ""Тай""

msgid ""Thu""
msgstr ""Бс""

msgid ""Thursday""
msgstr ""Бейсенбі""

msgid ""Traditional Chinese""
msgstr ""Дәстүрлі қытай""

msgid ""Tue""
msgstr ""Сб""

msgid ""Tuesday""
msgstr ""Сейсенбі""

msgid ""Turkish""
msgstr ""Түрік""

msgid ""Udmurt""
msgstr """"

msgid ""Ukrainian""
msgstr ""Украин""

msgid ""Upper Sorbian""
msgstr """"

msgid ""Urdu""
msgstr ""Урду""

msgid ""Uzbek""
msgstr """"

msgid ""Venezuelan Spanish""
msgstr """"

msgid ""Vietnamese""
msgstr ""Вьетнам""

msgid ""Wed""
msgstr ""Ср""

msgid ""Wednesday""
msgstr ""Сәрсенбі""

msgid ""Welsh""
msgstr ""Валлий""

msgid ""a minute ago""
msgid_plural ""%[1]v minutes ago""
msgstr[0] """"
msgstr[1] """"

msgid ""a minute from now""
msgid_plural ""%[1]v minutes from now""
msgstr[0] """"
msgstr[1] """"

msgid ""a second ago""
msgid_plural ""%[1]v seconds ago""
msgstr[0] """"
msgstr[1] """"

msgid ""a second from now""
msgid_plural ""%[1]v seconds from now""
msgstr[0] """"
msgstr[1] """"

msgid ""a.m.""
msgstr ""Т.Ж.""

msgid ""an hour ago""
msgid_plural ""%[1]v hours ago""
msgstr[0] """"
msgstr[1] """"

msgid ""an hour from now""
msgid_plural ""%[1]v hours from now""
msgstr[0] """"
msgstr[1] """"

msgid ""apr""
msgstr ""сәу""

msgid ""aug""
msgstr ""там""

msgid ""dec""
msgstr ""жел""

msgid ""eight""
msgstr ""сегіз""

msgid ""feb""
msgstr ""ақп""

msgid ""five""
msgstr ""бес""

msgid ""four""
msgstr ""төрт""

msgid ""jan""
msgstr ""қан""

msgid ""jul""
msgstr ""шіл""

msgid ""jun""
msgstr ""мау""

msgid ""mar""
msgstr ""нау""

msgid ""may""
msgstr ""мам""

msgid ""midnight""
msgstr ""түнжарым""

msgid ""nine""
msgstr ""тоғыз""

msgid ""noon""
msgstr ""түсқайта""

msgid ""nov""
msgstr ""қар""

msgid ""now""
msgstr ""кәзір""

msgid ""oct""
msgstr ""қаз""

msgid ""one""
msgstr ""бір""

msgid ""p.m.""
msgstr ""Т.Қ.""

msgid ""sep""
msgstr ""қыр""

msgid ""seven""
msgstr ""жеті""

msgid ""six""
msgstr ""алты""

msgid ""three""
msgstr ""үш""

msgid ""today""
msgstr ""бүгін""

msgid ""tomorrow""
msgstr ""ерте""

msgid ""two""
msgstr ""екі""

msgid ""yesterday""
msgstr ""кеше""

msgctxt ""abbrev. month""
msgid ""April""
msgstr ""Сәуір""

msgctxt ""abbrev. month""
msgid ""Aug.""
msgstr ""Там.""

msgctxt ""abbrev. month""
msgid ""Dec.""
msgstr ""Жел.""

msgctxt ""abbrev. month""
msgid ""Feb.""
msgstr ""Ақп.""

msgctxt ""abbrev. month""
msgid ""Jan.""
msgstr ""Қаң.""

msgctxt ""abbrev. month""
msgid ""July""
msgstr ""Шілде""

msgctxt ""abbrev. month""
msgid ""June""
msgstr ""Маусым""

msgctxt ""abbrev. month""
msgid ""March""
msgstr ""Наурыз""

msgctxt ""abbrev. month""
msgid ""May""
msgstr ""Мамыр""

msgctxt ""abbrev. month""
msgid ""Nov.""
msgstr ""Қар.""

msgctxt ""abbrev. month""
msgid ""Oct.""
msgstr ""Қаз.""

msgctxt ""abbrev. month""
msgid ""Sept.""
msgstr ""Қыр.""

msgctxt ""alt. month""
msgid ""April""
msgstr ""Сәуір""

msgctxt ""alt. month""
msgid ""August""
msgstr ""Тамыз""

msgctxt ""alt. month""
msgid ""December""
msgstr ""Желтоқсан""

msgctxt ""alt. month""
msgid ""February""
msgstr ""Ақпан""

msgctxt ""alt. month""
msgid ""January""
msgstr ""Қаңтар""

msgctxt ""alt. month""
msgid ""July""
msgstr ""Шілде""

msgctxt ""alt. month""
msgid ""June""
msgstr ""Маусым""

msgctxt ""alt. month""
msgid ""March""
msgstr ""Наурыз""

msgctxt ""alt. month""
msgid ""May""
msgstr ""Мамыр""

msgctxt ""alt. month""
msgid ""November""
msgstr ""Қараша""

msgctxt ""alt. month""
msgid ""October""
msgstr ""Қазан""

msgctxt ""alt. month""
msgid ""September""
msgstr ""Қыркүйек""

msgctxt ""ordinal 0""
msgid ""%vth""
msgstr """"

msgctxt ""ordinal 1""
msgid ""%vst""
msgstr """"

msgctxt ""ordinal 11, 12, 13""
msgid ""%vth""
msgstr """"

msgctxt ""ordinal 2""
msgid ""%vnd""
msgstr """"

msgctxt ""ordinal 3""
msgid ""%vrd""
msgstr """"

msgctxt ""ordinal 4""
msgid ""%vth""
msgstr """"

msgctxt ""ordinal 5""
msgid ""%vth""
msgstr """"

msgctxt ""ordinal 6""
msgid ""%vth""
msgstr """"

msgctxt ""ordinal 7""
msgid ""%vth""
msgstr """"

msgctxt ""ordinal 8""
msgid ""%vth""
msgstr """"

msgctxt ""ordinal 9""
msgid ""%vth""
msgstr """"
".
(** humanize/locale/kk/locale.go (New) *)
Definition loc_kk : locale_data := LD (bs "kk") [(bs "django.po", po_kk)]
  (None).

(** humanize/locale/km/django.po *)
Definition po_km : bytes := bs "# This file is distributed under the same license as the Django package.
# 
# Translators:
# Jannis Leidel <jannis@leidel.info>, 2011
# Natalia, 2025
msgid """"
msgstr """"
""Project-Id-Version: django\n""
""Report-Msgid-Bugs-To: \n""
""POT-Creation-Date: 2025-03-19 11:30-0500\n""
""PO-Revision-Date: 2025-09-17 06:49+0000\n""
""Last-Translator: Natalia, 2025\n""
""Language-Team: Khmer (http://app.transifex.com/django/django/language/km/)\n""
""Language: km\n""
""MIME-Version: 1.0\n""
""Content-Type: text/plain; charset=UTF-8\n""
""Content-Transfer-Encoding: 8bit\n""
""Plural-Forms: nplurals=1; plural=0;\n""

msgid ""%[1]d byte""
msgid_plural ""%[1]d bytes""
msgstr[0] """"
msgstr[1] """"

msgid ""%[1]s billion""
msgid_plural ""%[1]s billion""
msgstr[0] """"
msgstr[1] """"

msgid ""%[1]s decillion""
msgid_plural ""%[1]s decillion""
msgstr[0] """"
msgstr[1] """"

msgid ""%[1]s googol""
msgid_plural ""%[1]s googol""
msgstr[0] """"
msgstr[1] """"

msgid ""%[1]s million""
msgid_plural ""%[1]s million""
msgstr[0] """"
msgstr[1] """"

msgid ""%[1]s nonillion""
msgid_plural ""%[1]s nonillion""
msgstr[0] """"
msgstr[1] """"

msgid ""%[1]s octillion""
msgid_plural ""%[1]s octillion""
msgstr[0] """"
msgstr[1] """"

msgid ""%[1]s quadrillion""
msgid_plural ""%[1]s quadrillion""
msgstr[0] """"
msgstr[1] """"

msgid ""%[1]s quintillion""
msgid_plural ""%[1]s quintillion""
msgstr[0] """"
msgstr[1] """"

msgid ""%[1]s septillion""
msgid_plural ""%[1]s septillion""
msgstr[0] """"
msgstr[1] """"

msgid ""%[1]s sextillion""
msgid_plural ""%[1]s sextillion""
msgstr[0] """"
msgstr[1] """"

msgid ""%[1]s trillion""
msgid_plural ""%[1]s trillion""
msgstr[0] """"
msgstr[1] """"

msgid ""%[1]v day""
msgid_plural ""%[1]v days""
msgstr[0] """"
msgstr[1] """"

msgid ""%[1]v hour""
msgid_plural ""%[1]v hours""
msgstr[0] """"
msgstr[1] """"

msgid ""%[1]v minute""
msgid_plural ""%[1]v minutes""
msgstr[0] """"
msgstr[1] """"

msgid ""%[1]v month""
msgid_plural ""%[1]v months""
msgstr[0] """"
msgstr[1] """"

msgid ""%[1]v week""
msgid_plural ""%[1]v weeks""
msgstr[0] """"
msgstr[1] """"

msgid ""%[1]v year""
msgid_plural ""%[1]v years""
msgstr[0] """"
msgstr[1] """"

msgid ""%s GB""
msgstr """"

msgid ""%s KB""
msgstr """"

msgid ""%s MB""
msgstr """"

msgid ""%s PB""
msgstr """"

msgid ""%s TB""
msgstr """"

msgid "", ""
msgstr """"

msgid ""AM""
msgstr """"

msgid ""Afrikaans""
msgstr """"

msgid ""Albanian""
msgstr """"

msgid ""Algerian Arabic""
msgstr """"

msgid ""April""
msgstr ""មេសា""

msgid ""Arabic""
msgstr ""ភាសាអារ៉ាប់""

msgid ""Argentinian Spanish""
msgstr """"

msgid ""Armenian""
msgstr """"

msgid ""Asturian""
msgstr """"

msgid ""August""
msgstr ""សីហា""

msgid ""Australian English""
msgstr """"

msgid ""Azerbaijani""
msgstr """"

msgid ""Basque""
msgstr """"

msgid ""Belarusian""
msgstr """"

msgid ""Bengali""
msgstr ""ភាសាបេឡារុស្ស""

msgid ""Bosnian""
msgstr """"

msgid ""Brazilian Portuguese""
msgstr """"

msgid ""Breton""
msgstr """"

msgid ""British English""
msgstr """"

msgid ""Bulgarian""
msgstr """"

msgid ""Burmese""
msgstr """"

msgid ""Catalan""
msgstr """"

msgid ""Central Kurdish (Sorani)""
msgstr """"

msgid ""Colombian Spanish""
msgstr """"

msgid ""Croatian""
msgstr """"

msgid ""Czech""
msgstr ""ភាសាឆេក""

msgid ""Danish""
msgstr ""ភាសាដាណឺម៉ាក""

msgid ""December""
msgstr ""ធ្នូ""

msgid ""Dutch""
msgstr ""ភាសាហ្វាំងឡង់""

msgid ""English""
msgstr ""ភាសាអង់គ្លេស""

msgid ""Esperanto""
msgstr """"

msgid ""Estonian""
msgstr """"

msgid ""February""
msgstr ""កុម្ភៈ""

msgid ""Finnish""
msgstr ""ភាសាហ្វាំងឡង់""

msgid ""French""
msgstr ""ភាសាបារាំង""

msgid ""Fri""
msgstr """"

msgid ""Friday""
msgstr ""សុក្រ""

msgid ""Frisian""
msgstr """"

msgid ""Galician""
msgstr ""ភាសាហ្កែលិគ""

msgid ""Georgian""
msgstr """"

msgid ""German""
msgstr ""ភាសាអាល្លឺម៉ង់""

msgid ""Greek""
msgstr ""ភាសាហ្កែលិគ""

msgid ""Hebrew""
msgstr ""ភាសាហេប្រិ""

msgid ""Hindi""
msgstr """"

msgid ""Hungarian""
msgstr ""ភាសាហុងគ្រី""

msgid ""Icelandic""
msgstr ""ភាសាអ៉ីស្លង់""

msgid ""Ido""
msgstr """"

msgid ""Igbo""
msgstr """"

msgid ""Indonesian""
msgstr """"

msgid ""Interlingua""
msgstr """"

msgid ""Irish""
msgstr """"

msgid ""Italian""
msgstr ""ភាសាអ៊ីតាលី""

msgid ""January""
msgstr ""មករា""

msgid ""Japanese""
msgstr ""ភាសាជប៉ុន""

msgid ""July""
msgstr ""កក្កដា""

msgid ""June""
msgstr ""មិថុនា""

msgid ""Kabyle""
msgstr """"

msgid ""Kannada""
msgstr """"

msgid ""Kazakh""
msgstr """"

msgid ""Khmer""
msgstr """"

msgid ""Korean""
msgstr """"

msgid ""Kyrgyz""
msgstr """"

msgid ""Latvian""
msgstr """"

msgid ""Lithuanian""
msgstr """"

msgid ""Lower Sorbian""
msgstr """"

msgid ""Luxembourgish""
msgstr """"

msgid ""Macedonian""
msgstr """"

msgid ""Malay""
msgstr """"

msgid ""Malayalam""
msgstr """"

msgid ""Marathi""
msgstr """"

msgid ""March""
msgstr ""មិនា""

msgid ""May""
msgstr ""ឧសភា""

msgid ""Mexican Spanish""
msgstr """"

msgid ""Mon""
msgstr """"

msgid ""Monday""
msgstr ""ច័ន្ទ""

msgid ""Mongolian""
msgstr """"

msgid ""Nepali""
msgstr """"

msgid ""Nicaraguan Spanish""
msgstr """"

msgid ""Norwegian Bokmål""
msgstr """"

msgid ""Norwegian Nynorsk""
msgstr """"

msgid ""November""
msgstr ""វិច្ឆិកា""

msgid ""October""
msgstr ""តុលា""

msgid ""Ossetic""
msgstr """"

msgid ""PM""
msgstr """"

msgid ""Persian""
msgstr """"

msgid ""Polish""
msgstr """"

msgid ""Portuguese""
msgstr """"

msgid ""Punjabi""
msgstr """"

msgid ""Romanian""
msgstr ""ភាសារូម៉ានី""

msgid ""Russian""
msgstr ""ភាសាรัរូស្ស៉ី""

msgid ""Sat""
msgstr """"

msgid ""Saturday""
msgstr ""សៅរ៍""

msgid ""Scottish Gaelic""
msgstr """"

msgid ""September""
msgstr ""កញ្ញា""

msgid ""Serbian""
msgstr """"

msgid ""Serbian Latin""
msgstr """"

msgid ""Simplified Chinese""
msgstr ""ភាសាចិនសាមញ្ញ""

msgid ""Slovak""
msgstr ""ភាសាស្លូវ៉ាគី""

msgid ""Slovenian""
msgstr ""ភាសាស្លូវ៉ានី""

msgid ""Spanish""
msgstr ""ភាសាអេស្ប៉ាញ""

msgid ""Sun""
msgstr """"

msgid ""Sunday""
msgstr ""អាទិត្យ""

msgid ""Swahili""
msgstr """"

msgid ""Swedish""
msgstr ""ភាសាស៊ុយអែដ""

msgid ""Tajik""
msgstr """"

msgid ""Tamil""
msgstr ""ភាសាតាមីល""

msgid ""Tatar""
msgstr """"

msgid ""Telugu""
msgstr """"

msgid ""Thai""
msgstr """"

msgid ""Thu""
msgstr """"

msgid ""Thursday""
msgstr ""ព្រហស្បតិ៍""

msgid ""Traditional Chinese""
msgstr ""ភាសាចិនបុរាណ""

msgid ""Tue""
msgstr """"

msgid ""Tuesday""
msgstr ""អង្គារ""

msgid ""Turkish""
msgstr ""ភាសាទួរគី""

msgid ""Turkmen""
msgstr """"

msgid ""Udmurt""
msgstr """"

msgid ""Ukrainian""
msgstr ""ភាសាអ៊ុយក្រែន""

msgid ""Upper Sorbian""
msgstr """"

msgid ""Urdu""
msgstr """"

msgid ""Uyghur""
msgstr """"

msgid ""Uzbek""
msgstr """"

msgid ""Venezuelan Spanish""
msgstr """"

msgid ""Vietnamese""
msgstr """"

msgid ""Wed""
msgstr """"

msgid ""Wednesday""
msgstr ""ពុធ""

msgid ""Welsh""
msgstr ""ភាសាអ៊ុយក្រែន""

msgid ""a minute ago""
msgid_plural ""%[1]v minutes ago""
msgstr[0] """"
msgstr[1] """"

msgid ""a minute from now""
msgid_plural ""%[1]v minutes from now""
msgstr[0] """"
msgstr[1] """"

msgid ""a second ago""
msgid_plural ""%[1]v seconds ago""
msgstr[0] """"
msgstr[1] """"

msgid ""a second from now""
msgid_plural ""%[1]v seconds from now""
msgstr[0] """"
msgstr[1] """"

msgid ""a.m.""
msgstr """"

msgid ""an hour ago""
msgid_plural ""%[1]v hours ago""
msgstr[0] """"
msgstr[1] """"

msgid ""an hour from now""
msgid_plural ""%[1]v hours from now""
msgstr[0] """"
msgstr[1] """"

msgid ""apr""
msgstr ""មេសា""

msgid ""aug""
msgstr ""សីហា""

msgid ""dec""
msgstr ""ធ្នូ""

msgid ""eight""
msgstr """"

msgid ""feb""
msgstr ""កុម្ភះ""

msgid ""five""
msgstr """"

msgid ""four""
msgstr """"

msgid ""jan""
msgstr ""មករា""

msgid ""jul""
msgstr ""កក្កដា""

msgid ""jun""
msgstr ""មិថុនា""

msgid ""mar""
msgstr ""មិនា""

msgid ""may""
msgstr ""ឧសភា""

msgid ""midnight""
msgstr """"

msgid ""nine""
msgstr """"

msgid ""noon""
msgstr """"

msgid ""nov""
msgstr ""វិច្ឆិកា""

msgid ""now""
msgstr """"

msgid ""oct""
msgstr ""តុលា""

msgid ""one""
msgstr """"

msgid ""p.m.""
msgstr """"

msgid ""sep""
msgstr ""កញ្ញា""

msgid ""seven""
msgstr """"

msgid ""six""
msgstr """"

msgid ""three""
msgstr """"

msgid ""today""
msgstr """"

msgid ""tomorrow""
msgstr """"

msgid ""two""
msgstr """"

msgid ""yesterday""
msgstr """"

msgctxt ""abbrev. month""
msgid ""April""
msgstr ""មេសា""

msgctxt ""abbrev. month""
msgid ""Aug.""
msgstr """"

msgctxt ""abbrev. month""
msgid ""Dec.""
msgstr """"

msgctxt ""abbrev. month""
msgid ""Feb.""
msgstr """"

msgctxt ""abbrev. month""
msgid ""Jan.""
msgstr """"

msgctxt ""abbrev. month""
msgid ""July""
msgstr ""កក្កដា""

msgctxt ""abbrev. month""
msgid ""June""
msgstr ""មិថុនា""

msgctxt ""abbrev. month""
msgid ""March""
msgstr ""មិនា""

msgctxt ""abbrev. month""
msgid ""May""
msgstr ""ឧសភា""

msgctxt ""abbrev. month""
msgid ""Nov.""
msgstr """"

msgctxt ""abbrev. month""
msgid ""Oct.""
msgstr """"

msgctxt ""abbrev. month""
msgid ""Sept.""
msgstr """"

msgctxt ""alt. month""
msgid ""April""
msgstr ""មេសា""

msgctxt ""alt. month""
msgid ""August""
msgstr ""សីហា""

msgctxt ""alt. month""
msgid ""December""
msgstr ""ធ្នូ""

msgctxt ""alt. month""
msgid ""February""
msgstr ""កុម្ភៈ""

msgctxt ""alt. month""
msgid ""January""
msgstr ""មករា""

msgctxt ""alt. month""
msgid ""July""
msgstr ""កក្កដា""

msgctxt ""alt. month""
msgid ""June""
msgstr ""មិថុនា""

msgctxt ""alt. month""
msgid ""March""
msgstr ""មិនា""

msgctxt ""alt. month""
msgid ""May""
msgstr ""ឧសភា""

msgctxt ""alt. month""
msgid ""November""
msgstr ""វិច្ឆិកា""

msgctxt ""alt. month""
msgid ""October""
msgstr ""តុលា""

msgctxt ""alt. month""
msgid ""September""
msgstr ""កញ្ញា""
".
(** humanize/locale/km/locale.go (New) *)
Definition loc_km : locale_data := LD (bs "km") [(bs "django.po", po_km)]
  (Some (FD (bs "j ខែ F ឆ្នាំ Y") (bs "G:i") (bs "j ខែ F ឆ្នាំ Y, G:i") (bs "") (bs "j F") (bs "j M Y") (bs "j M Y, G:i"))).

(** humanize/locale/kn/django.po *)
Definition po_kn : bytes := bs "# This file is distributed under the same license as the Django package.
# 
# Translators:
# Jannis Leidel <jannis@leidel.info>, 2011
# karthikbgl <karthikbgl@gmail.com>, 2011-2012
# Ramakrishna Yekulla <ramkrsna@gmail.com>, 2011
msgid """"
msgstr """"
""Project-Id-Version: django\n""
""Report-Msgid-Bugs-To: \n""
""POT-Creation-Date: 2019-09-27 22:40+0200\n""
""PO-Revision-Date: 2019-11-05 00:38+0000\n""
""Last-Translator: Ramiro Morales\n""
""Language-Team: Kannada (http://www.transifex.com/django/django/language/kn/)\n""
""Language: kn\n""
""MIME-Version: 1.0\n""
""Content-Type: text/plain; charset=UTF-8\n""
""Content-Transfer-Encoding: 8bit\n""
""Plural-Forms: nplurals=2; plural=(n > 1);\n""

msgid ""%[1]d byte""
msgid_plural ""%[1]d bytes""
msgstr[0] ""%[1]d ಬೈಟ್‌ಗಳು""
msgstr[1] ""%[1]d ಬೈಟ್‌ಗಳು""

msgid ""%[1]s billion""
msgid_plural ""%[1]s billion""
msgstr[0] """"
msgstr[1] """"

msgid ""%[1]s decillion""
msgid_plural ""%[1]s decillion""
msgstr[0] """"
msgstr[1] """"

msgid ""%[1]s googol""
msgid_plural ""%[1]s googol""
msgstr[0] """"
msgstr[1] """"

msgid ""%[1]s million""
msgid_plural ""%[1]s million""
msgstr[0] """"
msgstr[1] """"

msgid ""%[1]s nonillion""
msgid_plural ""%[1]s nonillion""
msgstr[0] """"
msgstr[1] """"

msgid ""%[1]s octillion""
msgid_plural ""%[1]s octillion""
msgstr[0] """"
msgstr[1] """"

msgid ""%[1]s quadrillion""
msgid_plural ""%[1]s quadrillion""
msgstr[0] """"
msgstr[1] """"

msgid ""%[1]s quintillion""
msgid_plural ""%[1]s quintillion""
msgstr[0] """"
msgstr[1] """"

msgid ""%[1]s septillion""
msgid_plural ""%[1]s septillion""
msgstr[0] """"
msgstr[1] """"

msgid ""%[1]s sextillion""
msgid_plural ""%[1]s sextillion""
msgstr[0] """"
msgstr[1] """"

msgid ""%[1]s trillion""
msgid_plural ""%[1]s trillion""
msgstr[0] """"
msgstr[1] """"

msgid ""%s GB""
msgstr ""%s GB""

msgid ""%s KB""
msgstr ""%s KB""

msgid ""%s MB""
msgstr ""%s MB""

msgid ""%s PB""
msgstr ""%s PB""

msgid ""%s TB""
msgstr ""%s TB""

msgid "", ""
msgstr "", ""

msgid ""AM""
msgstr ""ಪೂರ್ವಾಹ್ನ""

msgid ""Afrikaans""
msgstr """"

msgid ""Albanian""
msgstr ""ಅಲ್ಬೆನಿಯನ್ ""

msgid ""April""
msgstr ""ಎಪ್ರಿಲ್""

msgid ""Arabic""
msgstr ""ಅರೇಬಿಕ್""

msgid ""Argentinian Spanish""
msgstr ""ಅರ್ಜೆಂಟಿನಿಯನ್ ಸ್ಪಾನಿಷ್""

msgid ""Armenian""
msgstr """"

msgid ""Asturian""
msgstr """"

msgid ""August""
msgstr ""ಆಗಸ್ಟ್""

msgid ""Australian English""
msgstr """"

msgid ""Azerbaijani""
msgstr ""ಆಜೆರ್ಬೈಜನಿ""

msgid ""Basque""
msgstr ""ಬಾಸ್ಕ್‍""

msgid ""Belarusian""
msgstr """"

msgid ""Bengali""
msgstr ""ಬೆಂಗಾಲಿ""

msgid ""Bosnian""
msgstr ""ಬೋಸ್ನಿಯನ್""

msgid ""Brazilian Portuguese""
msgstr ""ಬ್ರಜೀಲಿಯನ್ ಪೋರ್ಚುಗೀಸ್""

msgid ""Breton""
msgstr """"

msgid ""British English""
msgstr ""ಬ್ರಿಟೀಶ್ ಇಂಗ್ಲಿಷ್""

msgid ""Bulgarian""
msgstr ""ಬಲ್ಗೇರಿಯನ್""

msgid ""Burmese""
msgstr """"

msgid ""Catalan""
msgstr ""ಕೆಟಲಾನ್""

msgid ""Colombian Spanish""
msgstr """"

msgid ""Croatian""
msgstr ""ಕ್ರೊಯೇಶಿಯನ್""

msgid ""Czech""
msgstr ""ಝೆಕ್""

msgid ""Danish""
msgstr ""ಡ್ಯಾನಿಷ್""

msgid ""December""
msgstr ""ಡಿಸೆಂಬರ್""

msgid ""Dutch""
msgstr ""ಡಚ್""

msgid ""English""
msgstr ""ಇಂಗ್ಲಿಷ್""

msgid ""Esperanto""
msgstr """"

msgid ""Estonian""
msgstr ""ಎಷ್ಟೋನಿಯನ್""

msgid ""February""
msgstr ""ಫೆಬ್ರುವರಿ""

msgid ""Finnish""
msgstr ""ಫಿನ್ನಿಶ್""

msgid ""French""
msgstr ""ಫ್ರೆಂಚ್""

msgid ""Fri""
msgstr ""ಶುಕ್ರ""

msgid ""Friday""
msgstr ""ಶುಕ್ರವಾರ""

msgid ""Frisian""
msgstr ""ಫ್ರಿಸಿಯನ್""

msgid ""Galician""
msgstr ""ಗೆಲಿಶಿಯನ್""

msgid ""Georgian""
msgstr ""ಜಾರ್ಜೆಯನ್ ""

msgid ""German""
msgstr ""ಜರ್ಮನ್""

msgid ""Greek""
msgstr ""ಗ್ರೀಕ್""

msgid ""Hebrew""
msgstr ""ಹೀಬ್ರೂ""

msgid ""Hindi""
msgstr ""ಹಿಂದಿ""

msgid ""Hungarian""
msgstr ""ಹಂಗೇರಿಯನ್""

msgid ""Icelandic""
msgstr ""ಐಸ್‌ಲ್ಯಾಂಡಿಕ್""

msgid ""Ido""
msgstr """"

msgid ""Indonesian""
msgstr ""ಇಂಡೋನಿಶಿಯನ್""

msgid ""Interlingua""
msgstr """"

msgid ""Irish""
msgstr ""ಐರಿಶ್""

msgid ""Italian""
msgstr ""ಇಟಾಲಿಯನ್""

msgid ""January""
msgstr ""ಜನವರಿ""

msgid ""Japanese""
msgstr ""ಜಾಪನೀಸ್""

msgid ""July""
msgstr ""ಜುಲೈ""

msgid ""June""
msgstr ""ಜೂನ್""

msgid ""Kabyle""
msgstr """"

msgid ""Kannada""
msgstr ""ಕನ್ನಡ""

msgid ""Kazakh""
msgstr """"

msgid ""Khmer""
msgstr ""ಖಮೇರ್""

msgid ""Korean""
msgstr ""ಕೊರಿಯನ್""

msgid ""Latvian""
msgstr ""ಲಾಟ್ವಿಯನ್""

msgid ""Lithuanian""
msgstr ""ಲಿತುವಾನಿಯನ್ ""

msgid ""Lower Sorbian""
msgstr """"

msgid ""Luxembourgish""
msgstr """"

msgid ""Macedonian""
msgstr ""ಮೆಸಡೊನಿಯನ್""

msgid ""Malayalam""
msgstr ""ಮಲಯಾಳಂ""

msgid ""Marathi""
msgstr """"

msgid ""March""
msgstr ""ಮಾರ್ಚ್""

msgid ""May""
msgstr ""ಮೇ""

msgid ""Mexican Spanish""
msgstr ""ಮೆಕ್ಸಿಕನ್ ಸ್ಪಾನಿಷ್""

msgid ""Mon""
msgstr ""ಸೋಮ""

msgid ""Monday""
msgstr ""ಸೋಮವಾರ""

msgid ""Mongolian""
msgstr ""ಮಂಗೊಲಿಯನ್""

msgid ""Nepali""
msgstr """"

msgid ""Nicaraguan Spanish""
msgstr ""nicarguan ಸ್ಪಾನಿಷ್""

msgid ""Norwegian Bokmål""
msgstr """"

msgid ""Norwegian Nynorsk""
msgstr ""ನಾರ್ವೇಜಿಯನ್ ನಿನೋರ್ಕ್""

msgid ""November""
msgstr ""ನವೆಂಬರ್""

msgid ""October""
msgstr ""ಅಕ್ಟೋಬರ್""

msgid ""Ossetic""
msgstr """"

msgid ""PM""
msgstr ""ಅಪರಾಹ್ನ""

msgid ""Persian""
msgstr ""ಪರ್ಶಿಯನ್""

msgid ""Polish""
msgstr ""ಪೋಲಿಷ್""

msgid ""Portuguese""
msgstr ""ಪೋರ್ಚುಗೀಸ್""

msgid ""Punjabi""
msgstr ""ಪಂಜಾಬಿ""

msgid ""Romanian""
msgstr ""ರೋಮೇನಿಯನ್""

msgid ""Russian""
msgstr ""ರಶಿಯನ್""

msgid ""Sat""
msgstr ""ಶನಿ""

msgid ""Saturday""
msgstr ""ಶನಿವಾರ""

msgid ""Scottish Gaelic""
msgstr """"

msgid ""September""
msgstr ""ಸೆಪ್ಟೆಂಬರ್""

msgid ""Serbian""
msgstr ""ಸರ್ಬಿಯನ್""

msgid ""Serbian Latin""
msgstr ""ಸರ್ಬಿಯನ್ ಲ್ಯಾಟಿನ್""

msgid ""Simplified Chinese""
msgstr ""ಸರಳೀಕೃತ ಚೈನೀಸ್""

msgid ""Slovak""
msgstr ""ಸ್ಲೋವಾಕ್""

msgid ""Slovenian""
msgstr ""ಸ್ಲೋವೇನಿಯನ್""

msgid ""Spanish""
msgstr ""ಸ್ಪ್ಯಾನಿಷ್""

msgid ""Sun""
msgstr ""ರವಿ""

msgid ""Sunday""
msgstr ""ರವಿವಾರ""

msgid ""Swahili""
msgstr """"

msgid ""Swedish""
msgstr ""ಸ್ವೀಡಿಷ್""

msgid ""Tamil""
msgstr ""ತಮಿಳು""

msgid ""Tatar""
msgstr """"

msgid ""Telugu""
msgstr ""ತೆಲುಗು""

msgid ""Thai""
msgstr ""ಥಾಯ್""

msgid ""Thu""
msgstr ""ಗುರು""

msgid ""Thursday""
msgstr ""ಗುರುವಾರ""

msgid ""Traditional Chinese""
msgstr ""ಸಂಪ್ರದಾಯಿಕ ಚೈನೀಸ್ ""

msgid ""Tue""
msgstr ""ಮಂಗಳ""

msgid ""Tuesday""
msgstr ""ಮಂಗಳವಾರ""

msgid ""Turkish""
msgstr ""ಟರ್ಕಿಶ್""

msgid ""Udmurt""
msgstr """"

msgid ""Ukrainian""
msgstr ""ಉಕ್ರೇನಿಯನ್""

msgid ""Upper Sorbian""
msgstr """"

msgid ""Urdu""
msgstr ""ಉರ್ದು""

msgid ""Uzbek""
msgstr """"

msgid ""Venezuelan Spanish""
msgstr """"

msgid ""Vietnamese""
msgstr ""ವಿಯೆತ್ನಾಮೀಸ್""

msgid ""Wed""
msgstr ""ಬುಧ""

msgid ""Wednesday""
msgstr ""ಬುಧವಾರ""

msgid ""Welsh""
msgstr ""ವೆಲ್ಷ್""

msgid ""a minute ago""
msgid_plural ""%[1]v minutes ago""
msgstr[0] """"
msgstr[1] """"

msgid ""a minute from now""
msgid_plural ""%[1]v minutes from now""
msgstr[0] """"
msgstr[1] """"

msgid ""a second ago""
msgid_plural ""%[1]v seconds ago""
msgstr[0] """"
msgstr[1] """"

msgid ""a second from now""
msgid_plural ""%[1]v seconds from now""
msgstr[0] """"
msgstr[1] """"

msgid ""a.m.""
msgstr ""ಪೂರ್ವಾಹ್ನ""

msgid ""an hour ago""
msgid_plural ""%[1]v hours ago""
msgstr[0] """"
msgstr[1] """"

msgid ""an hour from now""
msgid_plural ""%[1]v hours from now""
msgstr[0] """"
msgstr[1] """"

msgid ""apr""
msgstr ""ಏಪ್ರಿಲ್""

msgid ""aug""
msgstr ""ಆಗಸ್ಟ್‍""

msgid ""dec""
msgstr ""ಡಿಸೆಂಬರ್""

msgid ""eight""
msgstr """"

msgid ""feb""
msgstr ""ಫೆಬ್ರವರಿ""

msgid ""five""
msgstr """"

msgid ""four""
msgstr """"

msgid ""jan""
msgstr ""ಜನವರಿ""

msgid ""jul""
msgstr ""ಜುಲೈ""

msgid ""jun""
msgstr ""ಜೂನ್""

msgid ""mar""
msgstr ""ಮಾರ್ಚ್""

msgid ""may""
msgstr ""ಮೇ""

msgid ""midnight""
msgstr ""ಮಧ್ಯರಾತ್ರಿ""

msgid ""nine""
msgstr """"

msgid ""noon""
msgstr ""ಮಧ್ಯಾಹ್ನ""

msgid ""nov""
msgstr ""ನವೆಂಬರ್""

msgid ""now""
msgstr """"

msgid ""oct""
msgstr ""ಅಕ್ಟೋಬರ್""

msgid ""one""
msgstr """"

msgid ""p.m.""
msgstr ""ಅಪರಾಹ್ನ""

msgid ""sep""
msgstr ""ಸೆಪ್ಟೆಂಬರ್""

msgid ""seven""
msgstr """"

msgid ""six""
msgstr """"

msgid ""three""
msgstr """"

msgid ""today""
msgstr """"

msgid ""tomorrow""
msgstr """"

msgid ""two""
msgstr """"

msgid ""yesterday""
msgstr """"

msgctxt ""abbrev. month""
msgid ""April""
msgstr ""ಏಪ್ರಿಲ್""

msgctxt ""abbrev. month""
msgid ""Aug.""
msgstr ""ಆಗ.""

msgctxt ""abbrev. month""
msgid ""Dec.""
msgstr ""ಡಿಸೆಂ.""

msgctxt ""abbrev. month""
msgid ""Feb.""
msgstr ""ಫೆಬ್ರ.""

msgctxt ""abbrev. month""
msgid ""Jan.""
msgstr ""ಜನ.""

msgctxt ""abbrev. month""
msgid ""July""
msgstr ""ಜುಲೈ""

msgctxt ""abbrev. month""
msgid ""June""
msgstr ""ಜೂನ್""

msgctxt ""abbrev. month""
msgid ""March""
msgstr ""ಮಾರ್ಚ್""

msgctxt ""abbrev. month""
msgid ""May""
msgstr ""ಮೇ""

msgctxt ""abbrev. month""
msgid ""Nov.""
msgstr ""ನವೆಂ.""

msgctxt ""abbrev. month""
msgid ""Oct.""
msgstr ""ಅಕ್ಟೋ.""

msgctxt ""abbrev. month""
msgid ""Sept.""
msgstr ""ಸೆಪ್ಟೆ.""

msgctxt ""alt. month""
msgid ""April""
msgstr ""ಏಪ್ರಿಲ್""

msgctxt ""alt. month""
msgid ""August""
msgstr ""ಆಗಸ್ಟ್‍""

msgctxt ""alt. month""
msgid ""December""
msgstr ""ಡಿಸೆಂಬರ್""

msgctxt ""alt. month""
msgid ""February""
msgstr ""ಫೆಬ್ರವರಿ""

msgctxt ""alt. month""
msgid ""January""
msgstr ""ಜನವರಿ""

msgctxt ""alt. month""
msgid ""July""
msgstr ""ಜುಲೈ""

msgctxt ""alt. month""
msgid ""June""
msgstr ""ಜೂನ್""

msgctxt ""alt. month""
msgid ""March""
msgstr ""ಮಾರ್ಚ್""

msgctxt ""alt. month""
msgid ""May""
msgstr ""ಮೇ""

msgctxt ""alt. month""
msgid ""November""
msgstr ""ನವೆಂಬರ್""

msgctxt ""alt. month""
msgid ""October""
msgstr ""ಅಕ್ಟೋಬರ್""

msgctxt ""alt. month""
msgid ""September""
msgstr ""ಸಪ್ಟೆಂಬರ್""
".
(** humanize/locale/kn/locale.go (New) *)
Definition loc_kn : locale_data := LD (bs "kn") [(bs "django.po", po_kn)]
  (Some (FD (bs "j F Y") (bs "h:i A") (bs "") (bs "") (bs "j F") (bs "j M Y") (bs ""))).

(** humanize/locale/ko/django.po *)
Definition po_ko : bytes := bs "# This file is distributed under the same license as the Django package.
# 
# Translators:
# BJ Jang <qgis.tr.kr@gmail.com>, 2014
# JunGu Kang <chr0m3.kr@gmail.com>, 2017
# Jiyoon, Ha <cryptography@konkuk.ac.kr>, 2016
# KwonHan <darjeeling@gmail.com>, 2024
# DONGHO JEONG <nearermg@gmail.com>, 2020
# Park Hyunwoo <ez.amiryo@gmail.com>, 2017
# Geonho Kim / Leo Kim <gh.leokim@gmail.com>, 2019
# hoseung2 <ghyutjik123@gmail.com>, 2017
# Ian Y. Choi <ianyrchoi@gmail.com>, 2015
# Jaehong Kim <mixe@korea.com>, 2011
# Jamie Seol, 2025
# Jannis Leidel <jannis@leidel.info>, 2011
# Jay Oh <theanswer.jay@gmail.com>, 2020
# Le Tartuffe <magno79@gmail.com>, 2014,2016
# Jonghwa Seo <dev@pincoin.co.kr>, 2019
# Jubeen Lee <ljb7977@gmail.com>, 2020
# JuneHyeon Bae <devunt@gmail.com>, 2014
# JunGu Kang <chr0m3.kr@gmail.com>, 2015
# JunGu Kang <chr0m3.kr@gmail.com>, 2019
# Kagami Sascha Rosylight <saschanaz@outlook.com>, 2017
# Mariusz Felisiak <felisiak.mariusz@gmail.com>, 2021
# Seho Noh <iam@sehonoh.kr>, 2018
# Seoeun(Sun☀️) Hong, 2023
# 최소영, 2024
# Subin Choi <os1742@gmail.com>, 2016
# Taesik Yoon <xotlr43@gmail.com>, 2015
# 정훈 이, 2021
# 김영빈, 2025
msgid """"
msgstr """"
""Project-Id-Version: django\n""
""Report-Msgid-Bugs-To: \n""
""POT-Creation-Date: 2025-03-19 11:30-0500\n""
""PO-Revision-Date: 2025-09-17 06:49+0000\n""
""Last-Translator: Jamie Seol, 2025\n""
""Language-Team: Korean (http://app.transifex.com/django/django/language/ko/)\n""
""Language: ko\n""
""MIME-Version: 1.0\n""
""Content-Type: text/plain; charset=UTF-8\n""
""Content-Transfer-Encoding: 8bit\n""
""Plural-Forms: nplurals=1; plural=0;\n""

msgid ""%[1]d byte""
msgid_plural ""%[1]d bytes""
msgstr[0] ""%[1]d 바이트""
msgstr[1] """"

msgid ""%[1]s billion""
msgid_plural ""%[1]s billion""
msgstr[0] ""%[1]s 십억""
msgstr[1] """"

msgid ""%[1]s decillion""
msgid_plural ""%[1]s decillion""
msgstr[0] ""%[1]s 디실리언-10의 33제곱""
msgstr[1] """"

msgid ""%[1]s googol""
msgid_plural ""%[1]s googol""
msgstr[0] ""%[1]s 구골-10의 100제곱""
msgstr[1] """"

msgid ""%[1]s million""
msgid_plural ""%[1]s million""
msgstr[0] ""%[1]s 백만""
msgstr[1] """"

msgid ""%[1]s nonillion""
msgid_plural ""%[1]s nonillion""
msgstr[0] ""%[1]s 노닐리언-10의30제곱""
msgstr[1] """"

msgid ""%[1]s octillion""
msgid_plural ""%[1]s octillion""
msgstr[0] ""%[1]s 옥틸리언-10의 27제곱""
msgstr[1] """"

msgid ""%[1]s quadrillion""
msgid_plural ""%[1]s quadrillion""
msgstr[0] ""%[1]s 천조""
msgstr[1] """"

msgid ""%[1]s quintillion""
msgid_plural ""%[1]s quintillion""
msgstr[0] ""%[1]s 백경""
msgstr[1] """"

msgid ""%[1]s septillion""
msgid_plural ""%[1]s septillion""
msgstr[0] ""%[1]s 셉틸리언-10의 24제곱""
msgstr[1] """"

msgid ""%[1]s sextillion""
msgid_plural ""%[1]s sextillion""
msgstr[0] ""%[1]s 섹틸리언-10의21제곱""
msgstr[1] """"

msgid ""%[1]s trillion""
msgid_plural ""%[1]s trillion""
msgstr[0] ""%[1]s 조""
msgstr[1] """"

msgid ""%[1]v ago""
msgstr ""%[1]v 전""

msgid ""%[1]v day""
msgid_plural ""%[1]v days""
msgstr[0] ""%[1]v일""
msgstr[1] """"

msgid ""%[1]v from now""
msgstr ""지금부터 %[1]v""

msgid ""%[1]v hour""
msgid_plural ""%[1]v hours""
msgstr[0] ""%[1]v시간""
msgstr[1] """"

msgid ""%[1]v minute""
msgid_plural ""%[1]v minutes""
msgstr[0] ""%[1]v분""
msgstr[1] """"

msgid ""%[1]v month""
msgid_plural ""%[1]v months""
msgstr[0] ""%[1]v개월""
msgstr[1] """"

msgid ""%[1]v week""
msgid_plural ""%[1]v weeks""
msgstr[0] ""%[1]v주""
msgstr[1] """"

msgid ""%[1]v year""
msgid_plural ""%[1]v years""
msgstr[0] ""%[1]v년""
msgstr[1] """"

msgid ""%s GB""
msgstr ""%s GB""

msgid ""%s KB""
msgstr ""%s KB""

msgid ""%s MB""
msgstr ""%s MB""

msgid ""%s PB""
msgstr ""%s PB""

msgid ""%s TB""
msgstr ""%s TB""

msgid "", ""
msgstr "", ""

msgid ""AM""
msgstr ""오전""

msgid ""Afrikaans""
msgstr ""아프리칸스어""

msgid ""Albanian""
msgstr ""알바니아어""

msgid ""Algerian Arabic""
msgstr ""알제리 아랍어""

msgid ""April""
msgstr ""4월""

msgid ""Arabic""
msgstr ""아랍어""

msgid ""Argentinian Spanish""
msgstr ""아르헨티나 스페인어""

msgid ""Armenian""
msgstr ""아르메니아어""

msgid ""Asturian""
msgstr ""호주어""

msgid ""August""
msgstr ""8월""

msgid ""Australian English""
msgstr ""영어(호주)""

msgid ""Azerbaijani""
msgstr ""아제르바이잔어""

msgid ""Basque""
msgstr ""바스크어""

msgid ""Belarusian""
msgstr ""벨라루스어""

msgid ""Bengali""
msgstr ""방글라데시어""

msgid ""Bosnian""
msgstr ""보스니아어""

msgid ""Brazilian Portuguese""
msgstr ""브라질 포르투갈어""

msgid ""Breton""
msgstr ""브르타뉴어""

msgid ""British English""
msgstr ""영어 (영국)""

msgid ""Bulgarian""
msgstr ""불가리어""

msgid ""Burmese""
msgstr ""미얀마어""

msgid ""Catalan""
msgstr ""카탈로니아어""

msgid ""Central Kurdish (Sorani)""
msgstr ""중부 쿠르드어 (소라니어)""

msgid ""Colombian Spanish""
msgstr ""콜롬비아 스페인어""

msgid ""Croatian""
msgstr ""크로아티아어""

msgid ""Czech""
msgstr ""체코어""

msgid ""Danish""
msgstr ""덴마크어""

msgid ""December""
msgstr ""12월""

msgid ""Dutch""
msgstr ""네덜란드어""

msgid ""English""
msgstr ""영어""

msgid ""Esperanto""
msgstr ""에스페란토어""

msgid ""Estonian""
msgstr ""에스토니아어""

msgid ""February""
msgstr ""2월""

msgid ""Finnish""
msgstr ""핀란드어""

msgid ""French""
msgstr ""프랑스어""

msgid ""Fri""
msgstr ""금요일""

msgid ""Friday""
msgstr ""금요일""

msgid ""Frisian""
msgstr ""프리슬란트어""

msgid ""Galician""
msgstr ""갈리시아어""

msgid ""Georgian""
msgstr ""조지아어""

msgid ""German""
msgstr ""독일어""

msgid ""Greek""
msgstr ""그리스어""

msgid ""Hebrew""
msgstr ""히브리어""

msgid ""Hindi""
msgstr ""힌두어""

msgid ""Hungarian""
msgstr ""헝가리어""

msgid ""Icelandic""
msgstr ""아이슬란드어""

msgid ""Ido""
msgstr ""이도어""

msgid ""Igbo""
msgstr ""이그보어""

msgid ""Indonesian""
msgstr ""인도네시아어""

msgid ""Interlingua""
msgstr ""인테르링구아어""

msgid ""Irish""
msgstr ""아일랜드어""

msgid ""Italian""
msgstr ""이탈리아어""

msgid ""January""
msgstr ""1월""

msgid ""Japanese""
msgstr ""일본어""

msgid ""July""
msgstr ""7월""

msgid ""June""
msgstr ""6월""

msgid ""Kabyle""
msgstr ""커바일어""

msgid ""Kannada""
msgstr ""칸나다어""

msgid ""Kazakh""
msgstr ""카자흐어""

msgid ""Khmer""
msgstr ""크메르어""

msgid ""Korean""
msgstr ""한국어""

msgid ""Kyrgyz""
msgstr ""키르키즈 공화국어""

msgid ""Latvian""
msgstr ""라트비아어""

msgid ""Lithuanian""
msgstr ""리투아니아어""

msgid ""Lower Sorbian""
msgstr ""저지 소르브어""

msgid ""Luxembourgish""
msgstr ""룩셈부르크""

msgid ""Macedonian""
msgstr ""마케도니아어""

msgid ""Malay""
msgstr ""말레이시아어""

msgid ""Malayalam""
msgstr ""말라얄람어""

msgid ""Marathi""
msgstr ""마라티어""

msgid ""March""
msgstr ""3월""

msgid ""May""
msgstr ""5월""

msgid ""Mexican Spanish""
msgstr ""멕시컨 스페인어""

msgid ""Mon""
msgstr ""월요일""

msgid ""Monday""
msgstr ""월요일""

msgid ""Mongolian""
msgstr ""몽고어""

msgid ""Nepali""
msgstr ""네팔어""

msgid ""Nicaraguan Spanish""
msgstr ""니카과라 스페인어""

msgid ""Norwegian Bokmål""
msgstr ""노르웨이어(보크몰)""

msgid ""Norwegian Nynorsk""
msgstr ""노르웨이어 (뉘노르스크)""

msgid ""November""
msgstr ""11월""

msgid ""October""
msgstr ""10월""

msgid ""Ossetic""
msgstr ""오세티아어""

msgid ""PM""
msgstr ""오후""

msgid ""Persian""
msgstr ""페르시아어""

msgid ""Polish""
msgstr ""폴란드어""

msgid ""Portuguese""
msgstr ""포르투갈어""

msgid ""Punjabi""
msgstr ""펀자브어""

msgid ""Romanian""
msgstr ""루마니아어""

msgid ""Russian""
msgstr ""러시아어""

msgid ""Sat""
msgstr ""토요일""

msgid ""Saturday""
msgstr ""토요일""

msgid ""Scottish Gaelic""
msgstr ""스코틀랜드 게일어""

msgid ""September""
msgstr ""9월""

msgid ""Serbian""
msgstr ""세르비아어""

msgid ""Serbian Latin""
msgstr ""세르비아어""

msgid ""Simplified Chinese""
msgstr ""중국어 간체""

msgid ""Slovak""
msgstr ""슬로바키아어""

msgid ""Slovenian""
msgstr ""슬로베니아어""

msgid ""Spanish""
msgstr ""스페인어""

msgid ""Sun""
msgstr ""일요일""

msgid ""Sunday""
msgstr ""일요일""

msgid ""Swahili""
msgstr ""스와힐리어""

msgid ""Swedish""
msgstr ""스웨덴어""

msgid ""Tajik""
msgstr ""타지크어""

msgid ""Tamil""
msgstr ""타밀어""

msgid ""Tatar""
msgstr ""타타르""

msgid ""Telugu""
msgstr ""텔루구어""

msgid ""Thai""
msgstr ""태국어""

msgid ""Thu""
msgstr ""목요일""

msgid ""Thursday""
msgstr ""목요일""

msgid ""Traditional Chinese""
msgstr ""중국어 번체""

msgid ""Tue""
msgstr ""화요일""

msgid ""Tuesday""
msgstr ""화요일""

msgid ""Turkish""
msgstr ""터키어""

msgid ""Turkmen""
msgstr ""튀르크멘어""

msgid ""Udmurt""
msgstr ""이제프스크""

msgid ""Ukrainian""
msgstr ""우크라이나어""

msgid ""Upper Sorbian""
msgstr ""고지 소르브어""

msgid ""Urdu""
msgstr ""우르드어""

msgid ""Uyghur""
msgstr ""위구르""

msgid ""Uzbek""
msgstr ""우즈베크어""

msgid ""Venezuelan Spanish""
msgstr ""베네수엘라 스페인어""

msgid ""Vietnamese""
msgstr ""베트남어""

msgid ""Wed""
msgstr ""수요일""

msgid ""Wednesday""
msgstr ""수요일""

msgid ""Welsh""
msgstr ""웨일즈어""

msgid ""a minute ago""
msgid_plural ""%[1]v minutes ago""
msgstr[0] ""%[1]v 분 전""
msgstr[1] """"

msgid ""a minute from now""
msgid_plural ""%[1]v minutes from now""
msgstr[0] ""지금부터 %[1]v 분""
msgstr[1] """"

msgid ""a second ago""
msgid_plural ""%[1]v seconds ago""
msgstr[0] ""%[1]v 초 전""
msgstr[1] """"

msgid ""a second from now""
msgid_plural ""%[1]v seconds from now""
msgstr[0] ""지금부터 %[1]v 초""
msgstr[1] """"

msgid ""a.m.""
msgstr ""오전""

msgid ""an hour ago""
msgid_plural ""%[1]v hours ago""
msgstr[0] ""%[1]v 시간 전""
msgstr[1] """"

msgid ""an hour from now""
msgid_plural ""%[1]v hours from now""
msgstr[0] ""지금부터 %[1]v 시간""
msgstr[1] """"

msgid ""apr""
msgstr ""4월""

msgid ""aug""
msgstr ""8월""

msgid ""dec""
msgstr ""12월""

msgid ""eight""
msgstr ""8""

msgid ""feb""
msgstr ""2월""

msgid ""five""
msgstr ""5""

msgid ""four""
msgstr ""4""

msgid ""jan""
msgstr ""1월""

msgid ""jul""
msgstr ""7월""

msgid ""jun""
msgstr ""6월""

msgid ""mar""
msgstr ""3월""

msgid ""may""
msgstr ""5월""

msgid ""midnight""
msgstr ""자정""

msgid ""nine""
msgstr ""9""

msgid ""noon""
msgstr ""정오""

msgid ""nov""
msgstr ""11월""

msgid ""now""
msgstr ""지금""

msgid ""oct""
msgstr ""10월""

msgid ""one""
msgstr ""1""

msgid ""p.m.""
msgstr ""오후""

msgid ""sep""
msgstr ""9월""

msgid ""seven""
msgstr ""7""

msgid ""six""
msgstr ""6""

msgid ""three""
msgstr ""3""

msgid ""today""
msgstr ""오늘""

msgid ""tomorrow""
msgstr ""내일""

msgid ""two""
msgstr ""2""

msgid ""yesterday""
msgstr ""어제""

msgctxt ""abbrev. month""
msgid ""April""
msgstr ""4월""

msgctxt ""abbrev. month""
msgid ""Aug.""
msgstr ""8월""

msgctxt ""abbrev. month""
msgid ""Dec.""
msgstr ""12월""

msgctxt ""abbrev. month""
msgid ""Feb.""
msgstr ""2월""

msgctxt ""abbrev. month""
msgid ""Jan.""
msgstr ""1월""

msgctxt ""abbrev. month""
msgid ""July""
msgstr ""7월""

msgctxt ""abbrev. month""
msgid ""June""
msgstr ""6월""

msgctxt ""abbrev. month""
msgid ""March""
msgstr ""3월""

msgctxt ""abbrev. month""
msgid ""May""
msgstr ""5월""

msgctxt ""abbrev. month""
msgid ""Nov.""
msgstr ""11월""

msgctxt ""abbrev. month""
msgid ""Oct.""
msgstr ""10월""

msgctxt ""abbrev. month""
msgid ""Sept.""
msgstr ""9월""

msgctxt ""alt. month""
msgid ""April""
msgstr ""4월""

msgctxt ""alt. month""
msgid ""August""
msgstr ""8월""

msgctxt ""alt. month""
msgid ""December""
msgstr ""12월""

msgctxt ""alt. month""
msgid ""February""
msgstr ""2월""

msgctxt ""alt. month""
msgid ""January""
msgstr ""1월""

msgctxt ""alt. month""
msgid ""July""
msgstr ""7월""

msgctxt ""alt. month""
msgid ""June""
msgstr ""6월""

msgctxt ""alt. month""
msgid ""March""
msgstr ""3월""

msgctxt ""alt. month""
msgid ""May""
msgstr ""5월""

msgctxt ""alt. month""
msgid ""November""
msgstr ""11월""

msgctxt ""alt. month""
msgid ""October""
msgstr ""10월""

msgctxt ""alt. month""
msgid ""September""
msgstr ""9월""

msgctxt ""naturaltime-future""
msgid ""%[1]v day""
msgid_plural ""%[1]v days""
msgstr[0] ""%[1]v일""
msgstr[1] """"

msgctxt ""naturaltime-future""
msgid ""%[1]v hour""
msgid_plural ""%[1]v hours""
msgstr[0] ""%[1]v시간""
msgstr[1] """"

msgctxt ""naturaltime-future""
msgid ""%[1]v minute""
msgid_plural ""%[1]v minutes""
msgstr[0] ""%[1]v분""
msgstr[1] """"

msgctxt ""naturaltime-future""
msgid ""%[1]v month""
msgid_plural ""%[1]v months""
msgstr[0] ""%[1]v개월""
msgstr[1] """"

msgctxt ""naturaltime-future""
msgid ""%[1]v week""
msgid_plural ""%[1]v weeks""
msgstr[0] ""%[1]v주""
msgstr[1] """"

msgctxt ""naturaltime-future""
msgid ""%[1]v year""
msgid_plural ""%[1]v years""
msgstr[0] ""%[1]v년""
msgstr[1] """"

msgctxt ""naturaltime-past""
msgid ""%[1]v day""
msgid_plural ""%[1]v days""
msgstr[0] ""%[1]v일""
msgstr[1] """"

msgctxt ""naturaltime-past""
msgid ""%[1]v hour""
msgid_plural ""%[1]v hours""
msgstr[0] ""%[1]v시간""
msgstr[1] """"

msgctxt ""naturaltime-past""
msgid ""%[1]v minute""
msgid_plural ""%[1]v minutes""
msgstr[0] ""%[1]v분""
msgstr[1] """"

msgctxt ""naturaltime-past""
msgid ""%[1]v month""
msgid_plural ""%[1]v months""
msgstr[0] ""%[1]v개월""
msgstr[1] """"

msgctxt ""naturaltime-past""
msgid ""%[1]v week""
msgid_plural ""%[1]v weeks""
msgstr[0] ""%[1]v주""
msgstr[1] """"

msgctxt ""naturaltime-past""
msgid ""%[1]v year""
msgid_plural ""%[1]v years""
msgstr[0] ""%[1]v년""
msgstr[1] """"

msgctxt ""ordinal 0""
msgid ""%vth""
msgstr ""%v번째""

msgctxt ""ordinal 1""
msgid ""%vst""
msgstr ""%v번째""

msgctxt ""ordinal 11, 12, 13""
msgid ""%vth""
msgstr ""%v번째""

msgctxt ""ordinal 2""
msgid ""%vnd""
msgstr ""%v번째""

msgctxt ""ordinal 3""
msgid ""%vrd""
msgstr ""%v번째""

msgctxt ""ordinal 4""
msgid ""%vth""
msgstr ""%v번째""

msgctxt ""ordinal 5""
msgid ""%vth""
msgstr ""%v번째""

msgctxt ""ordinal 6""
msgid ""%vth""
msgstr ""%v번째""

msgctxt ""ordinal 7""
msgid ""%vth""
msgstr ""%v번째""

msgctxt ""ordinal 8""
msgid ""%vth""
msgstr ""%v번째""

msgctxt ""ordinal 9""
msgid ""%vth""
msgstr ""%v번째""
".
(** humanize/locale/ko/locale.go (New) *)
Definition loc_ko : locale_data := LD (bs "ko") [(bs "django.po", po_ko)]
  (Some (FD (bs "Y년 n월 j일") (bs "A g:i") (bs "Y년 n월 j일 g:i A") (bs "Y년 n월") (bs "n월 j일") (bs "Y-n-j.") (bs "Y-n-j H:i"))).

(** humanize/locale/ky/django.po *)
Definition po_ky : bytes := bs "# This file is distributed under the same license as the Django package.
# 
# Translators:
# Mariusz Felisiak <felisiak.mariusz@gmail.com>, 2021
# Soyuzbek Orozbek uulu <soyuzbek196.kg@gmail.com>, 2020-2021
# Soyuzbek Orozbek uulu <soyuzbek196.kg@gmail.com>, 2020
msgid """"
msgstr """"
""Project-Id-Version: django\n""
""Report-Msgid-Bugs-To: \n""
""POT-Creation-Date: 2021-09-21 10:22+0200\n""
""PO-Revision-Date: 2021-11-27 14:11+0000\n""
""Last-Translator: Soyuzbek Orozbek uulu <soyuzbek196.kg@gmail.com>\n""
""Language-Team: Kyrgyz (http://www.transifex.com/django/django/language/ky/)\n""
""Language: ky\n""
""MIME-Version: 1.0\n""
""Content-Type: text/plain; charset=UTF-8\n""
""Content-Transfer-Encoding: 8bit\n""
""Plural-Forms: nplurals=1; plural=0;\n""

msgid ""%[1]d byte""
msgid_plural ""%[1]d bytes""
msgstr[0] ""%[1]dбит""
msgstr[1] """"

msgid ""%[1]s billion""
msgid_plural ""%[1]s billion""
msgstr[0] ""%[1]sмиллиард""
msgstr[1] """"

msgid ""%[1]s decillion""
msgid_plural ""%[1]s decillion""
msgstr[0] ""%[1]sдесилион""
msgstr[1] """"

msgid ""%[1]s googol""
msgid_plural ""%[1]s googol""
msgstr[0] ""%[1]sгугл""
msgstr[1] """"

msgid ""%[1]s million""
msgid_plural ""%[1]s million""
msgstr[0] ""%[1]sмиллион""
msgstr[1] """"

msgid ""%[1]s nonillion""
msgid_plural ""%[1]s nonillion""
msgstr[0] ""%[1]sнонтиллион""
msgstr[1] """"

msgid ""%[1]s octillion""
msgid_plural ""%[1]s octillion""
msgstr[0] ""%[1]sоктиллион""
msgstr[1] """"

msgid ""%[1]s quadrillion""
msgid_plural ""%[1]s quadrillion""
msgstr[0] ""%[1]sквадриллион""
msgstr[1] """"

msgid ""%[1]s quintillion""
msgid_plural ""%[1]s quintillion""
msgstr[0] ""%[1]sквинтиллион""
msgstr[1] """"

msgid ""%[1]s septillion""
msgid_plural ""%[1]s septillion""
msgstr[0] ""%[1]sсептиллион""
msgstr[1] """"

msgid ""%[1]s sextillion""
msgid_plural ""%[1]s sextillion""
msgstr[0] ""%[1]sсекстиллион""
msgstr[1] """"

msgid ""%[1]s trillion""
msgid_plural ""%[1]s trillion""
msgstr[0] ""%[1]sтриллион""
msgstr[1] """"

msgid ""%[1]v ago""
msgstr ""%[1]v мурда""

msgid ""%[1]v day""
msgid_plural ""%[1]v days""
msgstr[0] ""%[1]v күн""
msgstr[1] """"

msgid ""%[1]v from now""
msgstr ""мындан %[1]v мурда""

msgid ""%[1]v hour""
msgid_plural ""%[1]v hours""
msgstr[0] ""%[1]v саат""
msgstr[1] """"

msgid ""%[1]v minute""
msgid_plural ""%[1]v minutes""
msgstr[0] ""%[1]v мүнөт""
msgstr[1] """"

msgid ""%[1]v month""
msgid_plural ""%[1]v months""
msgstr[0] ""%[1]v ай""
msgstr[1] """"

msgid ""%[1]v week""
msgid_plural ""%[1]v weeks""
msgstr[0] ""%[1]v апта""
msgstr[1] """"

msgid ""%[1]v year""
msgid_plural ""%[1]v years""
msgstr[0] ""%[1]v жыл""
msgstr[1] """"

msgid ""%s GB""
msgstr ""%s гигабайт""

msgid ""%s KB""
msgstr ""%s КБ""

msgid ""%s MB""
msgstr ""%s мегабайт""

msgid ""%s PB""
msgstr ""%s пикабайт""

msgid ""%s TB""
msgstr ""%s терабайт""

msgid "", ""
msgstr "",""

msgid ""AM""
msgstr ""Түшкө чейин""

msgid ""Afrikaans""
msgstr ""Африканча""

msgid ""Albanian""
msgstr ""Албанча""

msgid ""Algerian Arabic""
msgstr ""Алжир арабчасы""

msgid ""April""
msgstr ""Апрель""

msgid ""Arabic""
msgstr ""Арабча""

msgid ""Argentinian Spanish""
msgstr ""Арг. исп""

msgid ""Armenian""
msgstr ""Арменче""

msgid ""Asturian""
msgstr ""Австрийче""

msgid ""August""
msgstr ""Август""

msgid ""Australian English""
msgstr ""Авс. Англисчеси""

msgid ""Azerbaijani""
msgstr ""Азерче""

msgid ""Basque""
msgstr ""Баск""

msgid ""Belarusian""
msgstr ""Белорусча""

msgid ""Bengali""
msgstr ""Бенгалча""

msgid ""Bosnian""
msgstr ""Босния""

msgid ""Brazilian Portuguese""
msgstr ""Бразилиялык португалчасы""

msgid ""Breton""
msgstr ""Бретончо""

msgid ""British English""
msgstr ""Бр. Англ.""

msgid ""Bulgarian""
msgstr ""Болгарча""

msgid ""Burmese""
msgstr ""Бурмача""

msgid ""Catalan""
msgstr ""Каталан""

msgid ""Colombian Spanish""
msgstr ""Колумб Испанчасы""

msgid ""Croatian""
msgstr ""Хорватча""

msgid ""Czech""
msgstr ""Чехче""

msgid ""Danish""
msgstr ""Данчийче""

msgid ""December""
msgstr ""Декабрь""

msgid ""Dutch""
msgstr ""Голландча""

msgid ""English""
msgstr ""Англисче""

msgid ""Esperanto""
msgstr ""Есперанто""

msgid ""Estonian""
msgstr ""Эстон""

msgid ""February""
msgstr ""Февраль""

msgid ""Finnish""
msgstr ""Финче""

msgid ""French""
msgstr ""Французча""

msgid ""Fri""
msgstr ""Жума""

msgid ""Friday""
msgstr ""Жума""

msgid ""Frisian""
msgstr ""Фризче""

msgid ""Galician""
msgstr ""Галицианча""

msgid ""Georgian""
msgstr ""Грузинче""

msgid ""German""
msgstr ""Немисче""

msgid ""Greek""
msgstr ""Грекче""

msgid ""Hebrew""
msgstr ""Жөөтчө""

msgid ""Hindi""
msgstr ""Хиндче""

msgid ""Hungarian""
msgstr ""Венгрче""

msgid ""Icelandic""
msgstr ""Исландча""

msgid ""Ido""
msgstr ""идо""

msgid ""Igbo""
msgstr ""Игбо""

msgid ""Indonesian""
msgstr ""Индонезче""

msgid ""Interlingua""
msgstr ""Эл аралык""

msgid ""Irish""
msgstr ""Ирланча""

msgid ""Italian""
msgstr ""Итальянча""

msgid ""January""
msgstr ""Январь""

msgid ""Japanese""
msgstr ""Жапончо""

msgid ""July""
msgstr ""Июль""

msgid ""June""
msgstr ""Июнь""

msgid ""Kabyle""
msgstr ""Кабилче""

msgid ""Kannada""
msgstr ""Канадча""

msgid ""Kazakh""
msgstr ""Казакча""

msgid ""Khmer""
msgstr ""Кхмер""

msgid ""Korean""
msgstr ""Корейче""

msgid ""Kyrgyz""
msgstr ""Кыргызча""

msgid ""Latvian""
msgstr ""Латвияча""

msgid ""Lithuanian""
msgstr ""Литвача""

msgid ""Lower Sorbian""
msgstr ""Сорб""

msgid ""Luxembourgish""
msgstr ""Люкцембургча""

msgid ""Macedonian""
msgstr ""Македончо""

msgid ""Malay""
msgstr ""Малай""

msgid ""Malayalam""
msgstr ""Малаяламча""

msgid ""Marathi""
msgstr ""Марати""

msgid ""March""
msgstr ""Март""

msgid ""May""
msgstr ""Май""

msgid ""Mexican Spanish""
msgstr ""Мекс. исп""

msgid ""Mon""
msgstr ""Дүйш""

msgid ""Monday""
msgstr ""Дүйшөмбү""

msgid ""Mongolian""
msgstr ""Монголчо""

msgid ""Nepali""
msgstr ""Непалча""

msgid ""Nicaraguan Spanish""
msgstr ""Никарагуа испанчасы""

msgid ""Norwegian Bokmål""
msgstr ""Норвег Бокмолчо""

msgid ""Norwegian Nynorsk""
msgstr ""Норвегиялык нюнор""

msgid ""November""
msgstr ""Ноябрь""

msgid ""October""
msgstr ""Октябрь""

msgid ""Ossetic""
msgstr ""Оссетче""

msgid ""PM""
msgstr ""Түштөн кийин""

msgid ""Persian""
msgstr ""Персче""

msgid ""Polish""
msgstr ""Полякча""

msgid ""Portuguese""
msgstr ""Португалча""

msgid ""Punjabi""
msgstr ""Пенжабча""

msgid ""Romanian""
msgstr ""Румынча""

msgid ""Russian""
msgstr ""Орусча""

msgid ""Sat""
msgstr ""Ише""

msgid ""Saturday""
msgstr ""Ишемби""

msgid ""Scottish Gaelic""
msgstr ""Шотланча""

msgid ""September""
msgstr ""Сентябрь""

msgid ""Serbian""
msgstr ""Сербче""

msgid ""Serbian Latin""
msgstr ""Серб латынчасы""

msgid ""Simplified Chinese""
msgstr ""Жеңилдетилген кытайча""

msgid ""Slovak""
msgstr ""Словакча""

msgid ""Slovenian""
msgstr ""Словенияча""

msgid ""Spanish""
msgstr ""Испанча""

msgid ""Sun""
msgstr ""Жек""

msgid ""Sunday""
msgstr ""Жекшемби""

msgid ""Swahili""
msgstr ""Свахилче""

msgid ""Swedish""
msgstr ""Шведче""

msgid ""Tajik""
msgstr ""Тажикче""

msgid ""Tamil""
msgstr ""Тамиль""

msgid ""Tatar""
msgstr ""Татарча""

msgid ""Telugu""
msgstr ""Телугу""

msgid ""Thai""
msgstr ""Тайча""

msgid ""Thu""
msgstr ""Бей""

msgid ""Thursday""
msgstr ""Бейшемби""

msgid ""Traditional Chinese""
msgstr ""салттык кытайча""

msgid ""Tue""
msgstr ""Шей""

msgid ""Tuesday""
msgstr ""Шейшемби""

msgid ""Turkish""
msgstr ""Түркчө""

msgid ""Turkmen""
msgstr ""Түркмөнчө""

msgid ""Udmurt""
msgstr ""Удмурча""

msgid ""Ukrainian""
msgstr ""Украинче""

msgid ""Upper Sorbian""
msgstr ""Жогорку Сорбчо""

msgid ""Urdu""
msgstr ""Урду""

msgid ""Uzbek""
msgstr ""Өзбекче""

msgid ""Venezuelan Spanish""
msgstr ""Венесуела Испанчасы""

msgid ""Vietnamese""
msgstr ""Вьетнамча""

msgid ""Wed""
msgstr ""Шар""

msgid ""Wednesday""
msgstr ""Шаршемби""

msgid ""Welsh""
msgstr ""Валлий""

msgid ""a minute ago""
msgid_plural ""%[1]v minutes ago""
msgstr[0] ""%[1]vмүнөт мурда""
msgstr[1] """"

msgid ""a minute from now""
msgid_plural ""%[1]v minutes from now""
msgstr[0] ""мындан%[1]vмүнөт мурда""
msgstr[1] """"

msgid ""a second ago""
msgid_plural ""%[1]v seconds ago""
msgstr[0] ""%[1]vсекунд мурда""
msgstr[1] """"

msgid ""a second from now""
msgid_plural ""%[1]v seconds from now""
msgstr[0] ""мындан%[1]vсекунд мурда""
msgstr[1] """"

msgid ""a.m.""
msgstr ""түшкө чейин""

msgid ""an hour ago""
msgid_plural ""%[1]v hours ago""
msgstr[0] ""%[1]vсаат мурда""
msgstr[1] """"

msgid ""an hour from now""
msgid_plural ""%[1]v hours from now""
msgstr[0] ""мындан%[1]vсаат мурда""
msgstr[1] """"

msgid ""apr""
msgstr ""апр""

msgid ""aug""
msgstr ""авг""

msgid ""dec""
msgstr ""дек""

msgid ""eight""
msgstr ""сегиз""

msgid ""feb""
msgstr ""фев""

msgid ""five""
msgstr ""беш""

msgid ""four""
msgstr ""төрт""

msgid ""jan""
msgstr ""янв""

msgid ""jul""
msgstr ""июл""

msgid ""jun""
msgstr ""июн""

msgid ""mar""
msgstr ""мар""

msgid ""may""
msgstr ""май""

msgid ""midnight""
msgstr ""Түнүчү""

msgid ""nine""
msgstr ""тогуз""

msgid ""noon""
msgstr ""ай""

msgid ""nov""
msgstr ""ноя""

msgid ""now""
msgstr ""азыр""

msgid ""oct""
msgstr ""окт""

msgid ""one""
msgstr ""бир""

msgid ""p.m.""
msgstr ""түштөн кийин""

msgid ""sep""
msgstr ""сен""

msgid ""seven""
msgstr ""жети""

msgid ""six""
msgstr ""алты""

msgid ""three""
msgstr ""үч""

msgid ""today""
msgstr ""бүгүн""

msgid ""tomorrow""
msgstr ""эртең""

msgid ""two""
msgstr ""эки""

msgid ""yesterday""
msgstr ""кечээ""

msgctxt ""abbrev. month""
msgid ""April""
msgstr ""Апрель""

msgctxt ""abbrev. month""
msgid ""Aug.""
msgstr ""Авг.""

msgctxt ""abbrev. month""
msgid ""Dec.""
msgstr ""Дек.""

msgctxt ""abbrev. month""
msgid ""Feb.""
msgstr ""Фев.""

msgctxt ""abbrev. month""
msgid ""Jan.""
msgstr ""Янв.""

msgctxt ""abbrev. month""
msgid ""July""
msgstr ""Июль""

msgctxt ""abbrev. month""
msgid ""June""
msgstr ""Июнь""

msgctxt ""abbrev. month""
msgid ""March""
msgstr ""Март""

msgctxt ""abbrev. month""
msgid ""May""
msgstr ""Май""

msgctxt ""abbrev. month""
msgid ""Nov.""
msgstr ""Ноя.""

msgctxt ""abbrev. month""
msgid ""Oct.""
msgstr ""Окт.""

msgctxt ""abbrev. month""
msgid ""Sept.""
msgstr ""Сен.""

msgctxt ""alt. month""
msgid ""April""
msgstr ""Апрель""

msgctxt ""alt. month""
msgid ""August""
msgstr ""Август""

msgctxt ""alt. month""
msgid ""December""
msgstr ""Декабрь""

msgctxt ""alt. month""
msgid ""February""
msgstr ""Февраль""

msgctxt ""alt. month""
msgid ""January""
msgstr ""Январь""

msgctxt ""alt. month""
msgid ""July""
msgstr ""Июль""

msgctxt ""alt. month""
msgid ""June""
msgstr ""Июнь""

msgctxt ""alt. month""
msgid ""March""
msgstr ""Март""

msgctxt ""alt. month""
msgid ""May""
msgstr ""Май""

msgctxt ""alt. month""
msgid ""November""
msgstr ""Ноябрь""

msgctxt ""alt. month""
msgid ""October""
msgstr ""Октябрь""

msgctxt ""alt. month""
msgid ""September""
msgstr ""Сентябрь""

msgctxt ""naturaltime-future""
msgid ""%[1]v day""
msgid_plural ""%[1]v days""
msgstr[0] ""%[1]v күн""
msgstr[1] """"

msgctxt ""naturaltime-future""
msgid ""%[1]v hour""
msgid_plural ""%[1]v hours""
msgstr[0] ""%[1]v саат""
msgstr[1] """"

msgctxt ""naturaltime-future""
msgid ""%[1]v minute""
msgid_plural ""%[1]v minutes""
msgstr[0] ""%[1]v мүнөт""
msgstr[1] """"

msgctxt ""naturaltime-future""
msgid ""%[1]v month""
msgid_plural ""%[1]v months""
msgstr[0] ""%[1]v ай""
msgstr[1] """"

msgctxt ""naturaltime-future""
msgid ""%[1]v week""
msgid_plural ""%[1]v weeks""
msgstr[0] ""%[1]v апта""
msgstr[1] """"

msgctxt ""naturaltime-future""
msgid ""%[1]v year""
msgid_plural ""%[1]v years""
msgstr[0] ""%[1]v жыл""
msgstr[1] """"

msgctxt ""naturaltime-past""
msgid ""%[1]v day""
msgid_plural ""%[1]v days""
msgstr[0] ""%[1]v күн""
msgstr[1] """"

msgctxt ""naturaltime-past""
msgid ""%[1]v hour""
msgid_plural ""%[1]v hours""
msgstr[0] ""%[1]v саат""
msgstr[1] """"

msgctxt ""naturaltime-past""
msgid ""%[1]v minute""
msgid_plural ""%[1]v minutes""
msgstr[0] ""%[1]v мүнөт""
msgstr[1] """"

msgctxt ""naturaltime-past""
msgid ""%[1]v month""
msgid_plural ""%[1]v months""
msgstr[0] ""%[1]v ай""
msgstr[1] """"

msgctxt ""naturaltime-past""
msgid ""%[1]v week""
msgid_plural ""%[1]v weeks""
msgstr[0] ""%[1]v апта""
msgstr[1] """"

msgctxt ""naturaltime-past""
msgid ""%[1]v year""
msgid_plural ""%[1]v years""
msgstr[0] ""%[1]v жыл""
msgstr[1] """"

msgctxt ""ordinal 0""
msgid ""%vth""
msgstr ""%vүнчү""

msgctxt ""ordinal 1""
msgid ""%vst""
msgstr ""%vинчи""

msgctxt ""ordinal 11, 12, 13""
msgid ""%vth""
msgstr ""%vнчы""

msgctxt ""ordinal 2""
msgid ""%vnd""
msgstr ""%vинчи""

msgctxt ""ordinal 3""
msgid ""%vrd""
msgstr ""%vүнчү""

msgctxt ""ordinal 4""
msgid ""%vth""
msgstr ""%vүнчү""

msgctxt ""ordinal 5""
msgid ""%vth""
msgstr ""%vинчи""

msgctxt ""ordinal 6""
msgid ""%vth""
msgstr ""%vнчы""

msgctxt ""ordinal 7""
msgid ""%vth""
msgstr ""%vинчи""

msgctxt ""ordinal 8""
msgid ""%vth""
msgstr ""%vинчи""

msgctxt ""ordinal 9""
msgid ""%vth""
msgstr ""%vунчу""
".
(** humanize/locale/ky/locale.go (New) *)
Definition loc_ky : locale_data := LD (bs "ky") [(bs "django.po", po_ky)]
  (Some (FD (bs "j E Y ж.") (bs "G:i") (bs "j E Y ж. G:i") (bs "F Y ж.") (bs "j F") (bs "d.m.Y") (bs "d.m.Y H:i"))).

(** humanize/locale/lb/django.po *)
Definition po_lb : bytes := bs "# This file is distributed under the same license as the Django package.
# 
# Translators:
# sim0n <sim0n@trypill.org>, 2011,2013
# sim0n <sim0n@trypill.org>, 2013
msgid """"
msgstr """"
""Project-Id-Version: django\n""
""Report-Msgid-Bugs-To: \n""
""POT-Creation-Date: 2019-09-27 22:40+0200\n""
""PO-Revision-Date: 2019-11-05 00:38+0000\n""
""Last-Translator: Ramiro Morales\n""
""Language-Team: Luxembourgish (http://www.transifex.com/django/django/language/lb/)\n""
""Language: lb\n""
""MIME-Version: 1.0\n""
""Content-Type: text/plain; charset=UTF-8\n""
""Content-Transfer-Encoding: 8bit\n""
""Plural-Forms: nplurals=2; plural=(n != 1);\n""

msgid ""%[1]d byte""
msgid_plural ""%[1]d bytes""
msgstr[0] """"
msgstr[1] """"

msgid ""%[1]s billion""
msgid_plural ""%[1]s billion""
msgstr[0] """"
msgstr[1] """"

msgid ""%[1]s decillion""
msgid_plural ""%[1]s decillion""
msgstr[0] """"
msgstr[1] """"

msgid ""%[1]s googol""
msgid_plural ""%[1]s googol""
msgstr[0] """"
msgstr[1] """"

msgid ""%[1]s million""
msgid_plural ""%[1]s million""
msgstr[0] """"
msgstr[1] """"

msgid ""%[1]s nonillion""
msgid_plural ""%[1]s nonillion""
msgstr[0] """"
msgstr[1] """"

msgid ""%[1]s octillion""
msgid_plural ""%[1]s octillion""
msgstr[0] """"
msgstr[1] """"

msgid ""%[1]s quadrillion""
msgid_plural ""%[1]s quadrillion""
msgstr[0] """"
msgstr[1] """"

msgid ""%[1]s quintillion""
msgid_plural ""%[1]s quintillion""
msgstr[0] """"
msgstr[1] """"

msgid ""%[1]s septillion""
msgid_plural ""%[1]s septillion""
msgstr[0] """"
msgstr[1] """"

msgid ""%[1]s sextillion""
msgid_plural ""%[1]s sextillion""
msgstr[0] """"
msgstr[1] """"

msgid ""%[1]s trillion""
msgid_plural ""%[1]s trillion""
msgstr[0] """"
msgstr[1] """"

msgid ""%s GB""
msgstr ""%s GB""

msgid ""%s KB""
msgstr ""%s KB""

msgid ""%s MB""
msgstr ""%s MB""

msgid ""%s PB""
msgstr ""%s PB""

msgid ""%s TB""
msgstr ""%s TB""

msgid "", ""
msgstr "", ""

msgid ""AM""
msgstr ""AM""

msgid ""Afrikaans""
msgstr ""Afrikaans""

msgid ""Albanian""
msgstr ""Albanesch""

msgid ""April""
msgstr ""Abrell""

msgid ""Arabic""
msgstr ""Arabesch""

msgid ""Argentinian Spanish""
msgstr ""Argentinesch Spuenesch""

msgid ""Armenian""
msgstr """"

msgid ""Asturian""
msgstr """"

msgid ""August""
msgstr ""August""

msgid ""Australian English""
msgstr """"

msgid ""Azerbaijani""
msgstr """"

msgid ""Basque""
msgstr ""Baskesch""

msgid ""Belarusian""
msgstr ""Wäissrussesch""

msgid ""Bengali""
msgstr ""Bengalesch""

msgid ""Bosnian""
msgstr ""Bosnesch""

msgid ""Brazilian Portuguese""
msgstr ""Brasilianesch Portugisesch""

msgid ""Breton""
msgstr """"

msgid ""British English""
msgstr ""Britesch Englesch""

msgid ""Bulgarian""
msgstr ""Bulgaresch""

msgid ""Burmese""
msgstr """"

msgid ""Catalan""
msgstr ""Katalanesch""

msgid ""Colombian Spanish""
msgstr """"

msgid ""Croatian""
msgstr ""Kroatesch""

msgid ""Czech""
msgstr ""Tschechesch""

msgid ""Danish""
msgstr ""Dänesch""

msgid ""December""
msgstr ""Dezember""

msgid ""Dutch""
msgstr ""Hollännesch""

msgid ""English""
msgstr ""Englesch""

msgid ""Esperanto""
msgstr """"

msgid ""Estonian""
msgstr ""Estonesch""

msgid ""February""
msgstr ""Februar""

msgid ""Finnish""
msgstr ""Finnesch""

msgid ""French""
msgstr ""Franséisch""

msgid ""Fri""
msgstr ""Fre""

msgid ""Friday""
msgstr ""Freides""

msgid ""Frisian""
msgstr ""Frisesch""

msgid ""Galician""
msgstr ""Galesch""

msgid ""Georgian""
msgstr ""Georgesch""

msgid ""German""
msgstr ""Däitsch""

msgid ""Greek""
msgstr ""Griichesch""

msgid ""Hebrew""
msgstr ""Hebräesch""

msgid ""Hindi""
msgstr ""Hindi""

msgid ""Hungarian""
msgstr ""Ungaresch""

msgid ""Icelandic""
msgstr ""Islännesch""

msgid ""Ido""
msgstr """"

msgid ""Indonesian""
msgstr ""Indonesesch""

msgid ""Interlingua""
msgstr """"

msgid ""Irish""
msgstr ""Iresch""

msgid ""Italian""
msgstr ""Italienesch""

msgid ""January""
msgstr ""Januar""

msgid ""Japanese""
msgstr ""Japanesch""

msgid ""July""
msgstr ""Juli""

msgid ""June""
msgstr ""Juni""

msgid ""Kabyle""
msgstr """"

msgid ""Kannada""
msgstr ""Kanadesch""

msgid ""Kazakh""
msgstr """"

msgid ""Khmer""
msgstr ""Khmer""

msgid ""Korean""
msgstr ""Koreanesch""

msgid ""Latvian""
msgstr ""Lättesch""

msgid ""Lithuanian""
msgstr ""Lithuanesesch""

msgid ""Lower Sorbian""
msgstr """"

msgid ""Luxembourgish""
msgstr ""Lëtzebuergesch""

msgid ""Macedonian""
msgstr ""Macedonesch""

msgid ""Malayalam""
msgstr ""Malayalam""

msgid ""Marathi""
msgstr """"

msgid ""March""
msgstr ""März""

msgid ""May""
msgstr """"

msgid ""Mexican Spanish""
msgstr ""Mexikanesch Spuenesch""

msgid ""Mon""
msgstr ""Mei""

msgid ""Monday""
msgstr ""Méindeg""

msgid ""Mongolian""
msgstr ""Mongolesch""

msgid ""Nepali""
msgstr """"

msgid ""Nicaraguan Spanish""
msgstr """"

msgid ""Norwegian Bokmål""
msgstr """"

msgid ""Norwegian Nynorsk""
msgstr ""Norwegesch Nynorsk""

msgid ""November""
msgstr ""November""

msgid ""October""
msgstr ""Oktober""

msgid ""Ossetic""
msgstr """"

msgid ""PM""
msgstr ""PM""

msgid ""Persian""
msgstr ""Persesch""

msgid ""Polish""
msgstr ""Polnesch""

msgid ""Portuguese""
msgstr ""Portugisesch""

msgid ""Punjabi""
msgstr ""Punjabi""

msgid ""Romanian""
msgstr ""Rumänesch""

msgid ""Russian""
msgstr ""Russesch""

msgid ""Sat""
msgstr ""Sam""

msgid ""Saturday""
msgstr ""Samschdes""

msgid ""Scottish Gaelic""
msgstr """"

msgid ""September""
msgstr ""September""

msgid ""Serbian""
msgstr ""Serbesch""

msgid ""Serbian Latin""
msgstr ""Serbesch Latäinesch""

msgid ""Simplified Chinese""
msgstr ""Einfach d'Chinesesch""

msgid ""Slovak""
msgstr ""Slowakesch""

msgid ""Slovenian""
msgstr ""Slowenesch""

msgid ""Spanish""
msgstr ""Spuenesch""

msgid ""Sun""
msgstr ""Son""

msgid ""Sunday""
msgstr ""Sonndes""

msgid ""Swahili""
msgstr """"

msgid ""Swedish""
msgstr ""Schwedesch""

msgid ""Tamil""
msgstr ""Tamil""

msgid ""Tatar""
msgstr """"

msgid ""Telugu""
msgstr ""Telugu""

msgid ""Thai""
msgstr ""Thai""

msgid ""Thu""
msgstr ""Don""

msgid ""Thursday""
msgstr ""Donneschdes""

msgid ""Traditional Chinese""
msgstr ""Traditionell d'Chinesesch""

msgid ""Tue""
msgstr ""Dën""

msgid ""Tuesday""
msgstr ""Dënschdeg""

msgid ""Turkish""
msgstr ""Tierkesch""

msgid ""Udmurt""
msgstr """"

msgid ""Ukrainian""
msgstr ""Ukrainesch""

msgid ""Upper Sorbian""
msgstr """"

msgid ""Urdu""
msgstr """"

msgid ""Uzbek""
msgstr """"

msgid ""Venezuelan Spanish""
msgstr """"

msgid ""Vietnamese""
msgstr ""Vietnamesesch""

msgid ""Wed""
msgstr ""Mett""

msgid ""Wednesday""
msgstr ""Mëttwoch""

msgid ""Welsh""
msgstr ""Walisesch""

msgid ""a minute ago""
msgid_plural ""%[1]v minutes ago""
msgstr[0] """"
msgstr[1] """"

msgid ""a minute from now""
msgid_plural ""%[1]v minutes from now""
msgstr[0] """"
msgstr[1] """"

msgid ""a second ago""
msgid_plural ""%[1]v seconds ago""
msgstr[0] """"
msgstr[1] """"

msgid ""a second from now""
msgid_plural ""%[1]v seconds from now""
msgstr[0] """"
msgstr[1] """"

msgid ""a.m.""
msgstr ""a.m.""

msgid ""an hour ago""
msgid_plural ""%[1]v hours ago""
msgstr[0] """"
msgstr[1] """"

msgid ""an hour from now""
msgid_plural ""%[1]v hours from now""
msgstr[0] """"
msgstr[1] """"

msgid ""apr""
msgstr ""abr""

msgid ""aug""
msgstr ""aug""

msgid ""dec""
msgstr ""dec""

msgid ""eight""
msgstr """"

msgid ""feb""
msgstr ""feb""

msgid ""five""
msgstr """"

msgid ""four""
msgstr """"

msgid ""jan""
msgstr ""jan""

msgid ""jul""
msgstr ""jul""

msgid ""jun""
msgstr ""jun""

msgid ""mar""
msgstr ""mär""

msgid ""may""
msgstr """"

msgid ""midnight""
msgstr """"

msgid ""nine""
msgstr """"

msgid ""noon""
msgstr """"

msgid ""nov""
msgstr ""nov""

msgid ""now""
msgstr """"

msgid ""oct""
msgstr ""okt""

msgid ""one""
msgstr """"

msgid ""p.m.""
msgstr ""p.m.""

msgid ""sep""
msgstr ""sep""

msgid ""seven""
msgstr """"

msgid ""six""
msgstr """"

msgid ""three""
msgstr """"

msgid ""today""
msgstr """"

msgid ""tomorrow""
msgstr """"

msgid ""two""
msgstr """"

msgid ""yesterday""
msgstr """"

msgctxt ""abbrev. month""
msgid ""April""
msgstr ""Abrell""

msgctxt ""abbrev. month""
msgid ""Aug.""
msgstr ""Aug.""

msgctxt ""abbrev. month""
msgid ""Dec.""
msgstr ""Dec.""

msgctxt ""abbrev. month""
msgid ""Feb.""
msgstr ""Feb.""

msgctxt ""abbrev. month""
msgid ""Jan.""
msgstr ""Jan.""

msgctxt ""abbrev. month""
msgid ""July""
msgstr ""Juli""

msgctxt ""abbrev. month""
msgid ""June""
msgstr ""Juni""

msgctxt ""abbrev. month""
msgid ""March""
msgstr ""März""

msgctxt ""abbrev. month""
msgid ""May""
msgstr """"

msgctxt ""abbrev. month""
msgid ""Nov.""
msgstr ""Nov.""

msgctxt ""abbrev. month""
msgid ""Oct.""
msgstr ""Okt.""

msgctxt ""abbrev. month""
msgid ""Sept.""
msgstr ""Sept.""

msgctxt ""alt. month""
msgid ""April""
msgstr ""Abrell""

msgctxt ""alt. month""
msgid ""August""
msgstr ""August""

msgctxt ""alt. month""
msgid ""December""
msgstr ""December""

msgctxt ""alt. month""
msgid ""February""
msgstr ""Februar""

msgctxt ""alt. month""
msgid ""January""
msgstr ""Januar""

msgctxt ""alt. month""
msgid ""July""
msgstr ""Juli""

msgctxt ""alt. month""
msgid ""June""
msgstr ""Juni""

msgctxt ""alt. month""
msgid ""March""
msgstr ""März""

msgctxt ""alt. month""
msgid ""May""
msgstr """"

msgctxt ""alt. month""
msgid ""November""
msgstr ""November""

msgctxt ""alt. month""
msgid ""October""
msgstr ""Oktober""

msgctxt ""alt. month""
msgid ""September""
msgstr ""September""
".
(** humanize/locale/lb/locale.go (New) *)
Definition loc_lb : locale_data := LD (bs "lb") [(bs "django.po", po_lb)]
  (None).

(** humanize/locale/lt/django.po *)
Definition po_lt : bytes := bs "# This file is distributed under the same license as the Django package.
# 
# Translators:
# Jannis Leidel <jannis@leidel.info>, 2011
# Kostas <tamosiunas@gmail.com>, 2011
# lauris <lauris@runbox.com>, 2011
# Mariusz Felisiak <felisiak.mariusz@gmail.com>, 2021
# Matas Dailyda <matas@dailyda.com>, 2015-2019
# naktinis <naktinis@gmail.com>, 2012
# Nikolajus Krauklis <nikolajus@gmail.com>, 2013
# Povilas Balzaravičius <pavvka@gmail.com>, 2011-2012
# Simonas Kazlauskas <simonas@kazlauskas.me>, 2012-2014
# Vytautas Astrauskas <vastrauskas@gmail.com>, 2011
msgid """"
msgstr """"
""Project-Id-Version: django\n""
""Report-Msgid-Bugs-To: \n""
""POT-Creation-Date: 2021-09-21 10:22+0200\n""
""PO-Revision-Date: 2021-11-24 16:28+0000\n""
""Last-Translator: Mariusz Felisiak <felisiak.mariusz@gmail.com>\n""
""Language-Team: Lithuanian (http://www.transifex.com/django/django/language/lt/)\n""
""Language: lt\n""
""MIME-Version: 1.0\n""
""Content-Type: text/plain; charset=UTF-8\n""
""Content-Transfer-Encoding: 8bit\n""
""Plural-Forms: nplurals=4; plural=(n % 10 == 1 && (n % 100 > 19 || n % 100 < 11) ? 0 : (n % 10 >= 2 && n % 10 <=9) && (n % 100 > 19 || n % 100 < 11) ? 1 : n % 1 != 0 ? 2: 3);\n""

msgid ""%[1]d byte""
msgid_plural ""%[1]d bytes""
msgstr[0] ""%[1]d baitas""
msgstr[1] ""%[1]d baitai""
msgstr[2] ""%[1]d baitai""
msgstr[3] ""%[1]d baitai""

msgid ""%[1]s billion""
msgid_plural ""%[1]s billion""
msgstr[0] ""%[1]s milijardas""
msgstr[1] ""%[1]s milijardai""
msgstr[2] ""%[1]s milijardų""
msgstr[3] ""%[1]s milijardų""

msgid ""%[1]s decillion""
msgid_plural ""%[1]s decillion""
msgstr[0] ""%[1]s decilijonas""
msgstr[1] ""%[1]s decilijonai""
msgstr[2] ""%[1]s decilijonų""
msgstr[3] ""%[1]s decilijonų""

msgid ""%[1]s googol""
msgid_plural ""%[1]s googol""
msgstr[0] ""%[1]s gugolas""
msgstr[1] ""%[1]s gugolai""
msgstr[2] ""%[1]s gugolų""
msgstr[3] ""%[1]s gugolų""

msgid ""%[1]s million""
msgid_plural ""%[1]s million""
msgstr[0] ""%[1]s milijonas""
msgstr[1] ""%[1]s milijonai""
msgstr[2] ""%[1]s milijonų""
msgstr[3] ""%[1]s milijonų""

msgid ""%[1]s nonillion""
msgid_plural ""%[1]s nonillion""
msgstr[0] ""%[1]s naintilijonas""
msgstr[1] ""%[1]s naintilijonai""
msgstr[2] ""%[1]s naintilijonų""
msgstr[3] ""%[1]s naintilijonų""

msgid ""%[1]s octillion""
msgid_plural ""%[1]s octillion""
msgstr[0] ""%[1]s oktilijonas""
msgstr[1] ""%[1]s oktilijonai""
msgstr[2] ""%[1]s oktilijonų""
msgstr[3] ""%[1]s oktilijonų""

msgid ""%[1]s quadrillion""
msgid_plural ""%[1]s quadrillion""
msgstr[0] ""%[1]s kvadrilijonas""
msgstr[1] ""%[1]s kvadrilijonai""
msgstr[2] ""%[1]s kvadrilijonų""
msgstr[3] ""%[1]s kvadrilijonų""

msgid ""%[1]s quintillion""
msgid_plural ""%[1]s quintillion""
msgstr[0] ""%[1]s kvintilijonas""
msgstr[1] ""%[1]s kvintilijonai""
msgstr[2] ""%[1]s kvintilijonų""
msgstr[3] ""%[1]s kvintilijonų""

msgid ""%[1]s septillion""
msgid_plural ""%[1]s septillion""
msgstr[0] ""%[1]s septilijonas""
msgstr[1] ""%[1]s septilijonai""
msgstr[2] ""%[1]s septilijonų""
msgstr[3] ""%[1]s septilijonų""

msgid ""%[1]s sextillion""
msgid_plural ""%[1]s sextillion""
msgstr[0] ""%[1]s sikstilijonas""
msgstr[1] ""%[1]s sikstilijonai""
msgstr[2] ""%[1]s sikstilijonų""
msgstr[3] ""%[1]s sikstilijonų""

msgid ""%[1]s trillion""
msgid_plural ""%[1]s trillion""
msgstr[0] ""%[1]s trilijonas""
msgstr[1] ""%[1]s trilijonai""
msgstr[2] ""%[1]s trilijonų""
msgstr[3] ""%[1]s trilijonų""

msgid ""%[1]v ago""
msgstr ""prieš %[1]v""

msgid ""%[1]v day""
msgid_plural ""%[1]v days""
msgstr[0] """"
msgstr[1] """"
msgstr[2] """"
msgstr[3] """"

msgid ""%[1]v from now""
msgstr ""%[1]v nuo dabar""

msgid ""%[1]v hour""
msgid_plural ""%[1]v hours""
msgstr[0] """"
msgstr[1] """"
msgstr[2] """"
msgstr[3] """"

msgid ""%[1]v minute""
msgid_plural ""%[1]v minutes""
msgstr[0] """"
msgstr[1] """"
msgstr[2] """"
msgstr[3] """"

msgid ""%[1]v month""
msgid_plural ""%[1]v months""
msgstr[0] """"
msgstr[1] """"
msgstr[2] """"
msgstr[3] """"

msgid ""%[1]v week""
msgid_plural ""%[1]v weeks""
msgstr[0] """"
msgstr[1] """"
msgstr[2] """"
msgstr[3] """"

msgid ""%[1]v year""
msgid_plural ""%[1]v years""
msgstr[0] """"
msgstr[1] """"
msgstr[2] """"
msgstr[3] """"

msgid ""%s GB""
msgstr ""%s GB""

msgid ""%s KB""
msgstr ""%s KB""

msgid ""%s MB""
msgstr ""%s MB""

msgid ""%s PB""
msgstr ""%s PB""

msgid ""%s TB""
msgstr ""%s TB""

msgid "", ""
msgstr "",""

msgid ""AM""
msgstr ""AM""

msgid ""Afrikaans""
msgstr ""Afrikiečių""

msgid ""Albanian""
msgstr ""Albanų""

msgid ""Algerian Arabic""
msgstr """"

msgid ""April""
msgstr ""balandis""

msgid ""Arabic""
msgstr ""Arabų""

msgid ""Argentinian Spanish""
msgstr ""Argentiniečių Ispanų""

msgid ""Armenian""
msgstr ""Armėnų""

msgid ""Asturian""
msgstr ""Austrų""

msgid ""August""
msgstr ""rugpjūtis""

msgid ""Australian English""
msgstr ""Australų Anlgų""

msgid ""Azerbaijani""
msgstr ""Azerbaidžaniečių""

msgid ""Basque""
msgstr ""Baskų""

msgid ""Belarusian""
msgstr ""Gudų""

msgid ""Bengali""
msgstr ""Bengalų""

msgid ""Bosnian""
msgstr ""Bosnių""

msgid ""Brazilian Portuguese""
msgstr ""Brazilijos Portugalų""

msgid ""Breton""
msgstr ""Bretonų""

msgid ""British English""
msgstr ""Britų Anglų""

msgid ""Bulgarian""
msgstr ""Bulgarų""

msgid ""Burmese""
msgstr ""Mjanmų""

msgid ""Catalan""
msgstr ""Katalonų""

msgid ""Colombian Spanish""
msgstr ""Kolumbų Ispanų""

msgid ""Croatian""
msgstr ""Kroatų""

msgid ""Czech""
msgstr ""Čekų""

msgid ""Danish""
msgstr ""Danų""

msgid ""December""
msgstr ""gruodis""

msgid ""Dutch""
msgstr ""Olandų""

msgid ""English""
msgstr ""Anglų""

msgid ""Esperanto""
msgstr ""Esperanto""

msgid ""Estonian""
msgstr ""Estų""

msgid ""February""
msgstr ""vasaris""

msgid ""Finnish""
msgstr ""Suomių""

msgid ""French""
msgstr ""Prancūzų""

msgid ""Fri""
msgstr ""P""

msgid ""Friday""
msgstr ""Penktadienis""

msgid ""Frisian""
msgstr ""Fryzų""

msgid ""Galician""
msgstr ""Galų""

msgid ""Georgian""
msgstr ""Gruzinų""

msgid ""German""
msgstr ""Vokiečių""

msgid ""Greek""
msgstr ""Graikų""

msgid ""Hebrew""
msgstr ""Hebrajų""

msgid ""Hindi""
msgstr ""Hindi""

msgid ""Hungarian""
msgstr ""Vengrų""

msgid ""Icelandic""
msgstr ""Islandų""

msgid ""Ido""
msgstr ""Ido""

msgid ""Igbo""
msgstr """"

msgid ""Indonesian""
msgstr ""Indoneziečių""

msgid ""Interlingua""
msgstr ""Interlingua""

msgid ""Irish""
msgstr ""Airių""

msgid ""Italian""
msgstr ""Italų""

msgid ""January""
msgstr ""sausis""

msgid ""Japanese""
msgstr ""Japonų""

msgid ""July""
msgstr ""liepa""

msgid ""June""
msgstr ""birželis""

msgid ""Kabyle""
msgstr ""Kabilų""

msgid ""Kannada""
msgstr ""Dravidų""

msgid ""Kazakh""
msgstr ""Kazachų""

msgid ""Khmer""
msgstr ""Khmerų""

msgid ""Korean""
msgstr ""Korėjiečių""

msgid ""Kyrgyz""
msgstr """"

msgid ""Latvian""
msgstr ""Latvių""

msgid ""Lithuanian""
msgstr ""Lietuvių""

msgid ""Lower Sorbian""
msgstr ""Žemutinė Sorbų""

msgid ""Luxembourgish""
msgstr ""Liuksemburgų""

msgid ""Macedonian""
msgstr ""Makedonų""

msgid ""Malay""
msgstr """"

msgid ""Malayalam""
msgstr ""Malajalių""

msgid ""Marathi""
msgstr ""Marati""

msgid ""March""
msgstr ""kovas""

msgid ""May""
msgstr ""gegužė""

msgid ""Mexican Spanish""
msgstr ""Meksikiečių Ispanų""

msgid ""Mon""
msgstr ""Pr""

msgid ""Monday""
msgstr ""Pirmadienis""

msgid ""Mongolian""
msgstr ""Mongolų""

msgid ""Nepali""
msgstr ""Nepalų""

msgid ""Nicaraguan Spanish""
msgstr ""Nikaragvos Ispanijos""

msgid ""Norwegian Bokmål""
msgstr ""Norvegų Bokmal""

msgid ""Norwegian Nynorsk""
msgstr ""Norvegų Nynorsk""

msgid ""November""
msgstr ""lapkritis""

msgid ""October""
msgstr ""spalis""

msgid ""Ossetic""
msgstr ""Osetinų""

msgid ""PM""
msgstr ""PM""

msgid ""Persian""
msgstr ""Persų""

msgid ""Polish""
msgstr ""Lenkų""

msgid ""Portuguese""
msgstr ""Protugalų""

msgid ""Punjabi""
msgstr ""Pandžabi""

msgid ""Romanian""
msgstr ""Rumunų""

msgid ""Russian""
msgstr ""Rusų""

msgid ""Sat""
msgstr ""Š""

msgid ""Saturday""
msgstr ""Šeštadienis""

msgid ""Scottish Gaelic""
msgstr ""Škotų Gėlų""

msgid ""September""
msgstr ""rugsėjis""

msgid ""Serbian""
msgstr ""Serbų""

msgid ""Serbian Latin""
msgstr ""Serbų Lotynų""

msgid ""Simplified Chinese""
msgstr ""Supaprastinta kinų""

msgid ""Slovak""
msgstr ""Slovakų""

msgid ""Slovenian""
msgstr ""Slovėnų""

msgid ""Spanish""
msgstr ""Ispanų""

msgid ""Sun""
msgstr ""S""

msgid ""Sunday""
msgstr ""Sekmadienis""

msgid ""Swahili""
msgstr ""Svahili""

msgid ""Swedish""
msgstr ""Švedų""

msgid ""Tajik""
msgstr """"

msgid ""Tamil""
msgstr ""Tamilų""

msgid ""Tatar""
msgstr ""Totorių""

msgid ""Telugu""
msgstr ""Telugų""

msgid ""Thai""
msgstr ""Tailando""

msgid ""Thu""
msgstr ""K""

msgid ""Thursday""
msgstr ""Ketvirtadienis""

msgid ""Traditional Chinese""
msgstr ""Tradicinė kinų""

msgid ""Tue""
msgstr ""A""

msgid ""Tuesday""
msgstr ""Antradienis""

msgid ""Turkish""
msgstr ""Turkų""

msgid ""Turkmen""
msgstr """"

msgid ""Udmurt""
msgstr ""Udmurtų""

msgid ""Ukrainian""
msgstr ""Ukrainiečių""

msgid ""Upper Sorbian""
msgstr ""Aukštutinė Sorbų""

msgid ""Urdu""
msgstr ""Urdu""

msgid ""Uzbek""
msgstr """"

msgid ""Venezuelan Spanish""
msgstr ""Venesuelos Ispanų""

msgid ""Vietnamese""
msgstr ""Vietnamiečių""

msgid ""Wed""
msgstr ""T""

msgid ""Wednesday""
msgstr ""Trečiadienis""

msgid ""Welsh""
msgstr ""Velso""

msgid ""a minute ago""
msgid_plural ""%[1]v minutes ago""
msgstr[0] ""prieš %[1]v minutę""
msgstr[1] ""prieš %[1]v minutes""
msgstr[2] ""prieš %[1]v minučių""
msgstr[3] ""prieš %[1]v minučių""

msgid ""a minute from now""
msgid_plural ""%[1]v minutes from now""
msgstr[0] ""%[1]v minutė nuo dabar""
msgstr[1] ""%[1]v minutės nuo dabar""
msgstr[2] ""%[1]v minučių nuo dabar""
msgstr[3] ""%[1]v minučių nuo dabar""

msgid ""a second ago""
msgid_plural ""%[1]v seconds ago""
msgstr[0] ""prieš %[1]v sekundę""
msgstr[1] ""prieš %[1]v sekundes""
msgstr[2] ""prieš %[1]v sekundžių""
msgstr[3] ""prieš %[1]v sekundžių""

msgid ""a second from now""
msgid_plural ""%[1]v seconds from now""
msgstr[0] ""%[1]v sekundė nuo dabar""
msgstr[1] ""%[1]v sekundes nuo dabar""
msgstr[2] ""%[1]v skundžių nuo dabar""
msgstr[3] ""%[1]v skundžių nuo dabar""

msgid ""a.m.""
msgstr ""a.m.""

msgid ""an hour ago""
msgid_plural ""%[1]v hours ago""
msgstr[0] ""prieš %[1]v valandą""
msgstr[1] ""prieš %[1]v valandas""
msgstr[2] ""prieš %[1]v valandų""
msgstr[3] ""prieš %[1]v valandų""

msgid ""an hour from now""
msgid_plural ""%[1]v hours from now""
msgstr[0] ""%[1]v valandą nuo dabar""
msgstr[1] ""%[1]v valandos nuo dabar""
msgstr[2] ""%[1]v valandų nuo dabar""
msgstr[3] ""%[1]v valandų nuo dabar""

msgid ""apr""
msgstr ""bal""

msgid ""aug""
msgstr ""rugp""

msgid ""dec""
msgstr ""grd""

msgid ""eight""
msgstr ""aštuoni""

msgid ""feb""
msgstr ""vas""

msgid ""five""
msgstr ""penki""

msgid ""four""
msgstr ""keturi""

msgid ""jan""
msgstr ""sau""

msgid ""jul""
msgstr ""lie""

msgid ""jun""
msgstr ""bir""

msgid ""mar""
msgstr ""kov""

msgid ""may""
msgstr ""geg""

msgid ""midnight""
msgstr ""vidurnaktis""

msgid ""nine""
msgstr ""devyni""

msgid ""noon""
msgstr ""vidurdienis""

msgid ""nov""
msgstr ""lap""

msgid ""now""
msgstr ""dabar""

msgid ""oct""
msgstr ""spa""

msgid ""one""
msgstr ""vienas""

msgid ""p.m.""
msgstr ""p.m.""

msgid ""sep""
msgstr ""rugs""

msgid ""seven""
msgstr ""septyni""

msgid ""six""
msgstr ""šeši""

msgid ""three""
msgstr ""trys""

msgid ""today""
msgstr ""šiandien""

msgid ""tomorrow""
msgstr ""rytoj""

msgid ""two""
msgstr ""du""

msgid ""yesterday""
msgstr ""vakar""

msgctxt ""abbrev. month""
msgid ""April""
msgstr ""bal.""

msgctxt ""abbrev. month""
msgid ""Aug.""
msgstr ""rugpj.""

msgctxt ""abbrev. month""
msgid ""Dec.""
msgstr ""gruod.""

msgctxt ""abbrev. month""
msgid ""Feb.""
msgstr ""vas.""

msgctxt ""abbrev. month""
msgid ""Jan.""
msgstr ""saus.""

msgctxt ""abbrev. month""
msgid ""July""
msgstr ""liep.""

msgctxt ""abbrev. month""
msgid ""June""
msgstr ""birž.""

msgctxt ""abbrev. month""
msgid ""March""
msgstr ""kov.""

msgctxt ""abbrev. month""
msgid ""May""
msgstr ""geg.""

msgctxt ""abbrev. month""
msgid ""Nov.""
msgstr ""lapkr.""

msgctxt ""abbrev. month""
msgid ""Oct.""
msgstr ""spal.""

msgctxt ""abbrev. month""
msgid ""Sept.""
msgstr ""rugs.""

msgctxt ""alt. month""
msgid ""April""
msgstr ""balandžio""

msgctxt ""alt. month""
msgid ""August""
msgstr ""rugpjūčio""

msgctxt ""alt. month""
msgid ""December""
msgstr ""gruodžio""

msgctxt ""alt. month""
msgid ""February""
msgstr ""vasario""

msgctxt ""alt. month""
msgid ""January""
msgstr ""sausio""

msgctxt ""alt. month""
msgid ""July""
msgstr ""liepos""

msgctxt ""alt. month""
msgid ""June""
msgstr ""birželio""

msgctxt ""alt. month""
msgid ""March""
msgstr ""kovo""

msgctxt ""alt. month""
msgid ""May""
msgstr ""gegužės""

msgctxt ""alt. month""
msgid ""November""
msgstr ""lapkričio""

msgctxt ""alt. month""
msgid ""October""
msgstr ""spalio""

msgctxt ""alt. month""
msgid ""September""
msgstr ""rugsėjo""

msgctxt ""ordinal 0""
msgid ""%vth""
msgstr ""%v-as""

msgctxt ""ordinal 1""
msgid ""%vst""
msgstr ""%v-as""

msgctxt ""ordinal 11, 12, 13""
msgid ""%vth""
msgstr ""%v-as""

msgctxt ""ordinal 2""
msgid ""%vnd""
msgstr ""%v-as""

msgctxt ""ordinal 3""
msgid ""%vrd""
msgstr ""%v-as""

msgctxt ""ordinal 4""
msgid ""%vth""
msgstr ""%v-as""

msgctxt ""ordinal 5""
msgid ""%vth""
msgstr ""%v-as""

msgctxt ""ordinal 6""
msgid ""%vth""
msgstr ""%v-as""

msgctxt ""ordinal 7""
msgid ""%vth""
msgstr ""%v-as""

msgctxt ""ordinal 8""
msgid ""%vth""
msgstr ""%v-as""

msgctxt ""ordinal 9""
msgid ""%vth""
msgstr ""%v-as""
".
(** humanize/locale/lt/locale.go (New) *)
Definition loc_lt : locale_data := LD (bs "lv") [(bs "django.po", po_lt)]
  (Some (FD (bs "Y. \g\a\d\a j. F") (bs "H:i") (bs "Y. \g\a\d\a j. F, H:i") (bs "Y. \g. F") (bs "j. F") (bs "j.m.Y") (bs "j.m.Y H:i"))).

(** humanize/locale/lv/django.po *)
Definition po_lv : bytes := bs "# This file is distributed under the same license as the Django package.
# 
# Translators:
# Edgars Andersons, 2025
# edgars <edgars.jekabsons@gmail.com>, 2011
# Edgars Voroboks <edgars.voroboks@gmail.com>, 2023-2025
# Edgars Voroboks <edgars.voroboks@gmail.com>, 2017,2022
# Edgars Voroboks <edgars.voroboks@gmail.com>, 2017-2018
# Jannis Leidel <jannis@leidel.info>, 2011
# krikulis <kristaps.kulis@gmail.com>, 2014
# Māris Nartišs <maris.gis@gmail.com>, 2016
# Mariusz Felisiak <felisiak.mariusz@gmail.com>, 2021
# Mārtiņš Šulcs <shulcsm@gmail.com>, 2018
# Edgars Voroboks <edgars.voroboks@gmail.com>, 2018-2021
# peterisb <pb@sungis.lv>, 2016-2017
# Pēteris Caune, 2023
msgid """"
msgstr """"
""Project-Id-Version: django\n""
""Report-Msgid-Bugs-To: \n""
""POT-Creation-Date: 2025-03-19 11:30-0500\n""
""PO-Revision-Date: 2025-09-17 06:49+0000\n""
""Last-Translator: Edgars Andersons, 2025\n""
""Language-Team: Latvian (http://app.transifex.com/django/django/language/lv/)\n""
""Language: lv\n""
""MIME-Version: 1.0\n""
""Content-Type: text/plain; charset=UTF-8\n""
""Content-Transfer-Encoding: 8bit\n""
""Plural-Forms: nplurals=3; plural=(n%10==1 && n%100!=11 ? 0 : n != 0 ? 1 : 2);\n""

msgid ""%[1]d byte""
msgid_plural ""%[1]d bytes""
msgstr[0] ""%[1]d baitu""
msgstr[1] ""%[1]d baits""
msgstr[2] ""%[1]d baiti""

msgid ""%[1]s billion""
msgid_plural ""%[1]s billion""
msgstr[0] ""%[1]s miljardu""
msgstr[1] ""%[1]s miljards""
msgstr[2] ""%[1]s miljardi""

msgid ""%[1]s decillion""
msgid_plural ""%[1]s decillion""
msgstr[0] ""%[1]s dekaljonu""
msgstr[1] ""%[1]s dekaljons""
msgstr[2] ""%[1]s dekaljoni""

msgid ""%[1]s googol""
msgid_plural ""%[1]s googol""
msgstr[0] ""%[1]s gugolu""
msgstr[1] ""%[1]s gugols""
msgstr[2] ""%[1]s gugoli""

msgid ""%[1]s million""
msgid_plural ""%[1]s million""
msgstr[0] ""%[1]s miljonu""
msgstr[1] ""%[1]s miljons""
msgstr[2] ""%[1]s miljoni""

msgid ""%[1]s nonillion""
msgid_plural ""%[1]s nonillion""
msgstr[0] ""%[1]s noniljonu""
msgstr[1] ""%[1]s noniljons""
msgstr[2] ""%[1]s noniljoni""

msgid ""%[1]s octillion""
msgid_plural ""%[1]s octillion""
msgstr[0] ""%[1]s oktiljonu""
msgstr[1] ""%[1]s oktiljons""
msgstr[2] ""%[1]s oktiljoni""

msgid ""%[1]s quadrillion""
msgid_plural ""%[1]s quadrillion""
msgstr[0] ""%[1]s kvadriljonu""
msgstr[1] ""%[1]s kvadriljons""
msgstr[2] ""%[1]s kvadriljoni""

msgid ""%[1]s quintillion""
msgid_plural ""%[1]s quintillion""
msgstr[0] ""%[1]s kvintiljonu""
msgstr[1] ""%[1]s kvintiljons""
msgstr[2] ""%[1]s kvintiljoni""

msgid ""%[1]s septillion""
msgid_plural ""%[1]s septillion""
msgstr[0] ""%[1]s septiljonu""
msgstr[1] ""%[1]s septiljons""
msgstr[2] ""%[1]s septiljoni""

msgid ""%[1]s sextillion""
msgid_plural ""%[1]s sextillion""
msgstr[0] ""%[1]s sekstiljonu""
msgstr[1] ""%[1]s sekstiljons""
msgstr[2] ""%[1]s sekstiljoni""

msgid ""%[1]s trillion""
msgid_plural ""%[1]s trillion""
msgstr[0] ""%[1]s triljonu""
msgstr[1] ""%[1]s triljons""
msgstr[2] ""%[1]s triljoni""

msgid ""%[1]v ago""
msgstr ""pirms %[1]v""

msgid ""%[1]v day""
msgid_plural ""%[1]v days""
msgstr[0] ""%[1]v dienu""
msgstr[1] ""%[1]v diena""
msgstr[2] ""%[1]v dienas""

msgid ""%[1]v from now""
msgstr ""pēc %[1]v""

msgid ""%[1]v hour""
msgid_plural ""%[1]v hours""
msgstr[0] ""%[1]v stundu""
msgstr[1] ""%[1]v stunda""
msgstr[2] ""%[1]v stundas""

msgid ""%[1]v minute""
msgid_plural ""%[1]v minutes""
msgstr[0] ""%[1]v minūšu""
msgstr[1] ""%[1]v minūte""
msgstr[2] ""%[1]v minūtes""

msgid ""%[1]v month""
msgid_plural ""%[1]v months""
msgstr[0] ""%[1]v mēnešu""
msgstr[1] ""%[1]v mēnesis""
msgstr[2] ""%[1]v mēneši""

msgid ""%[1]v week""
msgid_plural ""%[1]v weeks""
msgstr[0] ""%[1]v nedēļu""
msgstr[1] ""%[1]v nedēļa""
msgstr[2] ""%[1]v nedēļas""

msgid ""%[1]v year""
msgid_plural ""%[1]v years""
msgstr[0] ""%[1]v gadu""
msgstr[1] ""%[1]v gads""
msgstr[2] ""%[1]v gadi""

msgid ""%s GB""
msgstr ""%s GB""

msgid ""%s KB""
msgstr ""%s KB""

msgid ""%s MB""
msgstr ""%s MB""

msgid ""%s PB""
msgstr ""%s PB""

msgid ""%s TB""
msgstr ""%s TB""

msgid "", ""
msgstr "", ""

msgid ""AM""
msgstr ""priekšpusdienā""

msgid ""Afrikaans""
msgstr ""afrikāņu""

msgid ""Albanian""
msgstr ""albāņu""

msgid ""Algerian Arabic""
msgstr ""Alžīrijas arābu""

msgid ""April""
msgstr ""aprīlis""

msgid ""Arabic""
msgstr ""arābu""

msgid ""Argentinian Spanish""
msgstr ""Argentīnas spāņu""

msgid ""Armenian""
msgstr ""armēņu""

msgid ""Asturian""
msgstr ""asturiešu""

msgid ""August""
msgstr ""augusts""

msgid ""Australian English""
msgstr ""Austrālijas angļu""

msgid ""Azerbaijani""
msgstr ""azerbaidžāņu""

msgid ""Basque""
msgstr ""basku""

msgid ""Belarusian""
msgstr ""baltkrievu""

msgid ""Bengali""
msgstr ""bengāļu""

msgid ""Bosnian""
msgstr ""bosniešu""

msgid ""Brazilian Portuguese""
msgstr ""Brazīlijas portugāļu""

msgid ""Breton""
msgstr ""bretoņu""

msgid ""British English""
msgstr ""Lielbritānijas angļu""

msgid ""Bulgarian""
msgstr ""bulgāru""

msgid ""Burmese""
msgstr ""birmiešu""

msgid ""Catalan""
msgstr ""katalāņu""

msgid ""Central Kurdish (Sorani)""
msgstr ""centrālā kurdu (sorani)""

msgid ""Colombian Spanish""
msgstr ""Kolumbijas spāņu""

msgid ""Croatian""
msgstr ""horvātu""

msgid ""Czech""
msgstr ""čehu""

msgid ""Danish""
msgstr ""dāņu""

msgid ""December""
msgstr ""decembris""

msgid ""Dutch""
msgstr ""holandiešu""

msgid ""English""
msgstr ""angļu""

msgid ""Esperanto""
msgstr ""esperanto""

msgid ""Estonian""
msgstr ""igauņu""

msgid ""February""
msgstr ""februāris""

msgid ""Finnish""
msgstr ""somu""

msgid ""French""
msgstr ""franču""

msgid ""Fri""
msgstr ""pk""

msgid ""Friday""
msgstr ""piektdiena""

msgid ""Frisian""
msgstr ""frīzu""

msgid ""Galician""
msgstr ""galīciešu""

msgid ""Georgian""
msgstr ""gruzīnu""

msgid ""German""
msgstr ""vācu""

msgid ""Greek""
msgstr ""grieķu""

msgid ""Hebrew""
msgstr ""ebreju""

msgid ""Hindi""
msgstr ""hindu""

msgid ""Hungarian""
msgstr ""ungāru""

msgid ""Icelandic""
msgstr ""islandiešu""

msgid ""Ido""
msgstr ""ido""

msgid ""Igbo""
msgstr ""igbo""

msgid ""Indonesian""
msgstr ""indonēziešu""

msgid ""Interlingua""
msgstr ""modernā latīņu""

msgid ""Irish""
msgstr ""īru""

msgid ""Italian""
msgstr ""itāļu""

msgid ""January""
msgstr ""janvāris""

msgid ""Japanese""
msgstr ""japāņu""

msgid ""July""
msgstr ""jūlijs""

msgid ""June""
msgstr ""jūnijs""

msgid ""Kabyle""
msgstr ""kabiliešu""

msgid ""Kannada""
msgstr ""kannādiešu""

msgid ""Kazakh""
msgstr ""kazahu""

msgid ""Khmer""
msgstr ""khmeru""

msgid ""Korean""
msgstr ""korejiešu""

msgid ""Kyrgyz""
msgstr ""kirgīzu""

msgid ""Latvian""
msgstr ""latviešu""

msgid ""Lithuanian""
msgstr ""lietuviešu""

msgid ""Lower Sorbian""
msgstr ""apakšsorbu""

msgid ""Luxembourgish""
msgstr ""luksemburgiešu""

msgid ""Macedonian""
msgstr ""maķedoniešu""

msgid ""Malay""
msgstr ""malajiešu""

msgid ""Malayalam""
msgstr ""malajalu""

msgid ""Marathi""
msgstr ""maratiešu""

msgid ""March""
msgstr ""marts""

msgid ""May""
msgstr ""maijs""

msgid ""Mexican Spanish""
msgstr ""Meksikas spāņu""

msgid ""Mon""
msgstr ""pr""

msgid ""Monday""
msgstr ""pirmdiena""

msgid ""Mongolian""
msgstr ""mongoļu""

msgid ""Nepali""
msgstr ""nepāliešu""

msgid ""Nicaraguan Spanish""
msgstr ""Nikaragvas spāņu""

msgid ""Norwegian Bokmål""
msgstr ""norvēģu bokmål""

msgid ""Norwegian Nynorsk""
msgstr ""norvēģu nynorsk""

msgid ""November""
msgstr ""novembris""

msgid ""October""
msgstr ""oktobris""

msgid ""Ossetic""
msgstr ""osetiešu""

msgid ""PM""
msgstr ""pēcpusdienā""

msgid ""Persian""
msgstr ""persiešu""

msgid ""Polish""
msgstr ""poļu""

msgid ""Portuguese""
msgstr ""portugāļu""

msgid ""Punjabi""
msgstr ""pandžabu""

msgid ""Romanian""
msgstr ""rumāņu""

msgid ""Russian""
msgstr ""krievu""

msgid ""Sat""
msgstr ""se""

msgid ""Saturday""
msgstr ""sestdiena""

msgid ""Scottish Gaelic""
msgstr ""skotu gēlu""

msgid ""September""
msgstr ""septembris""

msgid ""Serbian""
msgstr ""serbu""

msgid ""Serbian Latin""
msgstr ""serbu latīņu""

msgid ""Simplified Chinese""
msgstr ""vienkāršā ķīniešu""

msgid ""Slovak""
msgstr ""slovāku""

msgid ""Slovenian""
msgstr ""slovēņu""

msgid ""Spanish""
msgstr ""spāņu""

msgid ""Sun""
msgstr ""sv""

msgid ""Sunday""
msgstr ""svētdiena""

msgid ""Swahili""
msgstr ""svahili""

msgid ""Swedish""
msgstr ""zviedru""

msgid ""Tajik""
msgstr ""tadžiku""

msgid ""Tamil""
msgstr ""tamilu""

msgid ""Tatar""
msgstr ""tatāru""

msgid ""Telugu""
msgstr ""telugu""

msgid ""Thai""
msgstr ""taizemiešu""

msgid ""Thu""
msgstr ""ce""

msgid ""Thursday""
msgstr ""ceturtdiena""

msgid ""Traditional Chinese""
msgstr ""tradicionālā ķīniešu""

msgid ""Tue""
msgstr ""ot""

msgid ""Tuesday""
msgstr ""otrdiena""

msgid ""Turkish""
msgstr ""turku""

msgid ""Turkmen""
msgstr ""turkmēņu""

msgid ""Udmurt""
msgstr ""udmurtu""

msgid ""Ukrainian""
msgstr ""ukraiņu""

msgid ""Upper Sorbian""
msgstr ""augšsorbu""

msgid ""Urdu""
msgstr ""urdu""

msgid ""Uyghur""
msgstr ""uiguru""

msgid ""Uzbek""
msgstr ""uzbeku""

msgid ""Venezuelan Spanish""
msgstr ""Venecuēlas spāņu""

msgid ""Vietnamese""
msgstr ""vjetnamiešu""

msgid ""Wed""
msgstr ""tr""

msgid ""Wednesday""
msgstr ""trešdiena""

msgid ""Welsh""
msgstr ""velsiešu""

msgid ""a minute ago""
msgid_plural ""%[1]v minutes ago""
msgstr[0] ""pirms %[1]v minūtes""
msgstr[1] ""pirms %[1]v minūtēm""
msgstr[2] ""pirms %[1]v minūtēm""

msgid ""a minute from now""
msgid_plural ""%[1]v minutes from now""
msgstr[0] ""pēc %[1]v minūtes""
msgstr[1] ""pēc %[1]v minūtēm""
msgstr[2] ""pēc %[1]v minūtēm""

msgid ""a second ago""
msgid_plural ""%[1]v seconds ago""
msgstr[0] ""pirms %[1]v sekundes""
msgstr[1] ""pirms %[1]v sekundēm""
msgstr[2] ""pirms %[1]v sekundēm""

msgid ""a second from now""
msgid_plural ""%[1]v seconds from now""
msgstr[0] ""pēc %[1]v sekundes""
msgstr[1] ""pēc %[1]v sekundēm""
msgstr[2] ""pēc %[1]v sekundēm""

msgid ""a.m.""
msgstr ""priekšpusdienā""

msgid ""an hour ago""
msgid_plural ""%[1]v hours ago""
msgstr[0] ""pirms %[1]v stundas""
msgstr[1] ""pirms %[1]v stundām""
msgstr[2] ""pirms %[1]v stundām""

msgid ""an hour from now""
msgid_plural ""%[1]v hours from now""
msgstr[0] ""pēc %[1]v stundas""
msgstr[1] ""pēc %[1]v stundām""
msgstr[2] ""pēc %[1]v stundām""

msgid ""apr""
msgstr ""apr""

msgid ""aug""
msgstr ""aug""

msgid ""dec""
msgstr ""dec""

msgid ""eight""
msgstr ""astoņi""

msgid ""feb""
msgstr ""feb""

msgid ""five""
msgstr ""pieci""

msgid ""four""
msgstr ""četri""

msgid ""jan""
msgstr ""jan""

msgid ""jul""
msgstr ""jūl""

msgid ""jun""
msgstr ""jūn""

msgid ""mar""
msgstr ""mar""

msgid ""may""
msgstr ""mai""

msgid ""midnight""
msgstr ""pusnakts""

msgid ""nine""
msgstr ""deviņi""

msgid ""noon""
msgstr ""dienasvidus""

msgid ""nov""
msgstr ""nov""

msgid ""now""
msgstr ""tagad""

msgid ""oct""
msgstr ""okt""

msgid ""one""
msgstr ""viens""

msgid ""p.m.""
msgstr ""pēcpusdienā""

msgid ""sep""
msgstr ""sep""

msgid ""seven""
msgstr ""septiņi""

msgid ""six""
msgstr ""seši""

msgid ""three""
msgstr ""trīs""

msgid ""today""
msgstr ""šodien""

msgid ""tomorrow""
msgstr ""rīt""

msgid ""two""
msgstr ""divi""

msgid ""yesterday""
msgstr ""vakar""

msgctxt ""abbrev. month""
msgid ""April""
msgstr ""aprīlis""

msgctxt ""abbrev. month""
msgid ""Aug.""
msgstr ""aug.""

msgctxt ""abbrev. month""
msgid ""Dec.""
msgstr ""dec.""

msgctxt ""abbrev. month""
msgid ""Feb.""
msgstr ""feb.""

msgctxt ""abbrev. month""
msgid ""Jan.""
msgstr ""jan.""

msgctxt ""abbrev. month""
msgid ""July""
msgstr ""jūlijs""

msgctxt ""abbrev. month""
msgid ""June""
msgstr ""jūnijs""

msgctxt ""abbrev. month""
msgid ""March""
msgstr ""marts""

msgctxt ""abbrev. month""
msgid ""May""
msgstr ""maijs""

msgctxt ""abbrev. month""
msgid ""Nov.""
msgstr ""nov.""

msgctxt ""abbrev. month""
msgid ""Oct.""
msgstr ""okt.""

msgctxt ""abbrev. month""
msgid ""Sept.""
msgstr ""sept.""

msgctxt ""alt. month""
msgid ""April""
msgstr ""aprīlis""

msgctxt ""alt. month""
msgid ""August""
msgstr ""augusts""

msgctxt ""alt. month""
msgid ""December""
msgstr ""decembris""

msgctxt ""alt. month""
msgid ""February""
msgstr ""februāris""

msgctxt ""alt. month""
msgid ""January""
msgstr ""janvāris""

msgctxt ""alt. month""
msgid ""July""
msgstr ""jūlijs""

msgctxt ""alt. month""
msgid ""June""
msgstr ""jūnijs""

msgctxt ""alt. month""
msgid ""March""
msgstr ""marts""

msgctxt ""alt. month""
msgid ""May""
msgstr ""maijs""

msgctxt ""alt. month""
msgid ""November""
msgstr ""novembris""

msgctxt ""alt. month""
msgid ""October""
msgstr ""oktobris""

msgctxt ""alt. month""
msgid ""September""
msgstr ""septembris""

msgctxt ""naturaltime-future""
msgid ""%[1]v day""
msgid_plural ""%[1]v days""
msgstr[0] ""%[1]v dienu""
msgstr[1] ""%[1]v diena""
msgstr[2] ""%[1]v dienas""

msgctxt ""naturaltime-future""
msgid ""%[1]v hour""
msgid_plural ""%[1]v hours""
msgstr[0] ""%[1]v stundas""
msgstr[1] ""%[1]v stunda""
msgstr[2] ""%[1]v stundas""

msgctxt ""naturaltime-future""
msgid ""%[1]v minute""
msgid_plural ""%[1]v minutes""
msgstr[0] ""%[1]v minūšu""
msgstr[1] ""%[1]v minūte""
msgstr[2] ""%[1]v minūtes""

msgctxt ""naturaltime-future""
msgid ""%[1]v month""
msgid_plural ""%[1]v months""
msgstr[0] ""%[1]v mēnešu""
msgstr[1] ""%[1]v mēnesis""
msgstr[2] ""%[1]v mēneši""

msgctxt ""naturaltime-future""
msgid ""%[1]v week""
msgid_plural ""%[1]v weeks""
msgstr[0] ""%[1]v nedēļu""
msgstr[1] ""%[1]v nedēļa""
msgstr[2] ""%[1]v nedēļas""

msgctxt ""naturaltime-future""
msgid ""%[1]v year""
msgid_plural ""%[1]v years""
msgstr[0] ""%[1]v gadu""
msgstr[1] ""%[1]v gads""
msgstr[2] ""%[1]v gadi""

msgctxt ""naturaltime-past""
msgid ""%[1]v day""
msgid_plural ""%[1]v days""
msgstr[0] ""%[1]v dienu""
msgstr[1] ""%[1]v diena""
msgstr[2] ""%[1]v dienas""

msgctxt ""naturaltime-past""
msgid ""%[1]v hour""
msgid_plural ""%[1]v hours""
msgstr[0] ""%[1]v stundu""
msgstr[1] ""%[1]v stunda""
msgstr[2] ""%[1]v stundas""

msgctxt ""naturaltime-past""
msgid ""%[1]v minute""
msgid_plural ""%[1]v minutes""
msgstr[0] ""%[1]v minūtes""
msgstr[1] ""%[1]v minūte""
msgstr[2] ""%[1]v minūtes""

msgctxt ""naturaltime-past""
msgid ""%[1]v month""
msgid_plural ""%[1]v months""
msgstr[0] ""%[1]v mēnešu""
msgstr[1] ""%[1]v mēnesis""
msgstr[2] ""%[1]v mēneši""

msgctxt ""naturaltime-past""
msgid ""%[1]v week""
msgid_plural ""%[1]v weeks""
msgstr[0] ""%[1]v nedēļu""
msgstr[1] ""%[1]v nedēļa""
msgstr[2] ""%[1]v nedēļas""

msgctxt ""naturaltime-past""
msgid ""%[1]v year""
msgid_plural ""%[1]v years""
msgstr[0] ""%[1]v gadu""
msgstr[1] ""%[1]v gads""
msgstr[2] ""%[1]v gadi""

msgctxt ""ordinal 0""
msgid ""%vth""
msgstr ""%v.""

msgctxt ""ordinal 1""
msgid ""%vst""
msgstr ""%v.""

msgctxt ""ordinal 11, 12, 13""
msgid ""%vth""
msgstr ""%v.""

msgctxt ""ordinal 2""
msgid ""%vnd""
msgstr ""%v.""

msgctxt ""ordinal 3""
msgid ""%vrd""
msgstr ""%v.""

msgctxt ""ordinal 4""
msgid ""%vth""
msgstr ""%v.""

msgctxt ""ordinal 5""
msgid ""%vth""
msgstr ""%v.""

msgctxt ""ordinal 6""
msgid ""%vth""
msgstr ""%v.""

msgctxt ""ordinal 7""
msgid ""%vth""
msgstr ""%v.""

msgctxt ""ordinal 8""
msgid ""%vth""
msgstr ""%v.""

msgctxt ""ordinal 9""
msgid ""%vth""
msgstr ""%v.""
".
(** humanize/locale/lv/locale.go (New) *)
Definition loc_lv : locale_data := LD (bs "lv") [(bs "django.po", po_lv)]
  (Some (FD (bs "j. F Y") (bs "H:i") (bs "j. F Y H:i") (bs "F Y") (bs "j. F") (bs "d.m.Y") (bs "d.m.Y H:i"))).

(** humanize/locale/mk/django.po *)
Definition po_mk : bytes := bs "# This file is distributed under the same license as the Django package.
# 
# Translators:
# Bojan Drangovski <bojandrango@gmail.com>, 2021
# Claude Paroz <claude@2xlibre.net>, 2020
# dekomote <dr.mote@gmail.com>, 2015
# Jannis Leidel <jannis@leidel.info>, 2011
# Vasil Vangelovski <vvangelovski@gmail.com>, 2016-2017
# Vasil Vangelovski <vvangelovski@gmail.com>, 2013-2015
# Vasil Vangelovski <vvangelovski@gmail.com>, 2011-2013
msgid """"
msgstr """"
""Project-Id-Version: django\n""
""Report-Msgid-Bugs-To: \n""
""POT-Creation-Date: 2021-01-15 09:00+0100\n""
""PO-Revision-Date: 2021-05-12 22:47+0000\n""
""Last-Translator: Bojan Drangovski <bojandrango@gmail.com>\n""
""Language-Team: Macedonian (http://www.transifex.com/django/django/language/mk/)\n""
""Language: mk\n""
""MIME-Version: 1.0\n""
""Content-Type: text/plain; charset=UTF-8\n""
""Content-Transfer-Encoding: 8bit\n""
""Plural-Forms: nplurals=2; plural=(n % 10 == 1 && n % 100 != 11) ? 0 : 1;\n""

msgid ""%[1]d byte""
msgid_plural ""%[1]d bytes""
msgstr[0] ""%[1]d бајт""
msgstr[1] ""%[1]d бајти""

msgid ""%[1]s billion""
msgid_plural ""%[1]s billion""
msgstr[0] ""%[1]s милијарда""
msgstr[1] ""%[1]s милијарди""

msgid ""%[1]s decillion""
msgid_plural ""%[1]s decillion""
msgstr[0] ""%[1]s децилион""
msgstr[1] ""%[1]s децилиони""

msgid ""%[1]s googol""
msgid_plural ""%[1]s googol""
msgstr[0] ""%[1]s гугол""
msgstr[1] ""%[1]s гуголи""

msgid ""%[1]s million""
msgid_plural ""%[1]s million""
msgstr[0] ""%[1]s милион""
msgstr[1] ""%[1]s милиони""

msgid ""%[1]s nonillion""
msgid_plural ""%[1]s nonillion""
msgstr[0] ""%[1]s нонилион""
msgstr[1] ""%[1]s нонилиони""

msgid ""%[1]s octillion""
msgid_plural ""%[1]s octillion""
msgstr[0] ""%[1]s октилион""
msgstr[1] ""%[1]s октилиони""

msgid ""%[1]s quadrillion""
msgid_plural ""%[1]s quadrillion""
msgstr[0] ""%[1]s квадрилион""
msgstr[1] ""%[1]s квадрилиони""

msgid ""%[1]s quintillion""
msgid_plural ""%[1]s quintillion""
msgstr[0] ""%[1]s квинтилион""
msgstr[1] ""%[1]s квинтилиони""

msgid ""%[1]s septillion""
msgid_plural ""%[1]s septillion""
msgstr[0] ""%[1]s септилион""
msgstr[1] ""%[1]s септилиони""

msgid ""%[1]s sextillion""
msgid_plural ""%[1]s sextillion""
msgstr[0] ""%[1]s секстилион""
msgstr[1] ""%[1]s секстилиони""

msgid ""%[1]s trillion""
msgid_plural ""%[1]s trillion""
msgstr[0] ""%[1]s трилион""
msgstr[1] ""%[1]s трилиони""

msgid ""%s GB""
msgstr ""%s GB""

msgid ""%s KB""
msgstr ""%s KB""

msgid ""%s MB""
msgstr ""%s MB""

msgid ""%s PB""
msgstr ""%s PB""

msgid ""%s TB""
msgstr ""%s TB""

msgid "", ""
msgstr "",""

msgid ""AM""
msgstr ""наутро""

msgid ""Afrikaans""
msgstr ""Африканс""

msgid ""Albanian""
msgstr ""Албански""

msgid ""Algerian Arabic""
msgstr """"

msgid ""April""
msgstr ""Април""

msgid ""Arabic""
msgstr ""Арапски""

msgid ""Argentinian Spanish""
msgstr ""Аргентински шпански""

msgid ""Armenian""
msgstr ""Ерменски""

msgid ""Asturian""
msgstr ""Астуриски""

msgid ""August""
msgstr ""август""

msgid ""Australian English""
msgstr ""Австралиски англиски""

msgid ""Azerbaijani""
msgstr ""Азербејџански""

msgid ""Basque""
msgstr ""Баскиски""

msgid ""Belarusian""
msgstr ""Белоруски""

msgid ""Bengali""
msgstr ""Бенгалски""

msgid ""Bosnian""
msgstr ""Босански""

msgid ""Brazilian Portuguese""
msgstr ""Бразилско португалски""

msgid ""Breton""
msgstr ""Бретонски""

msgid ""British English""
msgstr ""Британски англиски""

msgid ""Bulgarian""
msgstr ""Бугарски""

msgid ""Burmese""
msgstr ""Бурмански""

msgid ""Catalan""
msgstr ""Каталански""

msgid ""Colombian Spanish""
msgstr ""Колумбиски Шпански""

msgid ""Croatian""
msgstr ""Хрватски""

msgid ""Czech""
msgstr ""Чешки""

msgid ""Danish""
msgstr ""Дански""

msgid ""December""
msgstr ""Декември""

msgid ""Dutch""
msgstr ""Холандски""

msgid ""English""
msgstr ""Англиски""

msgid ""Esperanto""
msgstr ""Есперанто""

msgid ""Estonian""
msgstr ""Естонски""

msgid ""February""
msgstr ""Февруари""

msgid ""Finnish""
msgstr ""Фински""

msgid ""French""
msgstr ""Француски""

msgid ""Fri""
msgstr ""Пет""

msgid ""Friday""
msgstr ""Петок""

msgid ""Frisian""
msgstr ""Фризиски""

msgid ""Galician""
msgstr ""Галски""

msgid ""Georgian""
msgstr ""Грузиски""

msgid ""German""
msgstr ""Германски""

msgid ""Greek""
msgstr ""Грчки""

msgid ""Hebrew""
msgstr ""Еврејски""

msgid ""Hindi""
msgstr ""Хинди""

msgid ""Hungarian""
msgstr ""Унгарски""

msgid ""Icelandic""
msgstr ""Исландски""

msgid ""Ido""
msgstr ""Идо""

msgid ""Igbo""
msgstr """"

msgid ""Indonesian""
msgstr ""Индонезиски""

msgid ""Interlingua""
msgstr ""Интерлингва""

msgid ""Irish""
msgstr ""Ирски""

msgid ""Italian""
msgstr ""Италијански""

msgid ""January""
msgstr ""Јануари""

msgid ""Japanese""
msgstr ""Јапонски""

msgid ""July""
msgstr ""Јули""

msgid ""June""
msgstr ""Јуни""

msgid ""Kabyle""
msgstr """"

msgid ""Kannada""
msgstr ""Канада""

msgid ""Kazakh""
msgstr ""Казахстански""

msgid ""Khmer""
msgstr ""Кмер""

msgid ""Korean""
msgstr ""Корејски""

msgid ""Kyrgyz""
msgstr """"

msgid ""Latvian""
msgstr ""Латвиски""

msgid ""Lithuanian""
msgstr ""Литвански""

msgid ""Lower Sorbian""
msgstr ""Долно Лужичко-Српски""

msgid ""Luxembourgish""
msgstr ""Луксембуршки""

msgid ""Macedonian""
msgstr ""Македонски""

msgid ""Malayalam""
msgstr ""Малајалам""

msgid ""Marathi""
msgstr ""Марати""

msgid ""March""
msgstr ""Март""

msgid ""May""
msgstr ""Мај""

msgid ""Mexican Spanish""
msgstr ""Мексикански шпански""

msgid ""Mon""
msgstr ""Пон""

msgid ""Monday""
msgstr ""Понеделник""

msgid ""Mongolian""
msgstr ""Монголски""

msgid ""Nepali""
msgstr ""Непалски""

msgid ""Nicaraguan Spanish""
msgstr ""Никарагва шпански""

msgid ""Norwegian Bokmål""
msgstr ""Норвешки Бокмел""

msgid ""Norwegian Nynorsk""
msgstr ""Нинорск норвешки""

msgid ""November""
msgstr ""Ноември""

msgid ""October""
msgstr ""Октомври""

msgid ""Ossetic""
msgstr ""Осетски""

msgid ""PM""
msgstr ""попладне""

msgid ""Persian""
msgstr ""Персиски""

msgid ""Polish""
msgstr ""Полски""

msgid ""Portuguese""
msgstr ""Португалкски""

msgid ""Punjabi""
msgstr ""Пунџаби""

msgid ""Romanian""
msgstr ""Романски""

msgid ""Russian""
msgstr ""Руски""

msgid ""Sat""
msgstr ""Саб""

msgid ""Saturday""
msgstr ""Сабота""

msgid ""Scottish Gaelic""
msgstr ""Шкотски Галски""

msgid ""September""
msgstr ""Септември""

msgid ""Serbian""
msgstr ""Српски""

msgid ""Serbian Latin""
msgstr ""Српски Латиница""

msgid ""Simplified Chinese""
msgstr ""Поедноставен кинески""

msgid ""Slovak""
msgstr ""Словачки""

msgid ""Slovenian""
msgstr ""Словенечки""

msgid ""Spanish""
msgstr ""Шпански""

msgid ""Sun""
msgstr ""Нед""

msgid ""Sunday""
msgstr ""Недела""

msgid ""Swahili""
msgstr ""Свахили""

msgid ""Swedish""
msgstr ""Шведски""

msgid ""Tajik""
msgstr """"

msgid ""Tamil""
msgstr ""Тамил""

msgid ""Tatar""
msgstr ""Татарски""

msgid ""Telugu""
msgstr ""Телугу""

msgid ""Thai""
msgstr ""Тајландски""

msgid ""Thu""
msgstr ""Чет""

msgid ""Thursday""
msgstr ""Четврток""

msgid ""Traditional Chinese""
msgstr ""Традиционален кинески""

msgid ""Tue""
msgstr ""Вто""

msgid ""Tuesday""
msgstr ""Вторник""

msgid ""Turkish""
msgstr ""Турски""

msgid ""Turkmen""
msgstr """"

msgid ""Udmurt""
msgstr ""Удмурт""

msgid ""Ukrainian""
msgstr ""Украински""

msgid ""Upper Sorbian""
msgstr ""Горно Лужичко-Српски""

msgid ""Urdu""
msgstr ""Урду""

msgid ""Uzbek""
msgstr """"

msgid ""Venezuelan Spanish""
msgstr ""Венецуела шпански""

msgid ""Vietnamese""
msgstr ""Виетнамски""

msgid ""Wed""
msgstr ""Сре""

msgid ""Wednesday""
msgstr ""Среда""

msgid ""Welsh""
msgstr ""Велшки""

msgid ""a minute ago""
msgid_plural ""%[1]v minutes ago""
msgstr[0] ""пред %[1]v минутa""
msgstr[1] ""пред %[1]v минути""

msgid ""a minute from now""
msgid_plural ""%[1]v minutes from now""
msgstr[0] ""за %[1]v минута од сега""
msgstr[1] ""за %[1]v минути од сега""

msgid ""a second ago""
msgid_plural ""%[1]v seconds ago""
msgstr[0] ""пред %[1]v секундa""
msgstr[1] ""пред %[1]v секунди""

msgid ""a second from now""
msgid_plural ""%[1]v seconds from now""
msgstr[0] ""за %[1]v секундa од сега""
msgstr[1] ""за %[1]v секунди од сега""

msgid ""a.m.""
msgstr ""наутро""

msgid ""an hour ago""
msgid_plural ""%[1]v hours ago""
msgstr[0] ""пред %[1]v час""
msgstr[1] ""пред %[1]v часа""

msgid ""an hour from now""
msgid_plural ""%[1]v hours from now""
msgstr[0] ""за %[1]v час од сега""
msgstr[1] ""за %[1]v часа од сега""

msgid ""apr""
msgstr ""апр""

msgid ""aug""
msgstr ""авг""

msgid ""dec""
msgstr ""дек""

msgid ""eight""
msgstr ""осум""

msgid ""feb""
msgstr ""фев""

msgid ""five""
msgstr ""пет""

msgid ""four""
msgstr ""четри""

msgid ""jan""
msgstr ""јан""

msgid ""jul""
msgstr ""јул""

msgid ""jun""
msgstr ""јун""

msgid ""mar""
msgstr ""мар""

msgid ""may""
msgstr ""мај""

msgid ""midnight""
msgstr ""полноќ""

msgid ""nine""
msgstr ""девет""

msgid ""noon""
msgstr ""пладне""

msgid ""nov""
msgstr ""ное""

msgid ""now""
msgstr ""сега""

msgid ""oct""
msgstr ""окт""

msgid ""one""
msgstr ""еден""

msgid ""p.m.""
msgstr ""попладне""

msgid ""sep""
msgstr ""сеп""

msgid ""seven""
msgstr ""седум""

msgid ""six""
msgstr ""шест""

msgid ""three""
msgstr ""три""

msgid ""today""
msgstr ""денес""

msgid ""tomorrow""
msgstr ""утре""

msgid ""two""
msgstr ""две""

msgid ""yesterday""
msgstr ""вчера""

msgctxt ""abbrev. month""
msgid ""April""
msgstr ""Април""

msgctxt ""abbrev. month""
msgid ""Aug.""
msgstr ""Авг.""

msgctxt ""abbrev. month""
msgid ""Dec.""
msgstr ""Дек.""

msgctxt ""abbrev. month""
msgid ""Feb.""
msgstr ""Фев.""

msgctxt ""abbrev. month""
msgid ""Jan.""
msgstr ""Јан.""

msgctxt ""abbrev. month""
msgid ""July""
msgstr ""Јули""

msgctxt ""abbrev. month""
msgid ""June""
msgstr ""Јуни""

msgctxt ""abbrev. month""
msgid ""March""
msgstr ""Март""

msgctxt ""abbrev. month""
msgid ""May""
msgstr ""Мај""

msgctxt ""abbrev. month""
msgid ""Nov.""
msgstr ""Ное.""

msgctxt ""abbrev. month""
msgid ""Oct.""
msgstr ""Окт.""

msgctxt ""abbrev. month""
msgid ""Sept.""
msgstr ""Септ.""

msgctxt ""alt. month""
msgid ""April""
msgstr ""Април""

msgctxt ""alt. month""
msgid ""August""
msgstr ""Август""

msgctxt ""alt. month""
msgid ""December""
msgstr ""Декември""

msgctxt ""alt. month""
msgid ""February""
msgstr ""Февруари""

msgctxt ""alt. month""
msgid ""January""
msgstr ""Јануари""

msgctxt ""alt. month""
msgid ""July""
msgstr ""Јули""

msgctxt ""alt. month""
msgid ""June""
msgstr ""Јуни""

msgctxt ""alt. month""
msgid ""March""
msgstr ""Март""

msgctxt ""alt. month""
msgid ""May""
msgstr ""Мај""

msgctxt ""alt. month""
msgid ""November""
msgstr ""Ноември""

msgctxt ""alt. month""
msgid ""October""
msgstr ""Октомври""

msgctxt ""alt. month""
msgid ""September""
msgstr ""Септември""
".
(** humanize/locale/mk/locale.go (New) *)
Definition loc_mk : locale_data := LD (bs "mk") [(bs "django.po", po_mk)]
  (Some (FD (bs "d F Y") (bs "H:i") (bs "j. F Y H:i") (bs "F Y") (bs "j. F") (bs "j.m.Y") (bs "j.m.Y H:i"))).

(** humanize/locale/ml/django.po *)
Definition po_ml : bytes := bs "# This file is distributed under the same license as the Django package.
# 
# Translators:
# c1007a0b890405f1fbddfacebc4c6ef7, 2013
# Claude Paroz <claude@2xlibre.net>, 2020
# Hrishikesh <hrishi.kb@gmail.com>, 2019-2020
# Jannis Leidel <jannis@leidel.info>, 2011
# Jaseem KM <napsterjaseem@gmail.com>, 2019
# Jeffy <jeffymj@gmail.com>, 2012
# Jibin Mathew <jibin.mathew94@gmail.com>, 2019
# Mariusz Felisiak <felisiak.mariusz@gmail.com>, 2021
# Rag sagar <ragsagar@gmail.com>, 2016
# Rajeesh Nair <rajeeshrnair@gmail.com>, 2011-2012
msgid """"
msgstr """"
""Project-Id-Version: django\n""
""Report-Msgid-Bugs-To: \n""
""POT-Creation-Date: 2021-09-21 10:22+0200\n""
""PO-Revision-Date: 2021-11-24 16:29+0000\n""
""Last-Translator: Mariusz Felisiak <felisiak.mariusz@gmail.com>\n""
""Language-Team: Malayalam (http://www.transifex.com/django/django/language/ml/)\n""
""Language: ml\n""
""MIME-Version: 1.0\n""
""Content-Type: text/plain; charset=UTF-8\n""
""Content-Transfer-Encoding: 8bit\n""
""Plural-Forms: nplurals=2; plural=(n != 1);\n""

msgid ""%[1]d byte""
msgid_plural ""%[1]d bytes""
msgstr[0] ""%[1]d ബൈറ്റ്""
msgstr[1] ""%[1]d ബൈറ്റുകള്‍""

msgid ""%[1]s billion""
msgid_plural ""%[1]s billion""
msgstr[0] ""%[1]s ശതകോടി""
msgstr[1] ""%[1]s ശതകോടി""

msgid ""%[1]s decillion""
msgid_plural ""%[1]s decillion""
msgstr[0] ""%[1]s ഡെസില്ല്യണ്‍""
msgstr[1] ""%[1]s ഡെസില്ല്യണ്‍""

msgid ""%[1]s googol""
msgid_plural ""%[1]s googol""
msgstr[0] ""%[1]s ഗൂഗോള്‍""
msgstr[1] ""%[1]s ഗൂഗോള്‍""

msgid ""%[1]s million""
msgid_plural ""%[1]s million""
msgstr[0] ""%[1]s ദശലക്ഷം""
msgstr[1] ""%[1]s ദശലക്ഷം""

msgid ""%[1]s nonillion""
msgid_plural ""%[1]s nonillion""
msgstr[0] ""%[1]s നോനില്ല്യണ്‍""
msgstr[1] ""%[1]s നോനില്ല്യണ്‍""

msgid ""%[1]s octillion""
msgid_plural ""%[1]s octillion""
msgstr[0] ""%[1]s ഒക്റ്റില്ല്യണ്‍""
msgstr[1] ""%[1]s ഒക്റ്റില്ല്യണ്‍""

msgid ""%[1]s quadrillion""
msgid_plural ""%[1]s quadrillion""
msgstr[0] ""%[1]s ക്വാഡ്രില്ല്യണ്‍""
msgstr[1] ""%[1]s ക്വാഡ്രില്ല്യണ്‍""

msgid ""%[1]s quintillion""
msgid_plural ""%[1]s quintillion""
msgstr[0] ""%[1]s ക്വിന്റില്ല്യണ്‍""
msgstr[1] ""%[1]s ക്വിന്റില്ല്യണ്‍""

msgid ""%[1]s septillion""
msgid_plural ""%[1]s septillion""
msgstr[0] ""%[1]s സെപ്റ്റില്ല്യണ്‍""
msgstr[1] ""%[1]s സെപ്റ്റില്ല്യണ്‍""

msgid ""%[1]s sextillion""
msgid_plural ""%[1]s sextillion""
msgstr[0] ""%[1]s സെക്സ്റ്റില്ല്യണ്‍""
msgstr[1] ""%[1]s സെക്സ്റ്റില്ല്യണ്‍""

msgid ""%[1]s trillion""
msgid_plural ""%[1]s trillion""
msgstr[0] ""%[1]s ലക്ഷം കോടി""
msgstr[1] ""%[1]s ലക്ഷം കോടി""

msgid ""%[1]v ago""
msgstr """"

msgid ""%[1]v day""
msgid_plural ""%[1]v days""
msgstr[0] """"
msgstr[1] """"

msgid ""%[1]v from now""
msgstr """"

msgid ""%[1]v hour""
msgid_plural ""%[1]v hours""
msgstr[0] """"
msgstr[1] """"

msgid ""%[1]v minute""
msgid_plural ""%[1]v minutes""
msgstr[0] """"
msgstr[1] """"

msgid ""%[1]v month""
msgid_plural ""%[1]v months""
msgstr[0] """"
msgstr[1] """"

msgid ""%[1]v week""
msgid_plural ""%[1]v weeks""
msgstr[0] """"
msgstr[1] """"

msgid ""%[1]v year""
msgid_plural ""%[1]v years""
msgstr[0] """"
msgstr[1] """"

msgid ""%s GB""
msgstr ""%s ജി.ബി""

msgid ""%s KB""
msgstr ""%s കെ.ബി""

msgid ""%s MB""
msgstr ""%s എം.ബി""

msgid ""%s PB""
msgstr ""%s പി.ബി""

msgid ""%s TB""
msgstr ""%s ടി.ബി""

msgid "", ""
msgstr "", ""

msgid ""AM""
msgstr ""എ. എം (ഉച്ചയ്ക്കു മുമ്പ്)""

msgid ""Afrikaans""
msgstr ""ആഫ്രിക്കാന്‍സ്""

msgid ""Albanian""
msgstr ""അല്‍ബേനിയന്‍""

msgid ""Algerian Arabic""
msgstr ""അൾഗേരിയൻ അറബിൿ""

msgid ""April""
msgstr ""ഏപ്രില്‍""

msgid ""Arabic""
msgstr ""അറബിൿ""

msgid ""Argentinian Spanish""
msgstr ""അര്‍ജന്റീനിയന്‍ സ്പാനിഷ്""

msgid ""Armenian""
msgstr ""അർമേനിയൻ""

msgid ""Asturian""
msgstr ""ആസ്ടൂറിയൻ""

msgid ""August""
msgstr ""ആഗസ്ത്""

msgid ""Australian English""
msgstr ""ആസ്ട്രേലിയൻ ഇംഗ്ലീഷ്""

msgid ""Azerbaijani""
msgstr ""അസര്‍ബൈജാനി""

msgid ""Basque""
msgstr ""ബാസ്ക്യു""

msgid ""Belarusian""
msgstr ""ബെലറൂഷ്യന്‍""

msgid ""Bengali""
msgstr ""ബംഗാളി""

msgid ""Bosnian""
msgstr ""ബോസ്നിയന്‍""

msgid ""Brazilian Portuguese""
msgstr ""ബ്രസീലിയന്‍ പോര്‍ച്ചുഗീസ്""

msgid ""Breton""
msgstr ""ബ്രെട്ടണ്‍""

msgid ""British English""
msgstr ""ബ്രിട്ടീഷ് ഇംഗ്ലീഷ്""

msgid ""Bulgarian""
msgstr ""ബള്‍ഗേറിയന്‍""

msgid ""Burmese""
msgstr ""ബര്‍മീസ്""

msgid ""Catalan""
msgstr ""കാറ്റലന്‍""

msgid ""Colombian Spanish""
msgstr ""കൊളംബിയൻ സ്പാനിഷ്""

msgid ""Croatian""
msgstr ""ക്രൊയേഷ്യന്‍""

msgid ""Czech""
msgstr ""ചെൿ""

msgid ""Danish""
msgstr ""ഡാനിഷ്""

msgid ""December""
msgstr ""ഡിസംബര്‍""

msgid ""Dutch""
msgstr ""ഡച്ച്""

msgid ""English""
msgstr ""ഇംഗ്ലീഷ്""

msgid ""Esperanto""
msgstr ""എസ്പെരാന്റോ""

msgid ""Estonian""
msgstr ""എസ്ടോണിയന്‍ സ്പാനിഷ്""

msgid ""February""
msgstr ""ഫെബ്രുവരി""

msgid ""Finnish""
msgstr ""ഫിന്നിഷ്""

msgid ""French""
msgstr ""ഫ്രെഞ്ച്""

msgid ""Fri""
msgstr ""വെള്ളി""

msgid ""Friday""
msgstr ""വെള്ളിയാഴ്ച""

msgid ""Frisian""
msgstr ""ഫ്രിസിയന്‍""

msgid ""Galician""
msgstr ""ഗലിഷ്യന്‍""

msgid ""Georgian""
msgstr ""ജോര്‍ജിയന്‍""

msgid ""German""
msgstr ""ജര്‍മന്‍""

msgid ""Greek""
msgstr ""ഗ്രീക്ക്""

msgid ""Hebrew""
msgstr ""ഹീബ്രു""

msgid ""Hindi""
msgstr ""ഹിന്ദി""

msgid ""Hungarian""
msgstr ""ഹംഗേറിയന്‍""

msgid ""Icelandic""
msgstr ""ഐസ്ലാന്‍ഡിൿ""

msgid ""Ido""
msgstr ""ഈടോ""

msgid ""Igbo""
msgstr """"

msgid ""Indonesian""
msgstr ""ഇന്തൊനേഷ്യന്‍""

msgid ""Interlingua""
msgstr ""ഇന്റര്‍ലിംഗ്വാ""

msgid ""Irish""
msgstr ""ഐറിഷ്""

msgid ""Italian""
msgstr ""ഇറ്റാലിയന്‍""

msgid ""January""
msgstr ""ജനുവരി""

msgid ""Japanese""
msgstr ""ജാപ്പനീസ്""

msgid ""July""
msgstr ""ജൂലൈ""

msgid ""June""
msgstr ""ജൂണ്‍""

msgid ""Kabyle""
msgstr ""കാബയെൽ ""

msgid ""Kannada""
msgstr ""കന്നഡ""

msgid ""Kazakh""
msgstr ""കസാഖ്""

msgid ""Khmer""
msgstr ""ഖ്മേര്‍""

msgid ""Korean""
msgstr ""കൊറിയന്‍""

msgid ""Kyrgyz""
msgstr """"

msgid ""Latvian""
msgstr ""ലാറ്റ്വിയന്‍""

msgid ""Lithuanian""
msgstr ""ലിത്വാനിയന്‍""

msgid ""Lower Sorbian""
msgstr ""ലോവർ സോർബിയൻ ""

msgid ""Luxembourgish""
msgstr ""ലക്സംബര്‍ഗിഷ് ""

msgid ""Macedonian""
msgstr ""മാസിഡോണിയന്‍""

msgid ""Malay""
msgstr """"

msgid ""Malayalam""
msgstr ""മലയാളം""

msgid ""Marathi""
msgstr ""മറാത്തി""

msgid ""March""
msgstr ""മാര്‍ച്ച്""

msgid ""May""
msgstr ""മേയ്""

msgid ""Mexican Spanish""
msgstr ""മെക്സിക്കന്‍ സ്പാനിഷ്""

msgid ""Mon""
msgstr ""തിങ്കള്‍""

msgid ""Monday""
msgstr ""തിങ്കളാഴ്ച""

msgid ""Mongolian""
msgstr ""മംഗോളിയന്‍""

msgid ""Nepali""
msgstr ""നേപ്പാളി""

msgid ""Nicaraguan Spanish""
msgstr ""നിക്കരാഗ്വന്‍ സ്പാനിഷ്""

msgid ""Norwegian Bokmål""
msgstr ""നോർവേജിയൻ ബുക്ക്മൊൾ""

msgid ""Norwegian Nynorsk""
msgstr ""നോര്‍വീജിയന്‍ നിനോഷ്ക്""

msgid ""November""
msgstr ""നവംബര്‍""

msgid ""October""
msgstr ""ഒക്ടോബര്‍""

msgid ""Ossetic""
msgstr ""ഒസ്സെറ്റിക്""

msgid ""PM""
msgstr ""പി. എം (ഉച്ചയ്ക്കു ശേഷം) ""

msgid ""Persian""
msgstr ""പേര്‍ഷ്യന്‍""

msgid ""Polish""
msgstr ""പോളിഷ്""

msgid ""Portuguese""
msgstr ""പോര്‍ചുഗീസ്""

msgid ""Punjabi""
msgstr ""പഞ്ചാബി""

msgid ""Romanian""
msgstr ""റൊമാനിയന്‍""

msgid ""Russian""
msgstr ""റഷ്യന്‍""

msgid ""Sat""
msgstr ""ശനി""

msgid ""Saturday""
msgstr ""ശനിയാഴ്ച""

msgid ""Scottish Gaelic""
msgstr ""സ്കോട്ടിഷ് ഗൈലിൿ""

msgid ""September""
msgstr ""സെപ്തംബര്‍""

msgid ""Serbian""
msgstr ""സെര്‍ബിയന്‍""

msgid ""Serbian Latin""
msgstr ""സെര്‍ബിയന്‍ ലാറ്റിന്‍""

msgid ""Simplified Chinese""
msgstr ""സിമ്പ്ലിഫൈഡ് ചൈനീസ്""

msgid ""Slovak""
msgstr ""സ്ലൊവാൿ""

msgid ""Slovenian""
msgstr ""സ്ളൊവേനിയന്‍""

msgid ""Spanish""
msgstr ""സ്പാനിഷ്""

msgid ""Sun""
msgstr ""ഞായര്‍""

msgid ""Sunday""
msgstr ""ഞായറാഴ്ച""

msgid ""Swahili""
msgstr ""സ്വാഹിലി""

msgid ""Swedish""
msgstr ""സ്വീഡിഷ്""

msgid ""Tajik""
msgstr """"

msgid ""Tamil""
msgstr ""തമിഴ്""

msgid ""Tatar""
msgstr ""തൊതാര്‍""

msgid ""Telugu""
msgstr ""തെലുങ്ക്""

msgid ""Thai""
msgstr ""തായ്""

msgid ""Thu""
msgstr ""വ്യാഴം""

msgid ""Thursday""
msgstr ""വ്യാഴാഴ്ച""

msgid ""Traditional Chinese""
msgstr ""പരമ്പരാഗത ചൈനീസ്""

msgid ""Tue""
msgstr ""ചൊവ്വ""

msgid ""Tuesday""
msgstr ""ചൊവ്വാഴ്ച""

msgid ""Turkish""
msgstr ""ടര്‍ക്കിഷ്""

msgid ""Turkmen""
msgstr """"

msgid ""Udmurt""
msgstr ""ഉദ്മര്‍ത്""

msgid ""Ukrainian""
msgstr ""യുക്രേനിയന്‍""

msgid ""Upper Sorbian""
msgstr ""അപ്പർ സോർബിയൻ ""

msgid ""Urdu""
msgstr ""ഉര്‍ദു""

msgid ""Uzbek""
msgstr ""ഉസ്ബെൿ""

msgid ""Venezuelan Spanish""
msgstr ""വെനിസ്വലന്‍ സ്പാനിഷ്""

msgid ""Vietnamese""
msgstr ""വിയറ്റ്നാമീസ്""

msgid ""Wed""
msgstr ""ബുധന്‍""

msgid ""Wednesday""
msgstr ""ബുധനാഴ്ച""

msgid ""Welsh""
msgstr ""വെല്‍ഷ്""

msgid ""a minute ago""
msgid_plural ""%[1]v minutes ago""
msgstr[0] """"
msgstr[1] """"

msgid ""a minute from now""
msgid_plural ""%[1]v minutes from now""
msgstr[0] """"
msgstr[1] """"

msgid ""a second ago""
msgid_plural ""%[1]v seconds ago""
msgstr[0] """"
msgstr[1] """"

msgid ""a second from now""
msgid_plural ""%[1]v seconds from now""
msgstr[0] """"
msgstr[1] """"

msgid ""a.m.""
msgstr ""എ. എം (ഉച്ചയ്ക്കു മുമ്പ്)""

msgid ""an hour ago""
msgid_plural ""%[1]v hours ago""
msgstr[0] """"
msgstr[1] """"

msgid ""an hour from now""
msgid_plural ""%[1]v hours from now""
msgstr[0] """"
msgstr[1] """"

msgid ""apr""
msgstr ""ഏപ്രില്‍""

msgid ""aug""
msgstr ""ആഗസ്ത്""

msgid ""dec""
msgstr ""ഡിസം.""

msgid ""eight""
msgstr ""എട്ട്""

msgid ""feb""
msgstr ""ഫെബ്രു.""

msgid ""five""
msgstr ""അഞ്ച്""

msgid ""four""
msgstr ""നാല്""

msgid ""jan""
msgstr ""ജനു.""

msgid ""jul""
msgstr ""ജൂലൈ""

msgid ""jun""
msgstr ""ജൂണ്‍""

msgid ""mar""
msgstr ""മാര്‍ച്ച്""

msgid ""may""
msgstr ""മേയ്""

msgid ""midnight""
msgstr ""അര്‍ധരാത്രി""

msgid ""nine""
msgstr ""ഒന്‍പത്""

msgid ""noon""
msgstr ""ഉച്ച""

msgid ""nov""
msgstr ""നവം.""

msgid ""now""
msgstr ""ഇപ്പോള്‍""

msgid ""oct""
msgstr ""ഒക്ടോ.""

msgid ""one""
msgstr ""ഒന്ന്""

msgid ""p.m.""
msgstr ""പി. എം (ഉച്ചയ്ക്കു ശേഷം) ""

msgid ""sep""
msgstr ""സെപ്ടം.""

msgid ""seven""
msgstr ""ഏഴ്""

msgid ""six""
msgstr ""ആറ്""

msgid ""three""
msgstr ""മൂന്ന്""

msgid ""today""
msgstr ""ഇന്ന്""

msgid ""tomorrow""
msgstr ""നാളെ""

msgid ""two""
msgstr ""രണ്ട്""

msgid ""yesterday""
msgstr ""ഇന്നലെ""

msgctxt ""abbrev. month""
msgid ""April""
msgstr ""ഏപ്രില്‍""

msgctxt ""abbrev. month""
msgid ""Aug.""
msgstr ""ആഗ.""

msgctxt ""abbrev. month""
msgid ""Dec.""
msgstr ""ഡിസം.""

msgctxt ""abbrev. month""
msgid ""Feb.""
msgstr ""ഫെബ്രു.""

msgctxt ""abbrev. month""
msgid ""Jan.""
msgstr ""ജനു.""

msgctxt ""abbrev. month""
msgid ""July""
msgstr ""ജൂലൈ""

msgctxt ""abbrev. month""
msgid ""June""
msgstr ""ജൂണ്‍""

msgctxt ""abbrev. month""
msgid ""March""
msgstr ""മാര്‍ച്ച്""

msgctxt ""abbrev. month""
msgid ""May""
msgstr ""മേയ്""

msgctxt ""abbrev. month""
msgid ""Nov.""
msgstr ""നവം.""

msgctxt ""abbrev. month""
msgid ""Oct.""
msgstr ""ഒക്ടോ.""

msgctxt ""abbrev. month""
msgid ""Sept.""
msgstr ""സെപ്തം.""

msgctxt ""alt. month""
msgid ""April""
msgstr ""ഏപ്രില്‍""

msgctxt ""alt. month""
msgid ""August""
msgstr ""ആഗസ്ത്""

msgctxt ""alt. month""
msgid ""December""
msgstr ""ഡിസംബര്‍""

msgctxt ""alt. month""
msgid ""February""
msgstr ""ഫെബ്രുവരി""

msgctxt ""alt. month""
msgid ""January""
msgstr ""ജനുവരി""

msgctxt ""alt. month""
msgid ""July""
msgstr ""ജൂലൈ""

msgctxt ""alt. month""
msgid ""June""
msgstr ""ജൂണ്‍""

msgctxt ""alt. month""
msgid ""March""
msgstr ""മാര്‍ച്ച്""

msgctxt ""alt. month""
msgid ""May""
msgstr ""മേയ്""

msgctxt ""alt. month""
msgid ""November""
msgstr ""നവംബര്‍""

msgctxt ""alt. month""
msgid ""October""
msgstr ""ഒക്ടോബര്‍""

msgctxt ""alt. month""
msgid ""September""
msgstr ""സെപ്തംബര്‍""

msgctxt ""ordinal 0""
msgid ""%vth""
msgstr """"

msgctxt ""ordinal 1""
msgid ""%vst""
msgstr """"

msgctxt ""ordinal 11, 12, 13""
msgid ""%vth""
msgstr """"

msgctxt ""ordinal 2""
msgid ""%vnd""
msgstr """"

msgctxt ""ordinal 3""
msgid ""%vrd""
msgstr """"

msgctxt ""ordinal 4""
msgid ""%vth""
msgstr """"

msgctxt ""ordinal 5""
msgid ""%vth""
msgstr """"

msgctxt ""ordinal 6""
msgid ""%vth""
msgstr """"

msgctxt ""ordinal 7""
msgid ""%vth""
msgstr """"

msgctxt ""ordinal 8""
msgid ""%vth""
msgstr """"

msgctxt ""ordinal 9""
msgid ""%vth""
msgstr """"
".
(** humanize/locale/ml/locale.go (New) *)
Definition loc_ml : locale_data := LD (bs "ml") [(bs "django.po", po_ml)]
  (Some (FD (bs "N j, Y") (bs "P") (bs "N j, Y, P") (bs "F Y") (bs "F j") (bs "m/d/Y") (bs "m/d/Y P"))).

Definition shipped_6 : list (bytes * locale_data) :=
  [(bs "kk", loc_kk);
   (bs "km", loc_km);
   (bs "kn", loc_kn);
   (bs "ko", loc_ko);
   (bs "ky", loc_ky);
   (bs "lb", loc_lb);
   (bs "lt", loc_lt);
   (bs "lv", loc_lv);
   (bs "mk", loc_mk);
   (bs "ml", loc_ml)].
