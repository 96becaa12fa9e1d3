(** Translations and formats that come with humanize, part 7: generated by
    tools/gen_humdata.py from /repo/humanize/locale, django.po and the Go file of
    each package. *)
From Coq Require Import String Ascii List.
From Verif Require Import Base DfmtModel HumLocModel.
Import ListNotations.

(** humanize/locale/mn/django.po *)
Definition po_mn : bytes := bs "# This file is distributed under the same license as the Django package.
# 
# Translators:
# Ankhbayar <ankhaa1002@gmail.com>, 2013
# Bayarkhuu Bataa, 2014,2017-2018
# Baskhuu Lodoikhuu <baskhuujacara@gmail.com>, 2011
# Jannis Leidel <jannis@leidel.info>, 2011
# jargalan <jargalanch@gmail.com>, 2011
# Tsolmon <mnts26@gmail.com>, 2011
# Turmunkh Batkhuyag, 2023
# Zorig, 2013-2014,2016,2018
# Zorig, 2019
# Анхбаяр Анхаа <l.ankhbayar@gmail.com>, 2013-2016,2018-2019
# Баясгалан Цэвлээ <bayasaa_7672@yahoo.com>, 2011,2015,2017
# Ганзориг БП <ganzo.bp@gmail.com>, 2011
msgid """"
msgstr """"
""Project-Id-Version: django\n""
""Report-Msgid-Bugs-To: \n""
""POT-Creation-Date: 2023-09-18 11:41-0300\n""
""PO-Revision-Date: 2023-12-25 06:49+0000\n""
""Last-Translator: Turmunkh Batkhuyag, 2023\n""
""Language-Team: Mongolian (http://app.transifex.com/django/django/language/mn/)\n""
""Language: mn\n""
""MIME-Version: 1.0\n""
""Content-Type: text/plain; charset=UTF-8\n""
""Content-Transfer-Encoding: 8bit\n""
""Plural-Forms: nplurals=2; plural=(n != 1);\n""

msgid ""%[1]d byte""
msgid_plural ""%[1]d bytes""
msgstr[0] ""%[1]d байт""
msgstr[1] ""%[1]d байт""

msgid ""%[1]s billion""
msgid_plural ""%[1]s billion""
msgstr[0] ""%[1]s тэрбум""
msgstr[1] ""%[1]s тэрбум""

msgid ""%[1]s decillion""
msgid_plural ""%[1]s decillion""
msgstr[0] ""%[1]s эрхэт""
msgstr[1] ""%[1]s эрхэт""

msgid ""%[1]s googol""
msgid_plural ""%[1]s googol""
msgstr[0] ""%[1]s googol""
msgstr[1] ""%[1]s googol""

msgid ""%[1]s million""
msgid_plural ""%[1]s million""
msgstr[0] ""%[1]s сая""
msgstr[1] ""%[1]s сая""

msgid ""%[1]s nonillion""
msgid_plural ""%[1]s nonillion""
msgstr[0] ""%[1]s их шалтгааны үзэгдэл""
msgstr[1] ""%[1]s их шалтгааны үзэгдэл""

msgid ""%[1]s octillion""
msgid_plural ""%[1]s octillion""
msgstr[0] ""%[1]s өөр дээр ""
msgstr[1] ""%[1]s өөр дээр ""

msgid ""%[1]s quadrillion""
msgid_plural ""%[1]s quadrillion""
msgstr[0] ""%[1]s тунамал""
msgstr[1] ""%[1]s тунамал""

msgid ""%[1]s quintillion""
msgid_plural ""%[1]s quintillion""
msgstr[0] ""%[1]s их ингүүмэл ""
msgstr[1] ""%[1]s их ингүүмэл ""

msgid ""%[1]s septillion""
msgid_plural ""%[1]s septillion""
msgstr[0] ""%[1]s их өөр дээр ""
msgstr[1] ""%[1]s их өөр дээр ""

msgid ""%[1]s sextillion""
msgid_plural ""%[1]s sextillion""
msgstr[0] ""%[1]s ялгаруулагч""
msgstr[1] ""%[1]s ялгаруулагч""

msgid ""%[1]s trillion""
msgid_plural ""%[1]s trillion""
msgstr[0] ""%[1]s наяд""
msgstr[1] ""%[1]s их наяд""

msgid ""%[1]v ago""
msgstr ""%[1]v ѳмнѳ""

msgid ""%[1]v day""
msgid_plural ""%[1]v days""
msgstr[0] ""%[1]v өдөр""
msgstr[1] ""%[1]v өдөр""

msgid ""%[1]v from now""
msgstr ""одооноос %[1]v ""

msgid ""%[1]v hour""
msgid_plural ""%[1]v hours""
msgstr[0] ""%[1]v цаг""
msgstr[1] ""%[1]v цаг""

msgid ""%[1]v minute""
msgid_plural ""%[1]v minutes""
msgstr[0] ""%[1]v минут""
msgstr[1] ""%[1]v минут""

msgid ""%[1]v month""
msgid_plural ""%[1]v months""
msgstr[0] ""%[1]v сар""
msgstr[1] ""%[1]v сар""

msgid ""%[1]v week""
msgid_plural ""%[1]v weeks""
msgstr[0] ""%[1]v долоо хоног""
msgstr[1] ""%[1]v долоо хоног""

msgid ""%[1]v year""
msgid_plural ""%[1]v years""
msgstr[0] ""%[1]v жил""
msgstr[1] ""%[1]v жил""

msgid ""%s GB""
msgstr ""%s GB""

msgid ""%s KB""
msgstr ""%s KB""

msgid ""%s MB""
msgstr ""%s MB""

msgid ""%s PB""
msgstr ""%s PB""

msgid ""%s TB""
msgstr ""%s TB""

msgid "", ""
msgstr "", ""

msgid ""AM""
msgstr ""AM""

msgid ""Afrikaans""
msgstr ""Африк""

msgid ""Albanian""
msgstr ""Альбани""

msgid ""Algerian Arabic""
msgstr ""Алжир Араб""

msgid ""April""
msgstr ""4-р сар""

msgid ""Arabic""
msgstr ""Араб""

msgid ""Argentinian Spanish""
msgstr ""Аргентинийн Испани""

msgid ""Armenian""
msgstr ""Армен""

msgid ""Asturian""
msgstr ""Астури""

msgid ""August""
msgstr ""8-р сар""

msgid ""Australian English""
msgstr ""Австрали Англи""

msgid ""Azerbaijani""
msgstr ""Азербажан""

msgid ""Basque""
msgstr ""Баск""

msgid ""Belarusian""
msgstr ""Беларус""

msgid ""Bengali""
msgstr ""Бенгал""

msgid ""Bosnian""
msgstr ""Босни""

msgid ""Brazilian Portuguese""
msgstr ""Бразилийн Португали""

msgid ""Breton""
msgstr ""Бэрэйтон ""

msgid ""British English""
msgstr ""Британи Англи""

msgid ""Bulgarian""
msgstr ""Болгар""

msgid ""Burmese""
msgstr ""Бирм""

msgid ""Catalan""
msgstr ""Каталан""

msgid ""Central Kurdish (Sorani)""
msgstr ""Төв Курд (Сорани)""

msgid ""Colombian Spanish""
msgstr ""Колумбийн Испаниар""

msgid ""Croatian""
msgstr ""Хорват""

msgid ""Czech""
msgstr ""Чех""

msgid ""Danish""
msgstr ""Дани""

msgid ""December""
msgstr ""12-р сар""

msgid ""Dutch""
msgstr ""Голланд""

msgid ""English""
msgstr ""Англи""

msgid ""Esperanto""
msgstr ""Эсперанто""

msgid ""Estonian""
msgstr ""Эстони""

msgid ""February""
msgstr ""2-р сар""

msgid ""Finnish""
msgstr ""Финлянд""

msgid ""French""
msgstr ""Франц""

msgid ""Fri""
msgstr ""Баа""

msgid ""Friday""
msgstr ""Баасан гариг""

msgid ""Frisian""
msgstr ""Фриз""

msgid ""Galician""
msgstr ""Галици""

msgid ""Georgian""
msgstr ""Гүрж""

msgid ""German""
msgstr ""Герман""

msgid ""Greek""
msgstr ""Грек""

msgid ""Hebrew""
msgstr ""Еврэй""

msgid ""Hindi""
msgstr ""Хинди""

msgid ""Hungarian""
msgstr ""Унгар""

msgid ""Icelandic""
msgstr ""Исланд""

msgid ""Ido""
msgstr ""Идо""

msgid ""Igbo""
msgstr ""Игбо""

msgid ""Indonesian""
msgstr ""Индонези""

msgid ""Interlingua""
msgstr ""Interlingua""

msgid ""Irish""
msgstr ""Ирланд""

msgid ""Italian""
msgstr ""Итали""

msgid ""January""
msgstr ""1-р сар""

msgid ""Japanese""
msgstr ""Япон""

msgid ""July""
msgstr ""7-р сар""

msgid ""June""
msgstr ""6-р сар""

msgid ""Kabyle""
msgstr ""Кабилэ""

msgid ""Kannada""
msgstr ""Канад""

msgid ""Kazakh""
msgstr ""Казак""

msgid ""Khmer""
msgstr ""Кхмер""

msgid ""Korean""
msgstr ""Солонгос""

msgid ""Kyrgyz""
msgstr ""Киргиз""

msgid ""Latvian""
msgstr ""Латви""

msgid ""Lithuanian""
msgstr ""Литва""

msgid ""Lower Sorbian""
msgstr ""Доод Сорбин""

msgid ""Luxembourgish""
msgstr ""Лүксенбүргиш""

msgid ""Macedonian""
msgstr ""Македон""

msgid ""Malay""
msgstr ""Малай""

msgid ""Malayalam""
msgstr ""Малайз""

msgid ""Marathi""
msgstr ""маратхи""

msgid ""March""
msgstr ""3-р сар""

msgid ""May""
msgstr ""5-р сар""

msgid ""Mexican Spanish""
msgstr ""Мексикийн Испани""

msgid ""Mon""
msgstr ""Дав""

msgid ""Monday""
msgstr ""Даваа гариг""

msgid ""Mongolian""
msgstr ""Монгол""

msgid ""Nepali""
msgstr ""Непал""

msgid ""Nicaraguan Spanish""
msgstr ""Никрагуан Испани""

msgid ""Norwegian Bokmål""
msgstr ""Норвеги Бокмал""

msgid ""Norwegian Nynorsk""
msgstr ""Норвегийн нюнорск""

msgid ""November""
msgstr ""11-р сар""

msgid ""October""
msgstr ""10-р сар""

msgid ""Ossetic""
msgstr ""Оссетик""

msgid ""PM""
msgstr ""PM""

msgid ""Persian""
msgstr ""Перс""

msgid ""Polish""
msgstr ""Польш""

msgid ""Portuguese""
msgstr ""Португал""

msgid ""Punjabi""
msgstr ""Панжаби""

msgid ""Romanian""
msgstr ""Румын""

msgid ""Russian""
msgstr ""Орос""

msgid ""Sat""
msgstr ""Бям""

msgid ""Saturday""
msgstr ""Бямба гариг""

msgid ""Scottish Gaelic""
msgstr ""Шотландийн Гаелик""

msgid ""September""
msgstr ""9-р сар""

msgid ""Serbian""
msgstr ""Серби""

msgid ""Serbian Latin""
msgstr ""Серби латин""

msgid ""Simplified Chinese""
msgstr ""Хятад (хялбаршуулсан) ""

msgid ""Slovak""
msgstr ""Словак""

msgid ""Slovenian""
msgstr ""Словен""

msgid ""Spanish""
msgstr ""Испани""

msgid ""Sun""
msgstr ""Ням""

msgid ""Sunday""
msgstr ""Ням гариг""

msgid ""Swahili""
msgstr ""Савахил""

msgid ""Swedish""
msgstr ""Щвед""

msgid ""Tajik""
msgstr ""Тажик""

msgid ""Tamil""
msgstr ""Тамил""

msgid ""Tatar""
msgstr ""Татар""

msgid ""Telugu""
msgstr ""Тэлүгү""

msgid ""Thai""
msgstr ""Тайланд""

msgid ""Thu""
msgstr ""Пүр""

msgid ""Thursday""
msgstr ""Пүрэв гариг""

msgid ""Traditional Chinese""
msgstr ""Хятад (уламжлалт)""

msgid ""Tue""
msgstr ""Мяг""

msgid ""Tuesday""
msgstr ""Мягмар гариг""

msgid ""Turkish""
msgstr ""Турк""

msgid ""Turkmen""
msgstr ""Турк хүн""

msgid ""Udmurt""
msgstr ""Удмурт""

msgid ""Ukrainian""
msgstr ""Украйн""

msgid ""Upper Sorbian""
msgstr ""Дээд Сорбин""

msgid ""Urdu""
msgstr ""Урду""

msgid ""Uyghur""
msgstr ""Уйгур""

msgid ""Uzbek""
msgstr ""Узбек""

msgid ""Venezuelan Spanish""
msgstr ""Венесуэлийн Спани""

msgid ""Vietnamese""
msgstr ""Вьетнам""

msgid ""Wed""
msgstr ""Лха""

msgid ""Wednesday""
msgstr ""Лхагва гариг""

msgid ""Welsh""
msgstr ""Уэльс""

msgid ""a minute ago""
msgid_plural ""%[1]v minutes ago""
msgstr[0] ""1 минутын өмнө""
msgstr[1] ""%[1]v минутын өмнө""

msgid ""a minute from now""
msgid_plural ""%[1]v minutes from now""
msgstr[0] ""1 минутын дараа""
msgstr[1] ""%[1]v минутын дараа""

msgid ""a second ago""
msgid_plural ""%[1]v seconds ago""
msgstr[0] ""1 секундын өмнө""
msgstr[1] ""%[1]v секундын өмнө""

msgid ""a second from now""
msgid_plural ""%[1]v seconds from now""
msgstr[0] ""1 секундын дараа""
msgstr[1] ""%[1]v секундын дараа""

msgid ""a.m.""
msgstr ""a.m.""

msgid ""an hour ago""
msgid_plural ""%[1]v hours ago""
msgstr[0] ""1 цагийн өмнө""
msgstr[1] ""%[1]v цагийн өмнө""

msgid ""an hour from now""
msgid_plural ""%[1]v hours from now""
msgstr[0] ""1 цагийн дараа""
msgstr[1] ""%[1]v цагийн дараа""

msgid ""apr""
msgstr ""4-р сар""

msgid ""aug""
msgstr ""8-р сар ""

msgid ""dec""
msgstr ""12-р сар""

msgid ""eight""
msgstr ""найм""

msgid ""feb""
msgstr ""2-р сар""

msgid ""five""
msgstr ""тав""

msgid ""four""
msgstr ""дөрөв""

msgid ""jan""
msgstr ""1-р сар""

msgid ""jul""
msgstr ""7-р сар""

msgid ""jun""
msgstr ""6-р сар""

msgid ""mar""
msgstr ""3-р сар""

msgid ""may""
msgstr ""5-р сар""

msgid ""midnight""
msgstr ""шөнө дунд""

msgid ""nine""
msgstr ""ес""

msgid ""noon""
msgstr ""үд дунд""

msgid ""nov""
msgstr ""11-р сар""

msgid ""now""
msgstr ""одоо""

msgid ""oct""
msgstr ""10-р сар""

msgid ""one""
msgstr ""нэг""

msgid ""p.m.""
msgstr ""p.m.""

msgid ""sep""
msgstr ""9-р сар""

msgid ""seven""
msgstr ""долоо""

msgid ""six""
msgstr ""зургаа""

msgid ""three""
msgstr ""гурав""

msgid ""today""
msgstr ""өнөөдөр""

msgid ""tomorrow""
msgstr ""маргааш""

msgid ""two""
msgstr ""хоёр""

msgid ""yesterday""
msgstr ""өчигдөр""

msgctxt ""abbrev. month""
msgid ""April""
msgstr ""4-р сар.""

msgctxt ""abbrev. month""
msgid ""Aug.""
msgstr ""8-р сар.""

msgctxt ""abbrev. month""
msgid ""Dec.""
msgstr ""12-р сар.""

msgctxt ""abbrev. month""
msgid ""Feb.""
msgstr ""2-р сар.""

msgctxt ""abbrev. month""
msgid ""Jan.""
msgstr ""1-р сар.""

msgctxt ""abbrev. month""
msgid ""July""
msgstr ""7-р сар.""

msgctxt ""abbrev. month""
msgid ""June""
msgstr ""6-р сар.""

msgctxt ""abbrev. month""
msgid ""March""
msgstr ""3-р сар.""

msgctxt ""abbrev. month""
msgid ""May""
msgstr ""5-р сар.""

msgctxt ""abbrev. month""
msgid ""Nov.""
msgstr ""11-р сар.""

msgctxt ""abbrev. month""
msgid ""Oct.""
msgstr ""10-р сар.""

msgctxt ""abbrev. month""
msgid ""Sept.""
msgstr ""9-р сар.""

msgctxt ""alt. month""
msgid ""April""
msgstr ""Туулай""

msgctxt ""alt. month""
msgid ""August""
msgstr ""Хонь""

msgctxt ""alt. month""
msgid ""December""
msgstr ""Гахай""

msgctxt ""alt. month""
msgid ""February""
msgstr ""Үхэр""

msgctxt ""alt. month""
msgid ""January""
msgstr ""Хулгана""

msgctxt ""alt. month""
msgid ""July""
msgstr ""Морь""

msgctxt ""alt. month""
msgid ""June""
msgstr ""Могой""

msgctxt ""alt. month""
msgid ""March""
msgstr ""Бар""

msgctxt ""alt. month""
msgid ""May""
msgstr ""Луу""

msgctxt ""alt. month""
msgid ""November""
msgstr ""Нохой""

msgctxt ""alt. month""
msgid ""October""
msgstr ""Тахиа""

msgctxt ""alt. month""
msgid ""September""
msgstr ""Бич""

msgctxt ""naturaltime-future""
msgid ""%[1]v day""
msgid_plural ""%[1]v days""
msgstr[0] ""%[1]v өдөр""
msgstr[1] ""%[1]v өдөр""

msgctxt ""naturaltime-future""
msgid ""%[1]v hour""
msgid_plural ""%[1]v hours""
msgstr[0] ""%[1]v цаг""
msgstr[1] ""%[1]v цаг""

msgctxt ""naturaltime-future""
msgid ""%[1]v minute""
msgid_plural ""%[1]v minutes""
msgstr[0] ""%[1]v минут""
msgstr[1] ""%[1]v минут""

msgctxt ""naturaltime-future""
msgid ""%[1]v month""
msgid_plural ""%[1]v months""
msgstr[0] ""%[1]v сар""
msgstr[1] ""%[1]v сар""

msgctxt ""naturaltime-future""
msgid ""%[1]v week""
msgid_plural ""%[1]v weeks""
msgstr[0] ""%[1]v долоо хоног""
msgstr[1] ""%[1]v долоо хоног""

msgctxt ""naturaltime-future""
msgid ""%[1]v year""
msgid_plural ""%[1]v years""
msgstr[0] ""%[1]v жил""
msgstr[1] ""%[1]v жил""

msgctxt ""naturaltime-past""
msgid ""%[1]v day""
msgid_plural ""%[1]v days""
msgstr[0] ""%[1]v өдөр""
msgstr[1] ""%[1]v өдөр""

msgctxt ""naturaltime-past""
msgid ""%[1]v hour""
msgid_plural ""%[1]v hours""
msgstr[0] ""%[1]v цаг""
msgstr[1] ""%[1]v цаг""

msgctxt ""naturaltime-past""
msgid ""%[1]v minute""
msgid_plural ""%[1]v minutes""
msgstr[0] ""%[1]v минут""
msgstr[1] ""%[1]v минут""

msgctxt ""naturaltime-past""
msgid ""%[1]v month""
msgid_plural ""%[1]v months""
msgstr[0] ""%[1]v сар""
msgstr[1] ""%[1]v сар""

msgctxt ""naturaltime-past""
msgid ""%[1]v week""
msgid_plural ""%[1]v weeks""
msgstr[0] ""%[1]v долоо хоног""
msgstr[1] ""%[1]v долоо хоног""

msgctxt ""naturaltime-past""
msgid ""%[1]v year""
msgid_plural ""%[1]v years""
msgstr[0] ""%[1]v жил""
msgstr[1] ""%[1]v жил""

msgctxt ""ordinal 0""
msgid ""%vth""
msgstr ""%v дэх""

msgctxt ""ordinal 1""
msgid ""%vst""
msgstr ""%v дэх""

msgctxt ""ordinal 11, 12, 13""
msgid ""%vth""
msgstr ""%v дэх""

msgctxt ""ordinal 2""
msgid ""%vnd""
msgstr ""%v дахь""

msgctxt ""ordinal 3""
msgid ""%vrd""
msgstr ""%v дахь""

msgctxt ""ordinal 4""
msgid ""%vth""
msgstr ""%v дэх""

msgctxt ""ordinal 5""
msgid ""%vth""
msgstr ""%v дахь""

msgctxt ""ordinal 6""
msgid ""%vth""
msgstr ""%v дахь""

msgctxt ""ordinal 7""
msgid ""%vth""
msgstr ""%v дахь""

msgctxt ""ordinal 8""
msgid ""%vth""
msgstr ""%v дахь""

msgctxt ""ordinal 9""
msgid ""%vth""
msgstr ""%v дэх""
".
(** humanize/locale/mn/locale.go (New) *)
Definition loc_mn : locale_data := LD (bs "mn") [(bs "django.po", po_mn)]
  (Some (FD (bs "d F Y") (bs "g:i A") (bs "") (bs "") (bs "") (bs "j M Y") (bs ""))).

(** humanize/locale/mr/django.po *)
Definition po_mr : bytes := bs "# This file is distributed under the same license as the Django package.
# 
# Translators:
# Omkar Parab, 2024
# Suraj Kawade, 2013
msgid """"
msgstr """"
""Project-Id-Version: django\n""
""Report-Msgid-Bugs-To: \n""
""POT-Creation-Date: 2023-09-18 11:41-0300\n""
""PO-Revision-Date: 2024-01-20 06:49+0000\n""
""Last-Translator: Omkar Parab, 2024\n""
""Language-Team: Marathi (http://app.transifex.com/django/django/language/mr/)\n""
""Language: mr\n""
""MIME-Version: 1.0\n""
""Content-Type: text/plain; charset=UTF-8\n""
""Content-Transfer-Encoding: 8bit\n""
""Plural-Forms: nplurals=2; plural=(n != 1);\n""

msgid ""%[1]d byte""
msgid_plural ""%[1]d bytes""
msgstr[0] """"
msgstr[1] """"

msgid ""%[1]s billion""
msgid_plural ""%[1]s billion""
msgstr[0] """"
msgstr[1] """"

msgid ""%[1]s decillion""
msgid_plural ""%[1]s decillion""
msgstr[0] """"
msgstr[1] """"

msgid ""%[1]s googol""
msgid_plural ""%[1]s googol""
msgstr[0] """"
msgstr[1] """"

msgid ""%[1]s million""
msgid_plural ""%[1]s million""
msgstr[0] """"
msgstr[1] """"

msgid ""%[1]s nonillion""
msgid_plural ""%[1]s nonillion""
msgstr[0] """"
msgstr[1] """"

msgid ""%[1]s octillion""
msgid_plural ""%[1]s octillion""
msgstr[0] """"
msgstr[1] """"

msgid ""%[1]s quadrillion""
msgid_plural ""%[1]s quadrillion""
msgstr[0] """"
msgstr[1] """"

msgid ""%[1]s quintillion""
msgid_plural ""%[1]s quintillion""
msgstr[0] """"
msgstr[1] """"

msgid ""%[1]s septillion""
msgid_plural ""%[1]s septillion""
msgstr[0] """"
msgstr[1] """"

msgid ""%[1]s sextillion""
msgid_plural ""%[1]s sextillion""
msgstr[0] """"
msgstr[1] """"

msgid ""%[1]s trillion""
msgid_plural ""%[1]s trillion""
msgstr[0] """"
msgstr[1] """"

msgid ""%[1]v ago""
msgstr ""%[1]v पूर्वी""

msgid ""%[1]v day""
msgid_plural ""%[1]v days""
msgstr[0] """"
msgstr[1] """"

msgid ""%[1]v from now""
msgstr """"

msgid ""%[1]v hour""
msgid_plural ""%[1]v hours""
msgstr[0] """"
msgstr[1] """"

msgid ""%[1]v minute""
msgid_plural ""%[1]v minutes""
msgstr[0] """"
msgstr[1] """"

msgid ""%[1]v month""
msgid_plural ""%[1]v months""
msgstr[0] """"
msgstr[1] """"

msgid ""%[1]v week""
msgid_plural ""%[1]v weeks""
msgstr[0] """"
msgstr[1] """"

msgid ""%[1]v year""
msgid_plural ""%[1]v years""
msgstr[0] """"
msgstr[1] """"

msgid ""%s GB""
msgstr ""%s जीबी""

msgid ""%s KB""
msgstr ""%s केबी""

msgid ""%s MB""
msgstr ""%s एमबी""

msgid ""%s PB""
msgstr ""%s पीबी""

msgid ""%s TB""
msgstr ""%s टिबी""

msgid "", ""
msgstr "",""

msgid ""AM""
msgstr ""मपू""

msgid ""Afrikaans""
msgstr ""अफ्रिकान्स""

msgid ""Albanian""
msgstr ""अल्बेनियन""

msgid ""Algerian Arabic""
msgstr ""अल्जेरियन अरेबिक""

msgid ""April""
msgstr ""एप्रिल""

msgid ""Arabic""
msgstr ""अरेबिक""

msgid ""Argentinian Spanish""
msgstr ""अर्जेन्टिनाची स्पॅनिश""

msgid ""Armenian""
msgstr ""अर्मेनियन""

msgid ""Asturian""
msgstr ""अस्टूरियन""

msgid ""August""
msgstr ""ऑगस्ट""

msgid ""Australian English""
msgstr ""ऑस्ट्रेलियन इंग्रजी""

msgid ""Azerbaijani""
msgstr ""अझरबैजानी""

msgid ""Basque""
msgstr ""बास्क""

msgid ""Belarusian""
msgstr ""बेलारशियन""

msgid ""Bengali""
msgstr ""बंगाली""

msgid ""Bosnian""
msgstr ""बोस्नियन""

msgid ""Brazilian Portuguese""
msgstr ""ब्रझिलियन पोर्तुगीज""

msgid ""Breton""
msgstr ""ब्रेटन""

msgid ""British English""
msgstr ""ब्रिटिश इंग्रजी""

msgid ""Bulgarian""
msgstr ""बल्गेरियन""

msgid ""Burmese""
msgstr ""बर्मीस""

msgid ""Catalan""
msgstr ""कॅटलान""

msgid ""Central Kurdish (Sorani)""
msgstr ""मध्य कुर्दिश (सोरानी)""

msgid ""Colombian Spanish""
msgstr ""कोलंबियन स्पॅनिश""

msgid ""Croatian""
msgstr ""क्रोएशियन""

msgid ""Czech""
msgstr ""झेक""

msgid ""Danish""
msgstr ""डॅनिश""

msgid ""December""
msgstr ""डिसेंबर""

msgid ""Dutch""
msgstr ""डच""

msgid ""English""
msgstr ""इंग्रजी""

msgid ""Esperanto""
msgstr ""एस्पेरॅन्टो""

msgid ""Estonian""
msgstr ""एस्टोनियन""

msgid ""February""
msgstr ""फेब्रुवारी""

msgid ""Finnish""
msgstr ""फिनिश""

msgid ""French""
msgstr ""फ्रेंच""

msgid ""Fri""
msgstr ""शुक्र""

msgid ""Friday""
msgstr ""शुक्रवार""

msgid ""Frisian""
msgstr ""फ्रिसियन""

msgid ""Galician""
msgstr ""गॅलिशियन""

msgid ""Georgian""
msgstr ""जॉर्जियन""

msgid ""German""
msgstr ""जर्मन""

msgid ""Greek""
msgstr ""ग्रीक""

msgid ""Hebrew""
msgstr ""हिब्रू""

msgid ""Hindi""
msgstr ""हिंदी""

msgid ""Hungarian""
msgstr ""हंगेरियन""

msgid ""Icelandic""
msgstr ""आयलँडिक""

msgid ""Ido""
msgstr ""इदो""

msgid ""Igbo""
msgstr ""इग्बो""

msgid ""Indonesian""
msgstr ""इंडोनेशियन""

msgid ""Interlingua""
msgstr ""इंटरलिंगुआ""

msgid ""Irish""
msgstr ""आयरिश""

msgid ""Italian""
msgstr ""इटालियन""

msgid ""January""
msgstr ""जानेवारी""

msgid ""Japanese""
msgstr ""जपानी""

msgid ""July""
msgstr ""जुलै""

msgid ""June""
msgstr ""जून""

msgid ""Kabyle""
msgstr ""कबायल""

msgid ""Kannada""
msgstr ""कन्नड""

msgid ""Kazakh""
msgstr ""कझाक""

msgid ""Khmer""
msgstr ""ख्मेर""

msgid ""Korean""
msgstr ""कोरियन""

msgid ""Kyrgyz""
msgstr ""किर्गिझ""

msgid ""Latvian""
msgstr ""लाटव्हिअन""

msgid ""Lithuanian""
msgstr ""लिथुआनियन""

msgid ""Lower Sorbian""
msgstr ""लोअर सोर्बियन""

msgid ""Luxembourgish""
msgstr ""लक्झेंबर्गिश""

msgid ""Macedonian""
msgstr ""मॅसेडोनिअन""

msgid ""Malay""
msgstr ""मलय""

msgid ""Malayalam""
msgstr ""मल्याळम""

msgid ""Marathi""
msgstr ""मराठी""

msgid ""March""
msgstr ""मार्च""

msgid ""May""
msgstr ""मे""

msgid ""Mexican Spanish""
msgstr ""मेक्सिकन स्पॅनिश""

msgid ""Mon""
msgstr ""सोम""

msgid ""Monday""
msgstr ""सोमवार""

msgid ""Mongolian""
msgstr ""मंगोलियन""

msgid ""Nepali""
msgstr ""नेपाळी""

msgid ""Nicaraguan Spanish""
msgstr ""निकारागुआन स्पॅनिश""

msgid ""Norwegian Bokmål""
msgstr ""नॉर्वेजियन बोकमाल""

msgid ""Norwegian Nynorsk""
msgstr ""नॉर्वेजिअन निनॉर्स्क ""

msgid ""November""
msgstr ""नोव्हेंबर""

msgid ""October""
msgstr ""ऑक्टोबर""

msgid ""Ossetic""
msgstr ""ओस्सेटिक""

msgid ""PM""
msgstr ""मउ""

msgid ""Persian""
msgstr ""पर्शियन""

msgid ""Polish""
msgstr ""पॉलिश""

msgid ""Portuguese""
msgstr ""पोर्तुगीज""

msgid ""Punjabi""
msgstr ""पंजाबी""

msgid ""Romanian""
msgstr ""रोमेनियन""

msgid ""Russian""
msgstr ""रशियन""

msgid ""Sat""
msgstr ""शनि""

msgid ""Saturday""
msgstr ""शनिवार""

msgid ""Scottish Gaelic""
msgstr ""स्कॉटिश गेलिक""

msgid ""September""
msgstr ""सप्टेंबर""

msgid ""Serbian""
msgstr ""सर्बियन""

msgid ""Serbian Latin""
msgstr ""सर्बियन लॅटिन""

msgid ""Simplified Chinese""
msgstr ""सोपी चायनिज""

msgid ""Slovak""
msgstr ""स्लोवाक""

msgid ""Slovenian""
msgstr ""स्लोवेनियन""

msgid ""Spanish""
msgstr ""स्पॅनिश ""

msgid ""Sun""
msgstr ""रवि""

msgid ""Sunday""
msgstr ""रविवार""

msgid ""Swahili""
msgstr ""स्वाहिली""

msgid ""Swedish""
msgstr ""स्वीडिश""

msgid ""Tajik""
msgstr ""ताजिक""

msgid ""Tamil""
msgstr ""तमिळ""

msgid ""Tatar""
msgstr ""टाटर""

msgid ""Telugu""
msgstr ""तेलुगु""

msgid ""Thai""
msgstr ""थाई""

msgid ""Thu""
msgstr ""गुरु""

msgid ""Thursday""
msgstr ""गुरुवार""

msgid ""Traditional Chinese""
msgstr ""पारंपारिक चायनिज""

msgid ""Tue""
msgstr ""मंगळ""

msgid ""Tuesday""
msgstr ""मंगळवार""

msgid ""Turkish""
msgstr ""तुर्की""

msgid ""Turkmen""
msgstr ""तुर्कमेन""

msgid ""Udmurt""
msgstr ""उदमर्त""

msgid ""Ukrainian""
msgstr ""युक्रेनियन""

msgid ""Upper Sorbian""
msgstr ""अप्पर सोर्बियन""

msgid ""Urdu""
msgstr ""उर्दू""

msgid ""Uyghur""
msgstr ""उईघुर""

msgid ""Uzbek""
msgstr ""उझबेक""

msgid ""Venezuelan Spanish""
msgstr ""व्हेनेझुएलन स्पॅनिश""

msgid ""Vietnamese""
msgstr ""व्हिएतनामी""

msgid ""Wed""
msgstr ""बुध""

msgid ""Wednesday""
msgstr ""बुधवार""

msgid ""Welsh""
msgstr ""वेल्श""

msgid ""a minute ago""
msgid_plural ""%[1]v minutes ago""
msgstr[0] """"
msgstr[1] """"

msgid ""a minute from now""
msgid_plural ""%[1]v minutes from now""
msgstr[0] """"
msgstr[1] """"

msgid ""a second ago""
msgid_plural ""%[1]v seconds ago""
msgstr[0] """"
msgstr[1] """"

msgid ""a second from now""
msgid_plural ""%[1]v seconds from now""
msgstr[0] """"
msgstr[1] """"

msgid ""a.m.""
msgstr ""म.पू.""

msgid ""an hour ago""
msgid_plural ""%[1]v hours ago""
msgstr[0] """"
msgstr[1] """"

msgid ""an hour from now""
msgid_plural ""%[1]v hours from now""
msgstr[0] """"
msgstr[1] """"

msgid ""apr""
msgstr ""एप्रि""

msgid ""aug""
msgstr ""ऑग""

msgid ""dec""
msgstr ""डिस""

msgid ""eight""
msgstr ""आठ""

msgid ""feb""
msgstr ""फेब""

msgid ""five""
msgstr ""पाच""

msgid ""four""
msgstr ""चार""

msgid ""jan""
msgstr ""जान""

msgid ""jul""
msgstr ""जुल""

msgid ""jun""
msgstr ""जून""

msgid ""mar""
msgstr ""मार""

msgid ""may""
msgstr ""मे""

msgid ""midnight""
msgstr ""मध्यरात्री""

msgid ""nine""
msgstr ""नऊ""

msgid ""noon""
msgstr ""दुपारी""

msgid ""nov""
msgstr ""नोव्ह""

msgid ""now""
msgstr ""आता""

msgid ""oct""
msgstr ""ऑक्ट""

msgid ""one""
msgstr ""एक""

msgid ""p.m.""
msgstr ""म.उ.""

msgid ""sep""
msgstr ""सप""

msgid ""seven""
msgstr ""सात""

msgid ""six""
msgstr ""सहा""

msgid ""three""
msgstr ""तीन""

msgid ""today""
msgstr ""आज""

msgid ""tomorrow""
msgstr ""उद्या""

msgid ""two""
msgstr ""दोन""

msgid ""yesterday""
msgstr ""काल""

msgctxt ""abbrev. month""
msgid ""April""
msgstr ""एप्रिल""

msgctxt ""abbrev. month""
msgid ""Aug.""
msgstr ""ऑग.""

msgctxt ""abbrev. month""
msgid ""Dec.""
msgstr ""डिस.""

msgctxt ""abbrev. month""
msgid ""Feb.""
msgstr ""फेब.""

msgctxt ""abbrev. month""
msgid ""Jan.""
msgstr ""जान.""

msgctxt ""abbrev. month""
msgid ""July""
msgstr ""जुलै""

msgctxt ""abbrev. month""
msgid ""June""
msgstr ""जून""

msgctxt ""abbrev. month""
msgid ""March""
msgstr ""मार्च""

msgctxt ""abbrev. month""
msgid ""May""
msgstr ""मे""

msgctxt ""abbrev. month""
msgid ""Nov.""
msgstr ""नोव्ह.""

msgctxt ""abbrev. month""
msgid ""Oct.""
msgstr ""ऑक्ट.""

msgctxt ""abbrev. month""
msgid ""Sept.""
msgstr ""सप्ट.""

msgctxt ""alt. month""
msgid ""April""
msgstr ""एप्रिल""

msgctxt ""alt. month""
msgid ""August""
msgstr ""ऑगस्ट""

msgctxt ""alt. month""
msgid ""December""
msgstr ""डिसेंबर""

msgctxt ""alt. month""
msgid ""February""
msgstr ""फेब्रुवारी""

msgctxt ""alt. month""
msgid ""January""
msgstr ""जानेवारी""

msgctxt ""alt. month""
msgid ""July""
msgstr ""जुलै""

msgctxt ""alt. month""
msgid ""June""
msgstr ""जून""

msgctxt ""alt. month""
msgid ""March""
msgstr ""मार्च""

msgctxt ""alt. month""
msgid ""May""
msgstr ""मे""

msgctxt ""alt. month""
msgid ""November""
msgstr ""नोव्हेंबर""

msgctxt ""alt. month""
msgid ""October""
msgstr ""ऑक्टोबर""

msgctxt ""alt. month""
msgid ""September""
msgstr ""सप्टेंबर""

msgctxt ""naturaltime-future""
msgid ""%[1]v day""
msgid_plural ""%[1]v days""
msgstr[0] """"
msgstr[1] """"

msgctxt ""naturaltime-future""
msgid ""%[1]v hour""
msgid_plural ""%[1]v hours""
msgstr[0] """"
msgstr[1] """"

msgctxt ""naturaltime-future""
msgid ""%[1]v minute""
msgid_plural ""%[1]v minutes""
msgstr[0] """"
msgstr[1] """"

msgctxt ""naturaltime-future""
msgid ""%[1]v month""
msgid_plural ""%[1]v months""
msgstr[0] """"
msgstr[1] """"

msgctxt ""naturaltime-future""
msgid ""%[1]v week""
msgid_plural ""%[1]v weeks""
msgstr[0] """"
msgstr[1] """"

msgctxt ""naturaltime-future""
msgid ""%[1]v year""
msgid_plural ""%[1]v years""
msgstr[0] """"
msgstr[1] """"

msgctxt ""naturaltime-past""
msgid ""%[1]v day""
msgid_plural ""%[1]v days""
msgstr[0] """"
msgstr[1] """"

msgctxt ""naturaltime-past""
msgid ""%[1]v hour""
msgid_plural ""%[1]v hours""
msgstr[0] """"
msgstr[1] """"

msgctxt ""naturaltime-past""
msgid ""%[1]v minute""
msgid_plural ""%[1]v minutes""
msgstr[0] """"
msgstr[1] """"

msgctxt ""naturaltime-past""
msgid ""%[1]v month""
msgid_plural ""%[1]v months""
msgstr[0] """"
msgstr[1] """"

msgctxt ""naturaltime-past""
msgid ""%[1]v week""
msgid_plural ""%[1]v weeks""
msgstr[0] """"
msgstr[1] """"

msgctxt ""naturaltime-past""
msgid ""%[1]v year""
msgid_plural ""%[1]v years""
msgstr[0] """"
msgstr[1] """"

msgctxt ""ordinal 0""
msgid ""%vth""
msgstr ""%vवा""

msgctxt ""ordinal 1""
msgid ""%vst""
msgstr ""%vवा""

msgctxt ""ordinal 11, 12, 13""
msgid ""%vth""
msgstr ""%vवा""

msgctxt ""ordinal 2""
msgid ""%vnd""
msgstr ""%vवा""

msgctxt ""ordinal 3""
msgid ""%vrd""
msgstr ""%vवा""

msgctxt ""ordinal 4""
msgid ""%vth""
msgstr ""%vवा""

msgctxt ""ordinal 5""
msgid ""%vth""
msgstr ""%vवा""

msgctxt ""ordinal 6""
msgid ""%vth""
msgstr ""%vवा""

msgctxt ""ordinal 7""
msgid ""%vth""
msgstr ""%vवा""

msgctxt ""ordinal 8""
msgid ""%vth""
msgstr ""%vवा""

msgctxt ""ordinal 9""
msgid ""%vth""
msgstr ""{वा}""
".
(** humanize/locale/mr/locale.go (New) *)
Definition loc_mr : locale_data := LD (bs "mr") [(bs "django.po", po_mr)]
  (None).

(** humanize/locale/ms/django.po *)
Definition po_ms : bytes := bs "# This file is distributed under the same license as the Django package.
# 
# Translators:
# Jafry Hisham, 2021
# Mariusz Felisiak <felisiak.mariusz@gmail.com>, 2021
msgid """"
msgstr """"
""Project-Id-Version: django\n""
""Report-Msgid-Bugs-To: \n""
""POT-Creation-Date: 2021-09-21 10:22+0200\n""
""PO-Revision-Date: 2021-12-06 07:43+0000\n""
""Last-Translator: Mariusz Felisiak <felisiak.mariusz@gmail.com>\n""
""Language-Team: Malay (http://www.transifex.com/django/django/language/ms/)\n""
""Language: ms\n""
""MIME-Version: 1.0\n""
""Content-Type: text/plain; charset=UTF-8\n""
""Content-Transfer-Encoding: 8bit\n""
""Plural-Forms: nplurals=1; plural=0;\n""

msgid ""%[1]d byte""
msgid_plural ""%[1]d bytes""
msgstr[0] ""%[1]d bait""
msgstr[1] """"

msgid ""%[1]s billion""
msgid_plural ""%[1]s billion""
msgstr[0] ""%[1]s bilion""
msgstr[1] """"

msgid ""%[1]s decillion""
msgid_plural ""%[1]s decillion""
msgstr[0] ""%[1]sdesilion""
msgstr[1] """"

msgid ""%[1]s googol""
msgid_plural ""%[1]s googol""
msgstr[0] ""%[1]s googol""
msgstr[1] """"

msgid ""%[1]s million""
msgid_plural ""%[1]s million""
msgstr[0] ""%[1]s juta""
msgstr[1] """"

msgid ""%[1]s nonillion""
msgid_plural ""%[1]s nonillion""
msgstr[0] ""%[1]s nontilion""
msgstr[1] """"

msgid ""%[1]s octillion""
msgid_plural ""%[1]s octillion""
msgstr[0] ""%[1]s oktilion""
msgstr[1] """"

msgid ""%[1]s quadrillion""
msgid_plural ""%[1]s quadrillion""
msgstr[0] ""%[1]s kuadrilion""
msgstr[1] """"

msgid ""%[1]s quintillion""
msgid_plural ""%[1]s quintillion""
msgstr[0] ""%[1]s kuintilion""
msgstr[1] """"

msgid ""%[1]s septillion""
msgid_plural ""%[1]s septillion""
msgstr[0] ""%[1]s septilion""
msgstr[1] """"

msgid ""%[1]s sextillion""
msgid_plural ""%[1]s sextillion""
msgstr[0] ""%[1]ssextilion""
msgstr[1] """"

msgid ""%[1]s trillion""
msgid_plural ""%[1]s trillion""
msgstr[0] ""%[1]s trilion""
msgstr[1] """"

msgid ""%[1]v ago""
msgstr ""%[1]v yang lalu""

msgid ""%[1]v day""
msgid_plural ""%[1]v days""
msgstr[0] ""%[1]v hari""
msgstr[1] """"

msgid ""%[1]v from now""
msgstr ""%[1]v dari sekarang""

msgid ""%[1]v hour""
msgid_plural ""%[1]v hours""
msgstr[0] ""%[1]v jam""
msgstr[1] """"

msgid ""%[1]v minute""
msgid_plural ""%[1]v minutes""
msgstr[0] ""%[1]v minit""
msgstr[1] """"

msgid ""%[1]v month""
msgid_plural ""%[1]v months""
msgstr[0] ""%[1]v bulan""
msgstr[1] """"

msgid ""%[1]v week""
msgid_plural ""%[1]v weeks""
msgstr[0] ""%[1]v minggu ""
msgstr[1] """"

msgid ""%[1]v year""
msgid_plural ""%[1]v years""
msgstr[0] ""%[1]v tahun""
msgstr[1] """"

msgid ""%s GB""
msgstr ""%s GB""

msgid ""%s KB""
msgstr ""%s KB""

msgid ""%s MB""
msgstr ""%s MB""

msgid ""%s PB""
msgstr ""%s PB""

msgid ""%s TB""
msgstr ""%s TB""

msgid "", ""
msgstr "",""

msgid ""AM""
msgstr ""PAGI""

msgid ""Afrikaans""
msgstr ""Bahasa Afrikaans""

msgid ""Albanian""
msgstr ""Bahasa Albania""

msgid ""Algerian Arabic""
msgstr ""Bahasa Arab Algeria""

msgid ""April""
msgstr ""April""

msgid ""Arabic""
msgstr ""Bahasa Arab""

msgid ""Argentinian Spanish""
msgstr ""Bahasa Sepanyol Argentina""

msgid ""Armenian""
msgstr ""Bahasa Armenia""

msgid ""Asturian""
msgstr ""Bahasa Asturia""

msgid ""August""
msgstr ""Ogos""

msgid ""Australian English""
msgstr ""Bahasa Inggeris Australia""

msgid ""Azerbaijani""
msgstr ""Bahasa Azerbaijan""

msgid ""Basque""
msgstr ""Bahasa Bask""

msgid ""Belarusian""
msgstr ""Bahasa Belarus""

msgid ""Bengali""
msgstr ""Bahasa Benggali""

msgid ""Bosnian""
msgstr ""Bahasa Bosnia""

msgid ""Brazilian Portuguese""
msgstr ""Bahasa Portugal Brazil""

msgid ""Breton""
msgstr ""Bahasa Breton""

msgid ""British English""
msgstr ""Bahasa Inggeris British""

msgid ""Bulgarian""
msgstr ""Bahasa Bulgaria""

msgid ""Burmese""
msgstr ""Bahasa Burma""

msgid ""Catalan""
msgstr ""Bahasa Catalonia""

msgid ""Colombian Spanish""
msgstr ""Bahasa Sepanyol Kolumbia""

msgid ""Croatian""
msgstr ""Bahasa Kroatia""

msgid ""Czech""
msgstr ""Bahasa Czech""

msgid ""Danish""
msgstr ""Bahasa Denmark""

msgid ""December""
msgstr ""Disember""

msgid ""Dutch""
msgstr ""Belanda""

msgid ""English""
msgstr ""Bahasa Inggeris""

msgid ""Esperanto""
msgstr ""Bahasa Esperanto""

msgid ""Estonian""
msgstr ""Bahasa Estonia""

msgid ""February""
msgstr ""Februari""

msgid ""Finnish""
msgstr ""Bahassa Finland""

msgid ""French""
msgstr ""Bahasa Perancis""

msgid ""Fri""
msgstr ""Jum""

msgid ""Friday""
msgstr ""Jumaat""

msgid ""Frisian""
msgstr ""Bahasa Frisia""

msgid ""Galician""
msgstr ""Bahasa Galisia""

msgid ""Georgian""
msgstr ""Bahasa Georgia""

msgid ""German""
msgstr ""Bahasa Jerman""

msgid ""Greek""
msgstr ""Bahasa Yunani""

msgid ""Hebrew""
msgstr ""Bahasa Ibrani""

msgid ""Hindi""
msgstr ""Bahasa Hindi""

msgid ""Hungarian""
msgstr ""Bahasa Hungary""

msgid ""Icelandic""
msgstr ""Bahasa Iceland""

msgid ""Ido""
msgstr ""Bahasa Ido""

msgid ""Igbo""
msgstr ""Bahasa Igbo""

msgid ""Indonesian""
msgstr ""Bahasa Indonesia""

msgid ""Interlingua""
msgstr ""Bahasa Interlingua""

msgid ""Irish""
msgstr ""Bahasa Ireland""

msgid ""Italian""
msgstr ""Bahasa Itali""

msgid ""January""
msgstr ""Januari""

msgid ""Japanese""
msgstr ""Bahasa Jepun""

msgid ""July""
msgstr ""Julai""

msgid ""June""
msgstr ""Jun""

msgid ""Kabyle""
msgstr ""Bahasa Kabylia""

msgid ""Kannada""
msgstr ""Bahasa Kannada""

msgid ""Kazakh""
msgstr ""Bahasa Kazakhstan""

msgid ""Khmer""
msgstr ""Bahasa Kambodia""

msgid ""Korean""
msgstr ""Bahasa Korea""

msgid ""Kyrgyz""
msgstr ""Bahasa Kyrgyzstan""

msgid ""Latvian""
msgstr ""Bahasa Latvia""

msgid ""Lithuanian""
msgstr ""Bahasa Lithuania""

msgid ""Lower Sorbian""
msgstr ""Bahasa Sorbian Rendah""

msgid ""Luxembourgish""
msgstr ""Bahasa Luxemborg""

msgid ""Macedonian""
msgstr ""Bahasa Masedonia""

msgid ""Malay""
msgstr ""Bahasa Melayu""

msgid ""Malayalam""
msgstr ""Malayalam""

msgid ""Marathi""
msgstr ""Marathi""

msgid ""March""
msgstr ""Mac""

msgid ""May""
msgstr ""Mei""

msgid ""Mexican Spanish""
msgstr ""Bahasa Sepanyol Mexico""

msgid ""Mon""
msgstr ""Isn""

msgid ""Monday""
msgstr ""Isnin""

msgid ""Mongolian""
msgstr ""Bahasa Mongol""

msgid ""Nepali""
msgstr ""Bahasa Nepal""

msgid ""Nicaraguan Spanish""
msgstr ""Bahasa Sepanyol Nicaragua""

msgid ""Norwegian Bokmål""
msgstr ""Bahasa Bokmal Norway""

msgid ""Norwegian Nynorsk""
msgstr ""Bahasa Nynorsk Norway""

msgid ""November""
msgstr ""November""

msgid ""October""
msgstr ""Oktober""

msgid ""Ossetic""
msgstr ""Bahasa Ossetic""

msgid ""PM""
msgstr ""MALAM""

msgid ""Persian""
msgstr ""Bahasa Farsi""

msgid ""Polish""
msgstr ""Bahasa Poland""

msgid ""Portuguese""
msgstr ""Bahasa Portugal""

msgid ""Punjabi""
msgstr ""Bahasa Punjab""

msgid ""Romanian""
msgstr ""Bahasa Romania""

msgid ""Russian""
msgstr ""Bahasa Rusia""

msgid ""Sat""
msgstr ""Sab""

msgid ""Saturday""
msgstr ""Sabtu""

msgid ""Scottish Gaelic""
msgstr ""Bahasa Gael Scotland""

msgid ""September""
msgstr ""September""

msgid ""Serbian""
msgstr ""Bahasa Serbia""

msgid ""Serbian Latin""
msgstr ""Bahasa Latin Serbia""

msgid ""Simplified Chinese""
msgstr ""Bahasa Cina (Dipermudahkan)""

msgid ""Slovak""
msgstr ""Bahasa Slovakia""

msgid ""Slovenian""
msgstr ""Bahasa Slovenia""

msgid ""Spanish""
msgstr ""Bahasa Sepanyol""

msgid ""Sun""
msgstr ""Aha""

msgid ""Sunday""
msgstr ""Ahad""

msgid ""Swahili""
msgstr ""Bahasa Swahili""

msgid ""Swedish""
msgstr ""Bahasa Sweden""

msgid ""Tajik""
msgstr ""Bahasa Tajik""

msgid ""Tamil""
msgstr ""Bahasa Tamil""

msgid ""Tatar""
msgstr ""Bahasa Tatar""

msgid ""Telugu""
msgstr ""Bahasa Telugu""

msgid ""Thai""
msgstr ""Bahasa Siam""

msgid ""Thu""
msgstr ""Kha""

msgid ""Thursday""
msgstr ""Khamis""

msgid ""Traditional Chinese""
msgstr ""Bahasa Cina Tradisional""

msgid ""Tue""
msgstr ""Sel""

msgid ""Tuesday""
msgstr ""Selasa""

msgid ""Turkish""
msgstr ""Bahasa Turki""

msgid ""Turkmen""
msgstr ""Bahasa Turkmenistan""

msgid ""Udmurt""
msgstr ""Bahasa Udmurt""

msgid ""Ukrainian""
msgstr ""Bahasa Ukraine""

msgid ""Upper Sorbian""
msgstr ""Bahasa Sorbia Atasan""

msgid ""Urdu""
msgstr ""Bahasa Urdu""

msgid ""Uzbek""
msgstr ""Bahasa Uzbekistan""

msgid ""Venezuelan Spanish""
msgstr ""Bahasa Sepanyol Venezuela""

msgid ""Vietnamese""
msgstr ""Bahasa Vietnam""

msgid ""Wed""
msgstr ""Rab""

msgid ""Wednesday""
msgstr ""Rabu""

msgid ""Welsh""
msgstr ""Bahasa Wales""

msgid ""a minute ago""
msgid_plural ""%[1]v minutes ago""
msgstr[0] ""%[1]v minit yang lalu""
msgstr[1] """"

msgid ""a minute from now""
msgid_plural ""%[1]v minutes from now""
msgstr[0] ""%[1]v minit dari sekarang""
msgstr[1] """"

msgid ""a second ago""
msgid_plural ""%[1]v seconds ago""
msgstr[0] ""%[1]v saat yang lalu""
msgstr[1] """"

msgid ""a second from now""
msgid_plural ""%[1]v seconds from now""
msgstr[0] ""%[1]v saat dari sekarang""
msgstr[1] """"

msgid ""a.m.""
msgstr ""pagi""

msgid ""an hour ago""
msgid_plural ""%[1]v hours ago""
msgstr[0] ""%[1]v yang lalu""
msgstr[1] """"

msgid ""an hour from now""
msgid_plural ""%[1]v hours from now""
msgstr[0] ""%[1]v jam dari sekarang""
msgstr[1] """"

msgid ""apr""
msgstr ""apr""

msgid ""aug""
msgstr ""ogo""

msgid ""dec""
msgstr ""dis""

msgid ""eight""
msgstr ""lapan""

msgid ""feb""
msgstr ""feb""

msgid ""five""
msgstr ""lima""

msgid ""four""
msgstr ""empat""

msgid ""jan""
msgstr ""jan""

msgid ""jul""
msgstr ""jul""

msgid ""jun""
msgstr ""jun""

msgid ""mar""
msgstr ""mar""

msgid ""may""
msgstr ""mei""

msgid ""midnight""
msgstr ""tengah malam""

msgid ""nine""
msgstr ""sembilan""

msgid ""noon""
msgstr ""tengahari""

msgid ""nov""
msgstr ""nov""

msgid ""now""
msgstr ""sekarang""

msgid ""oct""
msgstr ""okt""

msgid ""one""
msgstr ""satu""

msgid ""p.m.""
msgstr ""malam""

msgid ""sep""
msgstr ""sep""

msgid ""seven""
msgstr ""tujuh""

msgid ""six""
msgstr ""enam""

msgid ""three""
msgstr ""tiga""

msgid ""today""
msgstr ""hari ini""

msgid ""tomorrow""
msgstr ""esok""

msgid ""two""
msgstr ""dua""

msgid ""yesterday""
msgstr ""semalam""

msgctxt ""abbrev. month""
msgid ""April""
msgstr ""April""

msgctxt ""abbrev. month""
msgid ""Aug.""
msgstr ""Ogo.""

msgctxt ""abbrev. month""
msgid ""Dec.""
msgstr ""Dis.""

msgctxt ""abbrev. month""
msgid ""Feb.""
msgstr ""Feb""

msgctxt ""abbrev. month""
msgid ""Jan.""
msgstr ""Jan.""

msgctxt ""abbrev. month""
msgid ""July""
msgstr ""Julai""

msgctxt ""abbrev. month""
msgid ""June""
msgstr ""Jun""

msgctxt ""abbrev. month""
msgid ""March""
msgstr ""Mac""

msgctxt ""abbrev. month""
msgid ""May""
msgstr ""Mei""

msgctxt ""abbrev. month""
msgid ""Nov.""
msgstr ""Nov.""

msgctxt ""abbrev. month""
msgid ""Oct.""
msgstr ""Okt.""

msgctxt ""abbrev. month""
msgid ""Sept.""
msgstr ""Sept.""

msgctxt ""alt. month""
msgid ""April""
msgstr ""April""

msgctxt ""alt. month""
msgid ""August""
msgstr ""Ogos""

msgctxt ""alt. month""
msgid ""December""
msgstr ""Disember""

msgctxt ""alt. month""
msgid ""February""
msgstr ""Februari""

msgctxt ""alt. month""
msgid ""January""
msgstr ""Januari""

msgctxt ""alt. month""
msgid ""July""
msgstr ""Julai""

msgctxt ""alt. month""
msgid ""June""
msgstr ""Jun""

msgctxt ""alt. month""
msgid ""March""
msgstr ""Mac""

msgctxt ""alt. month""
msgid ""May""
msgstr ""Mei""

msgctxt ""alt. month""
msgid ""November""
msgstr ""November""

msgctxt ""alt. month""
msgid ""October""
msgstr ""Oktober""

msgctxt ""alt. month""
msgid ""September""
msgstr ""September""

msgctxt ""naturaltime-future""
msgid ""%[1]v day""
msgid_plural ""%[1]v days""
msgstr[0] ""%[1]v hari""
msgstr[1] """"

msgctxt ""naturaltime-future""
msgid ""%[1]v hour""
msgid_plural ""%[1]v hours""
msgstr[0] ""%[1]v jam""
msgstr[1] """"

msgctxt ""naturaltime-future""
msgid ""%[1]v minute""
msgid_plural ""%[1]v minutes""
msgstr[0] ""%[1]v minit""
msgstr[1] """"

msgctxt ""naturaltime-future""
msgid ""%[1]v month""
msgid_plural ""%[1]v months""
msgstr[0] ""%[1]v bulan""
msgstr[1] """"

msgctxt ""naturaltime-future""
msgid ""%[1]v week""
msgid_plural ""%[1]v weeks""
msgstr[0] ""%[1]v minggu""
msgstr[1] """"

msgctxt ""naturaltime-future""
msgid ""%[1]v year""
msgid_plural ""%[1]v years""
msgstr[0] ""%[1]v tahun""
msgstr[1] """"

msgctxt ""naturaltime-past""
msgid ""%[1]v day""
msgid_plural ""%[1]v days""
msgstr[0] ""%[1]v hari""
msgstr[1] """"

msgctxt ""naturaltime-past""
msgid ""%[1]v hour""
msgid_plural ""%[1]v hours""
msgstr[0] ""%[1]v jam""
msgstr[1] """"

msgctxt ""naturaltime-past""
msgid ""%[1]v minute""
msgid_plural ""%[1]v minutes""
msgstr[0] ""%[1]v minit""
msgstr[1] """"

msgctxt ""naturaltime-past""
msgid ""%[1]v month""
msgid_plural ""%[1]v months""
msgstr[0] ""%[1]v bulan""
msgstr[1] """"

msgctxt ""naturaltime-past""
msgid ""%[1]v week""
msgid_plural ""%[1]v weeks""
msgstr[0] ""%[1]v minggu""
msgstr[1] """"

msgctxt ""naturaltime-past""
msgid ""%[1]v year""
msgid_plural ""%[1]v years""
msgstr[0] ""%[1]v tahun""
msgstr[1] """"

msgctxt ""ordinal 0""
msgid ""%vth""
msgstr ""ke%v""

msgctxt ""ordinal 1""
msgid ""%vst""
msgstr ""ke%v""

msgctxt ""ordinal 11, 12, 13""
msgid ""%vth""
msgstr ""ke%v""

msgctxt ""ordinal 2""
msgid ""%vnd""
msgstr ""ke%v""

msgctxt ""ordinal 3""
msgid ""%vrd""
msgstr ""ke%v""

msgctxt ""ordinal 4""
msgid ""%vth""
msgstr ""ke%v""

msgctxt ""ordinal 5""
msgid ""%vth""
msgstr ""ke%v""

msgctxt ""ordinal 6""
msgid ""%vth""
msgstr ""ke%v""

msgctxt ""ordinal 7""
msgid ""%vth""
msgstr ""ke%v""

msgctxt ""ordinal 8""
msgid ""%vth""
msgstr ""ke%v""

msgctxt ""ordinal 9""
msgid ""%vth""
msgstr ""ke%v""
".
(** humanize/locale/ms/locale.go (New) *)
Definition loc_ms : locale_data := LD (bs "ms") [(bs "django.po", po_ms)]
  (Some (FD (bs "j M Y") (bs "P") (bs "j M Y, P") (bs "F Y") (bs "j F") (bs "d/m/Y") (bs "d/m/Y P"))).

(** humanize/locale/my/django.po *)
Definition po_my : bytes := bs "# This file is distributed under the same license as the Django package.
# 
# Translators:
# Yhal Htet Aung <jumoun@gmail.com>, 2013,2015
msgid """"
msgstr """"
""Project-Id-Version: django\n""
""Report-Msgid-Bugs-To: \n""
""POT-Creation-Date: 2019-09-27 22:40+0200\n""
""PO-Revision-Date: 2019-11-05 00:38+0000\n""
""Last-Translator: Ramiro Morales\n""
""Language-Team: Burmese (http://www.transifex.com/django/django/language/my/)\n""
""Language: my\n""
""MIME-Version: 1.0\n""
""Content-Type: text/plain; charset=UTF-8\n""
""Content-Transfer-Encoding: 8bit\n""
""Plural-Forms: nplurals=1; plural=0;\n""

msgid ""%[1]d byte""
msgid_plural ""%[1]d bytes""
msgstr[0] ""%[1]d ဘိုက်များ""
msgstr[1] """"

msgid ""%[1]s billion""
msgid_plural ""%[1]s billion""
msgstr[0] ""%[1]s ဘီလီယံ""
msgstr[1] """"

msgid ""%[1]s decillion""
msgid_plural ""%[1]s decillion""
msgstr[0] ""%[1]s ဒက်စီလျံ""
msgstr[1] """"

msgid ""%[1]s googol""
msgid_plural ""%[1]s googol""
msgstr[0] ""%[1]s ဂူးဂေါ်""
msgstr[1] """"

msgid ""%[1]s million""
msgid_plural ""%[1]s million""
msgstr[0] ""%[1]s မီလီယံ""
msgstr[1] """"

msgid ""%[1]s nonillion""
msgid_plural ""%[1]s nonillion""
msgstr[0] ""%[1]s နိုနီလျံ""
msgstr[1] """"

msgid ""%[1]s octillion""
msgid_plural ""%[1]s octillion""
msgstr[0] ""%[1]s အော့တီလျံ""
msgstr[1] """"

msgid ""%[1]s quadrillion""
msgid_plural ""%[1]s quadrillion""
msgstr[0] ""%[1]s ကွပ်ဒရီလျံ""
msgstr[1] """"

msgid ""%[1]s quintillion""
msgid_plural ""%[1]s quintillion""
msgstr[0] ""%[1]s ကွင့်တီလျံ""
msgstr[1] """"

msgid ""%[1]s septillion""
msgid_plural ""%[1]s septillion""
msgstr[0] ""%[1]s ဆပ်တီလျံ""
msgstr[1] """"

msgid ""%[1]s sextillion""
msgid_plural ""%[1]s sextillion""
msgstr[0] ""%[1]s ဆက်တီလျံ""
msgstr[1] """"

msgid ""%[1]s trillion""
msgid_plural ""%[1]s trillion""
msgstr[0] ""%[1]s တရီလျံ""
msgstr[1] """"

msgid ""%s GB""
msgstr ""%s ဂစ်ဂါဘိုက်""

msgid ""%s KB""
msgstr ""%s ကီလိုဘိုက်""

msgid ""%s MB""
msgstr ""%s မက်ဂါဘိုက်""

msgid ""%s PB""
msgstr ""%s ပီတာဘိုက်""

msgid ""%s TB""
msgstr ""%s တီရာဘိုက်""

msgid "", ""
msgstr """"

msgid ""AM""
msgstr ""မနက်""

msgid ""Afrikaans""
msgstr ""အာဖရိကန်""

msgid ""Albanian""
msgstr """"

msgid ""April""
msgstr """"

msgid ""Arabic""
msgstr ""အာရပ်""

msgid ""Argentinian Spanish""
msgstr """"

msgid ""Armenian""
msgstr """"

msgid ""Asturian""
msgstr """"

msgid ""August""
msgstr """"

msgid ""Australian English""
msgstr """"

msgid ""Azerbaijani""
msgstr """"

msgid ""Basque""
msgstr """"

msgid ""Belarusian""
msgstr """"

msgid ""Bengali""
msgstr ""ဘင်းဂလီ""

msgid ""Bosnian""
msgstr ""ဘော့်စ်နီယန်""

msgid ""Brazilian Portuguese""
msgstr """"

msgid ""Breton""
msgstr """"

msgid ""British English""
msgstr ""ဗြိတိသျှအင်္ဂလိပ်""

msgid ""Bulgarian""
msgstr ""ဘူဂေးရီယန်""

msgid ""Burmese""
msgstr """"

msgid ""Catalan""
msgstr ""ကက်တလန်""

msgid ""Colombian Spanish""
msgstr """"

msgid ""Croatian""
msgstr """"

msgid ""Czech""
msgstr ""ချက်""

msgid ""Danish""
msgstr ""ဒိန်းမတ်""

msgid ""December""
msgstr """"

msgid ""Dutch""
msgstr """"

msgid ""English""
msgstr ""အင်္ဂလိပ်""

msgid ""Esperanto""
msgstr """"

msgid ""Estonian""
msgstr """"

msgid ""February""
msgstr """"

msgid ""Finnish""
msgstr """"

msgid ""French""
msgstr """"

msgid ""Fri""
msgstr """"

msgid ""Friday""
msgstr """"

msgid ""Frisian""
msgstr """"

msgid ""Galician""
msgstr """"

msgid ""Georgian""
msgstr """"

msgid ""German""
msgstr ""ဂျာမန်""

msgid ""Greek""
msgstr ""ဂရိ""

msgid ""Hebrew""
msgstr """"

msgid ""Hindi""
msgstr """"

msgid ""Hungarian""
msgstr """"

msgid ""Icelandic""
msgstr """"

msgid ""Ido""
msgstr """"

msgid ""Indonesian""
msgstr """"

msgid ""Interlingua""
msgstr """"

msgid ""Irish""
msgstr """"

msgid ""Italian""
msgstr """"

msgid ""January""
msgstr """"

msgid ""Japanese""
msgstr """"

msgid ""July""
msgstr """"

msgid ""June""
msgstr """"

msgid ""Kabyle""
msgstr """"

msgid ""Kannada""
msgstr """"

msgid ""Kazakh""
msgstr """"

msgid ""Khmer""
msgstr """"

msgid ""Korean""
msgstr """"

msgid ""Latvian""
msgstr """"

msgid ""Lithuanian""
msgstr """"

msgid ""Lower Sorbian""
msgstr """"

msgid ""Luxembourgish""
msgstr """"

msgid ""Macedonian""
msgstr """"

msgid ""Malayalam""
msgstr """"

msgid ""Marathi""
msgstr """"

msgid ""March""
msgstr """"

msgid ""May""
msgstr """"

msgid ""Mexican Spanish""
msgstr """"

msgid ""Mon""
msgstr """"

msgid ""Monday""
msgstr ""တနင်္လာနေ့""

msgid ""Mongolian""
msgstr """"

msgid ""Nepali""
msgstr """"

msgid ""Nicaraguan Spanish""
msgstr """"

msgid ""Norwegian Bokmål""
msgstr """"

msgid ""Norwegian Nynorsk""
msgstr """"

msgid ""November""
msgstr """"

msgid ""October""
msgstr """"

msgid ""Ossetic""
msgstr """"

msgid ""PM""
msgstr ""ညနေ""

msgid ""Persian""
msgstr """"

msgid ""Polish""
msgstr """"

msgid ""Portuguese""
msgstr """"

msgid ""Punjabi""
msgstr """"

msgid ""Romanian""
msgstr """"

msgid ""Russian""
msgstr """"

msgid ""Sat""
msgstr """"

msgid ""Saturday""
msgstr """"

msgid ""Scottish Gaelic""
msgstr """"

msgid ""September""
msgstr """"

msgid ""Serbian""
msgstr """"

msgid ""Serbian Latin""
msgstr """"

msgid ""Simplified Chinese""
msgstr """"

msgid ""Slovak""
msgstr """"

msgid ""Slovenian""
msgstr """"

msgid ""Spanish""
msgstr ""စပိန်""

msgid ""Sun""
msgstr """"

msgid ""Sunday""
msgstr """"

msgid ""Swahili""
msgstr """"

msgid ""Swedish""
msgstr """"

msgid ""Tamil""
msgstr """"

msgid ""Tatar""
msgstr """"

msgid ""Telugu""
msgstr """"

msgid ""Thai""
msgstr """"

msgid ""Thu""
msgstr """"

msgid ""Thursday""
msgstr """"

msgid ""Traditional Chinese""
msgstr """"

msgid ""Tue""
msgstr """"

msgid ""Tuesday""
msgstr """"

msgid ""Turkish""
msgstr """"

msgid ""Udmurt""
msgstr """"

msgid ""Ukrainian""
msgstr """"

msgid ""Upper Sorbian""
msgstr """"

msgid ""Urdu""
msgstr """"

msgid ""Uzbek""
msgstr """"

msgid ""Venezuelan Spanish""
msgstr """"

msgid ""Vietnamese""
msgstr """"

msgid ""Wed""
msgstr """"

msgid ""Wednesday""
msgstr """"

msgid ""Welsh""
msgstr ""ဝေးလ်""

msgid ""a minute ago""
msgid_plural ""%[1]v minutes ago""
msgstr[0] """"
msgstr[1] """"

msgid ""a minute from now""
msgid_plural ""%[1]v minutes from now""
msgstr[0] """"
msgstr[1] """"

msgid ""a second ago""
msgid_plural ""%[1]v seconds ago""
msgstr[0] """"
msgstr[1] """"

msgid ""a second from now""
msgid_plural ""%[1]v seconds from now""
msgstr[0] """"
msgstr[1] """"

msgid ""a.m.""
msgstr ""မနက်""

msgid ""an hour ago""
msgid_plural ""%[1]v hours ago""
msgstr[0] """"
msgstr[1] """"

msgid ""an hour from now""
msgid_plural ""%[1]v hours from now""
msgstr[0] """"
msgstr[1] """"

msgid ""apr""
msgstr """"

msgid ""aug""
msgstr """"

msgid ""dec""
msgstr """"

msgid ""eight""
msgstr ""ရှစ်""

msgid ""feb""
msgstr """"

msgid ""five""
msgstr ""ငါး""

msgid ""four""
msgstr ""လေး""

msgid ""jan""
msgstr """"

msgid ""jul""
msgstr """"

msgid ""jun""
msgstr """"

msgid ""mar""
msgstr """"

msgid ""may""
msgstr """"

msgid ""midnight""
msgstr ""သန်းခေါင်""

msgid ""nine""
msgstr ""ကိုး""

msgid ""noon""
msgstr ""မွန်းတည့်""

msgid ""nov""
msgstr """"

msgid ""now""
msgstr ""ယခု""

msgid ""oct""
msgstr """"

msgid ""one""
msgstr ""တစ်""

msgid ""p.m.""
msgstr ""ညနေ""

msgid ""sep""
msgstr """"

msgid ""seven""
msgstr ""ခုနစ်""

msgid ""six""
msgstr ""ခြောက်""

msgid ""three""
msgstr ""သံုး""

msgid ""today""
msgstr ""ယနေ့""

msgid ""tomorrow""
msgstr ""မနက်ဖြန်""

msgid ""two""
msgstr ""နှစ်""

msgid ""yesterday""
msgstr ""မနေ့""

msgctxt ""abbrev. month""
msgid ""April""
msgstr """"

msgctxt ""abbrev. month""
msgid ""Aug.""
msgstr """"

msgctxt ""abbrev. month""
msgid ""Dec.""
msgstr """"

msgctxt ""abbrev. month""
msgid ""Feb.""
msgstr """"

msgctxt ""abbrev. month""
msgid ""Jan.""
msgstr """"

msgctxt ""abbrev. month""
msgid ""July""
msgstr """"

msgctxt ""abbrev. month""
msgid ""June""
msgstr """"

msgctxt ""abbrev. month""
msgid ""March""
msgstr """"

msgctxt ""abbrev. month""
msgid ""May""
msgstr """"

msgctxt ""abbrev. month""
msgid ""Nov.""
msgstr """"

msgctxt ""abbrev. month""
msgid ""Oct.""
msgstr """"

msgctxt ""abbrev. month""
msgid ""Sept.""
msgstr """"

msgctxt ""alt. month""
msgid ""April""
msgstr """"

msgctxt ""alt. month""
msgid ""August""
msgstr """"

msgctxt ""alt. month""
msgid ""December""
msgstr """"

msgctxt ""alt. month""
msgid ""February""
msgstr """"

msgctxt ""alt. month""
msgid ""January""
msgstr """"

msgctxt ""alt. month""
msgid ""July""
msgstr """"

msgctxt ""alt. month""
msgid ""June""
msgstr """"

msgctxt ""alt. month""
msgid ""March""
msgstr """"

msgctxt ""alt. month""
msgid ""May""
msgstr """"

msgctxt ""alt. month""
msgid ""November""
msgstr """"

msgctxt ""alt. month""
msgid ""October""
msgstr """"

msgctxt ""alt. month""
msgid ""September""
msgstr """"
".
(** humanize/locale/my/locale.go (New) *)
Definition loc_my : locale_data := LD (bs "my") [(bs "django.po", po_my)]
  (None).

(** humanize/locale/nb/django.po *)
Definition po_nb : bytes := bs "# This file is distributed under the same license as the Django package.
# 
# Translators:
# Alexander Hansen <alexander.l.hansen@gmail.com>, 2014
# Eirik Krogstad <eirikkr@gmail.com>, 2014
# Jannis Leidel <jannis@leidel.info>, 2011
# jensadne <jensadne@pvv.ntnu.no>, 2014-2015
# Jon, 2015-2016
# Jon, 2014
# Jon, 2017-2022
# Jon, 2013
# Jon, 2011
# Sigurd Gartmann <sigurdga-transifex@sigurdga.no>, 2012
# Tommy Strand <transifex@ireality.no>, 2013
msgid """"
msgstr """"
""Project-Id-Version: django\n""
""Report-Msgid-Bugs-To: \n""
""POT-Creation-Date: 2023-01-17 02:13-0600\n""
""PO-Revision-Date: 2023-04-25 06:49+0000\n""
""Last-Translator: Jon, 2017-2022\n""
""Language-Team: Norwegian Bokmål (http://www.transifex.com/django/django/language/nb/)\n""
""Language: nb\n""
""MIME-Version: 1.0\n""
""Content-Type: text/plain; charset=UTF-8\n""
""Content-Transfer-Encoding: 8bit\n""
""Plural-Forms: nplurals=2; plural=(n != 1);\n""

msgid ""%[1]d byte""
msgid_plural ""%[1]d bytes""
msgstr[0] ""%[1]d byte""
msgstr[1] ""%[1]d byte""

msgid ""%[1]s billion""
msgid_plural ""%[1]s billion""
msgstr[0] ""%[1]s milliard""
msgstr[1] ""%[1]s milliarder""

msgid ""%[1]s decillion""
msgid_plural ""%[1]s decillion""
msgstr[0] ""%[1]s desillion""
msgstr[1] ""%[1]s desillioner""

msgid ""%[1]s googol""
msgid_plural ""%[1]s googol""
msgstr[0] ""%[1]s googol""
msgstr[1] ""%[1]s googoler""

msgid ""%[1]s million""
msgid_plural ""%[1]s million""
msgstr[0] ""%[1]s million""
msgstr[1] ""%[1]s millioner""

msgid ""%[1]s nonillion""
msgid_plural ""%[1]s nonillion""
msgstr[0] ""%[1]s nonillion""
msgstr[1] ""%[1]s nonillioner""

msgid ""%[1]s octillion""
msgid_plural ""%[1]s octillion""
msgstr[0] ""%[1]s oktillion""
msgstr[1] ""%[1]s oktillioner""

msgid ""%[1]s quadrillion""
msgid_plural ""%[1]s quadrillion""
msgstr[0] ""%[1]s kvadrillion""
msgstr[1] ""%[1]s kvadrillioner""

msgid ""%[1]s quintillion""
msgid_plural ""%[1]s quintillion""
msgstr[0] ""%[1]s kvintillion""
msgstr[1] ""%[1]s kvintillioner""

msgid ""%[1]s septillion""
msgid_plural ""%[1]s septillion""
msgstr[0] ""%[1]s septillion""
msgstr[1] ""%[1]s septillioner""

msgid ""%[1]s sextillion""
msgid_plural ""%[1]s sextillion""
msgstr[0] ""%[1]s sekstillion""
msgstr[1] ""%[1]s sekstillioner""

msgid ""%[1]s trillion""
msgid_plural ""%[1]s trillion""
msgstr[0] ""%[1]s billion""
msgstr[1] ""%[1]s billioner""

msgid ""%[1]v ago""
msgstr ""%[1]v siden""

msgid ""%[1]v day""
msgid_plural ""%[1]v days""
msgstr[0] ""%[1]v dag""
msgstr[1] ""%[1]v dager""

msgid ""%[1]v from now""
msgstr ""%[1]v fra nå""

msgid ""%[1]v hour""
msgid_plural ""%[1]v hours""
msgstr[0] ""%[1]v time""
msgstr[1] ""%[1]v timer""

msgid ""%[1]v minute""
msgid_plural ""%[1]v minutes""
msgstr[0] ""%[1]v minutt""
msgstr[1] ""%[1]v minutter""

msgid ""%[1]v month""
msgid_plural ""%[1]v months""
msgstr[0] ""%[1]v måned""
msgstr[1] ""%[1]v måneder""

msgid ""%[1]v week""
msgid_plural ""%[1]v weeks""
msgstr[0] ""%[1]v uke""
msgstr[1] ""%[1]v uker""

msgid ""%[1]v year""
msgid_plural ""%[1]v years""
msgstr[0] ""%[1]v år""
msgstr[1] ""%[1]v år""

msgid ""%s GB""
msgstr ""%s GB""

msgid ""%s KB""
msgstr ""%s KB""

msgid ""%s MB""
msgstr ""%s MB""

msgid ""%s PB""
msgstr ""%s PB""

msgid ""%s TB""
msgstr ""%s TB""

msgid "", ""
msgstr "", ""

msgid ""AM""
msgstr ""AM""

msgid ""Afrikaans""
msgstr ""Afrikaans""

msgid ""Albanian""
msgstr ""Albansk""

msgid ""Algerian Arabic""
msgstr ""Algerisk arabisk""

msgid ""April""
msgstr ""april""

msgid ""Arabic""
msgstr ""Arabisk""

msgid ""Argentinian Spanish""
msgstr ""Argentinsk spansk""

msgid ""Armenian""
msgstr ""Armensk""

msgid ""Asturian""
msgstr ""Asturiansk""

msgid ""August""
msgstr ""august""

msgid ""Australian English""
msgstr ""Engelsk (australsk)""

msgid ""Azerbaijani""
msgstr ""Aserbajdsjansk""

msgid ""Basque""
msgstr ""Baskisk""

msgid ""Belarusian""
msgstr ""Hviterussisk""

msgid ""Bengali""
msgstr ""Bengalsk""

msgid ""Bosnian""
msgstr ""Bosnisk""

msgid ""Brazilian Portuguese""
msgstr ""Brasiliansk portugisisk""

msgid ""Breton""
msgstr ""Bretonsk""

msgid ""British English""
msgstr ""Engelsk (britisk)""

msgid ""Bulgarian""
msgstr ""Bulgarsk""

msgid ""Burmese""
msgstr ""Burmesisk""

msgid ""Catalan""
msgstr ""Katalansk""

msgid ""Central Kurdish (Sorani)""
msgstr """"

msgid ""Colombian Spanish""
msgstr ""Colombiansk spansk""

msgid ""Croatian""
msgstr ""Kroatisk""

msgid ""Czech""
msgstr ""Tsjekkisk""

msgid ""Danish""
msgstr ""Dansk""

msgid ""December""
msgstr ""desember""

msgid ""Dutch""
msgstr ""Nederlandsk""

msgid ""English""
msgstr ""Engelsk""

msgid ""Esperanto""
msgstr ""Esperanto""

msgid ""Estonian""
msgstr ""Estisk""

msgid ""February""
msgstr ""februar""

msgid ""Finnish""
msgstr ""Finsk""

msgid ""French""
msgstr ""Fransk""

msgid ""Fri""
msgstr ""fre""

msgid ""Friday""
msgstr ""fredag""

msgid ""Frisian""
msgstr ""Frisisk""

msgid ""Galician""
msgstr ""Galisisk""

msgid ""Georgian""
msgstr ""Georgisk""

msgid ""German""
msgstr ""Tysk""

msgid ""Greek""
msgstr ""Gresk""

msgid ""Hebrew""
msgstr ""Hebraisk""

msgid ""Hindi""
msgstr ""Hindi""

msgid ""Hungarian""
msgstr ""Ungarsk""

msgid ""Icelandic""
msgstr ""Islandsk""

msgid ""Ido""
msgstr ""Ido""

msgid ""Igbo""
msgstr ""Ibo""

msgid ""Indonesian""
msgstr ""Indonesisk""

msgid ""Interlingua""
msgstr ""Interlingua""

msgid ""Irish""
msgstr ""Irsk""

msgid ""Italian""
msgstr ""Italiensk""

msgid ""January""
msgstr ""januar""

msgid ""Japanese""
msgstr ""Japansk""

msgid ""July""
msgstr ""juli""

msgid ""June""
msgstr ""juni""

msgid ""Kabyle""
msgstr ""Kabylsk""

msgid ""Kannada""
msgstr ""Kannada""

msgid ""Kazakh""
msgstr ""Kasakhisk""

msgid ""Khmer""
msgstr ""Khmer""

msgid ""Korean""
msgstr ""Koreansk""

msgid ""Kyrgyz""
msgstr ""Kirgisisk""

msgid ""Latvian""
msgstr ""Latvisk""

msgid ""Lithuanian""
msgstr ""Litauisk""

msgid ""Lower Sorbian""
msgstr ""Lavsorbisk""

msgid ""Luxembourgish""
msgstr ""Luxembourgsk""

msgid ""Macedonian""
msgstr ""Makedonsk""

msgid ""Malay""
msgstr ""Malayisk""

msgid ""Malayalam""
msgstr ""Malayalam""

msgid ""Marathi""
msgstr ""Marathi""

msgid ""March""
msgstr ""mars""

msgid ""May""
msgstr ""mai""

msgid ""Mexican Spanish""
msgstr ""Meksikansk spansk""

msgid ""Mon""
msgstr ""man""

msgid ""Monday""
msgstr ""mandag""

msgid ""Mongolian""
msgstr ""Mongolsk""

msgid ""Nepali""
msgstr ""Nepali""

msgid ""Nicaraguan Spanish""
msgstr ""Nicaraguansk spansk""

msgid ""Norwegian Bokmål""
msgstr ""Norsk (bokmål)""

msgid ""Norwegian Nynorsk""
msgstr ""Norsk (nynorsk)""

msgid ""November""
msgstr ""november""

msgid ""October""
msgstr ""oktober""

msgid ""Ossetic""
msgstr ""Ossetisk""

msgid ""PM""
msgstr ""PM""

msgid ""Persian""
msgstr ""Persisk""

msgid ""Polish""
msgstr ""Polsk""

msgid ""Portuguese""
msgstr ""Portugisisk""

msgid ""Punjabi""
msgstr ""Panjabi""

msgid ""Romanian""
msgstr ""Rumensk""

msgid ""Russian""
msgstr ""Russisk""

msgid ""Sat""
msgstr ""lør""

msgid ""Saturday""
msgstr ""lørdag""

msgid ""Scottish Gaelic""
msgstr ""Skotsk-gælisk""

msgid ""September""
msgstr ""september""

msgid ""Serbian""
msgstr ""Serbisk""

msgid ""Serbian Latin""
msgstr ""Serbisk latin""

msgid ""Simplified Chinese""
msgstr ""Forenklet kinesisk""

msgid ""Slovak""
msgstr ""Slovakisk""

msgid ""Slovenian""
msgstr ""Slovensk""

msgid ""Spanish""
msgstr ""Spansk""

msgid ""Sun""
msgstr ""søn""

msgid ""Sunday""
msgstr ""søndag""

msgid ""Swahili""
msgstr ""Swahili""

msgid ""Swedish""
msgstr ""Svensk""

msgid ""Tajik""
msgstr ""Tadsjikisk""

msgid ""Tamil""
msgstr ""Tamil""

msgid ""Tatar""
msgstr ""Tatarisk""

msgid ""Telugu""
msgstr ""Telugu""

msgid ""Thai""
msgstr ""Thai""

msgid ""Thu""
msgstr ""tor""

msgid ""Thursday""
msgstr ""torsdag""

msgid ""Traditional Chinese""
msgstr ""Tradisjonell kinesisk""

msgid ""Tue""
msgstr ""tir""

msgid ""Tuesday""
msgstr ""tirsdag""

msgid ""Turkish""
msgstr ""Tyrkisk""

msgid ""Turkmen""
msgstr ""Turkmensk""

msgid ""Udmurt""
msgstr ""Udmurtisk""

msgid ""Ukrainian""
msgstr ""Ukrainsk""

msgid ""Upper Sorbian""
msgstr ""Høysorbisk""

msgid ""Urdu""
msgstr ""Urdu""

msgid ""Uzbek""
msgstr ""Usbekisk""

msgid ""Venezuelan Spanish""
msgstr ""Venezuelanske spansk""

msgid ""Vietnamese""
msgstr ""Vietnamesisk""

msgid ""Wed""
msgstr ""ons""

msgid ""Wednesday""
msgstr ""onsdag""

msgid ""Welsh""
msgstr ""Walisisk""

msgid ""a minute ago""
msgid_plural ""%[1]v minutes ago""
msgstr[0] ""et minutt siden""
msgstr[1] ""%[1]v minutter siden""

msgid ""a minute from now""
msgid_plural ""%[1]v minutes from now""
msgstr[0] ""et minutt fra nå""
msgstr[1] ""%[1]v minutter fra nå""

msgid ""a second ago""
msgid_plural ""%[1]v seconds ago""
msgstr[0] ""et sekund siden""
msgstr[1] ""%[1]v sekunder siden""

msgid ""a second from now""
msgid_plural ""%[1]v seconds from now""
msgstr[0] ""et sekund fra nå""
msgstr[1] ""%[1]v sekunder fra nå""

msgid ""a.m.""
msgstr ""a.m.""

msgid ""an hour ago""
msgid_plural ""%[1]v hours ago""
msgstr[0] ""en time siden""
msgstr[1] ""%[1]v timer siden""

msgid ""an hour from now""
msgid_plural ""%[1]v hours from now""
msgstr[0] ""en time fra nå""
msgstr[1] ""%[1]v timer fra nå""

msgid ""apr""
msgstr ""apr""

msgid ""aug""
msgstr ""aug""

msgid ""dec""
msgstr ""des""

msgid ""eight""
msgstr ""åtte""

msgid ""feb""
msgstr ""feb""

msgid ""five""
msgstr ""fem""

msgid ""four""
msgstr ""fire""

msgid ""jan""
msgstr ""jan""

msgid ""jul""
msgstr ""jul""

msgid ""jun""
msgstr ""jun""

msgid ""mar""
msgstr ""mar""

msgid ""may""
msgstr ""mai""

msgid ""midnight""
msgstr ""midnatt""

msgid ""nine""
msgstr ""ni""

msgid ""noon""
msgstr ""12:00""

msgid ""nov""
msgstr ""nov""

msgid ""now""
msgstr ""nå""

msgid ""oct""
msgstr ""okt""

msgid ""one""
msgstr ""én""

msgid ""p.m.""
msgstr ""p.m.""

msgid ""sep""
msgstr ""sep""

msgid ""seven""
msgstr ""sju""

msgid ""six""
msgstr ""seks""

msgid ""three""
msgstr ""tre""

msgid ""today""
msgstr ""i dag""

msgid ""tomorrow""
msgstr ""i morgen""

msgid ""two""
msgstr ""to""

msgid ""yesterday""
msgstr ""i går""

msgctxt ""abbrev. month""
msgid ""April""
msgstr ""apr.""

msgctxt ""abbrev. month""
msgid ""Aug.""
msgstr ""aug.""

msgctxt ""abbrev. month""
msgid ""Dec.""
msgstr ""des.""

msgctxt ""abbrev. month""
msgid ""Feb.""
msgstr ""feb.""

msgctxt ""abbrev. month""
msgid ""Jan.""
msgstr ""jan.""

msgctxt ""abbrev. month""
msgid ""July""
msgstr ""jul.""

msgctxt ""abbrev. month""
msgid ""June""
msgstr ""jun.""

msgctxt ""abbrev. month""
msgid ""March""
msgstr ""mar.""

msgctxt ""abbrev. month""
msgid ""May""
msgstr ""mai""

msgctxt ""abbrev. month""
msgid ""Nov.""
msgstr ""nov.""

msgctxt ""abbrev. month""
msgid ""Oct.""
msgstr ""okt.""

msgctxt ""abbrev. month""
msgid ""Sept.""
msgstr ""sept.""

msgctxt ""alt. month""
msgid ""April""
msgstr ""April""

msgctxt ""alt. month""
msgid ""August""
msgstr ""August""

msgctxt ""alt. month""
msgid ""December""
msgstr ""Desember""

msgctxt ""alt. month""
msgid ""February""
msgstr ""Februar""

msgctxt ""alt. month""
msgid ""January""
msgstr ""Januar""

msgctxt ""alt. month""
msgid ""July""
msgstr ""Juli""

msgctxt ""alt. month""
msgid ""June""
msgstr ""Juni""

msgctxt ""alt. month""
msgid ""March""
msgstr ""Mars""

msgctxt ""alt. month""
msgid ""May""
msgstr ""Mai""

msgctxt ""alt. month""
msgid ""November""
msgstr ""November""

msgctxt ""alt. month""
msgid ""October""
msgstr ""Oktober""

msgctxt ""alt. month""
msgid ""September""
msgstr ""September""

msgctxt ""naturaltime-future""
msgid ""%[1]v day""
msgid_plural ""%[1]v days""
msgstr[0] ""%[1]v dag""
msgstr[1] ""%[1]v dager""

msgctxt ""naturaltime-future""
msgid ""%[1]v hour""
msgid_plural ""%[1]v hours""
msgstr[0] ""%[1]v time""
msgstr[1] ""%[1]v timer""

msgctxt ""naturaltime-future""
msgid ""%[1]v minute""
msgid_plural ""%[1]v minutes""
msgstr[0] ""%[1]v minutt""
msgstr[1] ""%[1]v minutter""

msgctxt ""naturaltime-future""
msgid ""%[1]v month""
msgid_plural ""%[1]v months""
msgstr[0] ""%[1]v måned""
msgstr[1] ""%[1]v måneder""

msgctxt ""naturaltime-future""
msgid ""%[1]v week""
msgid_plural ""%[1]v weeks""
msgstr[0] ""%[1]v uke""
msgstr[1] ""%[1]v uker""

msgctxt ""naturaltime-future""
msgid ""%[1]v year""
msgid_plural ""%[1]v years""
msgstr[0] ""%[1]v år""
msgstr[1] ""%[1]v år""

msgctxt ""naturaltime-past""
msgid ""%[1]v day""
msgid_plural ""%[1]v days""
msgstr[0] ""%[1]v dag""
msgstr[1] ""%[1]v dager""

msgctxt ""naturaltime-past""
msgid ""%[1]v hour""
msgid_plural ""%[1]v hours""
msgstr[0] ""%[1]v time""
msgstr[1] ""%[1]v timer""

msgctxt ""naturaltime-past""
msgid ""%[1]v minute""
msgid_plural ""%[1]v minutes""
msgstr[0] ""%[1]v minutt""
msgstr[1] ""%[1]v minutter""

msgctxt ""naturaltime-past""
msgid ""%[1]v month""
msgid_plural ""%[1]v months""
msgstr[0] ""%[1]v måned""
msgstr[1] ""%[1]v måneder""

msgctxt ""naturaltime-past""
msgid ""%[1]v week""
msgid_plural ""%[1]v weeks""
msgstr[0] ""%[1]v uke""
msgstr[1] ""%[1]v uker""

msgctxt ""naturaltime-past""
msgid ""%[1]v year""
msgid_plural ""%[1]v years""
msgstr[0] ""%[1]v år""
msgstr[1] ""%[1]v år""

msgctxt ""ordinal 0""
msgid ""%vth""
msgstr ""%v.""

msgctxt ""ordinal 1""
msgid ""%vst""
msgstr ""%v.""

msgctxt ""ordinal 11, 12, 13""
msgid ""%vth""
msgstr ""%v.""

msgctxt ""ordinal 2""
msgid ""%vnd""
msgstr ""%v.""

msgctxt ""ordinal 3""
msgid ""%vrd""
msgstr ""%v.""

msgctxt ""ordinal 4""
msgid ""%vth""
msgstr ""%v.""

msgctxt ""ordinal 5""
msgid ""%vth""
msgstr ""%v.""

msgctxt ""ordinal 6""
msgid ""%vth""
msgstr ""%v.""

msgctxt ""ordinal 7""
msgid ""%vth""
msgstr ""%v.""

msgctxt ""ordinal 8""
msgid ""%vth""
msgstr ""%v.""

msgctxt ""ordinal 9""
msgid ""%vth""
msgstr ""%v.""
".
(** humanize/locale/nb/locale.go (New) *)
Definition loc_nb : locale_data := LD (bs "nb") [(bs "django.po", po_nb)]
  (Some (FD (bs "j. F Y") (bs "H:i") (bs "j. F Y H:i") (bs "F Y") (bs "j. F") (bs "d.m.Y") (bs "d.m.Y H:i"))).

(** humanize/locale/ne/django.po *)
Definition po_ne : bytes := bs "# This file is distributed under the same license as the Django package.
# 
# Translators:
# Claude Paroz <claude@2xlibre.net>, 2020
# Jannis Leidel <jannis@leidel.info>, 2014
# Paras Nath Chaudhary <opnchaudhary@gmail.com>, 2012
# Sagar Chalise <chalisesagar@gmail.com>, 2011-2012,2015,2018
# Sagar Chalise <chalisesagar@gmail.com>, 2015
msgid """"
msgstr """"
""Project-Id-Version: django\n""
""Report-Msgid-Bugs-To: \n""
""POT-Creation-Date: 2020-05-19 20:23+0200\n""
""PO-Revision-Date: 2020-07-14 21:42+0000\n""
""Last-Translator: Transifex Bot <>\n""
""Language-Team: Nepali (http://www.transifex.com/django/django/language/ne/)\n""
""Language: ne\n""
""MIME-Version: 1.0\n""
""Content-Type: text/plain; charset=UTF-8\n""
""Content-Transfer-Encoding: 8bit\n""
""Plural-Forms: nplurals=2; plural=(n != 1);\n""

msgid ""%[1]d byte""
msgid_plural ""%[1]d bytes""
msgstr[0] ""%[1]d बाइट""
msgstr[1] ""%[1]d बाइटहरु""

msgid ""%[1]s billion""
msgid_plural ""%[1]s billion""
msgstr[0] ""%[1]s अरब""
msgstr[1] ""%[1]s अरब""

msgid ""%[1]s decillion""
msgid_plural ""%[1]s decillion""
msgstr[0] """"
msgstr[1] """"

msgid ""%[1]s googol""
msgid_plural ""%[1]s googol""
msgstr[0] """"
msgstr[1] """"

msgid ""%[1]s million""
msgid_plural ""%[1]s million""
msgstr[0] ""%[1]s मिलियन""
msgstr[1] ""%[1]s मिलियन""

msgid ""%[1]s nonillion""
msgid_plural ""%[1]s nonillion""
msgstr[0] """"
msgstr[1] """"

msgid ""%[1]s octillion""
msgid_plural ""%[1]s octillion""
msgstr[0] """"
msgstr[1] """"

msgid ""%[1]s quadrillion""
msgid_plural ""%[1]s quadrillion""
msgstr[0] ""%[1]s करोड़ शंख""
msgstr[1] ""%[1]s करोड़ शंख""

msgid ""%[1]s quintillion""
msgid_plural ""%[1]s quintillion""
msgstr[0] """"
msgstr[1] """"

msgid ""%[1]s septillion""
msgid_plural ""%[1]s septillion""
msgstr[0] """"
msgstr[1] """"

msgid ""%[1]s sextillion""
msgid_plural ""%[1]s sextillion""
msgstr[0] """"
msgstr[1] """"

msgid ""%[1]s trillion""
msgid_plural ""%[1]s trillion""
msgstr[0] ""%[1]s खरब""
msgstr[1] ""%[1]s खरब""

msgid ""%[1]v ago""
msgstr ""%[1]vपहिले""

msgid ""%[1]v from now""
msgstr ""%[1]v अबदेखि""

msgid ""%s GB""
msgstr ""%s गिगाबाइट""

msgid ""%s KB""
msgstr ""%s किलोबाइट""

msgid ""%s MB""
msgstr ""%s मेगाबाइट""

msgid ""%s PB""
msgstr ""%s पिटाबाइट""

msgid ""%s TB""
msgstr ""%s टेराबाइट""

msgid "", ""
msgstr "",""

msgid ""AM""
msgstr ""AM""

msgid ""Afrikaans""
msgstr ""अफ्रिकन""

msgid ""Albanian""
msgstr ""अल्बानियाली""

msgid ""Algerian Arabic""
msgstr """"

msgid ""April""
msgstr ""अप्रिल""

msgid ""Arabic""
msgstr ""अरबिक""

msgid ""Argentinian Spanish""
msgstr ""अर्जेन्टिनाली स्पेनिस""

msgid ""Armenian""
msgstr ""अर्मेनियन""

msgid ""Asturian""
msgstr ""अस्टुरियन""

msgid ""August""
msgstr ""अगस्त""

msgid ""Australian English""
msgstr ""अस्ट्रेलियाली अंग्रेजी""

msgid ""Azerbaijani""
msgstr ""अजरबैजानी""

msgid ""Basque""
msgstr ""बास्क""

msgid ""Belarusian""
msgstr ""बेलारुसियन""

msgid ""Bengali""
msgstr ""बंगाली""

msgid ""Bosnian""
msgstr ""बोस्नियाली""

msgid ""Brazilian Portuguese""
msgstr ""ब्राजिली पुर्तगाली""

msgid ""Breton""
msgstr ""ब्रेटोन""

msgid ""British English""
msgstr ""बेलायती अंग्रेजी""

msgid ""Bulgarian""
msgstr ""बुल्गेरियाली""

msgid ""Burmese""
msgstr ""बर्मेली""

msgid ""Catalan""
msgstr ""क्याटालान""

msgid ""Colombian Spanish""
msgstr ""कोलम्बियाली स्पेनिस""

msgid ""Croatian""
msgstr ""क्रोषियन""

msgid ""Czech""
msgstr ""चेक""

msgid ""Danish""
msgstr ""डेनिस""

msgid ""December""
msgstr ""डिसम्वर""

msgid ""Dutch""
msgstr ""डच""

msgid ""English""
msgstr ""अंग्रेजी""

msgid ""Esperanto""
msgstr ""इस्परा्न्तो""

msgid ""Estonian""
msgstr ""इस्टोनियन""

msgid ""February""
msgstr ""फेब्रुअरी""

msgid ""Finnish""
msgstr ""फिन्निस""

msgid ""French""
msgstr ""फ्रान्सेली""

msgid ""Fri""
msgstr ""शुक्र""

msgid ""Friday""
msgstr ""शुक्रवार""

msgid ""Frisian""
msgstr ""फ्रिसियन""

msgid ""Galician""
msgstr ""ग्यलिसियन""

msgid ""Georgian""
msgstr ""जर्जीयन""

msgid ""German""
msgstr ""जर्मन""

msgid ""Greek""
msgstr ""ग्रिक""

msgid ""Hebrew""
msgstr ""हिब्रु""

msgid ""Hindi""
msgstr ""हिन्दि ""

msgid ""Hungarian""
msgstr ""हन्गेरियन""

msgid ""Icelandic""
msgstr ""आइसल्यान्डिक""

msgid ""Ido""
msgstr ""आइडु""

msgid ""Igbo""
msgstr """"

msgid ""Indonesian""
msgstr ""इन्डोनेसियाली""

msgid ""Interlingua""
msgstr ""ईन्टरलिन्गुवा""

msgid ""Irish""
msgstr ""आयरिस""

msgid ""Italian""
msgstr ""ईटालियन""

msgid ""January""
msgstr ""जनवरी""

msgid ""Japanese""
msgstr ""जापनिज""

msgid ""July""
msgstr ""जुलै""

msgid ""June""
msgstr ""जुन""

msgid ""Kabyle""
msgstr ""कबायल""

msgid ""Kannada""
msgstr ""कन्नड""

msgid ""Kazakh""
msgstr ""कजाक""

msgid ""Khmer""
msgstr ""ख्मेर""

msgid ""Korean""
msgstr ""कोरियाली""

msgid ""Kyrgyz""
msgstr """"

msgid ""Latvian""
msgstr ""लाट्भियन""

msgid ""Lithuanian""
msgstr ""लिथुवानियाली""

msgid ""Lower Sorbian""
msgstr ""तल्लो सोर्बियन""

msgid ""Luxembourgish""
msgstr ""लक्जेमबर्गेली""

msgid ""Macedonian""
msgstr ""म्यासेडोनियन""

msgid ""Malayalam""
msgstr ""मलायलम""

msgid ""Marathi""
msgstr ""मराठी""

msgid ""March""
msgstr ""मार्च""

msgid ""May""
msgstr ""मई""

msgid ""Mexican Spanish""
msgstr ""मेक्सिकन स्पेनिस""

msgid ""Mon""
msgstr ""सोम""

msgid ""Monday""
msgstr ""सोमवार""

msgid ""Mongolian""
msgstr ""मंगोलियन""

msgid ""Nepali""
msgstr ""नेपाली""

msgid ""Nicaraguan Spanish""
msgstr ""निकारागुँवा स्पेनिस""

msgid ""Norwegian Bokmål""
msgstr ""नर्वे बक्मल""

msgid ""Norwegian Nynorsk""
msgstr ""नर्वेली न्योर्स्क""

msgid ""November""
msgstr ""नभम्वर""

msgid ""October""
msgstr ""अक्टुवर""

msgid ""Ossetic""
msgstr ""ओसेटिक""

msgid ""PM""
msgstr ""PM""

msgid ""Persian""
msgstr ""फारसी""

msgid ""Polish""
msgstr ""पोलिस""

msgid ""Portuguese""
msgstr ""पुर्तगाली""

msgid ""Punjabi""
msgstr ""पञ्जावी""

msgid ""Romanian""
msgstr ""रोमानियाली""

msgid ""Russian""
msgstr ""रुसी""

msgid ""Sat""
msgstr ""शनि""

msgid ""Saturday""
msgstr ""शनिवार""

msgid ""Scottish Gaelic""
msgstr ""स्कटीस गैलिक""

msgid ""September""
msgstr ""सेप्टेम्बर""

msgid ""Serbian""
msgstr ""सर्वियाली""

msgid ""Serbian Latin""
msgstr ""सर्वियाली ल्याटिन""

msgid ""Simplified Chinese""
msgstr ""सरल चिनि""

msgid ""Slovak""
msgstr ""सलोभाक""

msgid ""Slovenian""
msgstr ""स्लोभेनियाली""

msgid ""Spanish""
msgstr ""स्पेनिस""

msgid ""Sun""
msgstr ""आइत""

msgid ""Sunday""
msgstr ""आइतवार""

msgid ""Swahili""
msgstr ""स्वाहिली""

msgid ""Swedish""
msgstr ""स्विडिस""

msgid ""Tajik""
msgstr """"

msgid ""Tamil""
msgstr ""तामिल""

msgid ""Tatar""
msgstr ""टाटर""

msgid ""Telugu""
msgstr ""तेलुगु""

msgid ""Thai""
msgstr ""थाई""

msgid ""Thu""
msgstr ""बिहि""

msgid ""Thursday""
msgstr ""बिहीवार""

msgid ""Traditional Chinese""
msgstr ""प्राचिन चिनि""

msgid ""Tue""
msgstr ""मंगल""

msgid ""Tuesday""
msgstr ""मंगलवार""

msgid ""Turkish""
msgstr ""टर्किस""

msgid ""Turkmen""
msgstr """"

msgid ""Udmurt""
msgstr ""उद्मुर्ट""

msgid ""Ukrainian""
msgstr ""युक्रेनि""

msgid ""Upper Sorbian""
msgstr ""माथिल्लो सोर्बियन ""

msgid ""Urdu""
msgstr ""उर्दु""

msgid ""Uzbek""
msgstr ""उज्बेक""

msgid ""Venezuelan Spanish""
msgstr ""भेनेजुएला स्पेनिस""

msgid ""Vietnamese""
msgstr ""भियतनामी""

msgid ""Wed""
msgstr ""बुध""

msgid ""Wednesday""
msgstr ""बुधवार""

msgid ""Welsh""
msgstr ""वेल्स""

msgid ""a minute ago""
msgid_plural ""%[1]v minutes ago""
msgstr[0] ""एक मिनेट अघि""
msgstr[1] ""%[1]v मिनेट अघि""

msgid ""a minute from now""
msgid_plural ""%[1]v minutes from now""
msgstr[0] ""एक मिनेट पछि""
msgstr[1] ""%[1]v मिनेट पछि""

msgid ""a second ago""
msgid_plural ""%[1]v seconds ago""
msgstr[0] ""एक सेकेन्ड अघि""
msgstr[1] ""%[1]v सेकेन्ड अघि""

msgid ""a second from now""
msgid_plural ""%[1]v seconds from now""
msgstr[0] ""एक सेकेन्ड पछि""
msgstr[1] ""%[1]v सेकेन्ड पछि""

msgid ""a.m.""
msgstr ""a.m.""

msgid ""an hour ago""
msgid_plural ""%[1]v hours ago""
msgstr[0] ""एक घण्टा अघि""
msgstr[1] ""%[1]v घण्टा अघि""

msgid ""an hour from now""
msgid_plural ""%[1]v hours from now""
msgstr[0] ""एक घण्टा पछि""
msgstr[1] ""%[1]v घण्टा पछि""

msgid ""apr""
msgstr ""अप्रिल""

msgid ""aug""
msgstr ""अग्सत""

msgid ""dec""
msgstr ""डिसम्वर""

msgid ""eight""
msgstr ""आठ ""

msgid ""feb""
msgstr ""फेब्रुअरी""

msgid ""five""
msgstr ""पाँच ""

msgid ""four""
msgstr ""चार ""

msgid ""jan""
msgstr ""जनवरी""

msgid ""jul""
msgstr ""जुलै""

msgid ""jun""
msgstr ""जुन""

msgid ""mar""
msgstr ""मार्च""

msgid ""may""
msgstr ""मई""

msgid ""midnight""
msgstr ""मध्यरात""

msgid ""nine""
msgstr ""नौ ""

msgid ""noon""
msgstr ""मध्यान्ह""

msgid ""nov""
msgstr ""नभम्वर""

msgid ""now""
msgstr ""अहिले""

msgid ""oct""
msgstr ""अक्टुवर""

msgid ""one""
msgstr ""एक ""

msgid ""p.m.""
msgstr ""p.m.""

msgid ""sep""
msgstr ""सेप्तेम्बर""

msgid ""seven""
msgstr ""सात ""

msgid ""six""
msgstr ""छ ""

msgid ""three""
msgstr ""तीन ""

msgid ""today""
msgstr ""आज""

msgid ""tomorrow""
msgstr ""भोली""

msgid ""two""
msgstr ""दुई ""

msgid ""yesterday""
msgstr ""हिजो""

msgctxt ""abbrev. month""
msgid ""April""
msgstr ""अप्रिल""

msgctxt ""abbrev. month""
msgid ""Aug.""
msgstr ""अगस्त""

msgctxt ""abbrev. month""
msgid ""Dec.""
msgstr ""डिसम्वर""

msgctxt ""abbrev. month""
msgid ""Feb.""
msgstr ""फेब्रुअरी""

msgctxt ""abbrev. month""
msgid ""Jan.""
msgstr ""जनवरी""

msgctxt ""abbrev. month""
msgid ""July""
msgstr ""जुलै""

msgctxt ""abbrev. month""
msgid ""June""
msgstr ""जुन""

msgctxt ""abbrev. month""
msgid ""March""
msgstr ""मार्च""

msgctxt ""abbrev. month""
msgid ""May""
msgstr ""मई""

msgctxt ""abbrev. month""
msgid ""Nov.""
msgstr ""नभम्वर""

msgctxt ""abbrev. month""
msgid ""Oct.""
msgstr ""अक्टुवर""

msgctxt ""abbrev. month""
msgid ""Sept.""
msgstr ""सेप्तेम्बर""

msgctxt ""alt. month""
msgid ""April""
msgstr ""अप्रिल""

msgctxt ""alt. month""
msgid ""August""
msgstr ""अगस्त""

msgctxt ""alt. month""
msgid ""December""
msgstr ""डिसम्वर""

msgctxt ""alt. month""
msgid ""February""
msgstr ""फेब्रुअरी""

msgctxt ""alt. month""
msgid ""January""
msgstr ""जनवरी""

msgctxt ""alt. month""
msgid ""July""
msgstr ""जुलै""

msgctxt ""alt. month""
msgid ""June""
msgstr ""जुन""

msgctxt ""alt. month""
msgid ""March""
msgstr ""मार्च""

msgctxt ""alt. month""
msgid ""May""
msgstr ""मई""

msgctxt ""alt. month""
msgid ""November""
msgstr ""नभम्वर""

msgctxt ""alt. month""
msgid ""October""
msgstr ""अक्टुवर""

msgctxt ""alt. month""
msgid ""September""
msgstr ""सेप्टेम्बर""

msgctxt ""ordinal 0""
msgid ""%vth""
msgstr """"

msgctxt ""ordinal 1""
msgid ""%vst""
msgstr """"

msgctxt ""ordinal 11, 12, 13""
msgid ""%vth""
msgstr """"

msgctxt ""ordinal 2""
msgid ""%vnd""
msgstr """"

msgctxt ""ordinal 3""
msgid ""%vrd""
msgstr """"

msgctxt ""ordinal 4""
msgid ""%vth""
msgstr """"

msgctxt ""ordinal 5""
msgid ""%vth""
msgstr """"

msgctxt ""ordinal 6""
msgid ""%vth""
msgstr """"

msgctxt ""ordinal 7""
msgid ""%vth""
msgstr """"

msgctxt ""ordinal 8""
msgid ""%vth""
msgstr """"

msgctxt ""ordinal 9""
msgid ""%vth""
msgstr """"
".
(** humanize/locale/ne/locale.go (New) *)
Definition loc_ne : locale_data := LD (bs "ne") [(bs "django.po", po_ne)]
  (Some (FD (bs "j. F Y") (bs "H:i") (bs "j. F Y H:i") (bs "F Y") (bs "j. F") (bs "d.m.Y") (bs "d.m.Y H:i"))).

(** humanize/locale/nl/django.po *)
Definition po_nl : bytes := bs "# This file is distributed under the same license as the Django package.
# 
# Translators:
# Bas Peschier <bas.peschier@gmail.com>, 2011,2013
# Blue <alexandervanratingen@gmail.com>, 2011-2012
# Bouke Haarsma <bouke@haarsma.eu>, 2013
# Claude Paroz <claude@2xlibre.net>, 2014
# Erik Romijn <transifex@solidlinks.nl>, 2013
# Evelijn Saaltink <evelijnsaaltink@gmail.com>, 2016
# Harro van der Klauw <hvdklauw@gmail.com>, 2011-2012
# Ilja Maas <iljamaas@dreamsolution.nl>, 2015
# jaap3 <jaap.roes@gmail.com>, 2024
# Jannis Leidel <jannis@leidel.info>, 2011
# 6a27f10aef159701c7a5ff07f0fb0a78_05545ed <bc5d401a7ecd9343dd5afac265ed8ab3_4845>, 2011-2012,2014
# Michiel Overtoom <motoom@xs4all.nl>, 2014
# Meteor0id, 2019-2020
# 8de006b1b0894aab6aef71979dcd8bd6_5c6b207 <ff2658a8d8dbebbd9cc240b8c133a515_234097>, 2014-2015
# Tino de Bruijn <tinodb@gmail.com>, 2013
# Tonnes <tonnes.mb@gmail.com>, 2017,2019-2020,2022-2024
msgid """"
msgstr """"
""Project-Id-Version: django\n""
""Report-Msgid-Bugs-To: \n""
""POT-Creation-Date: 2025-03-19 11:30-0500\n""
""PO-Revision-Date: 2025-04-01 15:04-0500\n""
""Last-Translator: jaap3 <jaap.roes@gmail.com>, 2024\n""
""Language-Team: Dutch (http://app.transifex.com/django/django/language/nl/)\n""
""Language: nl\n""
""MIME-Version: 1.0\n""
""Content-Type: text/plain; charset=UTF-8\n""
""Content-Transfer-Encoding: 8bit\n""
""Plural-Forms: nplurals=2; plural=(n != 1);\n""

msgid ""%[1]d byte""
msgid_plural ""%[1]d bytes""
msgstr[0] ""%[1]d byte""
msgstr[1] ""%[1]d bytes""

msgid ""%[1]s billion""
msgid_plural ""%[1]s billion""
msgstr[0] ""%[1]s miljard""
msgstr[1] ""%[1]s miljard""

msgid ""%[1]s decillion""
msgid_plural ""%[1]s decillion""
msgstr[0] ""%[1]s quintiljard""
msgstr[1] ""%[1]s quintiljard""

msgid ""%[1]s googol""
msgid_plural ""%[1]s googol""
msgstr[0] ""%[1]s googol""
msgstr[1] ""%[1]s googol""

msgid ""%[1]s million""
msgid_plural ""%[1]s million""
msgstr[0] ""%[1]s miljoen""
msgstr[1] ""%[1]s miljoen""

msgid ""%[1]s nonillion""
msgid_plural ""%[1]s nonillion""
msgstr[0] ""%[1]s quintiljoen""
msgstr[1] ""%[1]s quintiljoen""

msgid ""%[1]s octillion""
msgid_plural ""%[1]s octillion""
msgstr[0] ""%[1]s quadriljard""
msgstr[1] ""%[1]s quadriljard""

msgid ""%[1]s quadrillion""
msgid_plural ""%[1]s quadrillion""
msgstr[0] ""%[1]s biljard""
msgstr[1] ""%[1]s biljard""

msgid ""%[1]s quintillion""
msgid_plural ""%[1]s quintillion""
msgstr[0] ""%[1]s triljoen""
msgstr[1] ""%[1]s triljoen""

msgid ""%[1]s septillion""
msgid_plural ""%[1]s septillion""
msgstr[0] ""%[1]s quadriljoen""
msgstr[1] ""%[1]s quadriljoen""

msgid ""%[1]s sextillion""
msgid_plural ""%[1]s sextillion""
msgstr[0] ""%[1]s triljard""
msgstr[1] ""%[1]s triljard""

msgid ""%[1]s trillion""
msgid_plural ""%[1]s trillion""
msgstr[0] ""%[1]s biljoen""
msgstr[1] ""%[1]s biljoen""

msgid ""%[1]v ago""
msgstr ""%[1]v geleden""

msgid ""%[1]v day""
msgid_plural ""%[1]v days""
msgstr[0] ""%[1]v dag""
msgstr[1] ""%[1]v dagen""

msgid ""%[1]v from now""
msgstr ""over %[1]v""

msgid ""%[1]v hour""
msgid_plural ""%[1]v hours""
msgstr[0] ""%[1]v uur""
msgstr[1] ""%[1]v uur""

msgid ""%[1]v minute""
msgid_plural ""%[1]v minutes""
msgstr[0] ""%[1]v minuut""
msgstr[1] ""%[1]v minuten""

msgid ""%[1]v month""
msgid_plural ""%[1]v months""
msgstr[0] ""%[1]v maand""
msgstr[1] ""%[1]v maanden""

msgid ""%[1]v week""
msgid_plural ""%[1]v weeks""
msgstr[0] ""%[1]v week""
msgstr[1] ""%[1]v weken""

msgid ""%[1]v year""
msgid_plural ""%[1]v years""
msgstr[0] ""%[1]v jaar""
msgstr[1] ""%[1]v jaar""

msgid ""%s GB""
msgstr ""%s GB""

msgid ""%s KB""
msgstr ""%s KB""

msgid ""%s MB""
msgstr ""%s MB""

msgid ""%s PB""
msgstr ""%s PB""

msgid ""%s TB""
msgstr ""%s TB""

msgid "", ""
msgstr "", ""

msgid ""AM""
msgstr ""AM""

msgid ""Afrikaans""
msgstr ""Afrikaans""

msgid ""Albanian""
msgstr ""Albanisch""

msgid ""Algerian Arabic""
msgstr ""Algerijns Arabisch""

msgid ""April""
msgstr ""april""

msgid ""Arabic""
msgstr ""Arabisch""

msgid ""Argentinian Spanish""
msgstr ""Argentijns Spaans""

msgid ""Armenian""
msgstr ""Armeens""

msgid ""Asturian""
msgstr ""Asturisch""

msgid ""August""
msgstr ""augustus""

msgid ""Australian English""
msgstr ""Australisch-Engels""

msgid ""Azerbaijani""
msgstr ""Azerbeidzjaans""

msgid ""Basque""
msgstr ""Baskisch""

msgid ""Belarusian""
msgstr ""Wit-Russisch""

msgid ""Bengali""
msgstr ""Bengaals""

msgid ""Bosnian""
msgstr ""Bosnisch""

msgid ""Brazilian Portuguese""
msgstr ""Braziliaans Portugees""

msgid ""Breton""
msgstr ""Bretons""

msgid ""British English""
msgstr ""Brits-Engels""

msgid ""Bulgarian""
msgstr ""Bulgaars""

msgid ""Burmese""
msgstr ""Birmaans""

msgid ""Catalan""
msgstr ""Catalaans""

msgid ""Central Kurdish (Sorani)""
msgstr ""Centraal-Koerdisch (Sorani)""

msgid ""Colombian Spanish""
msgstr ""Colombiaans Spaans""

msgid ""Croatian""
msgstr ""Kroatisch""

msgid ""Czech""
msgstr ""Tsjechisch""

msgid ""Danish""
msgstr ""Deens""

msgid ""December""
msgstr ""december""

msgid ""Dutch""
msgstr ""Nederlands""

msgid ""English""
msgstr ""Engels""

msgid ""Esperanto""
msgstr ""Esperanto""

msgid ""Estonian""
msgstr ""Ests""

msgid ""February""
msgstr ""februari""

msgid ""Finnish""
msgstr ""Fins""

msgid ""French""
msgstr ""Frans""

msgid ""Fri""
msgstr ""vr""

msgid ""Friday""
msgstr ""vrijdag""

msgid ""Frisian""
msgstr ""Fries""

msgid ""Galician""
msgstr ""Galicisch""

msgid ""Georgian""
msgstr ""Georgisch""

msgid ""German""
msgstr ""Duits""

msgid ""Greek""
msgstr ""Grieks""

msgid ""Hebrew""
msgstr ""Hebreeuws""

msgid ""Hindi""
msgstr ""Hindi""

msgid ""Hungarian""
msgstr ""Hongaars""

msgid ""Icelandic""
msgstr ""IJslands""

msgid ""Ido""
msgstr ""Ido""

msgid ""Igbo""
msgstr ""Igbo""

msgid ""Indonesian""
msgstr ""Indonesisch""

msgid ""Interlingua""
msgstr ""Interlingua""

msgid ""Irish""
msgstr ""Iers""

msgid ""Italian""
msgstr ""Italiaans""

msgid ""January""
msgstr ""januari""

msgid ""Japanese""
msgstr ""Japans""

msgid ""July""
msgstr ""juli""

msgid ""June""
msgstr ""juni""

msgid ""Kabyle""
msgstr ""Kabylisch""

msgid ""Kannada""
msgstr ""Kannada""

msgid ""Kazakh""
msgstr ""Kazachs""

msgid ""Khmer""
msgstr ""Khmer""

msgid ""Korean""
msgstr ""Koreaans""

msgid ""Kyrgyz""
msgstr ""Kirgizisch""

msgid ""Latvian""
msgstr ""Lets""

msgid ""Lithuanian""
msgstr ""Litouws""

msgid ""Lower Sorbian""
msgstr ""Nedersorbisch""

msgid ""Luxembourgish""
msgstr ""Luxemburgs""

msgid ""Macedonian""
msgstr ""Macedonisch""

msgid ""Malay""
msgstr ""Maleis""

msgid ""Malayalam""
msgstr ""Malayalam""

msgid ""Marathi""
msgstr ""Marathi""

msgid ""March""
msgstr ""maart""

msgid ""May""
msgstr ""mei""

msgid ""Mexican Spanish""
msgstr ""Mexicaans Spaans""

msgid ""Mon""
msgstr ""ma""

msgid ""Monday""
msgstr ""maandag""

msgid ""Mongolian""
msgstr ""Mongools""

msgid ""Nepali""
msgstr ""Nepalees""

msgid ""Nicaraguan Spanish""
msgstr ""Nicaraguaans Spaans""

msgid ""Norwegian Bokmål""
msgstr ""Noors Bokmål""

msgid ""Norwegian Nynorsk""
msgstr ""Noors Nynorsk""

msgid ""November""
msgstr ""november""

msgid ""October""
msgstr ""oktober""

msgid ""Ossetic""
msgstr ""Ossetisch""

msgid ""PM""
msgstr ""PM""

msgid ""Persian""
msgstr ""Perzisch""

msgid ""Polish""
msgstr ""Pools""

msgid ""Portuguese""
msgstr ""Portugees""

msgid ""Punjabi""
msgstr ""Punjabi""

msgid ""Romanian""
msgstr ""Roemeens""

msgid ""Russian""
msgstr ""Russisch""

msgid ""Sat""
msgstr ""za""

msgid ""Saturday""
msgstr ""zaterdag""

msgid ""Scottish Gaelic""
msgstr ""Schots-Gaelisch""

msgid ""September""
msgstr ""september""

msgid ""Serbian""
msgstr ""Servisch""

msgid ""Serbian Latin""
msgstr ""Servisch Latijn""

msgid ""Simplified Chinese""
msgstr ""Vereenvoudigd Chinees""

msgid ""Slovak""
msgstr ""Slovaaks""

msgid ""Slovenian""
msgstr ""Sloveens""

msgid ""Spanish""
msgstr ""Spaans""

msgid ""Sun""
msgstr ""zo""

msgid ""Sunday""
msgstr ""zondag""

msgid ""Swahili""
msgstr ""Swahili""

msgid ""Swedish""
msgstr ""Zweeds""

msgid ""Tajik""
msgstr ""Tadzjieks""

msgid ""Tamil""
msgstr ""Tamil""

msgid ""Tatar""
msgstr ""Tataars""

msgid ""Telugu""
msgstr ""Telegu""

msgid ""Thai""
msgstr ""Thai""

msgid ""Thu""
msgstr ""do""

msgid ""Thursday""
msgstr ""donderdag""

msgid ""Traditional Chinese""
msgstr ""Traditioneel Chinees""

msgid ""Tue""
msgstr ""di""

msgid ""Tuesday""
msgstr ""dinsdag""

msgid ""Turkish""
msgstr ""Turks""

msgid ""Turkmen""
msgstr ""Turkmeens""

msgid ""Udmurt""
msgstr ""Oedmoerts""

msgid ""Ukrainian""
msgstr ""Oekraïens""

msgid ""Upper Sorbian""
msgstr ""Oppersorbisch""

msgid ""Urdu""
msgstr ""Urdu""

msgid ""Uyghur""
msgstr ""Oeigoers""

msgid ""Uzbek""
msgstr ""Oezbeeks""

msgid ""Venezuelan Spanish""
msgstr ""Venezolaans Spaans""

msgid ""Vietnamese""
msgstr ""Vietnamees""

msgid ""Wed""
msgstr ""wo""

msgid ""Wednesday""
msgstr ""woensdag""

msgid ""Welsh""
msgstr ""Welsh""

msgid ""a minute ago""
msgid_plural ""%[1]v minutes ago""
msgstr[0] ""een minuut geleden""
msgstr[1] ""%[1]v minuten geleden""

msgid ""a minute from now""
msgid_plural ""%[1]v minutes from now""
msgstr[0] ""over een minuut""
msgstr[1] ""over %[1]v minuten""

msgid ""a second ago""
msgid_plural ""%[1]v seconds ago""
msgstr[0] ""een seconde geleden""
msgstr[1] ""%[1]v seconden geleden""

msgid ""a second from now""
msgid_plural ""%[1]v seconds from now""
msgstr[0] ""over een seconde""
msgstr[1] ""over %[1]v seconden""

msgid ""a.m.""
msgstr ""a.m.""

msgid ""an hour ago""
msgid_plural ""%[1]v hours ago""
msgstr[0] ""een uur geleden""
msgstr[1] ""%[1]v uur geleden""

msgid ""an hour from now""
msgid_plural ""%[1]v hours from now""
msgstr[0] ""over een uur""
msgstr[1] ""over %[1]v uur""

msgid ""apr""
msgstr ""apr""

msgid ""aug""
msgstr ""aug""

msgid ""dec""
msgstr ""dec""

msgid ""eight""
msgstr ""acht""

msgid ""feb""
msgstr ""feb""

msgid ""five""
msgstr ""vijf""

msgid ""four""
msgstr ""vier""

msgid ""jan""
msgstr ""jan""

msgid ""jul""
msgstr ""jul""

msgid ""jun""
msgstr ""jun""

msgid ""mar""
msgstr ""mrt""

msgid ""may""
msgstr ""mei""

msgid ""midnight""
msgstr ""middernacht""

msgid ""nine""
msgstr ""negen""

msgid ""noon""
msgstr ""middag""

msgid ""nov""
msgstr ""nov""

msgid ""now""
msgstr ""nu""

msgid ""oct""
msgstr ""okt""

msgid ""one""
msgstr ""één""

msgid ""p.m.""
msgstr ""p.m.""

msgid ""sep""
msgstr ""sep""

msgid ""seven""
msgstr ""zeven""

msgid ""six""
msgstr ""zes""

msgid ""three""
msgstr ""drie""

msgid ""today""
msgstr ""vandaag""

msgid ""tomorrow""
msgstr ""morgen""

msgid ""two""
msgstr ""twee""

msgid ""yesterday""
msgstr ""gisteren""

msgctxt ""abbrev. month""
msgid ""April""
msgstr ""apr""

msgctxt ""abbrev. month""
msgid ""Aug.""
msgstr ""aug""

msgctxt ""abbrev. month""
msgid ""Dec.""
msgstr ""dec""

msgctxt ""abbrev. month""
msgid ""Feb.""
msgstr ""feb""

msgctxt ""abbrev. month""
msgid ""Jan.""
msgstr ""jan""

msgctxt ""abbrev. month""
msgid ""July""
msgstr ""jul""

msgctxt ""abbrev. month""
msgid ""June""
msgstr ""jun""

msgctxt ""abbrev. month""
msgid ""March""
msgstr ""mrt""

msgctxt ""abbrev. month""
msgid ""May""
msgstr ""mei""

msgctxt ""abbrev. month""
msgid ""Nov.""
msgstr ""nov""

msgctxt ""abbrev. month""
msgid ""Oct.""
msgstr ""okt""

msgctxt ""abbrev. month""
msgid ""Sept.""
msgstr ""sep""

msgctxt ""alt. month""
msgid ""April""
msgstr ""april""

msgctxt ""alt. month""
msgid ""August""
msgstr ""augustus""

msgctxt ""alt. month""
msgid ""December""
msgstr ""december""

msgctxt ""alt. month""
msgid ""February""
msgstr ""februari""

msgctxt ""alt. month""
msgid ""January""
msgstr ""januari""

msgctxt ""alt. month""
msgid ""July""
msgstr ""juli""

msgctxt ""alt. month""
msgid ""June""
msgstr ""juni""

msgctxt ""alt. month""
msgid ""March""
msgstr ""maart""

msgctxt ""alt. month""
msgid ""May""
msgstr ""mei""

msgctxt ""alt. month""
msgid ""November""
msgstr ""november""

msgctxt ""alt. month""
msgid ""October""
msgstr ""oktober""

msgctxt ""alt. month""
msgid ""September""
msgstr ""september""

msgctxt ""naturaltime-future""
msgid ""%[1]v day""
msgid_plural ""%[1]v days""
msgstr[0] ""%[1]v dag""
msgstr[1] ""%[1]v dagen""

msgctxt ""naturaltime-future""
msgid ""%[1]v hour""
msgid_plural ""%[1]v hours""
msgstr[0] ""%[1]v uur""
msgstr[1] ""%[1]v uur""

msgctxt ""naturaltime-future""
msgid ""%[1]v minute""
msgid_plural ""%[1]v minutes""
msgstr[0] ""%[1]v minuut""
msgstr[1] ""%[1]v minuten""

msgctxt ""naturaltime-future""
msgid ""%[1]v month""
msgid_plural ""%[1]v months""
msgstr[0] ""%[1]v maand""
msgstr[1] ""%[1]v maanden""

msgctxt ""naturaltime-future""
msgid ""%[1]v week""
msgid_plural ""%[1]v weeks""
msgstr[0] ""%[1]v week""
msgstr[1] ""%[1]v weken""

msgctxt ""naturaltime-future""
msgid ""%[1]v year""
msgid_plural ""%[1]v years""
msgstr[0] ""%[1]v jaar""
msgstr[1] ""%[1]v jaar""

msgctxt ""naturaltime-past""
msgid ""%[1]v day""
msgid_plural ""%[1]v days""
msgstr[0] ""%[1]v dag""
msgstr[1] ""%[1]v dagen""

msgctxt ""naturaltime-past""
msgid ""%[1]v hour""
msgid_plural ""%[1]v hours""
msgstr[0] ""%[1]v uur""
msgstr[1] ""%[1]v uur""

msgctxt ""naturaltime-past""
msgid ""%[1]v minute""
msgid_plural ""%[1]v minutes""
msgstr[0] ""%[1]v minuut""
msgstr[1] ""%[1]v minuten""

msgctxt ""naturaltime-past""
msgid ""%[1]v month""
msgid_plural ""%[1]v months""
msgstr[0] ""%[1]v maand""
msgstr[1] ""%[1]v maanden""

msgctxt ""naturaltime-past""
msgid ""%[1]v week""
msgid_plural ""%[1]v weeks""
msgstr[0] ""%[1]v week""
msgstr[1] ""%[1]v weken""

msgctxt ""naturaltime-past""
msgid ""%[1]v year""
msgid_plural ""%[1]v years""
msgstr[0] ""%[1]v jaar""
msgstr[1] ""%[1]v jaar""

msgctxt ""ordinal 0""
msgid ""%vth""
msgstr ""%ve""

msgctxt ""ordinal 1""
msgid ""%vst""
msgstr ""%ve""

msgctxt ""ordinal 11, 12, 13""
msgid ""%vth""
msgstr ""%ve""

msgctxt ""ordinal 2""
msgid ""%vnd""
msgstr ""%ve""

msgctxt ""ordinal 3""
msgid ""%vrd""
msgstr ""%ve""

msgctxt ""ordinal 4""
msgid ""%vth""
msgstr ""%ve""

msgctxt ""ordinal 5""
msgid ""%vth""
msgstr ""%ve""

msgctxt ""ordinal 6""
msgid ""%vth""
msgstr ""%ve""

msgctxt ""ordinal 7""
msgid ""%vth""
msgstr ""%ve""

msgctxt ""ordinal 8""
msgid ""%vth""
msgstr ""%ve""

msgctxt ""ordinal 9""
msgid ""%vth""
msgstr ""%ve""
".
(** humanize/locale/nl/locale.go (New) *)
Definition loc_nl : locale_data := LD (bs "nl") [(bs "django.po", po_nl)]
  (Some (FD (bs "j F Y") (bs "H:i") (bs "j F Y H:i") (bs "F Y") (bs "j F") (bs "j-n-Y") (bs "j-n-Y H:i"))).

(** humanize/locale/nn/django.po *)
Definition po_nn : bytes := bs "# This file is distributed under the same license as the Django package.
# 
# Translators:
# hgrimelid <havard@grimelid.com>, 2011
# Jannis Leidel <jannis@leidel.info>, 2011
# jensadne <jensadne@pvv.ntnu.no>, 2013
# Sigurd Gartmann <sigurdga-transifex@sigurdga.no>, 2012
# Sivert Olstad, 2021
# velmont <odin.omdal@gmail.com>, 2012
# Vibeke Uthaug, 2021
msgid """"
msgstr """"
""Project-Id-Version: django\n""
""Report-Msgid-Bugs-To: \n""
""POT-Creation-Date: 2021-09-21 10:22+0200\n""
""PO-Revision-Date: 2021-11-25 14:49+0000\n""
""Last-Translator: Sivert Olstad\n""
""Language-Team: Norwegian Nynorsk (http://www.transifex.com/django/django/language/nn/)\n""
""Language: nn\n""
""MIME-Version: 1.0\n""
""Content-Type: text/plain; charset=UTF-8\n""
""Content-Transfer-Encoding: 8bit\n""
""Plural-Forms: nplurals=2; plural=(n != 1);\n""

msgid ""%[1]d byte""
msgid_plural ""%[1]d bytes""
msgstr[0] ""%[1]d byte""
msgstr[1] ""%[1]d bytes""

msgid ""%[1]s billion""
msgid_plural ""%[1]s billion""
msgstr[0] ""%[1]s milliard""
msgstr[1] ""%[1]s milliardar""

msgid ""%[1]s decillion""
msgid_plural ""%[1]s decillion""
msgstr[0] ""%[1]s desillion""
msgstr[1] ""%[1]s desillionar""

msgid ""%[1]s googol""
msgid_plural ""%[1]s googol""
msgstr[0] ""%[1]s googol""
msgstr[1] ""%[1]s googolar""

msgid ""%[1]s million""
msgid_plural ""%[1]s million""
msgstr[0] ""%[1]s million""
msgstr[1] ""%[1]s millionar""

msgid ""%[1]s nonillion""
msgid_plural ""%[1]s nonillion""
msgstr[0] ""%[1]s nonillion""
msgstr[1] ""%[1]s nonillionar""

msgid ""%[1]s octillion""
msgid_plural ""%[1]s octillion""
msgstr[0] ""%[1]s oktillion""
msgstr[1] ""%[1]s oktillionar""

msgid ""%[1]s quadrillion""
msgid_plural ""%[1]s quadrillion""
msgstr[0] ""%[1]s kvadrillion""
msgstr[1] ""%[1]s kvadrillionar""

msgid ""%[1]s quintillion""
msgid_plural ""%[1]s quintillion""
msgstr[0] ""%[1]s kvintillion""
msgstr[1] ""%[1]s kvintillionar""

msgid ""%[1]s septillion""
msgid_plural ""%[1]s septillion""
msgstr[0] ""%[1]s septillion""
msgstr[1] ""%[1]s septillionar""

msgid ""%[1]s sextillion""
msgid_plural ""%[1]s sextillion""
msgstr[0] ""%[1]s sekstillion""
msgstr[1] ""%[1]s sekstillionar""

msgid ""%[1]s trillion""
msgid_plural ""%[1]s trillion""
msgstr[0] ""%[1]s billion""
msgstr[1] ""%[1]s billionar""

msgid ""%[1]v ago""
msgstr ""%[1]v sidan""

msgid ""%[1]v day""
msgid_plural ""%[1]v days""
msgstr[0] ""%[1]v dag""
msgstr[1] ""%[1]v dagar""

msgid ""%[1]v from now""
msgstr ""%[1]v frå no""

msgid ""%[1]v hour""
msgid_plural ""%[1]v hours""
msgstr[0] ""%[1]v time""
msgstr[1] ""%[1]v timar""

msgid ""%[1]v minute""
msgid_plural ""%[1]v minutes""
msgstr[0] ""%[1]v minutt""
msgstr[1] ""%[1]v minutt""

msgid ""%[1]v month""
msgid_plural ""%[1]v months""
msgstr[0] ""%[1]v månad""
msgstr[1] ""%[1]v månader""

msgid ""%[1]v week""
msgid_plural ""%[1]v weeks""
msgstr[0] ""%[1]v veke""
msgstr[1] ""%[1]v veker""

msgid ""%[1]v year""
msgid_plural ""%[1]v years""
msgstr[0] ""%[1]v år""
msgstr[1] ""%[1]v år""

msgid ""%s GB""
msgstr ""%s GB""

msgid ""%s KB""
msgstr ""%s KB""

msgid ""%s MB""
msgstr ""%s MB""

msgid ""%s PB""
msgstr ""%s PB""

msgid ""%s TB""
msgstr ""%s TB""

msgid "", ""
msgstr "", ""

msgid ""AM""
msgstr ""AM""

msgid ""Afrikaans""
msgstr ""Afrikaans""

msgid ""Albanian""
msgstr ""Albansk""

msgid ""Algerian Arabic""
msgstr ""Arabisk (algersk)""

msgid ""April""
msgstr ""april""

msgid ""Arabic""
msgstr ""Arabisk""

msgid ""Argentinian Spanish""
msgstr ""Spansk (argentinsk)""

msgid ""Armenian""
msgstr ""Armensk""

msgid ""Asturian""
msgstr ""Asturiansk""

msgid ""August""
msgstr ""august""

msgid ""Australian English""
msgstr ""Engelsk (australsk)""

msgid ""Azerbaijani""
msgstr ""Aserbajansk""

msgid ""Basque""
msgstr ""Baskisk""

msgid ""Belarusian""
msgstr ""Kviterussisk""

msgid ""Bengali""
msgstr ""Bengalsk""

msgid ""Bosnian""
msgstr ""Bosnisk""

msgid ""Brazilian Portuguese""
msgstr ""Brasiliansk portugisisk""

msgid ""Breton""
msgstr ""Bretonsk""

msgid ""British English""
msgstr ""Engelsk (britisk)""

msgid ""Bulgarian""
msgstr ""Bulgarsk""

msgid ""Burmese""
msgstr ""Burmesisk""

msgid ""Catalan""
msgstr ""Katalansk""

msgid ""Colombian Spanish""
msgstr ""Spansk (kolombiansk)""

msgid ""Croatian""
msgstr ""Kroatisk""

msgid ""Czech""
msgstr ""Tsjekkisk""

msgid ""Danish""
msgstr ""Dansk""

msgid ""December""
msgstr ""desember""

msgid ""Dutch""
msgstr ""Nederlandsk""

msgid ""English""
msgstr ""Engelsk""

msgid ""Esperanto""
msgstr ""Esperanto""

msgid ""Estonian""
msgstr ""Estisk""

msgid ""February""
msgstr ""februar""

msgid ""Finnish""
msgstr ""Finsk""

msgid ""French""
msgstr ""Fransk""

msgid ""Fri""
msgstr ""fre""

msgid ""Friday""
msgstr ""fredag""

msgid ""Frisian""
msgstr ""Frisisk""

msgid ""Galician""
msgstr ""Galisisk""

msgid ""Georgian""
msgstr ""Georgisk""

msgid ""German""
msgstr ""Tysk""

msgid ""Greek""
msgstr ""Gresk""

msgid ""Hebrew""
msgstr ""Hebraisk""

msgid ""Hindi""
msgstr ""Hindi""

msgid ""Hungarian""
msgstr ""Ungarsk""

msgid ""Icelandic""
msgstr ""Islandsk""

msgid ""Ido""
msgstr ""Ido""

msgid ""Igbo""
msgstr ""Igbo""

msgid ""Indonesian""
msgstr ""Indonesisk""

msgid ""Interlingua""
msgstr ""Interlingua""

msgid ""Irish""
msgstr ""Irsk""

msgid ""Italian""
msgstr ""Italiensk""

msgid ""January""
msgstr ""januar""

msgid ""Japanese""
msgstr ""Japansk""

msgid ""July""
msgstr ""juli""

msgid ""June""
msgstr ""juni""

msgid ""Kabyle""
msgstr ""Kabylsk""

msgid ""Kannada""
msgstr ""Kannada""

msgid ""Kazakh""
msgstr ""Kasakhisk""

msgid ""Khmer""
msgstr ""Khmer""

msgid ""Korean""
msgstr ""Koreansk""

msgid ""Kyrgyz""
msgstr ""Kirgisisk""

msgid ""Latvian""
msgstr ""Latvisk""

msgid ""Lithuanian""
msgstr ""Litauisk""

msgid ""Lower Sorbian""
msgstr ""Lågsorbisk""

msgid ""Luxembourgish""
msgstr ""Luxembourgsk""

msgid ""Macedonian""
msgstr ""Makedonsk""

msgid ""Malay""
msgstr ""Malayisk""

msgid ""Malayalam""
msgstr ""Malayalam""

msgid ""Marathi""
msgstr ""Marathi""

msgid ""March""
msgstr ""mars""

msgid ""May""
msgstr ""mai""

msgid ""Mexican Spanish""
msgstr ""Spansk (meksikansk)""

msgid ""Mon""
msgstr ""man""

msgid ""Monday""
msgstr ""måndag""

msgid ""Mongolian""
msgstr ""Mongolsk""

msgid ""Nepali""
msgstr ""Nepali""

msgid ""Nicaraguan Spanish""
msgstr ""Spansk (nicaraguansk)""

msgid ""Norwegian Bokmål""
msgstr ""Norsk (bokmål)""

msgid ""Norwegian Nynorsk""
msgstr ""Norsk (nynorsk)""

msgid ""November""
msgstr ""november""

msgid ""October""
msgstr ""oktober""

msgid ""Ossetic""
msgstr ""Ossetisk""

msgid ""PM""
msgstr ""PM""

msgid ""Persian""
msgstr ""Persisk""

msgid ""Polish""
msgstr ""Polsk""

msgid ""Portuguese""
msgstr ""Portugisisk""

msgid ""Punjabi""
msgstr ""Punjabi""

msgid ""Romanian""
msgstr ""Rumensk""

msgid ""Russian""
msgstr ""Russisk""

msgid ""Sat""
msgstr ""lau""

msgid ""Saturday""
msgstr ""laurdag""

msgid ""Scottish Gaelic""
msgstr ""Skotsk-gaelisk""

msgid ""September""
msgstr ""september""

msgid ""Serbian""
msgstr ""Serbisk""

msgid ""Serbian Latin""
msgstr ""Serbisk latin""

msgid ""Simplified Chinese""
msgstr ""Simplifisert kinesisk""

msgid ""Slovak""
msgstr ""Slovakisk""

msgid ""Slovenian""
msgstr ""Slovensk""

msgid ""Spanish""
msgstr ""Spansk""

msgid ""Sun""
msgstr ""søn""

msgid ""Sunday""
msgstr ""søndag""

msgid ""Swahili""
msgstr ""Swahili""

msgid ""Swedish""
msgstr ""Svensk""

msgid ""Tajik""
msgstr ""Tadsjikisk""

msgid ""Tamil""
msgstr ""Tamil""

msgid ""Tatar""
msgstr ""Tatarisk""

msgid ""Telugu""
msgstr ""Telugu""

msgid ""Thai""
msgstr ""Thai""

msgid ""Thu""
msgstr ""tor""

msgid ""Thursday""
msgstr ""torsdag""

msgid ""Traditional Chinese""
msgstr ""Tradisjonell kinesisk""

msgid ""Tue""
msgstr ""tys""

msgid ""Tuesday""
msgstr ""tysdag""

msgid ""Turkish""
msgstr ""Tyrkisk""

msgid ""Turkmen""
msgstr ""Turkmensk""

msgid ""Udmurt""
msgstr ""Udmurtisk""

msgid ""Ukrainian""
msgstr ""Ukrainsk""

msgid ""Upper Sorbian""
msgstr ""Høgsorbisk""

msgid ""Urdu""
msgstr ""Urdu""

msgid ""Uzbek""
msgstr ""Usbekisk""

msgid ""Venezuelan Spanish""
msgstr ""Spansk (venezuelansk)""

msgid ""Vietnamese""
msgstr ""Vietnamesisk""

msgid ""Wed""
msgstr ""ons""

msgid ""Wednesday""
msgstr ""onsdag""

msgid ""Welsh""
msgstr ""Walisisk""

msgid ""a minute ago""
msgid_plural ""%[1]v minutes ago""
msgstr[0] ""eitt minutt sidan""
msgstr[1] ""%[1]v minutt sidan""

msgid ""a minute from now""
msgid_plural ""%[1]v minutes from now""
msgstr[0] ""eitt minutt frå no""
msgstr[1] ""%[1]v minutt frå no""

msgid ""a second ago""
msgid_plural ""%[1]v seconds ago""
msgstr[0] ""eitt sekund sidan""
msgstr[1] ""%[1]v sekund sidan""

msgid ""a second from now""
msgid_plural ""%[1]v seconds from now""
msgstr[0] ""eitt sekund frå no""
msgstr[1] ""%[1]v sekund frå no""

msgid ""a.m.""
msgstr ""a.m.""

msgid ""an hour ago""
msgid_plural ""%[1]v hours ago""
msgstr[0] ""ein time sidan""
msgstr[1] ""%[1]v timar sidan""

msgid ""an hour from now""
msgid_plural ""%[1]v hours from now""
msgstr[0] ""ein time frå no""
msgstr[1] ""%[1]v timar frå no""

msgid ""apr""
msgstr ""april""

msgid ""aug""
msgstr ""aug""

msgid ""dec""
msgstr ""des""

msgid ""eight""
msgstr ""åtte""

msgid ""feb""
msgstr ""feb""

msgid ""five""
msgstr ""fem""

msgid ""four""
msgstr ""fire""

msgid ""jan""
msgstr ""jan""

msgid ""jul""
msgstr ""juli""

msgid ""jun""
msgstr ""juni""

msgid ""mar""
msgstr ""mars""

msgid ""may""
msgstr ""mai""

msgid ""midnight""
msgstr ""midnatt""

msgid ""nine""
msgstr ""ni""

msgid ""noon""
msgstr ""12:00""

msgid ""nov""
msgstr ""nov""

msgid ""now""
msgstr ""no""

msgid ""oct""
msgstr ""okt""

msgid ""one""
msgstr ""éin""

msgid ""p.m.""
msgstr ""p.m.""

msgid ""sep""
msgstr ""sep""

msgid ""seven""
msgstr ""sju""

msgid ""six""
msgstr ""seks""

msgid ""three""
msgstr ""tre""

msgid ""today""
msgstr ""i dag""

msgid ""tomorrow""
msgstr ""i morgon""

msgid ""two""
msgstr ""to""

msgid ""yesterday""
msgstr ""i går""

msgctxt ""abbrev. month""
msgid ""April""
msgstr ""april""

msgctxt ""abbrev. month""
msgid ""Aug.""
msgstr ""aug.""

msgctxt ""abbrev. month""
msgid ""Dec.""
msgstr ""des.""

msgctxt ""abbrev. month""
msgid ""Feb.""
msgstr ""feb.""

msgctxt ""abbrev. month""
msgid ""Jan.""
msgstr ""jan.""

msgctxt ""abbrev. month""
msgid ""July""
msgstr ""juli""

msgctxt ""abbrev. month""
msgid ""June""
msgstr ""juni""

msgctxt ""abbrev. month""
msgid ""March""
msgstr ""mars""

msgctxt ""abbrev. month""
msgid ""May""
msgstr ""mai""

msgctxt ""abbrev. month""
msgid ""Nov.""
msgstr ""nov.""

msgctxt ""abbrev. month""
msgid ""Oct.""
msgstr ""okt.""

msgctxt ""abbrev. month""
msgid ""Sept.""
msgstr ""sep.""

msgctxt ""alt. month""
msgid ""April""
msgstr ""April""

msgctxt ""alt. month""
msgid ""August""
msgstr ""August""

msgctxt ""alt. month""
msgid ""December""
msgstr ""Desember""

msgctxt ""alt. month""
msgid ""February""
msgstr ""Februar""

msgctxt ""alt. month""
msgid ""January""
msgstr ""Januar""

msgctxt ""alt. month""
msgid ""July""
msgstr ""Juli""

msgctxt ""alt. month""
msgid ""June""
msgstr ""Juni""

msgctxt ""alt. month""
msgid ""March""
msgstr ""Mars""

msgctxt ""alt. month""
msgid ""May""
msgstr ""Mai""

msgctxt ""alt. month""
msgid ""November""
msgstr ""November""

msgctxt ""alt. month""
msgid ""October""
msgstr ""Oktober""

msgctxt ""alt. month""
msgid ""September""
msgstr ""September""

msgctxt ""naturaltime-future""
msgid ""%[1]v day""
msgid_plural ""%[1]v days""
msgstr[0] ""%[1]v dag""
msgstr[1] ""%[1]v dagar""

msgctxt ""naturaltime-future""
msgid ""%[1]v hour""
msgid_plural ""%[1]v hours""
msgstr[0] ""%[1]v time""
msgstr[1] ""%[1]v timar""

msgctxt ""naturaltime-future""
msgid ""%[1]v minute""
msgid_plural ""%[1]v minutes""
msgstr[0] ""%[1]v minutt""
msgstr[1] ""%[1]v minutt""

msgctxt ""naturaltime-future""
msgid ""%[1]v month""
msgid_plural ""%[1]v months""
msgstr[0] ""%[1]v månad""
msgstr[1] ""%[1]v månader""

msgctxt ""naturaltime-future""
msgid ""%[1]v week""
msgid_plural ""%[1]v weeks""
msgstr[0] ""%[1]v veke""
msgstr[1] ""%[1]v veker""

msgctxt ""naturaltime-future""
msgid ""%[1]v year""
msgid_plural ""%[1]v years""
msgstr[0] ""%[1]v år""
msgstr[1] ""%[1]v år""

msgctxt ""naturaltime-past""
msgid ""%[1]v day""
msgid_plural ""%[1]v days""
msgstr[0] ""%[1]v dag""
msgstr[1] ""%[1]v dagar""

msgctxt ""naturaltime-past""
msgid ""%[1]v hour""
msgid_plural ""%[1]v hours""
msgstr[0] ""%[1]v time""
msgstr[1] ""%[1]v timar""

msgctxt ""naturaltime-past""
msgid ""%[1]v minute""
msgid_plural ""%[1]v minutes""
msgstr[0] ""%[1]v minutt""
msgstr[1] ""%[1]v minutt""

msgctxt ""naturaltime-past""
msgid ""%[1]v month""
msgid_plural ""%[1]v months""
msgstr[0] ""%[1]v månad""
msgstr[1] ""%[1]v månader""

msgctxt ""naturaltime-past""
msgid ""%[1]v week""
msgid_plural ""%[1]v weeks""
msgstr[0] ""%[1]v veke""
msgstr[1] ""%[1]v veker""

msgctxt ""naturaltime-past""
msgid ""%[1]v year""
msgid_plural ""%[1]v years""
msgstr[0] ""%[1]v år""
msgstr[1] ""%[1]v år""

msgctxt ""ordinal 0""
msgid ""%vth""
msgstr ""%v.""

msgctxt ""ordinal 1""
msgid ""%vst""
msgstr ""%v.""

msgctxt ""ordinal 11, 12, 13""
msgid ""%vth""
msgstr ""%v.""

msgctxt ""ordinal 2""
msgid ""%vnd""
msgstr ""%v.""

msgctxt ""ordinal 3""
msgid ""%vrd""
msgstr ""%v.""

msgctxt ""ordinal 4""
msgid ""%vth""
msgstr ""%v.""

msgctxt ""ordinal 5""
msgid ""%vth""
msgstr ""%v.""

msgctxt ""ordinal 6""
msgid ""%vth""
msgstr ""%v.""

msgctxt ""ordinal 7""
msgid ""%vth""
msgstr ""%v.""

msgctxt ""ordinal 8""
msgid ""%vth""
msgstr ""%v.""

msgctxt ""ordinal 9""
msgid ""%vth""
msgstr ""%v.""
".
(** humanize/locale/nn/locale.go (New) *)
Definition loc_nn : locale_data := LD (bs "nn") [(bs "django.po", po_nn)]
  (Some (FD (bs "j. F Y") (bs "H:i") (bs "j. F Y H:i") (bs "F Y") (bs "j. F") (bs "d.m.Y") (bs "d.m.Y H:i"))).

(** humanize/locale/os/django.po *)
Definition po_os : bytes := bs "# This file is distributed under the same license as the Django package.
# 
# Translators:
# Soslan Khubulov <inactive+soslan@transifex.com>, 2013
# Soslan Khubulov <inactive+soslan@transifex.com>, 2013
msgid """"
msgstr """"
""Project-Id-Version: django\n""
""Report-Msgid-Bugs-To: \n""
""POT-Creation-Date: 2019-09-27 22:40+0200\n""
""PO-Revision-Date: 2019-11-05 00:38+0000\n""
""Last-Translator: Ramiro Morales\n""
""Language-Team: Ossetic (http://www.transifex.com/django/django/language/os/)\n""
""Language: os\n""
""MIME-Version: 1.0\n""
""Content-Type: text/plain; charset=UTF-8\n""
""Content-Transfer-Encoding: 8bit\n""
""Plural-Forms: nplurals=2; plural=(n != 1);\n""

msgid ""%[1]d byte""
msgid_plural ""%[1]d bytes""
msgstr[0] ""%[1]d байт""
msgstr[1] ""%[1]d байты""

msgid ""%[1]s billion""
msgid_plural ""%[1]s billion""
msgstr[0] ""%[1]s биллион""
msgstr[1] ""%[1]s биллион""

msgid ""%[1]s decillion""
msgid_plural ""%[1]s decillion""
msgstr[0] ""%[1]s дециллион""
msgstr[1] ""%[1]s дециллион""

msgid ""%[1]s googol""
msgid_plural ""%[1]s googol""
msgstr[0] ""%[1]s гугол""
msgstr[1] ""%[1]s гугол""

msgid ""%[1]s million""
msgid_plural ""%[1]s million""
msgstr[0] ""%[1]s милуан""
msgstr[1] ""%[1]s милуан""

msgid ""%[1]s nonillion""
msgid_plural ""%[1]s nonillion""
msgstr[0] ""%[1]s нониллион""
msgstr[1] ""%[1]s нониллион""

msgid ""%[1]s octillion""
msgid_plural ""%[1]s octillion""
msgstr[0] ""%[1]s октиллион""
msgstr[1] ""%[1]s октиллион""

msgid ""%[1]s quadrillion""
msgid_plural ""%[1]s quadrillion""
msgstr[0] ""%[1]s къуадриллион""
msgstr[1] ""%[1]s къуадриллион""

msgid ""%[1]s quintillion""
msgid_plural ""%[1]s quintillion""
msgstr[0] ""%[1]s къуинтиллион""
msgstr[1] ""%[1]s къуинтиллион""

msgid ""%[1]s septillion""
msgid_plural ""%[1]s septillion""
msgstr[0] ""%[1]s септиллион""
msgstr[1] ""%[1]s септиллион""

msgid ""%[1]s sextillion""
msgid_plural ""%[1]s sextillion""
msgstr[0] ""%[1]s секстиллион""
msgstr[1] ""%[1]s секстиллион""

msgid ""%[1]s trillion""
msgid_plural ""%[1]s trillion""
msgstr[0] ""%[1]s триллион""
msgstr[1] ""%[1]s триллион""

msgid ""%s GB""
msgstr ""%s ГБ""

msgid ""%s KB""
msgstr ""%s КБ""

msgid ""%s MB""
msgstr ""%s МБ""

msgid ""%s PB""
msgstr ""%s ПБ""

msgid ""%s TB""
msgstr ""%s ТБ""

msgid "", ""
msgstr "", ""

msgid ""AM""
msgstr ""ӔР""

msgid ""Afrikaans""
msgstr ""Африкаанс""

msgid ""Albanian""
msgstr ""Албайнаг""

msgid ""April""
msgstr ""Апрель""

msgid ""Arabic""
msgstr ""Араббаг""

msgid ""Argentinian Spanish""
msgstr ""Аргентинаг испайнаг""

msgid ""Armenian""
msgstr """"

msgid ""Asturian""
msgstr """"

msgid ""August""
msgstr ""Август""

msgid ""Australian English""
msgstr """"

msgid ""Azerbaijani""
msgstr ""Тӕтӕйраг""

msgid ""Basque""
msgstr ""Баскаг""

msgid ""Belarusian""
msgstr ""Беларусаг""

msgid ""Bengali""
msgstr ""Бенгалаг""

msgid ""Bosnian""
msgstr ""Босниаг""

msgid ""Brazilian Portuguese""
msgstr ""Бразилаг португалаг""

msgid ""Breton""
msgstr ""Бретойнаг""

msgid ""British English""
msgstr ""Бритайнаг англисаг""

msgid ""Bulgarian""
msgstr ""Болгайраг""

msgid ""Burmese""
msgstr ""Бурмизаг""

msgid ""Catalan""
msgstr ""Каталайнаг""

msgid ""Colombian Spanish""
msgstr """"

msgid ""Croatian""
msgstr ""Хорватаг""

msgid ""Czech""
msgstr ""Чехаг""

msgid ""Danish""
msgstr ""Даниаг""

msgid ""December""
msgstr ""Декабрь""

msgid ""Dutch""
msgstr ""Нидерландаг""

msgid ""English""
msgstr ""Англисаг""

msgid ""Esperanto""
msgstr ""Есперанто""

msgid ""Estonian""
msgstr ""Эстойнаг""

msgid ""February""
msgstr ""Февраль""

msgid ""Finnish""
msgstr ""Финнаг""

msgid ""French""
msgstr ""Францаг""

msgid ""Fri""
msgstr ""Мрб""

msgid ""Friday""
msgstr ""Майрӕмбон""

msgid ""Frisian""
msgstr ""Фризаг""

msgid ""Galician""
msgstr ""Галициаг""

msgid ""Georgian""
msgstr ""Гуырдзиаг""

msgid ""German""
msgstr ""Немыцаг""

msgid ""Greek""
msgstr ""Грекъаг""

msgid ""Hebrew""
msgstr ""Иврит""

msgid ""Hindi""
msgstr ""Хинди""

msgid ""Hungarian""
msgstr ""Венгриаг""

msgid ""Icelandic""
msgstr ""Исландаг""

msgid ""Ido""
msgstr """"

msgid ""Indonesian""
msgstr ""Индонезиаг""

msgid ""Interlingua""
msgstr ""Интерлингва""

msgid ""Irish""
msgstr ""Ирландиаг""

msgid ""Italian""
msgstr ""Италиаг""

msgid ""January""
msgstr ""Январь""

msgid ""Japanese""
msgstr ""Япойнаг""

msgid ""July""
msgstr ""Июль""

msgid ""June""
msgstr ""Июнь""

msgid ""Kabyle""
msgstr """"

msgid ""Kannada""
msgstr ""Каннадаг""

msgid ""Kazakh""
msgstr ""Казахаг""

msgid ""Khmer""
msgstr ""Хмераг""

msgid ""Korean""
msgstr ""Корейаг""

msgid ""Latvian""
msgstr ""Латвийаг""

msgid ""Lithuanian""
msgstr ""Литвайаг""

msgid ""Lower Sorbian""
msgstr """"

msgid ""Luxembourgish""
msgstr ""Люксембургаг""

msgid ""Macedonian""
msgstr ""Мӕчъидон""

msgid ""Malayalam""
msgstr ""Малайаг""

msgid ""Marathi""
msgstr """"

msgid ""March""
msgstr ""Мартъи""

msgid ""May""
msgstr ""Май""

msgid ""Mexican Spanish""
msgstr ""Мексикайнаг Испайнаг""

msgid ""Mon""
msgstr ""Крс""

msgid ""Monday""
msgstr ""Къуырисӕр""

msgid ""Mongolian""
msgstr ""Монголиаг""

msgid ""Nepali""
msgstr ""Непалаг""

msgid ""Nicaraguan Spanish""
msgstr ""Никарагуайаг испайнаг""

msgid ""Norwegian Bokmål""
msgstr """"

msgid ""Norwegian Nynorsk""
msgstr ""Норвегийаг Нинорск""

msgid ""November""
msgstr ""Ноябрь""

msgid ""October""
msgstr ""Октябрь""

msgid ""Ossetic""
msgstr ""Ирон""

msgid ""PM""
msgstr ""ӔФ""

msgid ""Persian""
msgstr ""Персайнаг""

msgid ""Polish""
msgstr ""Полаг""

msgid ""Portuguese""
msgstr ""Португалаг""

msgid ""Punjabi""
msgstr ""Пенджабаг""

msgid ""Romanian""
msgstr ""Румынаг""

msgid ""Russian""
msgstr ""Уырыссаг""

msgid ""Sat""
msgstr ""Сбт""

msgid ""Saturday""
msgstr ""Сабат""

msgid ""Scottish Gaelic""
msgstr """"

msgid ""September""
msgstr ""Сентябрь""

msgid ""Serbian""
msgstr ""Сербаг""

msgid ""Serbian Latin""
msgstr ""Латинаг Сербаг""

msgid ""Simplified Chinese""
msgstr ""Ӕнцонгонд Китайаг""

msgid ""Slovak""
msgstr ""Словакиаг""

msgid ""Slovenian""
msgstr ""Словенаг""

msgid ""Spanish""
msgstr ""Испайнаг""

msgid ""Sun""
msgstr ""Хцб""

msgid ""Sunday""
msgstr ""Хуыцаубон""

msgid ""Swahili""
msgstr ""Суахили""

msgid ""Swedish""
msgstr ""Шведаг""

msgid ""Tamil""
msgstr ""Тамилаг""

msgid ""Tatar""
msgstr ""Тӕтӕйраг""

msgid ""Telugu""
msgstr ""Телугу""

msgid ""Thai""
msgstr ""Тайаг""

msgid ""Thu""
msgstr ""Цпр""

msgid ""Thursday""
msgstr ""Цыппӕрӕм""

msgid ""Traditional Chinese""
msgstr ""Традицион Китайаг""

msgid ""Tue""
msgstr ""Дцг""

msgid ""Tuesday""
msgstr ""Дыццӕг""

msgid ""Turkish""
msgstr ""Туркаг""

msgid ""Udmurt""
msgstr ""Удмуртаг""

msgid ""Ukrainian""
msgstr ""Украинаг""

msgid ""Upper Sorbian""
msgstr """"

msgid ""Urdu""
msgstr ""Урду""

msgid ""Uzbek""
msgstr """"

msgid ""Venezuelan Spanish""
msgstr ""Венесуелаг испайнаг""

msgid ""Vietnamese""
msgstr ""Вьетнамаг""

msgid ""Wed""
msgstr ""Ӕрт""

msgid ""Wednesday""
msgstr ""Ӕртыццӕг""

msgid ""Welsh""
msgstr ""Уельсаг""

msgid ""a minute ago""
msgid_plural ""%[1]v minutes ago""
msgstr[0] """"
msgstr[1] """"

msgid ""a minute from now""
msgid_plural ""%[1]v minutes from now""
msgstr[0] """"
msgstr[1] """"

msgid ""a second ago""
msgid_plural ""%[1]v seconds ago""
msgstr[0] """"
msgstr[1] """"

msgid ""a second from now""
msgid_plural ""%[1]v seconds from now""
msgstr[0] """"
msgstr[1] """"

msgid ""a.m.""
msgstr ""ӕ.р.""

msgid ""an hour ago""
msgid_plural ""%[1]v hours ago""
msgstr[0] """"
msgstr[1] """"

msgid ""an hour from now""
msgid_plural ""%[1]v hours from now""
msgstr[0] """"
msgstr[1] """"

msgid ""apr""
msgstr ""апр""

msgid ""aug""
msgstr ""авг""

msgid ""dec""
msgstr ""дек""

msgid ""eight""
msgstr ""аст""

msgid ""feb""
msgstr ""фев""

msgid ""five""
msgstr ""фондз""

msgid ""four""
msgstr ""цыппар""

msgid ""jan""
msgstr ""янв""

msgid ""jul""
msgstr ""июл""

msgid ""jun""
msgstr ""июн""

msgid ""mar""
msgstr ""мар""

msgid ""may""
msgstr ""май""

msgid ""midnight""
msgstr ""ӕмбисӕхсӕв""

msgid ""nine""
msgstr ""фараст""

msgid ""noon""
msgstr ""ӕмбисбон""

msgid ""nov""
msgstr ""ноя""

msgid ""now""
msgstr ""ныр""

msgid ""oct""
msgstr ""окт""

msgid ""one""
msgstr ""иу""

msgid ""p.m.""
msgstr ""ӕ.ф.""

msgid ""sep""
msgstr ""сен""

msgid ""seven""
msgstr ""авд""

msgid ""six""
msgstr ""ӕхсӕз""

msgid ""three""
msgstr ""ӕртӕ""

msgid ""today""
msgstr ""абон""

msgid ""tomorrow""
msgstr ""сом""

msgid ""two""
msgstr ""дыууӕ""

msgid ""yesterday""
msgstr ""знон""

msgctxt ""abbrev. month""
msgid ""April""
msgstr ""Апрель""

msgctxt ""abbrev. month""
msgid ""Aug.""
msgstr ""Авг.""

msgctxt ""abbrev. month""
msgid ""Dec.""
msgstr ""Дек.""

msgctxt ""abbrev. month""
msgid ""Feb.""
msgstr ""Фев.""

msgctxt ""abbrev. month""
msgid ""Jan.""
msgstr ""Янв.""

msgctxt ""abbrev. month""
msgid ""July""
msgstr ""Июль""

msgctxt ""abbrev. month""
msgid ""June""
msgstr ""Июнь""

msgctxt ""abbrev. month""
msgid ""March""
msgstr ""Мартъи""

msgctxt ""abbrev. month""
msgid ""May""
msgstr ""Май""

msgctxt ""abbrev. month""
msgid ""Nov.""
msgstr ""Ноя.""

msgctxt ""abbrev. month""
msgid ""Oct.""
msgstr ""Окт.""

msgctxt ""abbrev. month""
msgid ""Sept.""
msgstr ""Сен.""

msgctxt ""alt. month""
msgid ""April""
msgstr ""Апрель""

msgctxt ""alt. month""
msgid ""August""
msgstr ""Август""

msgctxt ""alt. month""
msgid ""December""
msgstr ""Декабрь""

msgctxt ""alt. month""
msgid ""February""
msgstr ""Февраль""

msgctxt ""alt. month""
msgid ""January""
msgstr ""Январь""

msgctxt ""alt. month""
msgid ""July""
msgstr ""Июль""

msgctxt ""alt. month""
msgid ""June""
msgstr ""Июнь""

msgctxt ""alt. month""
msgid ""March""
msgstr ""Мартъи""

msgctxt ""alt. month""
msgid ""May""
msgstr ""Май""

msgctxt ""alt. month""
msgid ""November""
msgstr ""Ноябрь""

msgctxt ""alt. month""
msgid ""October""
msgstr ""Октябрь""

msgctxt ""alt. month""
msgid ""September""
msgstr ""Сентябрь""
".
(** humanize/locale/os/locale.go (New) *)
Definition loc_os : locale_data := LD (bs "os") [(bs "django.po", po_os)]
  (None).

(** humanize/locale/pa/django.po *)
Definition po_pa : bytes := bs "# This file is distributed under the same license as the Django package.
# 
# Translators:
# A S Alam <alam.yellow@gmail.com>, 2011,2013,2015
# Jannis Leidel <jannis@leidel.info>, 2011
msgid """"
msgstr """"
""Project-Id-Version: django\n""
""Report-Msgid-Bugs-To: \n""
""POT-Creation-Date: 2019-09-27 22:40+0200\n""
""PO-Revision-Date: 2019-11-05 00:38+0000\n""
""Last-Translator: Ramiro Morales\n""
""Language-Team: Panjabi (Punjabi) (http://www.transifex.com/django/django/language/pa/)\n""
""Language: pa\n""
""MIME-Version: 1.0\n""
""Content-Type: text/plain; charset=UTF-8\n""
""Content-Transfer-Encoding: 8bit\n""
""Plural-Forms: nplurals=2; plural=(n != 1);\n""

msgid ""%[1]d byte""
msgid_plural ""%[1]d bytes""
msgstr[0] ""%[1]d ਬਾਈਟ""
msgstr[1] ""%[1]d ਬਾਈਟ""

msgid ""%[1]s billion""
msgid_plural ""%[1]s billion""
msgstr[0] """"
msgstr[1] """"

msgid ""%[1]s decillion""
msgid_plural ""%[1]s decillion""
msgstr[0] """"
msgstr[1] """"

msgid ""%[1]s googol""
msgid_plural ""%[1]s googol""
msgstr[0] """"
msgstr[1] """"

msgid ""%[1]s million""
msgid_plural ""%[1]s million""
msgstr[0] ""%[1]s ਮਿਲੀਅਨ""
msgstr[1] ""%[1]s ਮਿਲੀਅਨ""

msgid ""%[1]s nonillion""
msgid_plural ""%[1]s nonillion""
msgstr[0] """"
msgstr[1] """"

msgid ""%[1]s octillion""
msgid_plural ""%[1]s octillion""
msgstr[0] """"
msgstr[1] """"

msgid ""%[1]s quadrillion""
msgid_plural ""%[1]s quadrillion""
msgstr[0] """"
msgstr[1] """"

msgid ""%[1]s quintillion""
msgid_plural ""%[1]s quintillion""
msgstr[0] """"
msgstr[1] """"

msgid ""%[1]s septillion""
msgid_plural ""%[1]s septillion""
msgstr[0] """"
msgstr[1] """"

msgid ""%[1]s sextillion""
msgid_plural ""%[1]s sextillion""
msgstr[0] """"
msgstr[1] """"

msgid ""%[1]s trillion""
msgid_plural ""%[1]s trillion""
msgstr[0] """"
msgstr[1] """"

msgid ""%s GB""
msgstr ""%s GB""

msgid ""%s KB""
msgstr ""%s KB""

msgid ""%s MB""
msgstr ""%s MB""

msgid ""%s PB""
msgstr ""%s PB""

msgid ""%s TB""
msgstr ""%s TB""

msgid "", ""
msgstr "",""

msgid ""AM""
msgstr ""ਸਵੇਰ""

msgid ""Afrikaans""
msgstr ""ਅਫਰੀਕੀ""

msgid ""Albanian""
msgstr ""ਅਲਬੀਨੀਆਈ""

msgid ""April""
msgstr ""ਅਪਰੈਲ""

msgid ""Arabic""
msgstr ""ਅਰਬੀ""

msgid ""Argentinian Spanish""
msgstr ""ਅਰਜਨਟੀਨੀ ਸਪੇਨੀ""

msgid ""Armenian""
msgstr """"

msgid ""Asturian""
msgstr """"

msgid ""August""
msgstr ""ਅਗਸਤ""

msgid ""Australian English""
msgstr """"

msgid ""Azerbaijani""
msgstr ""ਅਜ਼ਰਬਾਈਜਾਨੀ""

msgid ""Basque""
msgstr ""ਬਸਕਿਊ""

msgid ""Belarusian""
msgstr ""ਬੇਲਾਰੂਸੀ""

msgid ""Bengali""
msgstr ""ਬੰਗਾਲੀ""

msgid ""Bosnian""
msgstr ""ਬੋਸਨੀਆਈ""

msgid ""Brazilian Portuguese""
msgstr ""ਬਰਾਜ਼ੀਲੀ ਪੁਰਤਗਾਲੀ""

msgid ""Breton""
msgstr ""ਬਰੇਟੋਨ""

msgid ""British English""
msgstr ""ਬਰਤਾਨੀਵੀਂ ਅੰਗਰੇਜ਼ੀ""

msgid ""Bulgarian""
msgstr ""ਬੁਲਗਾਰੀਆਈ""

msgid ""Burmese""
msgstr """"

msgid ""Catalan""
msgstr ""ਕਾਟਾਲਾਨ""

msgid ""Colombian Spanish""
msgstr """"

msgid ""Croatian""
msgstr ""ਕਰੋਆਟੀਆਈ""

msgid ""Czech""
msgstr ""ਚੈੱਕ""

msgid ""Danish""
msgstr ""ਡੈਨਿਸ਼""

msgid ""December""
msgstr ""ਦਸੰਬਰ""

msgid ""Dutch""
msgstr ""ਡੱਚ""

msgid ""English""
msgstr ""ਅੰਗਰੇਜ਼ੀ""

msgid ""Esperanto""
msgstr """"

msgid ""Estonian""
msgstr ""ਈਸਟੋਨੀਆਈ""

msgid ""February""
msgstr ""ਫਰਵਰੀ""

msgid ""Finnish""
msgstr ""ਫੈਨਿਸ਼""

msgid ""French""
msgstr ""ਫਰੈਂਚ""

msgid ""Fri""
msgstr ""ਸ਼ੁੱਕ""

msgid ""Friday""
msgstr ""ਸ਼ੁੱਕਰਵਾਰ""

msgid ""Frisian""
msgstr ""ਫ਼ਾਰਸੀ""

msgid ""Galician""
msgstr ""ਗਲੀਸੀਆਈ""

msgid ""Georgian""
msgstr ""ਜਾਰਜੀਆਈ""

msgid ""German""
msgstr ""ਜਰਮਨ""

msgid ""Greek""
msgstr ""ਗਰੀਕ""

msgid ""Hebrew""
msgstr ""ਹੈਬਰਿਊ""

msgid ""Hindi""
msgstr ""ਹਿੰਦੀ""

msgid ""Hungarian""
msgstr ""ਹੰਗਰੀਆਈ""

msgid ""Icelandic""
msgstr ""ਆਈਸਲੈਂਡਿਕ""

msgid ""Ido""
msgstr """"

msgid ""Indonesian""
msgstr ""ਇੰਡੋਨੇਸ਼ੀਆਈ""

msgid ""Interlingua""
msgstr """"

msgid ""Irish""
msgstr ""ਆਈਰਸ਼""

msgid ""Italian""
msgstr ""ਇਤਾਲਵੀ""

msgid ""January""
msgstr ""ਜਨਵਰੀ""

msgid ""Japanese""
msgstr ""ਜਾਪਾਨੀ""

msgid ""July""
msgstr ""ਜੁਲਾਈ""

msgid ""June""
msgstr ""ਜੂਨ""

msgid ""Kabyle""
msgstr """"

msgid ""Kannada""
msgstr ""ਕੰਨੜ""

msgid ""Kazakh""
msgstr ""ਕਜ਼ਾਖ""

msgid ""Khmer""
msgstr ""ਖਮੀਰ""

msgid ""Korean""
msgstr ""ਕੋਰੀਆਈ""

msgid ""Latvian""
msgstr ""ਲਾਟਵੀਅਨ""

msgid ""Lithuanian""
msgstr ""ਲੀਥੁਨੀਆਈ""

msgid ""Lower Sorbian""
msgstr """"

msgid ""Luxembourgish""
msgstr """"

msgid ""Macedonian""
msgstr ""ਮੈਕਡੋਨੀਆਈ""

msgid ""Malayalam""
msgstr ""ਮਲਿਆਲਮ""

msgid ""Marathi""
msgstr ""ਮਰਾਠੀ""

msgid ""March""
msgstr ""ਮਾਰਚ""

msgid ""May""
msgstr ""ਮਈ""

msgid ""Mexican Spanish""
msgstr ""ਮੈਕਸੀਕਨ ਸਪੇਨੀ""

msgid ""Mon""
msgstr ""ਸੋਮ""

msgid ""Monday""
msgstr ""ਸੋਮਵਾਰ""

msgid ""Mongolian""
msgstr ""ਮੰਗੋਲੀਆਈ""

msgid ""Nepali""
msgstr ""ਨੇਪਾਲੀ""

msgid ""Nicaraguan Spanish""
msgstr """"

msgid ""Norwegian Bokmål""
msgstr """"

msgid ""Norwegian Nynorsk""
msgstr ""ਨਾਰਵੇਗੀਅਨ ਨਯਨੋਰਸਕ""

msgid ""November""
msgstr ""ਨਵੰਬਰ""

msgid ""October""
msgstr ""ਅਕਤੂਬਰ""

msgid ""Ossetic""
msgstr """"

msgid ""PM""
msgstr ""ਸ਼ਾਮ""

msgid ""Persian""
msgstr ""ਪਰਸ਼ੀਆਈ""

msgid ""Polish""
msgstr ""ਪੋਲੈਂਡੀ""

msgid ""Portuguese""
msgstr ""ਪੁਰਤਗਾਲੀ""

msgid ""Punjabi""
msgstr ""ਪੰਜਾਬੀ""

msgid ""Romanian""
msgstr ""ਰੋਮਾਨੀਆਈ""

msgid ""Russian""
msgstr ""ਰੂਸੀ""

msgid ""Sat""
msgstr ""ਸ਼ਨਿੱ""

msgid ""Saturday""
msgstr ""ਸ਼ਨਿੱਚਰਵਾਰ""

msgid ""Scottish Gaelic""
msgstr """"

msgid ""September""
msgstr ""ਸਤੰਬਰ""

msgid ""Serbian""
msgstr ""ਸਰਬੀਆਈ""

msgid ""Serbian Latin""
msgstr ""ਸਰਬੀਆਈ ਲੈਟਿਨ""

msgid ""Simplified Chinese""
msgstr ""ਸਧਾਰਨ ਚੀਨੀ""

msgid ""Slovak""
msgstr ""ਸਲੋਵਾਕ""

msgid ""Slovenian""
msgstr ""ਸਲੋਵੀਨੀਆਈ""

msgid ""Spanish""
msgstr ""ਸਪੇਨੀ""

msgid ""Sun""
msgstr ""ਐਤ""

msgid ""Sunday""
msgstr ""ਐਤਵਾਰ""

msgid ""Swahili""
msgstr """"

msgid ""Swedish""
msgstr ""ਸਵੀਡਨੀ""

msgid ""Tamil""
msgstr ""ਤਾਮਿਲ""

msgid ""Tatar""
msgstr ""ਤਤਾਰ""

msgid ""Telugu""
msgstr ""ਤੇਲਗੂ""

msgid ""Thai""
msgstr ""ਥਾਈ""

msgid ""Thu""
msgstr ""ਵੀਰ""

msgid ""Thursday""
msgstr ""ਵੀਰਵਾਰ""

msgid ""Traditional Chinese""
msgstr ""ਮੂਲ ਚੀਨੀ""

msgid ""Tue""
msgstr ""ਮੰਗ""

msgid ""Tuesday""
msgstr ""ਮੰਗਲਵਾਰ""

msgid ""Turkish""
msgstr ""ਤੁਰਕ""

msgid ""Udmurt""
msgstr """"

msgid ""Ukrainian""
msgstr ""ਯੂਕਰੇਨੀ""

msgid ""Upper Sorbian""
msgstr """"

msgid ""Urdu""
msgstr ""ਉਰਦੂ""

msgid ""Uzbek""
msgstr """"

msgid ""Venezuelan Spanish""
msgstr """"

msgid ""Vietnamese""
msgstr ""ਵੀਅਤਨਾਮੀ""

msgid ""Wed""
msgstr ""ਬੁੱਧ""

msgid ""Wednesday""
msgstr ""ਬੁੱਧਵਾਰ""

msgid ""Welsh""
msgstr ""ਵੈਲਸ਼""

msgid ""a minute ago""
msgid_plural ""%[1]v minutes ago""
msgstr[0] """"
msgstr[1] """"

msgid ""a minute from now""
msgid_plural ""%[1]v minutes from now""
msgstr[0] """"
msgstr[1] """"

msgid ""a second ago""
msgid_plural ""%[1]v seconds ago""
msgstr[0] """"
msgstr[1] """"

msgid ""a second from now""
msgid_plural ""%[1]v seconds from now""
msgstr[0] """"
msgstr[1] """"

msgid ""a.m.""
msgstr ""a.m.""

msgid ""an hour ago""
msgid_plural ""%[1]v hours ago""
msgstr[0] """"
msgstr[1] """"

msgid ""an hour from now""
msgid_plural ""%[1]v hours from now""
msgstr[0] """"
msgstr[1] """"

msgid ""apr""
msgstr ""ਅਪ""

msgid ""aug""
msgstr ""ਅਗ""

msgid ""dec""
msgstr ""ਦਸੰ""

msgid ""eight""
msgstr ""ਅੱਠ""

msgid ""feb""
msgstr ""ਫਰ""

msgid ""five""
msgstr ""ਪੰਜ""

msgid ""four""
msgstr ""ਚਾਰ""

msgid ""jan""
msgstr ""ਜਨ""

msgid ""jul""
msgstr ""ਜੁਲ""

msgid ""jun""
msgstr ""ਜੂਨ""

msgid ""mar""
msgstr ""ਮਾਰ""

msgid ""may""
msgstr ""ਮਈ""

msgid ""midnight""
msgstr ""ਅੱਧੀ-ਰਾਤ""

msgid ""nine""
msgstr ""ਨੌ""

msgid ""noon""
msgstr ""ਨੂਨ""

msgid ""nov""
msgstr ""ਨਵੰ""

msgid ""now""
msgstr ""ਹੁਣ""

msgid ""oct""
msgstr ""ਅਕ""

msgid ""one""
msgstr ""ਇੱਕ""

msgid ""p.m.""
msgstr ""p.m.""

msgid ""sep""
msgstr ""ਸਤੰ""

msgid ""seven""
msgstr ""ਸੱਤ""

msgid ""six""
msgstr ""ਛੇ""

msgid ""three""
msgstr ""ਤਿੰਨ""

msgid ""today""
msgstr ""ਅੱਜ""

msgid ""tomorrow""
msgstr ""ਭਲਕੇ""

msgid ""two""
msgstr ""ਦੋ""

msgid ""yesterday""
msgstr ""ਕੱਲ੍ਹ""

msgctxt ""abbrev. month""
msgid ""April""
msgstr ""ਅਪ""

msgctxt ""abbrev. month""
msgid ""Aug.""
msgstr ""ਅਗ""

msgctxt ""abbrev. month""
msgid ""Dec.""
msgstr ""ਦਸੰ""

msgctxt ""abbrev. month""
msgid ""Feb.""
msgstr ""ਫਰ""

msgctxt ""abbrev. month""
msgid ""Jan.""
msgstr ""ਜਨ""

msgctxt ""abbrev. month""
msgid ""July""
msgstr ""ਜੁਲ""

msgctxt ""abbrev. month""
msgid ""June""
msgstr ""ਜੂਨ""

msgctxt ""abbrev. month""
msgid ""March""
msgstr ""ਮਾਰ""

msgctxt ""abbrev. month""
msgid ""May""
msgstr ""ਮਈ""

msgctxt ""abbrev. month""
msgid ""Nov.""
msgstr ""ਨਵੰ""

msgctxt ""abbrev. month""
msgid ""Oct.""
msgstr ""ਅਕਤੂ""

msgctxt ""abbrev. month""
msgid ""Sept.""
msgstr ""ਸਤੰ""

msgctxt ""alt. month""
msgid ""April""
msgstr ""ਅਪਰੈਲ""

msgctxt ""alt. month""
msgid ""August""
msgstr ""ਅਗਸਤ""

msgctxt ""alt. month""
msgid ""December""
msgstr ""ਦਸੰਬਰ""

msgctxt ""alt. month""
msgid ""February""
msgstr ""ਫਰਵਰੀ""

msgctxt ""alt. month""
msgid ""January""
msgstr ""ਜਨਵਰੀ""

msgctxt ""alt. month""
msgid ""July""
msgstr ""ਜੁਲਾਈ""

msgctxt ""alt. month""
msgid ""June""
msgstr ""ਜੂਨ""

msgctxt ""alt. month""
msgid ""March""
msgstr ""ਮਾਰਚ""

msgctxt ""alt. month""
msgid ""May""
msgstr ""ਮਈ""

msgctxt ""alt. month""
msgid ""November""
msgstr ""ਨਵੰਬਰ""

msgctxt ""alt. month""
msgid ""October""
msgstr ""ਅਕਤੂਬਰ""

msgctxt ""alt. month""
msgid ""September""
msgstr ""ਸਤੰਬਰ""
".
(** humanize/locale/pa/locale.go (New) *)
Definition loc_pa : locale_data := LD (bs "pa") [(bs "django.po", po_pa)]
  (None).

Definition shipped_7 : list (bytes * locale_data) :=
  [(bs "mn", loc_mn);
   (bs "mr", loc_mr);
   (bs "ms", loc_ms);
   (bs "my", loc_my);
   (bs "nb", loc_nb);
   (bs "ne", loc_ne);
   (bs "nl", loc_nl);
   (bs "nn", loc_nn);
   (bs "os", loc_os);
   (bs "pa", loc_pa)].
