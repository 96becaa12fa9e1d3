#!/usr/bin/env python3
"""Writes rocq/theories/HumData*.v from /repo/humanize/locale: for each package
its directory, language, PO file and formats, copied as they are."""
import glob, os, re, sys
SRC = sys.argv[1] if len(sys.argv) > 1 else '/repo/humanize/locale'
DST = sys.argv[2] if len(sys.argv) > 2 else '/verif/rocq/theories'
NAMED = {'language.German': 'de', 'language.Spanish': 'es'}
FIELDS = ['DateFormat', 'TimeFormat', 'DateTimeFormat', 'YearMonthFormat', 'MonthDayFormat', 'ShortDateFormat', 'ShortDatetimeFormat']
PER = 10
def lit(s): return 'bs "' + s.replace('"', '""') + '"'
def go_string(s):
    if s[0] == '`': return s[1:-1]
    return re.sub(r'\\(.)', r'\1', s[1:-1])
packages = sorted(d for d in os.listdir(SRC) if os.path.isdir(f'{SRC}/{d}'))
groups = [packages[i:i + PER] for i in range(0, len(packages), PER)]
for n, g in enumerate(groups, 1):
    out = [f'(** Translations and formats that come with humanize, part {n}: generated by',
           '    tools/gen_humdata.py from /repo/humanize/locale, django.po and the Go file of',
           '    each package. *)',
           'From Coq Require Import String Ascii List.', 'From Verif Require Import Base DfmtModel HumLocModel.',
           'Import ListNotations.', '']
    for d in g:
        po = open(f'{SRC}/{d}/django.po', encoding='utf8', newline='').read()
        gf, = glob.glob(f'{SRC}/{d}/*.go')
        go = open(gf, encoding='utf8').read()
        m = re.search(r'Lang:\s*language\.MustParse\("([^"]*)"\)', go)
        lang = m.group(1) if m else NAMED[re.search(r'Lang:\s*(language\.\w+)', go).group(1)]
        fm = {}
        for f in FIELDS:
            m = re.search(r'^\s*' + f + r':\s*("(?:[^"\\]|\\.)*"|`[^`]*`),', go, re.M)
            fm[f] = go_string(m.group(1)) if m else ''
        fd = 'Some (FD ' + ' '.join('(' + lit(fm[f]) + ')' for f in FIELDS) + ')' if '&humanize.FormatData' in go else 'None'
        name = os.path.basename(gf)
        out += [f'(** humanize/locale/{d}/django.po *)', f'Definition po_{d} : bytes := {lit(po)}.',
                f'(** humanize/locale/{d}/{name} (New) *)',
                f'Definition loc_{d} : locale_data := LD ({lit(lang)}) [(bs "django.po", po_{d})]',
                f'  ({fd}).', '']
    out += [f'Definition shipped_{n} : list (bytes * locale_data) :=',
            '  [' + ';\n   '.join(f'({lit(d)}, loc_{d})' for d in g) + '].', '']
    open(f'{DST}/HumData{n}.v', 'w', encoding='utf8', newline='').write('\n'.join(out))
print(len(packages), len(groups))
