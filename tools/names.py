#!/usr/bin/env python3
"""Writes the tables of names in rocq/theories/Names.v from the text of elf.py
(with --check: compares the committed file with the text)."""
import re, sys
SRC = '/repo/esp_idf_size/elf.py'
OUT = '/verif/rocq/theories/Names.v'
text = open(SRC).read().split('\n')
consts, maps, cur, lines = {}, {}, None, {}
for i, l in enumerate(text, 1):
    m = re.match(r'^(DW_TAG|DW_AT|DW_FORM|SHT|STB|STT|STV)_(\w+)\s*=\s*(\w+)\s*(#.*)?$', l)
    if m:
        consts.setdefault(m.group(1), []).append((m.group(2), int(m.group(3), 0)))
        a, _ = lines.get(m.group(1), (i, i))
        lines[m.group(1)] = (a, i)
    m = re.match(r'^(\w+)_NAME_MAP.*= \{', l)
    if m:
        cur = m.group(1); maps[cur] = []; start = i
    elif cur:
        if l.startswith('}'):
            lines[cur + '_NAME_MAP'] = (start, i); cur = None
        else:
            m = re.match(r"^\s+(\w+): '(.*)',$", l)
            maps[cur].append((m.group(1), m.group(2)))
value = {p + '_' + n: v for p, l in consts.items() for n, v in l}
def number(x):
    return value[x] if x in value else int(x, 0)
def table(name, rows, where, what):
    out = ['(** elf.py:%d-%d: %s *)' % (where[0], where[1], what), 'Definition %s : list (Z * str) :=' % name, '  [']
    out += ['   (%d, tx "%s")%s' % (v, n, ';' if i + 1 < len(rows) else '].') for i, (v, n) in enumerate(rows)]
    out[2] += out[3].lstrip(); del out[3]
    return '\n'.join(out)
out = ['''(** * Names: the constants of elf.py and the dictionaries with their names.

    Written by tools/names.py from the text of elf.py.  The constants of the sections and symbols
    are listed without their prefix SHT_, STB_, STT_, STV_, as the dictionaries show them. *)
From Coq Require Import Ascii String List ZArith.
From Verif Require Import Base.
Import ListNotations.
Open Scope list_scope.
Open Scope Z_scope.

Local Definition tx (s : string) : str := list_ascii_of_string s.
''']
for p in ('DW_TAG', 'DW_AT', 'DW_FORM', 'SHT', 'STB', 'STT', 'STV'):
    keep = p + '_' if p.startswith('DW') else ''
    out.append(table(p + '_CONSTANTS', [(v, keep + n) for n, v in consts[p]], lines[p], 'the constants %s_...' % p))
    out.append(table(p + '_NAME_ITEMS', [(number(k), n) for k, n in maps[p]], lines[p + '_NAME_MAP'], 'the items of %s_NAME_MAP in the order of the text' % p))
    out.append('')
res = '\n'.join(out).rstrip('\n') + '\n'
if '--check' in sys.argv:
    print('same' if open(OUT).read() == res else 'DIFFERENT'); sys.exit(0 if open(OUT).read() == res else 1)
open(OUT, 'w').write(res)
