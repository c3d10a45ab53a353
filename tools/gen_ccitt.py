#!/usr/bin/env python3
"""Generate rocq/theories/D_CCITT.v from the BitParser.add calls of /repo/pdfreader/filters/ccittfax.py (read as text)."""
import re
src = open('/repo/pdfreader/filters/ccittfax.py').read().split('\n')
tabs = {}
lines = {}
for n, l in enumerate(src, 1):
    m = re.match(r"\s*BitParser\.add\((\w+), ([^,]+?)\s*,\s*'([01]+)'\)", l)
    if m:
        t, v, b = m.groups()
        v = v.strip()
        val = 'CS (bs "%s")' % v[1:-1] if v[0] == "'" else 'CI (%d)' % int(v)
        tabs.setdefault(t, []).append((val, b))
        lines.setdefault(t, []).append(n)
out = ['(** Generated by tools/gen_ccitt.py: the code tables of filters/ccittfax.py, in source order. *)',
       'From Coq Require Import String.', 'From Verif Require Import Prelude.', 'Local Open Scope Z_scope.', '',
       '(** Values of the tables: Python ints or strings. *)', 'Inductive cval := CI (n : Z) | CS (s : list Z).', '']
for t in ('MODE', 'WHITE', 'BLACK', 'UNCOMPRESSED'):
    out.append('(** filters/ccittfax.py %d-%d: BitParser.add(%s, value, bits) *)' % (lines[t][0], lines[t][-1], t))
    out.append('Definition %s_table : list (cval * list Z) :=' % t.lower())
    out.append('  [' + ';\n   '.join('(%s, bs "%s")' % e for e in tabs[t]) + '].')
    out.append('')
open('/verif/rocq/theories/D_CCITT.v', 'w').write('\n'.join(out))
print({t: len(v) for t, v in tabs.items()})
