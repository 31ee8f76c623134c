#!/usr/bin/env python3
"""Generates rocq/theories/AscTable.v from the table in /repo/src/infi/asi/sense/asc.py (6-669)."""
import re
L = open('/repo/src/infi/asi/sense/asc.py').read().split('\n')
rows = []
for i, l in enumerate(L, 1):
    m = re.match(r'\s+struct\.pack\(">BB", 0x([0-9A-Fa-f]{2}), 0x([0-9A-Fa-f]{2})\): "(.*)",\s*$', l)
    if m and 6 < i < 669:
        rows.append((int(m[1], 16), int(m[2], 16), m[3]))
assert len(rows) == 662
out = ['(** The table ASC_CODES of src/infi/asi/sense/asc.py:6-669, transcribed by tools/mkasc.py:',
       '    additional sense code, qualifier, text. *)',
       'From Coq Require Import String ZArith List.', 'Import ListNotations.', 'Local Open Scope string_scope.',
       'Local Open Scope Z_scope.', '', '(** asc.py:7-668. *)', 'Definition asc_table : list (Z * Z * string) :=']
out.append('  [' + ';\n   '.join('(%d, %d, "%s")' % (a, b, t.replace('"', '""')) for a, b, t in rows) + '].')
open('../rocq/theories/AscTable.v', 'w').write('\n'.join(out) + '\n')
