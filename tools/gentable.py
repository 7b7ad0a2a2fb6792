#!/usr/bin/env python3
"""Transcribe BASEPOINT_ODD_MULTIPLES_TABLE of /repo/src/backend/u64/constants.rs
into rocq/theories/TableModel.v, one cited line range per entry."""
import os, re
root = os.path.dirname(os.path.dirname(os.path.abspath(__file__)))
lines = open('/repo/src/backend/u64/constants.rs').read().split('\n')
start = next(i for i, l in enumerate(lines) if 'BASEPOINT_ODD_MULTIPLES_TABLE' in l)
entries = []; cur = []; first = None
for i in range(start, len(lines)):
    l = lines[i]
    if 'RistrettoPoint(EdwardsPoint' in l: first = i + 1; cur = []
    m = re.match(r'\s*[XYZT]: FieldElement\(\[([^\]]*)\]\)', l)
    if m:
        cur.append([int(x) for x in m.group(1).split(',')])
        if len(cur) == 4: entries.append((first, i + 2, cur))
assert len(entries) == 126
def fe(v): return '(FE ' + ' '.join(map(str, v)) + ')'
out = ['''(** * Model of the table of odd multiples of the basepoint

    Generated by tools/gentable.py from
    /repo/src/backend/u64/constants.rs %d-%d `BASEPOINT_ODD_MULTIPLES_TABLE`.
    The comment before each entry gives its lines.                          *)

From Coq Require Import ZArith List.
From Verif Require Import Machine FieldModel EdwardsModel.
Import ListNotations.
Open Scope Z_scope.

(** backend/u64/constants.rs %d-%d. *)
Definition BASEPOINT_ODD_MULTIPLES_TABLE : list ept := [''' % (start+1, len(lines), start+1, len(lines))]
for k, (a, b, c) in enumerate(entries):
    out.append('  (* %d: %d-%d *)' % (k, a, b))
    out.append('  EP %s\n     %s\n     %s\n     %s%s' % (*map(fe, c), ';' if k < 125 else ''))
out.append('].')
open(os.path.join(root, 'rocq/theories/TableModel.v'), 'w').write('\n'.join(out) + '\n')
