#!/usr/bin/env python3
"""Generate Model/ShabalTables.v from shabal/src/consts.rs and core_api.rs."""
import re
from rsconst import body, nums, fmt
out = '''(** The tables of shabal/src/consts.rs and the index lists of shabal/src/core_api.rs (written by
    tools/gen_shabal.py). *)
From Verif Require Import Base.Words.

'''
for n in ('192', '224', '256', '384', '512'):
    t, a, b = body('shabal/src/consts.rs', 'INIT_' + n)
    ns = nums(t)
    assert len(ns) == 44
    out += f"(** shabal/src/consts.rs {a}-{b}: [INIT_{n}] *)\nDefinition INIT_{n} : list N * list N * list N :=\n  ({fmt(ns[:12], 8)},\n   {fmt(ns[12:28], 8)},\n   {fmt(ns[28:], 8)}).\n"
s = open('/repo/shabal/src/core_api.rs').read()
cs = list(re.finditer(r'self\.perm_elt\(([0-9, ]+), m\[(\d+)\]\);', s))
ln = lambda p: s.count('\n', 0, p) + 1
rows = [[int(x) for x in c.group(1).split(',')] + [int(c.group(2))] for c in cs]
assert len(rows) == 48
out += f"(** core_api.rs {ln(cs[0].start())}-{ln(cs[-1].start())}: the arguments of the calls of [perm_elt], the last being the index into [m] *)\nDefinition PERM_BLOCKS : list (list nat) :=\n  [" + ';\n   '.join('; '.join(str(r).replace(',', ';') for r in rows[i:i + 3]) for i in range(0, 48, 3)) + "]%nat.\n"
cs = list(re.finditer(r'a\[(\d+)\] \+= c\[(\d+)\] \+ c\[(\d+)\] \+ c\[(\d+)\];', s))
rows = [[int(x) for x in c.groups()] for c in cs]
assert len(rows) == 12
out += f"(** core_api.rs {ln(cs[0].start())}-{ln(cs[-1].start())}: the indices of the lines a[_] += c[_] + c[_] + c[_] *)\nDefinition ADD_C : list (list nat) :=\n  [" + ';\n   '.join('; '.join(str(r).replace(',', ';') for r in rows[i:i + 4]) for i in range(0, 12, 4)) + "]%nat.\n"
open('/verif/rocq/theories/Model/ShabalTables.v', 'w').write(out)
