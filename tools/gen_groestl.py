#!/usr/bin/env python3
"""Generate Model/GroestlTable.v from groestl/src/table.rs and the index lists of
compress512.rs and compress1024.rs."""
import re
src = open('/repo/groestl/src/table.rs').read()
src = src[src.index('= [')+2:]
rows = re.findall(r'\[((?:\s*0x[0-9a-f_]+,?)+)\s*\]', src)
assert len(rows) == 8
o = '''(** The literal tables of groestl/src/table.rs, groestl/src/compress512.rs and
    groestl/src/compress1024.rs (written by tools/gen_groestl.py). *)
From Verif Require Import Base.Words.

(** table.rs 2-11 *)
Definition TABLE : list (list N) := [
'''
for k, r in enumerate(rows):
    v = [x.replace('_', '') for x in re.findall(r'0x[0-9a-f_]+', r)]
    assert len(v) == 256
    o += '  [' + ';\n   '.join('; '.join(v[i:i+4]) for i in range(0, 256, 4)) + ']' + (';' if k < 7 else '') + '\n'
o += '].\n'
for f, n, tag in (('compress512', 8, '512'), ('compress1024', 16, '1024')):
    L = open(f'/repo/groestl/src/{f}.rs').read().split('\n')
    cur = None; got = {'rndq': [], 'rndp': []}; line = {}
    for i, ln in enumerate(L, 1):
        m = re.match(r'fn (rnd[qp])', ln)
        if m: cur = m.group(1)
        m = re.match(r'\s*column\(&x, \[([0-9, ]+)\]\)', ln)
        if m:
            got[cur].append([int(x) for x in m.group(1).split(',')]); line.setdefault(cur, []).append(i)
    for k in ('rndq', 'rndp'):
        assert len(got[k]) == n
        o += f'\n(** {f}.rs {line[k][0]}-{line[k][-1]} *)\nDefinition {k}{tag} : list (list nat) := [\n  '
        o += ';\n  '.join('[' + '; '.join(map(str, r)) + ']' for r in got[k]) + ']%nat.\n'
open('/verif/rocq/theories/Model/GroestlTable.v', 'w').write(o)
