#!/usr/bin/env python3
"""Generate Model/JhTables.v from jh/src/consts.rs: 128-bit little-endian words."""
import re
s = open('/repo/jh/src/consts.rs').read()
def bytes_of(t): return bytes.fromhex(''.join(re.findall(r'"([0-9a-f]+)"', t)))
def words(b): return [int.from_bytes(b[i:i + 16], 'little') for i in range(0, len(b), 16)]
def lines(a, b): return '%d-%d' % (s.count('\n', 0, a) + 1, s.count('\n', 0, b) + 1)
out = '''(** The tables of jh/src/consts.rs (written by tools/gen_jh.py).  The code writes them as bytes and
    reads them through unions as little-endian 128-bit registers; here the registers are given. *)
From Verif Require Import Base.Words.

'''
for n in ('224', '256', '384', '512'):
    a = s.index('JH%s_H0' % n); b = s.index(';', s.index('hex!', a))
    w = words(bytes_of(s[a:b]))
    assert len(w) == 8
    out += '(** jh/src/consts.rs %s: [JH%s_H0] *)\nDefinition JH%s_H0 : list N :=\n  [%s].\n' % (lines(a, b), n, n, ';\n   '.join('; '.join('0x%032x' % x for x in w[i:i + 2]) for i in range(0, 8, 2)))
a = s.index('E8_BITSLICE_ROUNDCONSTANT'); b = s.index('\n];', a) + 1
rc = [words(bytes.fromhex(h)) for h in re.findall(r'hex!\("([0-9a-f]+)"\)', s[a:b])]
assert len(rc) == 42 and all(len(r) == 2 for r in rc)
out += '(** jh/src/consts.rs %s: [E8_BITSLICE_ROUNDCONSTANT] *)\nDefinition E8_BITSLICE_ROUNDCONSTANT : list (N * N) :=\n  [%s].\n' % (lines(a, b), ';\n   '.join('(0x%032x, 0x%032x)' % tuple(r) for r in rc))
open('/verif/rocq/theories/Model/JhTables.v', 'w').write(out)
