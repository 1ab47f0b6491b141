#!/usr/bin/env python3
"""Generate Model/KupynaTables.v from kupyna/src/consts.rs, and Spec/KupynaTables.v, the
copy of the four S-boxes used by the specification."""
import sys
sys.path.insert(0, '/verif/tools')
from rsconst import rows
D = '/verif/rocq/theories/'
H = '''(** The literal tables of kupyna/src/consts.rs (written by tools/gen_kupyna.py). *)
From Verif Require Import Base.Words.

'''
open(D + 'Model/KupynaTables.v', 'w').write(H + rows('kupyna/src/consts.rs', 'MDS_MATRIX', 'MDS_MATRIX', 8, 2, 8) + '\n'
  + rows('kupyna/src/consts.rs', 'SBOXES', 'SBOXES', 256, 2, 16))
t = rows('kupyna/src/consts.rs', 'SBOXES', 'PI', 256, 2, 16)
if 'spec' in sys.argv:
    open(D + 'Spec/KupynaTables.v', 'w').write('''(** The substitutions pi_0, pi_1, pi_2, pi_3 of DSTU 7564:2014 (the same as in the
    block cipher Kalyna).  They were generated at random by the designers and have no
    description other than the table. *)
From Verif Require Import Base.Words.

''' + t[t.index('Definition'):])
