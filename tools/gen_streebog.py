#!/usr/bin/env python3
"""Generate Model/StreebogTables.v from streebog/src/consts.rs, and (with argument spec)
Spec/StreebogTables.v, the copy of the twelve iteration constants used by the specification."""
import sys
sys.path.insert(0, '/verif/tools')
from rsconst import rows, table
D = '/verif/rocq/theories/'
c = rows('streebog/src/consts.rs', 'C', 'C', 64, 2, 16)
open(D + 'Model/StreebogTables.v', 'w').write('''(** The literal tables of streebog/src/consts.rs (written by tools/gen_streebog.py). *)
From Verif Require Import Base.Words.

''' + table('streebog/src/consts.rs', 'A', 'A', 16, 4) + '\n' + table('streebog/src/consts.rs', 'P', 'P', None, 16) + '\n' + c)
if 'spec' in sys.argv:
    open(D + 'Spec/StreebogTables.v', 'w').write('''(** The iteration constants C_1, ..., C_12 of GOST R 34.11-2012 (RFC 6986, section 6.5),
    least significant byte first. *)
From Verif Require Import Base.Words.

''' + c[c.index('Definition'):])
