#!/usr/bin/env python3
"""Extract literal tables from /repo sources as Gallina definitions.
usage helper: table(path, rustname, coqname, per_line) -> text"""
import re
def body(path, name):
    s = open('/repo/' + path).read()
    m = re.search(r'(?:const|static)\s+' + re.escape(name) + r'\s*:', s)
    assert m, (path, name)
    i = s.index('=', m.end())
    j = s.index(';', i)
    # skip ';' inside type brackets after '=' never happens for literal tables
    txt = s[i + 1:j]
    l1 = s.count('\n', 0, m.start()) + 1
    l2 = s.count('\n', 0, j) + 1
    txt = re.sub(r'//.*', '', txt)
    return txt, l1, l2
def nums(txt):
    return [int(x.replace('_', ''), 0) for x in re.findall(r'0x[0-9a-fA-F_]+|\b[0-9][0-9_]*\b', re.sub(r'(?<=[0-9a-fA-F])_?u(8|16|32|64)', '', txt))]
def fmt(ns, hexw=None, per=8):
    it = [('0x%0*x' % (hexw, n)) if hexw else str(n) for n in ns]
    lines = ['; '.join(it[i:i + per]) for i in range(0, len(it), per)]
    return '[' + ';\n   '.join(lines) + ']'
def table(path, name, coq, hexw=8, per=8):
    t, a, b = body(path, name)
    ns = nums(t)
    return f"(** {path} {a}-{b}: [{name}] *)\nDefinition {coq} : list N :=\n  {fmt(ns, hexw, per)}.\n"
def rows(path, name, coq, row, hexw=8, per=8):
    t, a, b = body(path, name)
    ns = nums(t)
    rs = [fmt(ns[i:i + row], hexw, per) for i in range(0, len(ns), row)]
    return f"(** {path} {a}-{b}: [{name}] *)\nDefinition {coq} : list (list N) :=\n  [" + ';\n  '.join(rs) + "].\n"
