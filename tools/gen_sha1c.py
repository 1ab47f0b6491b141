#!/usr/bin/env python3
"""Generate theories/Model/Sha1CheckedTables.v (SHA1_DVS and ubc_check) from
sha1-checked/src/ubc_check.rs."""
import re, sys
PATH = '/repo/sha1-checked/src/ubc_check.rs'
src = open(PATH).read()

# ---- expression parser (Rust precedence) ----
TOK = re.compile(r'\s*(wrapping_sub|mask|DV_\w+_BIT|w(?=\[)|0x[0-9a-f]+|\d+(?:u32)?|<<|>>|==|!=|&&|\|\||[()\[\]!&|^.])')
def tokens(s):
    out, i = [], 0
    s = s.strip()
    while i < len(s):
        m = TOK.match(s, i)
        if not m: raise SystemExit('bad token: ' + s[i:i+40])
        out.append(m.group(1)); i = m.end()
    return out
class P:
    LEVELS = [['||'], ['&&'], ['==', '!='], ['|'], ['^'], ['&'], ['<<', '>>']]
    def __init__(self, s): self.t = tokens(s); self.i = 0
    def peek(self): return self.t[self.i] if self.i < len(self.t) else None
    def eat(self, x=None):
        t = self.t[self.i]; self.i += 1
        if x and t != x: raise SystemExit('expected %s got %s' % (x, t))
        return t
    def expr(self, lvl=0):
        if lvl == len(self.LEVELS): return self.unary()
        e = self.expr(lvl + 1)
        while self.peek() in self.LEVELS[lvl]:
            op = self.eat(); e = (op, e, self.expr(lvl + 1))
        return e
    def unary(self):
        if self.peek() == '!': self.eat(); return ('!', self.unary())
        e = self.atom()
        while self.peek() == '.':
            self.eat('.'); self.eat('wrapping_sub'); self.eat('('); a = self.expr(); self.eat(')')
            e = ('wsub', e, a)
        return e
    def atom(self):
        t = self.eat()
        if t == '(': e = self.expr(); self.eat(')'); return e
        if t == 'w': self.eat('['); n = int(self.eat()); self.eat(']'); return ('w', n)
        if t == 'mask': return ('mask',)
        if t.startswith('DV_'): return ('dv', t[:-4])
        return ('n', int(t.replace('u32', ''), 0))
def parse(s):
    p = P(s); e = p.expr(); assert p.peek() is None, p.t[p.i:]; return e

def body():
    b = src[src.index('let mut mask: u32 = !0;') + len('let mut mask: u32 = !0;'):]
    b = b[:b.rindex('mask\n}')]
    b = ' '.join(re.sub(r'//[^\n]*', '', b).split())
    def stmts(s):
        out = []
        while True:
            s = s.strip()
            if not s or s[0] == '}': return out, s[1:]
            if s.startswith('mask &='):
                j = min(x for x in (s.find(';'), s.find('}')) if x >= 0)
                out.append(('and', parse(s[7:j])))
                s = s[j:].lstrip(';')
            elif s.startswith('if '):
                j = s.index('{'); c = parse(s[3:j]); inner, s = stmts(s[j+1:]); out.append(('if', c, inner))
            else: raise SystemExit('bad stmt ' + s[:60])
    out, rest = stmts(b); assert not rest.strip(); return out
BODY = body()
BITS = re.findall(r'const (DV_\w+)_BIT: u32 = 1 << (\d+);', src)
INFOS = re.findall(r'Info \{\s*testt: Testt::T(\d+),\s*maskb: (\d+),\s*dm: \[([^\]]*)\]', src)
DVS = [(int(t), int(b), [int(x, 0) for x in dm.split(',') if x.strip()]) for t, b, dm in INFOS]
assert len(BITS) == 32 and len(DVS) == 32 and all(len(d[2]) == 80 for d in DVS)

# ---- Gallina ----
def g(e):
    k = e[0]
    if k == 'n': return str(e[1])
    if k == 'w': return '(get w %d)' % e[1]
    if k == 'mask': return 'mask'
    if k == 'dv': return e[1] + '_BIT'
    if k == '!': return '(not32 %s)' % g(e[1])
    if k in ('<<', '>>'):
        assert e[2][0] == 'n'
        return '(%s %s %d)' % ('wshl 32' if k == '<<' else 'N.shiftr', g(e[1]), e[2][1])
    f = {'|': 'N.lor', '^': 'N.lxor', '&': 'N.land', 'wsub': 'sub32'}
    if k in f: return '(%s %s %s)' % (f[k], g(e[1]), g(e[2]))
    if k in ('==', '!='):
        assert e[2] == ('n', 0)
        r = '(%s =? 0)' % g(e[1])
        return r if k == '==' else '(negb %s)' % r
    return '(%s %s %s)' % (g(e[1]), k, g(e[2]))
def emit(ss, ind):
    out = []
    for s in ss:
        if s[0] == 'and':
            out.append('%sassign mask := N.land mask %s in' % (ind, g(s[1])))
        else:
            out.append('%sassign mask := if %s then' % (ind, g(s[1])))
            out += emit(s[2], ind + '  ')
            out.append('%s  mask else mask in' % ind)
    return out
def main():
    o = ['(** Generated by tools/gen_sha1c.py from sha1-checked/src/ubc_check.rs. *)',
         'From Verif Require Import Base.Words Base.Bytes.', '',
         '(** ubc_check.rs 9-40 *)']
    o += ['Definition %s_BIT : N := %d.' % (n, 1 << int(b)) for n, b in BITS]
    o += ['', '(** ubc_check.rs 53-57 *)', 'Inductive testt := T58 | T65.',
          '(** ubc_check.rs 43-50 *)', 'Record info := mkInfo { i_testt : testt; i_maskb : N; i_dm : list N }.', '',
          '(** ubc_check.rs 60-595 *)', 'Definition SHA1_DVS : list info := [']
    rows = []
    for t, b, dm in DVS:
        rows.append('  mkInfo T%d %d [%s]' % (t, b, '; '.join(hex(x) if x > 9 else str(x) for x in dm)))
    o += [';\n'.join(rows) + '].', '',
          '(** ubc_check.rs 602-1077, statement by statement; no operation in it can',
          '    panic (constant shifts below 32, [w] has 80 words). *)',
          'Definition ubc_check (w : list N) : N :=', '  let mask := not32 0 in']
    o += emit(BODY, '  ')
    o += ['  mask.', '']
    open('/verif/rocq/theories/Model/Sha1CheckedTables.v', 'w').write('\n'.join(o))
if __name__ == '__main__': main()
