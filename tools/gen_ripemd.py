#!/usr/bin/env python3
"""Generate Model/Ripemd.v from /repo/ripemd/src/c{128,160,256,320}.rs: the round
lines, the round constants and the Boolean function of every round are read from
the source text."""
import re
D = '/verif/rocq/theories/Model/'
FN = {'1^2^3': 'bf1', '(1&2)|(!1&3)': 'bf2', '(1|!2)^3': 'bf3', '(1&3)|(2&!3)': 'bf4', '1^(2|!3)': 'bf5'}

def load(width):
    path = f'/repo/ripemd/src/c{width}.rs'
    src = open(path).read()
    lines = src.split('\n')
    # H0
    m = re.search(r'pub const H0: \[u32; DIGEST_BUF_LEN\] = \[(.*?)\];', src, re.S)
    h0 = [x.strip().replace('_', '') for x in m.group(1).split(',') if x.strip()]
    h0line = src[:m.start()].count('\n') + 1
    # macro bodies, in order of appearance
    calls = []
    for m in re.finditer(r'\$\( round!\((.*?)\); \)\*', src, re.S):
        txt = m.group(1)
        ln = src[:m.start()].count('\n') + 1
        ln2 = src[:m.end()].count('\n') + 1
        const = re.search(r'0x[0-9a-f_]+', txt).group(0).replace('_', '')
        expr = txt[txt.index(const[:6]) :].split(',', 1)[1]
        right = 'bbb[' in txt
        e = re.sub(r'bbb?\[\$\w*?(\d)\]', r'\1', expr)
        e = re.sub(r'\s', '', e)
        idx = int(re.search(r'\$p?data_index(\d)', txt).group(1))
        calls.append((('R' if right else 'L'), idx, const, FN[e], ln, ln2))
    # line data
    data = {}
    for i, l in enumerate(lines):
        m = re.match(r'\s*(par_)?round(\d): h_ordering ([\d, ]+); data_index\s+(\d+); roll_shift\s+(\d+)', l)
        if m:
            par, r, o, d, s = m.groups()
            data.setdefault((('R' if par else 'L'), int(r)), []).append((i + 1, o.replace(',', ';'), d, s))
    return h0, h0line, calls, data

out = ['''(** Model of the ripemd crate: ripemd/src/c128.rs, c160.rs, c256.rs, c320.rs and
    the hasher macro of ripemd/src/lib.rs.  Generated by tools/gen_ripemd.py.
    Each macro line [roundN: h_ordering ..; data_index d; roll_shift s] is a data
    record, and each [$( round!(..); )*] repetition a fold over the records. *)
From Verif Require Import Base.Words Base.Bytes Base.Codec Base.BlockBuffer Base.Digest.

(** The third to last macro argument: Boolean functions of three registers, as
    they occur in c128.rs 51-92, c160.rs 52-110, c256.rs 60-108, c320.rs 64-127. *)
Definition bf1 (x y z : N) : N := N.lxor (N.lxor x y) z.
Definition bf2 (x y z : N) : N := N.lor (N.land x y) (N.land (not32 x) z).
Definition bf3 (x y z : N) : N := N.lxor (N.lor x (not32 y)) z.
Definition bf4 (x y z : N) : N := N.lor (N.land x z) (N.land y (not32 z)).
Definition bf5 (x y z : N) : N := N.lxor x (N.lor y (not32 z)).

(** A macro line: h_ordering, data_index, roll_shift *)
Definition line := (list nat * nat * N)%type.
Definition ord (o : list nat) (i : nat) : nat := nth i o 0%nat.
(** c128.rs 10-16 and c256.rs 20-26 *)
Definition round4 (w : list N) (f : N -> N -> N -> N) (add : N) (bb : list N) (l : line) : list N :=
  let '(o, d, s) := l in
  let r := f (get bb (ord o 1)) (get bb (ord o 2)) (get bb (ord o 3)) in
  let bb := upd bb (ord o 0) (add32 (add32 (add32 (get bb (ord o 0)) r) (get w d)) add) in
  upd bb (ord o 0) (rotl32 (get bb (ord o 0)) s).
(** c160.rs 16-23 and c320.rs 22-29 *)
Definition round5 (w : list N) (f : N -> N -> N -> N) (add : N) (bb : list N) (l : line) : list N :=
  let '(o, d, s) := l in
  let r := f (get bb (ord o 1)) (get bb (ord o 2)) (get bb (ord o 3)) in
  let bb := upd bb (ord o 0) (add32 (add32 (add32 (get bb (ord o 0)) r) (get w d)) add) in
  let bb := upd bb (ord o 0) (add32 (rotl32 (get bb (ord o 0)) s) (get bb (ord o 4))) in
  upd bb (ord o 2) (rotl32 (get bb (ord o 2)) 10).
(** c256.rs 28-31, c320.rs 31-34 [swap_idx] *)
Definition swap_idx (bb bbb : list N) (i : nat) : list N * list N :=
  (upd bb i (get bbb i), upd bbb i (get bb i)).
''']

for width in (128, 160, 256, 320):
    h0, h0line, calls, data = load(width)
    n = 4 if width in (128, 256) else 5
    nr = n
    assert len(calls) == 2 * nr and all(len(v) == 16 for v in data.values()) and len(data) == 2 * nr
    f = f'c{width}.rs'
    out.append(f'(** ** {f} *)\n(** {f} {h0line}: [H0] *)\nDefinition H0_{width} : list N := [{"; ".join(h0)}].')
    for side in 'LR':
        for r in range(1, nr + 1):
            d = data[(side, r)]
            nm = f'{side.lower()}{r}_{width}'
            body = ';\n   '.join(f'([{o}]%nat, {di}%nat, {s})' for _, o, di, s in d)
            out.append(f'(** {f} {d[0][0]}-{d[-1][0]} *)\nDefinition {nm} : list line :=\n  [{body}].')
    cc = {(s, i): (c, fn, a, b) for s, i, c, fn, a, b in calls}
    order = [(s, i) for s, i, *_ in calls]
    if width in (128, 160):
        assert order == [('L', i) for i in range(1, nr + 1)] + [('R', i) for i in range(1, nr + 1)]
    else:
        assert order == [(s, i) for i in range(1, nr + 1) for s in 'LR']
    def fold(side, r):
        c, fn, a, b = cc[(side, r)]
        v = 'bb' if side == 'L' else 'bbb'
        return f'  assign {v} := fold_left (round{n} w {fn} {c}) {side.lower()}{r}_{width} {v} in'
    lo, hi = min(x[4] for x in calls), max(x[5] for x in calls)
    src = open(f'/repo/ripemd/src/{f}').read()
    start = src[:src.index('pub fn compress')].count('\n') + 1
    if width == 128:
        body = ['  assign bb := h in', '  assign bbb := h in'] + [fold(s, i) for s, i in order]
        body += ['  let bbb := upd bbb 3 (add32 (add32 (get bbb 3) (get h 1)) (get bb 2)) in',
                 '  [get bbb 3; add32 (add32 (get h 2) (get bb 3)) (get bbb 0);',
                 '   add32 (add32 (get h 3) (get bb 0)) (get bbb 1); add32 (add32 (get h 0) (get bb 1)) (get bbb 2)].']
        last = 101
    elif width == 160:
        body = ['  assign bb := h in', '  assign bbb := h in'] + [fold(s, i) for s, i in order]
        body += ['  let bbb := upd bbb 3 (add32 (add32 (get bbb 3) (get h 1)) (get bb 2)) in',
                 '  [get bbb 3; add32 (add32 (get h 2) (get bb 3)) (get bbb 4);',
                 '   add32 (add32 (get h 3) (get bb 4)) (get bbb 0); add32 (add32 (get h 4) (get bb 0)) (get bbb 1);',
                 '   add32 (add32 (get h 0) (get bb 1)) (get bbb 2)].']
    else:
        body = [f'  assign bb := firstn {n} h in', f'  assign bbb := skipn {n} h in']
        swaps = re.findall(r'swap_idx\(&mut bb,\s+&mut bbb, (\d)\);', src)
        for r in range(1, nr + 1):
            body += [fold('L', r), fold('R', r), f"  assign '(bb, bbb) := swap_idx bb bbb {swaps[r - 1]} in"]
        terms = [f'add32 (get h {i}) (get bb {i})' for i in range(n)] + [f'add32 (get h {n + i}) (get bbb {i})' for i in range(n)]
        body.append('  [' + '; '.join(terms) + '].')
    end = src[:src.index('pub fn compress')].count('\n') - 2
    begin = src[:src.index(') => ({\n        let mut bb')].count('\n') + 1
    out.append(f'(** {f} {begin}-{end}: body of [process_block]; {start}-{start + 4}: loading the words *)\n'
               f'Definition process_{width} (h w : list N) : list N :=\n' + '\n'.join(body))
    out.append(f'(** {f} {start} ff. *)\nDefinition compress_{width} (h : list N) (data : bytes) : list N := process_{width} h (words_of_le 4 data).')

out.append('''
(** ** The hasher macro (lib.rs 35-168): state (h, block_len) *)
Definition rmd_st := (list N * N)%type.
(** lib.rs 66-76: plain [+=] on the counter *)
Definition rmd_update (compress : list N -> bytes -> list N) (m : mode) (s : rmd_st) (blocks : list bytes) : option rmd_st :=
  let* block_len := cadd m 64 (snd s) (N.of_nat (length blocks)) in
  Some (fold_left compress blocks (fst s), block_len).
(** lib.rs 78-91: [8 * (pos + bs * block_len)] with plain operators *)
Definition rmd_finalize (compress : list N -> bytes -> list N) (m : mode) (s : rmd_st) (buffer : bytes) : option (bytes * rmd_st) :=
  let* t := cmul m 64 64 (snd s) in
  let* t := cadd m 64 (N.of_nat (length buffer)) t in
  let* bit_len := cmul m 64 8 t in
  let h := fold_left compress (len64_padding_le 64 bit_len buffer) (fst s) in
  Some (words_to_le 4 h, s).
(** lib.rs 135-166: [n] words then the counter *)
Definition rmd_codec (n : nat) : codec rmd_st := mkCodec (4 * n + 8) (ser_counted 4 8) (deser_counted 4 n).
(** lib.rs 43-64, 93-108 *)
Definition rmd_core (n : nat) (h0 : list N) (compress : list N -> bytes -> list N) : core :=
  mkCore rmd_st 64 Eager (h0, 0) [] (rmd_update compress) (rmd_finalize compress)
    (fun _ => ((h0, 0), [])) (Some (rmd_codec n)).
(** lib.rs 170-173 *)
Definition Ripemd128 : core := rmd_core 4 H0_128 compress_128.
Definition Ripemd160 : core := rmd_core 5 H0_160 compress_160.
Definition Ripemd256 : core := rmd_core 8 H0_256 compress_256.
Definition Ripemd320 : core := rmd_core 10 H0_320 compress_320.''')
open(D + 'Ripemd.v', 'w').write('\n'.join(out) + '\n')
