#!/usr/bin/env python3
"""Run the model on the test vectors of /repo (blobby files, Ascon's text files, saved states).

Writes Coq files to a scratch directory and evaluates them with vm_compute against a built /verif/rocq.
Usage: vectors.py [SCRATCH [NAME...]].  Nothing here is part of the proofs; a vector that fails is printed.
"""
import os, re, subprocess, sys
REPO, ROCQ = '/repo', os.path.join(os.path.dirname(os.path.abspath(__file__)), '..', 'rocq')
LIMIT = 1100        # longest message tried

def vlq(b, p):
    v = 0
    while True:
        x = b[p]; p += 1
        v = (v << 7) | (x & 0x7f)
        if not x & 0x80: return v, p
        v += 1
def blobs(path, n):
    b = open(path, 'rb').read()
    k, p = vlq(b, 0)
    idx = []
    for _ in range(k):
        l, p = vlq(b, p); idx.append(b[p:p+l]); p += l
    out = []
    while p < len(b):
        v, p = vlq(b, p)
        if v & 1: out.append(idx[v >> 1])
        else: out.append(b[p:p+(v >> 1)]); p += v >> 1
    return [out[i:i+n] for i in range(0, len(out), n)]
def lit(x): return f'(be_bytes {len(x)} 0x{x.hex() or "0"})'
def digest(alg, msg, out):
    return (f'(match hasher Checked {alg} with Some C => h_digest C Checked [{lit(msg)}] | None => None end)', lit(out))

def tests():
    T = {}
    def add(name, path, alg, n=2):
        T[name] = [digest(alg(r[1]) if callable(alg) else alg, r[0], r[1]) for r in blobs(f'{REPO}/{path}', 2) if len(r[0]) <= LIMIT]
    for c, ns in dict(md2=['md2'], md4=['md4'], md5=['md5'], sm3=['sm3'], whirlpool=['whirlpool'], tiger=['tiger', 'tiger2'],
                      ripemd=['ripemd128', 'ripemd160', 'ripemd256', 'ripemd320'], sha1=['sha1'],
                      sha2=['sha224', 'sha256', 'sha384', 'sha512', 'sha512_224', 'sha512_256'],
                      streebog=['streebog256', 'streebog512'],
                      shabal=['shabal192', 'shabal224', 'shabal256', 'shabal384', 'shabal512'],
                      sha3=['keccak_224', 'keccak_256', 'keccak_384', 'keccak_512', 'sha3_224', 'sha3_256', 'sha3_384', 'sha3_512']).items():
        for x in ns:
            a = x[0].upper() + x[1:]
            if a.startswith('Keccak'): a = a.replace('_', '')
            add(x, f'{c}/tests/data/{x}.blb', a)
    add('sha1-checked', 'sha1-checked/tests/data/sha1.blb', '(Sha1Checked Model.Sha1Checked.builder)')
    add('keccak_256_full', 'sha3/tests/data/keccak_256_full.blb', 'Keccak256Full')
    add('belt', 'belt-hash/tests/data/stb.blb', 'BeltHash')
    add('gost94_test', 'gost94/tests/data/test.blb', '(Gost94 Model.Gost94.TestParam)')
    add('gost94_cryptopro', 'gost94/tests/data/cryptopro.blb', '(Gost94 Model.Gost94.CryptoProParam)')
    for n in (224, 256, 384, 512):
        k = 'Short' if n <= 256 else 'Long'
        add(f'groestl{n}', f'groestl/tests/data/groestl{n}.blb', f'(Groestl{k} {n//8})')
        add(f'jh{n}', f'jh/tests/data/ShortMsgKAT_{n}.blb', f'Jh{n}')
        add(f'jh{n}long', f'jh/tests/data/LongMsgKAT_{n}.blb', f'Jh{n}')
    for n in (48, 256, 384, 512):
        k = 'Short' if n <= 256 else 'Long'
        add(f'kupyna{n}', f'kupyna/tests/data/kupyna{n}.blb', f'(Kupyna{k} {n//8})')
    for a, n in ((256, 32), (256, 64), (512, 32), (512, 64), (1024, 32), (1024, 64), (1024, 128)):
        add(f'skein{a}_{n}', f'skein/tests/data/skein{a}_{n}.blb', f'(Skein{a} {n})')
    for n in (128, 256):
        add(f'shake{n}', f'sha3/tests/data/shake{n}.blb', lambda o: f'(Shake{n} [{len(o)}%nat])')
        T[f'cshake{n}'] = [digest(f'(CShake{n} [] {lit(c)} [{len(o)}%nat])', m, o)
                           for c, m, o in blobs(f'{REPO}/sha3/tests/data/cshake{n}.blb', 3) if len(m) <= LIMIT]
        T[f'turboshake{n}'] = []
        for d, m, pl, o, tr in blobs(f'{REPO}/sha3/tests/data/turboshake{n}.blb', 5):
            if pl: m = bytes(i % 0xFB for i in range(int.from_bytes(pl, 'big'))) if int.from_bytes(pl, 'big') <= LIMIT else None
            if m is None: continue
            t = int.from_bytes(tr, 'big')
            e, _ = digest(f'(TurboShake{n} {d[0]} [{t + len(o)}%nat])', m, b'')
            T[f'turboshake{n}'].append((f'(option_map (skipn {t}) {e})', lit(o)))
    add('blake2b', 'blake2/tests/data/blake2b/fixed.blb', '(Blake2b [] [] 64)')
    for x in 'bs':
        add(f'blake2{x}_var', f'blake2/tests/data/blake2{x}/variable.blb', lambda o: f'(Blake2{x} [] [] {len(o)})')
    for f, alg in (('asconhash', 'AsconHash256'), ('asconxof', '(AsconXof128 [32%nat])')):
        s = open(f'{REPO}/ascon-hash/tests/data/{f}.txt').read()
        T[f] = [digest(alg, bytes.fromhex(a), bytes.fromhex(b)) for a, b in re.findall(r'Msg = ?(\w*)\s+MD = (\w+)', s)][::8]
    # saved states: digest's hash_serialization_test feeds one block and one byte of 0x13
    ALG = dict(Gost94CryptoPro='(Gost94 Model.Gost94.CryptoProParam)', Gost94Test='(Gost94 Model.Gost94.TestParam)',
               Gost94UA='(Gost94 Model.Gost94.GOST28147UAParam)', Gost94s2015='(Gost94 Model.Gost94.S2015Param)')
    for n in (224, 256, 384, 512):
        ALG[f'Groestl{n}'] = f"(Groestl{'Short' if n <= 256 else 'Long'} {n//8})"
        ALG[f'Kupyna{n}'] = f"(Kupyna{'Short' if n <= 256 else 'Long'} {n//8})"
    ALG['Kupyna48'] = '(KupynaShort 6)'
    for d in sorted(os.listdir(REPO)):
        p = f'{REPO}/{d}/tests/mod.rs'
        if not os.path.exists(p) or d in ('fsb', 'sha1-checked'): continue
        for ty, body in re.findall(r'hash(?:_rt_outsize)?_serialization_test!\(\s*\w+,\s*([\w:]+),\s*hex!\(([^)]*)\)', open(p).read()):
            ty = ty.split('::')[-1]
            a = ALG.get(ty, ty)
            h = bytes.fromhex(re.sub(r'[^0-9a-fA-F]', '', body))
            if ty in ('GroestlShortVar', 'GroestlLongVar'):  # the runtime-size wrapper writes the size last; the model has it after the core
                a, n = f'({ty[:-3]} {h[-1]})', 72 if 'Short' in ty else 136
                h = h[:n] + h[-1:] + h[n:-1]
            T.setdefault('state_' + d.replace('-', '_'), []).append((
                f'(match hasher Checked {a} with Some C => match c_codec C with Some cd => option_map (h_serialize C cd)'
                f' (h_update C Checked (h_new C) (repeat 0x13 (c_bs C + 1))) | None => None end | None => None end)', lit(h)))
    return T

HEAD = '''From Verif Require Import Base.Words Base.Bytes Base.BlockBuffer Base.Digest Base.Xof Model.Hashers.
Definition same (x : option bytes) (y : bytes) : bool := match x with Some x => if list_eq_dec N.eq_dec x y then true else false | None => false end.
'''
def main(scratch='/tmp/vec', *only):
    os.makedirs(scratch, exist_ok=True)
    good = bad = 0
    for name, cases in tests().items():
        if only and name not in only: continue
        f = f'{scratch}/v_{name.replace("-", "_")}.v'
        with open(f, 'w') as o:
            o.write(HEAD)
            for i, (e, r) in enumerate(cases): o.write(f'Eval vm_compute in ({i}%nat, same {e} {r}).\n')
        r = subprocess.run(['timeout', '3000', 'coqc', '-Q', f'{ROCQ}/theories', 'Verif', f], capture_output=True, text=True)
        t, w = r.stdout.count(', true)'), re.findall(r'\((\d+)%nat, false\)|= \((\d+), false\)', r.stdout)
        good += t; bad += len(cases) - t
        print(name, f'{t} of {len(cases)}', ('FAILED ' + str(w) + r.stderr[-300:]) if t != len(cases) else '', flush=True)
    print('total', good, 'agree,', bad, 'do not')
if __name__ == '__main__': main(*sys.argv[1:])
