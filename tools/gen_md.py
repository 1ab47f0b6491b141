#!/usr/bin/env python3
"""Generate Model/Md5.v, Model/Sm3.v, Model/Md2.v: literal tables and unrolled
rounds are transliterated from /repo, the rest is fixed text below."""
import re, sys
sys.path.insert(0, '/verif/tools')
from rsconst import table
D = '/verif/rocq/theories/Model/'

# ---------------------------------------------------------------- MD5
src = open('/repo/md5/src/compress/soft.rs').read().split('\n')
rounds = []
for ln in src[54:137]:
    m = re.match(r'\s*(\w) = (op_\w)\((\w), (\w), (\w), (\w), data\[(\d+)\], RC\[(\d+)\], (\d+)\);', ln)
    if m:
        v, op, a, b, c, d, i, k, s = m.groups()
        rounds.append(f'  assign {v} := {op} {a} {b} {c} {d} (get data {i}) (get RC {k}) {s} in')
assert len(rounds) == 64
open(D + 'Md5.v', 'w').write('''(** Model of the md5 crate: portable backend md5/src/compress/soft.rs and hasher
    md5/src/lib.rs. *)
From Verif Require Import Base.Words Base.Bytes Base.Codec Base.BlockBuffer Base.Digest.

''' + table('md5/src/consts.rs', 'STATE_INIT', 'STATE_INIT') + table('md5/src/consts.rs', 'RC', 'RC') + '''
(** soft.rs 5-12 *)
Definition op_f (w x y z m c s : N) : N :=
  add32 (rotl32 (add32 (add32 (add32 (N.lor (N.land x y) (N.land (not32 x) z)) w) m) c) s) x.
(** soft.rs 14-21 *)
Definition op_g (w x y z m c s : N) : N :=
  add32 (rotl32 (add32 (add32 (add32 (N.lor (N.land x z) (N.land y (not32 z))) w) m) c) s) x.
(** soft.rs 24-31 *)
Definition op_h (w x y z m c s : N) : N :=
  add32 (rotl32 (add32 (add32 (add32 (N.lxor (N.lxor x y) z) w) m) c) s) x.
(** soft.rs 34-41 *)
Definition op_i (w x y z m c s : N) : N :=
  add32 (rotl32 (add32 (add32 (add32 (N.lxor y (N.lor x (not32 z))) w) m) c) s) x.

(** soft.rs 55-137: the 64 assignments of [compress_block] (generated from the source text) *)
Definition rounds (data : list N) (a b c d : N) : N * N * N * N :=
''' + '\n'.join(rounds) + '''
  (a, b, c, d).

(** soft.rs 44-143 *)
Definition compress_block (state : list N) (input : bytes) : list N :=
  let data := words_of_le 4 input in
  let '(a, b, c, d) := rounds data (get state 0) (get state 1) (get state 2) (get state 3) in
  [add32 (get state 0) a; add32 (get state 1) b; add32 (get state 2) c; add32 (get state 3) d].
(** soft.rs 146-150 *)
Definition compress (state : list N) (blocks : list bytes) : list N := fold_left compress_block blocks state.

(** ** Md5Core (lib.rs 35-38) as (state, block_len) *)
Definition md5_st := (list N * N)%type.
(** lib.rs 61-65: [wrapping_add] in every build *)
Definition md5_update (_ : mode) (s : md5_st) (blocks : list bytes) : option md5_st :=
  let* block_len := cadd Wrapping 64 (snd s) (N.of_nat (length blocks)) in
  Some (compress (fst s) blocks, block_len).
(** lib.rs 70-81 *)
Definition md5_finalize (_ : mode) (s : md5_st) (buffer : bytes) : option (bytes * md5_st) :=
  let bit_len := wmul 64 (wadd 64 (wmul 64 (snd s) 64) (N.of_nat (length buffer))) 8 in
  let h := compress (fst s) (len64_padding_le 64 bit_len buffer) in
  Some (words_to_le 4 h, s).
(** lib.rs 128-156 *)
Definition md5_codec : codec md5_st := mkCodec 24 (ser_counted 4 8) (deser_counted 4 4).
(** lib.rs 41; 84-99 [Default], [Reset] *)
Definition Md5 : core :=
  mkCore md5_st 64 Eager (STATE_INIT, 0) [] md5_update md5_finalize (fun _ => ((STATE_INIT, 0), [])) (Some md5_codec).
''')

# ---------------------------------------------------------------- SM3
src = open('/repo/sm3/src/compress.rs').read().split('\n')
rounds = []
for ln in src[162:226]:
    m = re.match(r'\s*R([12])!\(([\w, ]+), t\((\d+)\), w1\(&x, (\d+)\), (w1\(&x, |w2\(&mut x, )(\d+)\)\);', ln)
    r, vs, t, i, k, j = m.groups()
    vs = [v.strip() for v in vs.split(',')]
    assert len(vs) == 8
    second = f'(x, w1 x {j})' if k.startswith('w1') else f'w2 x {j}'
    rounds.append(f'  assign u := w1 x {i} in assign \'(x, u\') := {second} in\n'
                  f'  assign \'({", ".join(vs)}) := sm3_round{r} {" ".join(vs)} (t {t}) u u\' in')
assert len(rounds) == 64
open(D + 'Sm3.v', 'w').write('''(** Model of the sm3 crate: sm3/src/compress.rs and sm3/src/lib.rs. *)
From Verif Require Import Base.Words Base.Bytes Base.Codec Base.BlockBuffer Base.Digest.

''' + table('sm3/src/consts.rs', 'T32', 'T32') + table('sm3/src/consts.rs', 'H0', 'H0') + '''
(** compress.rs 5-33 *)
Definition ff1 (x y z : N) : N := N.lxor (N.lxor x y) z.
Definition ff2 (x y z : N) : N := N.lor (N.lor (N.land x y) (N.land x z)) (N.land y z).
Definition gg1 (x y z : N) : N := N.lxor (N.lxor x y) z.
Definition gg2 (x y z : N) : N := N.lxor (N.land (N.lxor y z) x) z.
Definition p0 (x : N) : N := N.lxor (N.lxor x (rotl32 x 9)) (rotl32 x 17).
Definition p1 (x : N) : N := N.lxor (N.lxor x (rotl32 x 15)) (rotl32 x 23).
(** compress.rs 36-38; [i & 0x0f] is [i mod 16] *)
Definition w1 (x : list N) (i : nat) : N := get x (i mod 16).
(** compress.rs 41-46; returns the updated buffer and the result *)
Definition w2 (x : list N) (i : nat) : list N * N :=
  let tw := N.lxor (N.lxor (w1 x i) (w1 x (i - 9))) (rotl32 (w1 x (i - 3)) 15) in
  let tw := N.lxor (N.lxor (p1 tw) (rotl32 (w1 x (i - 13)) 7)) (w1 x (i - 6)) in
  (upd x (i mod 16) tw, tw).
(** compress.rs 49-51 *)
Definition t (i : nat) : N := get T32 i.

Definition v8 := (N * N * N * N * N * N * N * N)%type.
(** compress.rs 53-82 *)
Definition sm3_round1 (a b c d e f g h t w1 w2 : N) : v8 :=
  let ss1 := rotl32 (add32 (add32 (rotl32 a 12) e) t) 7 in
  let ss2 := N.lxor ss1 (rotl32 a 12) in
  let d := add32 (add32 (add32 d (ff1 a b c)) ss2) (N.lxor w1 w2) in
  let h := add32 (add32 (add32 h (gg1 e f g)) ss1) w1 in
  let b := rotl32 b 9 in
  let f := rotl32 f 19 in
  let h := p0 h in
  (a, b, c, d, e, f, g, h).
(** compress.rs 84-113 *)
Definition sm3_round2 (a b c d e f g h t w1 w2 : N) : v8 :=
  let ss1 := rotl32 (add32 (add32 (rotl32 a 12) e) t) 7 in
  let ss2 := N.lxor ss1 (rotl32 a 12) in
  let d := add32 (add32 (add32 d (ff2 a b c)) ss2) (N.lxor w1 w2) in
  let h := add32 (add32 (add32 h (gg2 e f g)) ss1) w1 in
  let b := rotl32 b 9 in
  let f := rotl32 f 19 in
  let h := p0 h in
  (a, b, c, d, e, f, g, h).

(** compress.rs 151-236: the macro calls R1!/R2! (lines 163-226) are generated
    from the source text; arguments are evaluated left to right, so [w1(&x, i)]
    reads [x] before [w2(&mut x, j)] updates it *)
Definition compress_u32 (state block : list N) : list N :=
  assign x := block in
  let a := get state 0 in let b := get state 1 in let c := get state 2 in let d := get state 3 in
  let e := get state 4 in let f := get state 5 in let g := get state 6 in let h := get state 7 in
''' + '\n'.join(rounds) + '''
  [N.lxor (get state 0) a; N.lxor (get state 1) b; N.lxor (get state 2) c; N.lxor (get state 3) d;
   N.lxor (get state 4) e; N.lxor (get state 5) f; N.lxor (get state 6) g; N.lxor (get state 7) h].

(** compress.rs 238-246 *)
Definition compress_block (state : list N) (block : bytes) : list N :=
  compress_u32 state (words_of_be 4 block).
Definition compress (state : list N) (blocks : list bytes) : list N := fold_left compress_block blocks state.

(** ** Sm3Core (lib.rs 35-38) as (h, block_len) *)
Definition sm3_st := (list N * N)%type.
(** lib.rs 59-62 *)
Definition sm3_update (m : mode) (s : sm3_st) (blocks : list bytes) : option sm3_st :=
  let* block_len := cadd m 64 (snd s) (N.of_nat (length blocks)) in
  Some (compress (fst s) blocks, block_len).
(** lib.rs 67-76 *)
Definition sm3_finalize (m : mode) (s : sm3_st) (buffer : bytes) : option (bytes * sm3_st) :=
  let bs := 64 in
  let* t := cmul m 64 bs (snd s) in
  let* t := cadd m 64 (N.of_nat (length buffer)) t in
  let* bit_len := cmul m 64 8 t in
  let h := compress (fst s) (len64_padding_be 64 bit_len buffer) in
  Some (words_to_be 4 h, s).
(** lib.rs 121-149 *)
Definition sm3_codec : codec sm3_st := mkCodec 40 (ser_counted 4 8) (deser_counted 4 8).
(** lib.rs 41; 79-94 [Default], [Reset] *)
Definition Sm3 : core :=
  mkCore sm3_st 64 Eager (H0, 0) [] sm3_update sm3_finalize (fun _ => ((H0, 0), [])) (Some sm3_codec).
''')

# ---------------------------------------------------------------- MD2
open(D + 'Md2.v', 'w').write('''(** Model of the md2 crate, md2/src/lib.rs. *)
From Verif Require Import Base.Words Base.Bytes Base.Codec Base.BlockBuffer Base.Digest.

''' + table('md2/src/consts.rs', 'S', 'S_', None, 16) + '''
(** ** Md2Core (lib.rs 35-38): [x] (48 bytes) and [checksum] (16 bytes) *)
Definition md2_st := (bytes * bytes)%type.

(** lib.rs 48-51 *)
Definition load_block (x block : bytes) : bytes :=
  fold_left (fun x j =>
    let x := upd x (16 + j) (get block j) in
    upd x (32 + j) (N.lxor (get x (16 + j)) (get x j))) (seq 0 16) x.
(** lib.rs 55-58, one iteration *)
Definition mix_k (st : bytes * N) (k : nat) : bytes * N :=
  let '(x, t) := st in
  let x := upd x k (N.lxor (get x k) (get S_ (N.to_nat t))) in
  (x, get x k).
(** lib.rs 54-60, one iteration *)
Definition mix_j (st : bytes * N) (j : nat) : bytes * N :=
  let '(x, t) := fold_left mix_k (seq 0 48) st in
  (x, wadd 8 t (N.of_nat j)).
(** lib.rs 64-67, one iteration *)
Definition check_j (block : bytes) (st : bytes * N) (j : nat) : bytes * N :=
  let '(checksum, l) := st in
  let checksum := upd checksum j (N.lxor (get checksum j) (get S_ (N.to_nat (N.lxor (get block j) l)))) in
  (checksum, get checksum j).
(** lib.rs 46-68 *)
Definition compress (s : md2_st) (block : bytes) : md2_st :=
  let '(x, checksum) := s in
  let x := load_block x block in
  let '(x, _) := fold_left mix_j (seq 0 18) (x, 0) in
  let l := get checksum 15 in
  let '(checksum, _) := fold_left (check_j block) (seq 0 16) (checksum, l) in
  (x, checksum).

(** lib.rs 87-91 *)
Definition md2_update (_ : mode) (s : md2_st) (blocks : list bytes) : option md2_st :=
  Some (fold_left compress blocks s).
(** lib.rs 96-106; [remaining()] is the block size minus the position *)
Definition md2_finalize (_ : mode) (s : md2_st) (buffer : bytes) : option (bytes * md2_st) :=
  let pos := length buffer in
  let rem := N.of_nat (16 - pos) mod 256 in
  let block := pad_with_zeros 16 buffer in
  let block := firstn pos block ++ map (fun _ => rem) (skipn pos block) in
  let s := compress s block in
  let checksum := snd s in
  let s := compress s checksum in
  Some (firstn 16 (fst s), s).
(** lib.rs 156-173 *)
Definition md2_codec : codec md2_st :=
  mkCodec 64 (fun s => fst s ++ snd s) (fun b => Some (firstn 48 b, skipn 48 b)).
(** lib.rs 41; 109-124 [Default], [Reset] *)
Definition Md2 : core :=
  mkCore md2_st 16 Eager (zeros 48, zeros 16) [] md2_update md2_finalize
    (fun _ => ((zeros 48, zeros 16), [])) (Some md2_codec).
''')
