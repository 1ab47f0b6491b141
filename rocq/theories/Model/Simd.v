(** The vector instructions used by the x86, AArch64 and WebAssembly back ends
    of the sha1 and sha2 crates.  A 128-bit register is seen as four 32-bit
    lanes ([v4]) or two 64-bit lanes ([v2]), lane 0 (the least significant)
    first; a 256-bit register is a pair of 128-bit halves, the low half first.
    Byte-wise instructions act on the little-endian bytes of the lanes.  The
    instructions are defined from the manuals cited at each section; none of
    this code is in /repo. *)
From Verif Require Import Base.Words Base.Bytes Base.Codec.

Definition v4 := (N * N * N * N)%type.
Definition v2 := (N * N)%type.
Definition v4_of_list (l : list N) : v4 := (get l 0, get l 1, get l 2, get l 3).
Definition v2_of_list (l : list N) : v2 := (get l 0, get l 1).
Definition list_of_v4 (v : v4) : list N := let '(a, b, c, d) := v in [a; b; c; d].
Definition list_of_v2 (v : v2) : list N := let '(a, b) := v in [a; b].
Definition v4_bytes (v : v4) : bytes := words_to_le 4 (list_of_v4 v).
Definition v4_of_bytes (b : bytes) : v4 := v4_of_list (words_of_le 4 b).
Definition v2_bytes (v : v2) : bytes := words_to_le 8 (list_of_v2 v).
Definition v2_of_bytes (b : bytes) : v2 := v2_of_list (words_of_le 8 b).

(** Lane-wise operations, the same on the three architectures:
    [_mm_add_epi32], [vaddq_u32], [u32x4_add]/[i32x4_add]; [_mm_xor_si128],
    [v128_xor]; [u32x4_shr], [u32x4_shl]; the 64-bit [_mm_add_epi64],
    [vaddq_u64], [i64x2_add]; [_mm_srli_epi64], [u64x2_shr]; [_mm_slli_epi64],
    [u64x2_shl].  All shift counts used are below the lane width. *)
Definition map4 (f : N -> N) (a : v4) : v4 := let '(a0, a1, a2, a3) := a in (f a0, f a1, f a2, f a3).
Definition zip4 (f : N -> N -> N) (a b : v4) : v4 :=
  let '(a0, a1, a2, a3) := a in let '(b0, b1, b2, b3) := b in (f a0 b0, f a1 b1, f a2 b2, f a3 b3).
Definition add4 : v4 -> v4 -> v4 := zip4 add32.
Definition xor4 : v4 -> v4 -> v4 := zip4 N.lxor.
Definition shr4 (a : v4) (n : N) : v4 := map4 (fun x => N.shiftr x n) a.
Definition shl4 (a : v4) (n : N) : v4 := map4 (fun x => wshl 32 x n) a.
Definition map2 (f : N -> N) (a : v2) : v2 := let '(a0, a1) := a in (f a0, f a1).
Definition zip2 (f : N -> N -> N) (a b : v2) : v2 := let '(a0, a1) := a in let '(b0, b1) := b in (f a0 b0, f a1 b1).
Definition add2 : v2 -> v2 -> v2 := zip2 add64.
Definition xor2 : v2 -> v2 -> v2 := zip2 N.lxor.
Definition shr2 (a : v2) (n : N) : v2 := map2 (fun x => N.shiftr x n) a.
Definition shl2 (a : v2) (n : N) : v2 := map2 (fun x => wshl 64 x n) a.

(** Sixteen bytes of memory at offset [16 i]. *)
Definition mem16 (i : nat) (mem : bytes) : bytes := firstn 16 (skipn (16 * i) mem).

(** ** x86: Intel 64 and IA-32 Architectures Software Developer's Manual, volume 2 *)
(** PSHUFB *)
Definition pshufb (a mask : bytes) : bytes :=
  map (fun m => if N.testbit m 7 then 0 else get a (N.to_nat (m mod 16))) mask.
(** PALIGNR: [a] above [b], shifted right by [n] bytes *)
Definition palignr (a b : bytes) (n : nat) : bytes := firstn 16 (skipn n (b ++ a)).
(** PBLENDW *)
Definition pblendw (a b : bytes) (imm : N) : bytes :=
  concat (map (fun j => firstn 2 (skipn (2 * j) (if N.testbit imm (N.of_nat j) then b else a))) (seq 0 8)).
Definition shuffle_epi8_4 (a : v4) (mask : bytes) : v4 := v4_of_bytes (pshufb (v4_bytes a) mask).
Definition shuffle_epi8_2 (a : v2) (mask : bytes) : v2 := v2_of_bytes (pshufb (v2_bytes a) mask).
Definition alignr_epi8_4 (a b : v4) (n : nat) : v4 := v4_of_bytes (palignr (v4_bytes a) (v4_bytes b) n).
Definition alignr_epi8_2 (a b : v2) (n : nat) : v2 := v2_of_bytes (palignr (v2_bytes a) (v2_bytes b) n).
Definition blend_epi16 (a b : v4) (imm : N) : v4 := v4_of_bytes (pblendw (v4_bytes a) (v4_bytes b) imm).
(** PSHUFD *)
Definition shuffle_epi32 (a : v4) (imm : N) : v4 :=
  let l := list_of_v4 a in
  let pick j := get l (N.to_nat (N.land (N.shiftr imm (2 * j)) 3)) in
  (pick 0, pick 1, pick 2, pick 3).
(** [_mm_set_epi64x(e1, e0)], [_mm_set_epi32(e3, e2, e1, e0)], [_mm_setr_epi32] as bytes *)
Definition set_epi64x (e1 e0 : N) : bytes := le_bytes 8 e0 ++ le_bytes 8 e1.
Definition set_epi32 (e3 e2 e1 e0 : N) : v4 := (e0, e1, e2, e3).
Definition setr_epi32 (e0 e1 e2 e3 : N) : bytes := le_bytes 4 e0 ++ le_bytes 4 e1 ++ le_bytes 4 e2 ++ le_bytes 4 e3.

Definition i_Ch (e f g : N) : N := N.lxor (N.land e f) (N.land (not32 e) g).
Definition i_Maj (a b c : N) : N := N.lxor (N.lxor (N.land a b) (N.land a c)) (N.land b c).
Definition i_S0 (a : N) : N := N.lxor (N.lxor (rotr32 a 2) (rotr32 a 13)) (rotr32 a 22).
Definition i_S1 (e : N) : N := N.lxor (N.lxor (rotr32 e 6) (rotr32 e 11)) (rotr32 e 25).
Definition i_s0 (w : N) : N := N.lxor (N.lxor (rotr32 w 7) (rotr32 w 18)) (N.shiftr w 3).
Definition i_s1 (w : N) : N := N.lxor (N.lxor (rotr32 w 17) (rotr32 w 19)) (N.shiftr w 10).
(** SHA256MSG1 *)
Definition sha256msg1 (a b : v4) : v4 :=
  let '(w0, w1, w2, w3) := a in
  let '(w4, _, _, _) := b in
  (add32 w0 (i_s0 w1), add32 w1 (i_s0 w2), add32 w2 (i_s0 w3), add32 w3 (i_s0 w4)).
(** SHA256MSG2 *)
Definition sha256msg2 (a b : v4) : v4 :=
  let '(x0, x1, x2, x3) := a in
  let '(_, _, w14, w15) := b in
  let w16 := add32 x0 (i_s1 w14) in
  let w17 := add32 x1 (i_s1 w15) in
  let w18 := add32 x2 (i_s1 w16) in
  let w19 := add32 x3 (i_s1 w17) in
  (w16, w17, w18, w19).
(** SHA256RNDS2, first operand C D G H, second operand A B E F (from the top) *)
Definition rnds2_step (v : N * N * N * N * N * N * N * N) (wk : N) :=
  let '(a, b, c, d, e, f, g, h) := v in
  (add32 (add32 (add32 (add32 (add32 (i_Ch e f g) (i_S1 e)) wk) h) (i_Maj a b c)) (i_S0 a), a, b, c,
   add32 (add32 (add32 (add32 (i_Ch e f g) (i_S1 e)) wk) h) d, e, f, g).
Definition sha256rnds2 (a b k : v4) : v4 :=
  let '(h0, g0, d0, c0) := a in
  let '(f0, e0, b0, a0) := b in
  let '(wk0, wk1, _, _) := k in
  let '(a2, b2, _, _, e2, f2, _, _) := rnds2_step (rnds2_step (a0, b0, c0, d0, e0, f0, g0, h0) wk0) wk1 in
  (f2, e2, b2, a2).
(** SHA1NEXTE *)
Definition sha1nexte (a b : v4) : v4 :=
  let '(_, _, _, a3) := a in
  let '(b0, b1, b2, b3) := b in
  (b0, b1, b2, add32 b3 (rotl32 a3 30)).
(** SHA1MSG1 *)
Definition sha1msg1 (a b : v4) : v4 :=
  let '(w3, w2, w1, w0) := a in
  let '(_, _, w5, w4) := b in
  (N.lxor w5 w3, N.lxor w4 w2, N.lxor w3 w1, N.lxor w2 w0).
(** SHA1MSG2 *)
Definition sha1msg2 (a b : v4) : v4 :=
  let '(a0, a1, a2, a3) := a in
  let '(w15, w14, w13, _) := b in
  let w16 := rotl32 (N.lxor a3 w13) 1 in
  let w17 := rotl32 (N.lxor a2 w14) 1 in
  let w18 := rotl32 (N.lxor a1 w15) 1 in
  let w19 := rotl32 (N.lxor a0 w16) 1 in
  (w19, w18, w17, w16).
(** SHA1RNDS4 *)
Definition sha1rnds4_f (func : nat) : (N -> N -> N -> N) * N :=
  match func with
  | 0%nat => (i_Ch, 0x5A827999)
  | 1%nat => (fun b c d => N.lxor (N.lxor b c) d, 0x6ED9EBA1)
  | 2%nat => (i_Maj, 0x8F1BBCDC)
  | _ => (fun b c d => N.lxor (N.lxor b c) d, 0xCA62C1D6)
  end.
Definition sha1rnds4 (x y : v4) (func : nat) : v4 :=
  let '(f, k) := sha1rnds4_f func in
  let '(d, c, b, a) := x in
  let '(w3, w2, w1, w0) := y in
  let '(a1, b1, c1, d1, e1) := (add32 (add32 (add32 (f b c d) (rotl32 a 5)) w0) k, a, rotl32 b 30, c, d) in
  let step v w := let '(a, b, c, d, e) := v in
    (add32 (add32 (add32 (add32 (f b c d) (rotl32 a 5)) w) e) k, a, rotl32 b 30, c, d) in
  let '(a4, b4, c4, d4, _) := step (step (step (a1, b1, c1, d1, e1) w1) w2) w3 in
  (d4, c4, b4, a4).

(** ** AArch64: Arm Architecture Reference Manual for A-profile, C7 and the
    shared pseudocode of the SHA instructions *)
(** REV32, REV64 on bytes *)
Definition vrev32 (b : bytes) : bytes := concat (map (@rev N) (chunks 4 b)).
Definition vrev64 (b : bytes) : bytes := concat (map (@rev N) (chunks 8 b)).
(** EXT by one 64-bit element *)
Definition vext1 (n m : v2) : v2 := (snd n, fst m).
Definition SHAchoose (x y z : N) : N := N.lxor (N.land (N.lxor y z) x) z.
Definition SHAmajority (x y z : N) : N := N.lor (N.land x y) (N.land (N.lor x y) z).
Definition SHAparity (x y z : N) : N := N.lxor (N.lxor x y) z.
(** SHA256hash: one pass of its loop, then SHA256H and SHA256H2 *)
Definition sha256hash_step (xy : v4 * v4) (w : N) : v4 * v4 :=
  let '((x0, x1, x2, x3), (y0, y1, y2, y3)) := xy in
  let t := add32 (add32 (add32 y3 (i_S1 y0)) (SHAchoose y0 y1 y2)) w in
  let x3' := add32 t x3 in
  let y3' := add32 (add32 t (i_S0 x0)) (SHAmajority x0 x1 x2) in
  ((y3', x0, x1, x2), (x3', y0, y1, y2)).
Definition sha256hash (x y w : v4) : v4 * v4 := fold_left sha256hash_step (list_of_v4 w) (x, y).
Definition vsha256h (hash_abcd hash_efgh wk : v4) : v4 := fst (sha256hash hash_abcd hash_efgh wk).
Definition vsha256h2 (hash_efgh hash_abcd wk : v4) : v4 := snd (sha256hash hash_abcd hash_efgh wk).
(** SHA256SU0, SHA256SU1 *)
Definition vsha256su0 (d n : v4) : v4 :=
  let '(d0, d1, d2, d3) := d in
  let '(n0, _, _, _) := n in
  (add32 (i_s0 d1) d0, add32 (i_s0 d2) d1, add32 (i_s0 d3) d2, add32 (i_s0 n0) d3).
Definition vsha256su1 (d n m : v4) : v4 :=
  let '(d0, d1, d2, d3) := d in
  let '(_, n1, n2, n3) := n in
  let '(m0, _, m2, m3) := m in
  let r0 := add32 (add32 (i_s1 m2) d0) n1 in
  let r1 := add32 (add32 (i_s1 m3) d1) n2 in
  let r2 := add32 (add32 (i_s1 r0) d2) n3 in
  let r3 := add32 (add32 (i_s1 r1) d3) m0 in
  (r0, r1, r2, r3).
(** SHA512H, SHA512H2, SHA512SU0, SHA512SU1: [d] is the destination register *)
Definition a_S1 (x : N) : N := N.lxor (N.lxor (rotr64 x 14) (rotr64 x 18)) (rotr64 x 41).
Definition a_S0 (x : N) : N := N.lxor (N.lxor (rotr64 x 28) (rotr64 x 34)) (rotr64 x 39).
Definition a_s0 (x : N) : N := N.lxor (N.lxor (rotr64 x 1) (rotr64 x 8)) (N.shiftr x 7).
Definition a_s1 (x : N) : N := N.lxor (N.lxor (rotr64 x 19) (rotr64 x 61)) (N.shiftr x 6).
Definition vsha512h (d n m : v2) : v2 :=
  let '(w0, w1) := d in let '(x0, x1) := n in let '(y0, y1) := m in
  let hi := N.lxor (N.land y1 x0) (N.land (not64 y1) x1) in
  let hi := add64 (add64 hi (a_S1 y1)) w1 in
  let tmp := add64 hi y0 in
  let lo := N.lxor (N.land tmp y1) (N.land (not64 tmp) x0) in
  let lo := add64 (add64 lo (a_S1 tmp)) w0 in
  (lo, hi).
Definition vsha512h2 (d n m : v2) : v2 :=
  let '(w0, w1) := d in let '(x0, _) := n in let '(y0, y1) := m in
  let hi := N.lxor (N.lxor (N.land x0 y1) (N.land x0 y0)) (N.land y1 y0) in
  let hi := add64 (add64 hi (a_S0 y0)) w1 in
  let lo := N.lxor (N.lxor (N.land hi y0) (N.land hi y1)) (N.land y1 y0) in
  let lo := add64 (add64 lo (a_S0 hi)) w0 in
  (lo, hi).
Definition vsha512su0 (d n : v2) : v2 :=
  let '(w0, w1) := d in let '(x0, _) := n in
  (add64 w0 (a_s0 w1), add64 w1 (a_s0 x0)).
Definition vsha512su1 (d n m : v2) : v2 :=
  let '(w0, w1) := d in let '(x0, x1) := n in let '(y0, y1) := m in
  (add64 (add64 w0 (a_s1 x0)) y0, add64 (add64 w1 (a_s1 x1)) y1).
(** SHA1C, SHA1P, SHA1M: one pass of the loop, then four; SHA1H, SHA1SU0, SHA1SU1 *)
Definition sha1_step (f : N -> N -> N -> N) (xy : v4 * N) (w : N) : v4 * N :=
  let '((x0, x1, x2, x3), y) := xy in
  let t := f x1 x2 x3 in
  let y := add32 (add32 (add32 y (rotl32 x0 5)) t) w in
  let x1 := rotl32 x1 30 in
  ((y, x0, x1, x2), x3).
Definition sha1_hash (f : N -> N -> N -> N) (abcd : v4) (e : N) (wk : v4) : v4 :=
  fst (fold_left (sha1_step f) (list_of_v4 wk) (abcd, e)).
Definition vsha1c := sha1_hash SHAchoose.
Definition vsha1p := sha1_hash SHAparity.
Definition vsha1m := sha1_hash SHAmajority.
Definition vsha1h (e : N) : N := rotl32 e 30.
Definition vsha1su0 (d n m : v4) : v4 :=
  let '(d0, d1, d2, d3) := d in let '(n0, n1, _, _) := n in
  xor4 (xor4 (d2, d3, n0, n1) d) m.
Definition vsha1su1 (d n : v4) : v4 :=
  let '(n0, n1, n2, n3) := n in
  let '(t0, t1, t2, t3) := xor4 d (n1, n2, n3, 0) in
  (rotl32 t0 1, rotl32 t1 1, rotl32 t2 1, N.lxor (rotl32 t3 1) (rotl32 t0 2)).

(** ** WebAssembly: Core Specification, SIMD instructions *)
(** [i8x16.shuffle] and the lane shuffles the Rust intrinsics derive from it:
    indices count through the first operand and then the second *)
Definition i8x16_shuffle (idx : list nat) (a b : bytes) : bytes := map (get (a ++ b)) idx.
Definition u32x4_shuffle (i0 i1 i2 i3 : nat) (a b : v4) : v4 :=
  let l := list_of_v4 a ++ list_of_v4 b in (get l i0, get l i1, get l i2, get l i3).
Definition u64x2_shuffle (i0 i1 : nat) (a b : v2) : v2 :=
  let l := list_of_v2 a ++ list_of_v2 b in (get l i0, get l i1).
(** [i64x2.shr_u] on a register held as four 32-bit lanes *)
Definition u64x2_shr_4 (a : v4) (n : N) : v4 :=
  let '(a0, a1, a2, a3) := a in
  let p := N.shiftr (a0 + 2 ^ 32 * a1) n in
  let q := N.shiftr (a2 + 2 ^ 32 * a3) n in
  (p mod 2 ^ 32, p / 2 ^ 32, q mod 2 ^ 32, q / 2 ^ 32).
