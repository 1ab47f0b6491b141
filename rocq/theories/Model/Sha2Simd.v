(** Model of the x86, AArch64 and WebAssembly back ends of the sha2 crate.
    References: ni = sha2/src/sha256/x86_shani.rs, arm256 =
    sha2/src/sha256/aarch64.rs, wasm256 = sha2/src/sha256/wasm32.rs, avx =
    sha2/src/sha512/x86_avx2.rs, arm512 = sha2/src/sha512/aarch64.rs, wasm512 =
    sha2/src/sha512/wasm32.rs. *)
From Verif Require Import Base.Words Base.Bytes Base.Codec Model.Sha2Consts Model.Simd.

(** * x86 SHA-NI, SHA-256 *)
(** sha2/src/consts.rs 73-81 *)
Definition K32X4 : list (list N) :=
  map (fun i => [get K32 (4 * i + 3); get K32 (4 * i + 2); get K32 (4 * i + 1); get K32 (4 * i)]) (seq 0 16).
(** ni 10-15 *)
Definition ni_schedule (v0 v1 v2 v3 : v4) : v4 :=
  let t1 := sha256msg1 v0 v1 in
  let t2 := alignr_epi8_4 v3 v2 4 in
  let t3 := add4 t1 t2 in
  sha256msg2 t3 v3.
(** ni 17-26; returns the assigned [abef] and [cdgh] *)
Definition ni_rounds4 (abef cdgh rest : v4) (i : nat) : v4 * v4 :=
  let k := nth i K32X4 [] in
  let kv := set_epi32 (get k 0) (get k 1) (get k 2) (get k 3) in
  let t1 := add4 rest kv in
  let cdgh := sha256rnds2 cdgh abef t1 in
  let t2 := shuffle_epi32 t1 0x0E in
  let abef := sha256rnds2 abef cdgh t2 in
  (abef, cdgh).
(** ni 28-37 *)
Definition ni_schedule_rounds4 (abef cdgh w0 w1 w2 w3 : v4) (i : nat) : v4 * v4 * v4 :=
  let w4 := ni_schedule w0 w1 w2 w3 in
  let '(abef, cdgh) := ni_rounds4 abef cdgh w4 i in
  (abef, cdgh, w4).
(** ni 44-47 *)
Definition ni_mask : bytes := set_epi64x 0x0C0D0E0F08090A0B 0x0405060700010203.
(** ni 59-87 *)
Definition ni_block (abef cdgh : v4) (block : bytes) : v4 * v4 :=
  let abef_save := abef in
  let cdgh_save := cdgh in
  let w0 := shuffle_epi8_4 (v4_of_bytes (mem16 0 block)) ni_mask in
  let w1 := shuffle_epi8_4 (v4_of_bytes (mem16 1 block)) ni_mask in
  let w2 := shuffle_epi8_4 (v4_of_bytes (mem16 2 block)) ni_mask in
  let w3 := shuffle_epi8_4 (v4_of_bytes (mem16 3 block)) ni_mask in
  let '(abef, cdgh) := ni_rounds4 abef cdgh w0 0 in
  let '(abef, cdgh) := ni_rounds4 abef cdgh w1 1 in
  let '(abef, cdgh) := ni_rounds4 abef cdgh w2 2 in
  let '(abef, cdgh) := ni_rounds4 abef cdgh w3 3 in
  let '(abef, cdgh, w4) := ni_schedule_rounds4 abef cdgh w0 w1 w2 w3 4 in
  let '(abef, cdgh, w0) := ni_schedule_rounds4 abef cdgh w1 w2 w3 w4 5 in
  let '(abef, cdgh, w1) := ni_schedule_rounds4 abef cdgh w2 w3 w4 w0 6 in
  let '(abef, cdgh, w2) := ni_schedule_rounds4 abef cdgh w3 w4 w0 w1 7 in
  let '(abef, cdgh, w3) := ni_schedule_rounds4 abef cdgh w4 w0 w1 w2 8 in
  let '(abef, cdgh, w4) := ni_schedule_rounds4 abef cdgh w0 w1 w2 w3 9 in
  let '(abef, cdgh, w0) := ni_schedule_rounds4 abef cdgh w1 w2 w3 w4 10 in
  let '(abef, cdgh, w1) := ni_schedule_rounds4 abef cdgh w2 w3 w4 w0 11 in
  let '(abef, cdgh, w2) := ni_schedule_rounds4 abef cdgh w3 w4 w0 w1 12 in
  let '(abef, cdgh, w3) := ni_schedule_rounds4 abef cdgh w4 w0 w1 w2 13 in
  let '(abef, cdgh, w4) := ni_schedule_rounds4 abef cdgh w0 w1 w2 w3 14 in
  let '(abef, cdgh, w0) := ni_schedule_rounds4 abef cdgh w1 w2 w3 w4 15 in
  (add4 abef abef_save, add4 cdgh cdgh_save).
(** ni 42-98 *)
Definition sha256_shani (state : list N) (blocks : list bytes) : list N :=
  let dcba := v4_of_list (firstn 4 state) in
  let efgh := v4_of_list (skipn 4 state) in
  let cdab := shuffle_epi32 dcba 0xB1 in
  let efgh := shuffle_epi32 efgh 0x1B in
  let abef := alignr_epi8_4 cdab efgh 8 in
  let cdgh := blend_epi16 efgh cdab 0xF0 in
  let '(abef, cdgh) := fold_left (fun s block => ni_block (fst s) (snd s) block) blocks (abef, cdgh) in
  let feba := shuffle_epi32 abef 0x1B in
  let dchg := shuffle_epi32 cdgh 0xB1 in
  let dcba := blend_epi16 feba dchg 0xF0 in
  let hgef := alignr_epi8_4 dchg feba 8 in
  list_of_v4 dcba ++ list_of_v4 hgef.

(** * AArch64, SHA-256 *)
(** [vld1q_u32(&K32[t])]: the code passes a pointer to the element; the load
    reads the four from there on *)
Definition ld_k32 (t : nat) : v4 := v4_of_list (firstn 4 (skipn t K32)).
(** arm256 37-40 *)
Definition arm_load32 (i : nat) (block : bytes) : v4 := v4_of_bytes (vrev32 (mem16 i block)).
(** arm256 43-46 and each later group: four rounds *)
Definition arm_rounds4 (abcd efgh s : v4) (t : nat) : v4 * v4 :=
  let tmp := add4 s (ld_k32 t) in
  let abcd_prev := abcd in
  let abcd := vsha256h abcd_prev efgh tmp in
  let efgh := vsha256h2 efgh abcd_prev tmp in
  (abcd, efgh).
(** arm256 66-94, one pass of the loop *)
Definition arm_loop (st : v4 * v4 * v4 * v4 * v4 * v4) (t : nat) : v4 * v4 * v4 * v4 * v4 * v4 :=
  let '(abcd, efgh, s0, s1, s2, s3) := st in
  let s0 := vsha256su1 (vsha256su0 s0 s1) s2 s3 in
  let '(abcd, efgh) := arm_rounds4 abcd efgh s0 t in
  let s1 := vsha256su1 (vsha256su0 s1 s2) s3 s0 in
  let '(abcd, efgh) := arm_rounds4 abcd efgh s1 (t + 4) in
  let s2 := vsha256su1 (vsha256su0 s2 s3) s0 s1 in
  let '(abcd, efgh) := arm_rounds4 abcd efgh s2 (t + 8) in
  let s3 := vsha256su1 (vsha256su0 s3 s0) s1 s2 in
  let '(abcd, efgh) := arm_rounds4 abcd efgh s3 (t + 12) in
  (abcd, efgh, s0, s1, s2, s3).
(** arm256 32-98 *)
Definition arm256_block (st : v4 * v4) (block : bytes) : v4 * v4 :=
  let '(abcd, efgh) := st in
  let abcd_orig := abcd in
  let efgh_orig := efgh in
  let s0 := arm_load32 0 block in
  let s1 := arm_load32 1 block in
  let s2 := arm_load32 2 block in
  let s3 := arm_load32 3 block in
  let '(abcd, efgh) := arm_rounds4 abcd efgh s0 0 in
  let '(abcd, efgh) := arm_rounds4 abcd efgh s1 4 in
  let '(abcd, efgh) := arm_rounds4 abcd efgh s2 8 in
  let '(abcd, efgh) := arm_rounds4 abcd efgh s3 12 in
  let '(abcd, efgh, _, _, _, _) := fold_left arm_loop [16; 32; 48]%nat (abcd, efgh, s0, s1, s2, s3) in
  (add4 abcd abcd_orig, add4 efgh efgh_orig).
(** arm256 23-104 *)
Definition sha256_arm (state : list N) (blocks : list bytes) : list N :=
  let '(abcd, efgh) := fold_left arm256_block blocks (v4_of_list (firstn 4 state), v4_of_list (skipn 4 state)) in
  list_of_v4 abcd ++ list_of_v4 efgh.

(** * The scalar round shared by the wasm and AVX2 files (the text is the same
    up to the word type and rotation amounts) *)
Section Scalar.
  Variable w : N.
  Variables big_sigma0 big_sigma1 : N -> N.
  (** wasm256 89-98, wasm512 84-93, avx 201-210 *)
  Definition bool3ary_202 (a b c : N) : N := N.lxor c (N.land a (N.lxor b c)).
  Definition bool3ary_232 (a b c : N) : N := N.lxor (N.lxor (N.land a b) (N.land a c)) (N.land b c).
  (** wasm256 100-112, wasm512 95-107, avx 212-224 *)
  Definition rotate_state (s : list N) : list N :=
    [get s 7; get s 0; get s 1; get s 2; get s 3; get s 4; get s 5; get s 6].
  (** wasm256 78-125, wasm512 73-120, avx 190-237 *)
  Definition sha_round (s : list N) (x : N) : list N :=
    let t := wadd w (wadd w (wadd w x (get s 7)) (big_sigma1 (get s 4))) (bool3ary_202 (get s 4) (get s 5) (get s 6)) in
    let s := upd s 7 (wadd w (wadd w t (big_sigma0 (get s 0))) (bool3ary_232 (get s 0) (get s 1) (get s 2))) in
    let s := upd s 3 (wadd w (get s 3) t) in
    rotate_state s.
  (** wasm256 128-132, wasm512 123-127, avx 240-244 *)
  Definition accumulate_state (dst src : list N) : list N :=
    map (fun i => wadd w (get dst i) (get src i)) (seq 0 8).
End Scalar.
(** wasm256 79-88 *)
Definition bs0_32 (a : N) : N := N.lxor (N.lxor (rotr32 a 2) (rotr32 a 13)) (rotr32 a 22).
Definition bs1_32 (a : N) : N := N.lxor (N.lxor (rotr32 a 6) (rotr32 a 11)) (rotr32 a 25).
(** wasm512 74-83, avx 191-200 *)
Definition bs0_64 (a : N) : N := N.lxor (N.lxor (rotr64 a 28) (rotr64 a 34)) (rotr64 a 39).
Definition bs1_64 (a : N) : N := N.lxor (N.lxor (rotr64 a 14) (rotr64 a 18)) (rotr64 a 41).
Definition sha_round32 := sha_round 32 bs0_32 bs1_32.
Definition sha_round64 := sha_round 64 bs0_64 bs1_64.

(** * WebAssembly, SHA-256.  [x] and [ms] are lists of four registers. *)
Definition z4 : v4 := (0, 0, 0, 0).
Definition nth4 (l : list v4) (i : nat) : v4 := nth i l z4.
(** wasm256 25-41 *)
Definition wasm256_load (block : bytes) : list v4 * list v4 :=
  let x := map (fun i => v4_of_bytes (i8x16_shuffle [3;2;1;0;7;6;5;4;11;10;9;8;15;14;13;12]%nat (mem16 i block) (mem16 i block))) (seq 0 4) in
  let ms := map (fun i => add4 (nth4 x i) (ld_k32 (4 * i))) (seq 0 4) in
  (x, ms).
(** wasm256 135-182 *)
Definition sha256_update_x (x : list v4) (k32 : v4) : list v4 * v4 :=
  let x0 := nth4 x 0 in let x1 := nth4 x 1 in let x2 := nth4 x 2 in let x3 := nth4 x 3 in
  let t0 := u32x4_shuffle 1 2 3 4 x0 x1 in
  let t3 := u32x4_shuffle 1 2 3 4 x2 x3 in
  let t2 := shr4 t0 7 in
  let x0 := add4 x0 t3 in
  let t3 := shr4 t0 3 in
  let t1 := shl4 t0 (32 - 18) in
  let t0 := xor4 t3 t2 in
  let t3 := u32x4_shuffle 2 2 3 3 x3 x3 in
  let t2 := shr4 t2 (18 - 7) in
  let t0 := xor4 t0 t1 in
  let t0 := xor4 t0 t2 in
  let t1 := shl4 t1 (18 - 7) in
  let t2 := shr4 t3 10 in
  let t3 := u64x2_shr_4 t3 17 in
  let t1 := xor4 t0 t1 in
  let x0 := add4 x0 t1 in
  let t2 := xor4 t2 t3 in
  let t3 := u64x2_shr_4 t3 (19 - 17) in
  let t2 := xor4 t2 t3 in
  let t2 := u32x4_shuffle 0 2 7 7 t2 z4 in
  let x0 := add4 x0 t2 in
  let t3 := u32x4_shuffle 0 0 1 1 x0 x0 in
  let t2 := shr4 t3 10 in
  let t3 := u64x2_shr_4 t3 17 in
  let t2 := xor4 t2 t3 in
  let t3 := u64x2_shr_4 t3 (19 - 17) in
  let t2 := xor4 t2 t3 in
  let t2 := u32x4_shuffle 7 7 0 2 t2 z4 in
  let x0 := add4 x0 t2 in
  ([x1; x2; x3; x0], add4 x0 k32).
Definition wasm256_rounds_ms (s : list N) (ms : v4) : list N := fold_left sha_round32 (list_of_v4 ms) s.
(** wasm256 44-64: [n] counts the twelve passes of the two loops, j = n mod 4,
    k32_idx = 16 + 4 n *)
Definition wasm256_step (st : list N * list v4 * list v4) (n : nat) : list N * list v4 * list v4 :=
  let '(s, x, ms) := st in
  let '(x, y) := sha256_update_x x (ld_k32 (16 + 4 * n)) in
  let j := (n mod 4)%nat in
  let s := wasm256_rounds_ms s (nth4 ms j) in
  (s, x, upd ms j y).
(** wasm256 13-21, 66-75 *)
Definition wasm256_block (state : list N) (block : bytes) : list N :=
  let '(x, ms) := wasm256_load block in
  let '(s, _, ms) := fold_left wasm256_step (seq 0 12) (state, x, ms) in
  let s := fold_left wasm256_rounds_ms (map (nth4 ms) (seq 0 4)) s in
  accumulate_state 32 state s.
(** wasm256 7-22; [ms] and [x] are fully rewritten by [load_data] *)
Definition sha256_wasm (state : list N) (blocks : list bytes) : list N := fold_left wasm256_block blocks state.

(** * SHA-512 with 64-bit lanes: the AVX2 and WebAssembly files *)
(** two constants from K64[t] *)
Definition ld_k64 (t : nat) : v2 := v2_of_list (firstn 2 (skipn t K64)).
Section Update.
  Variable V : Type.
  Variable z : V.
  Variables ADD64 XOR : V -> V -> V.
  Variable ALIGNR8 : V -> V -> V.   (* the shift count is 8 in both uses *)
  Variables SRL64 SLL64 : V -> N -> V.
  (** avx 246-321 and wasm512 130-164 *)
  Definition sha512_update_x (x : list V) (k64 : V) : list V * V :=
    let x0 := nth 0 x z in let x1 := nth 1 x z in let x2 := nth 2 x z in let x3 := nth 3 x z in
    let x4 := nth 4 x z in let x5 := nth 5 x z in let x6 := nth 6 x z in let x7 := nth 7 x z in
    let t0 := ALIGNR8 x1 x0 in
    let t3 := ALIGNR8 x5 x4 in
    let t2 := SRL64 t0 1 in
    let x0 := ADD64 x0 t3 in
    let t3 := SRL64 t0 7 in
    let t1 := SLL64 t0 (64 - 8) in
    let t0 := XOR t3 t2 in
    let t2 := SRL64 t2 (8 - 1) in
    let t0 := XOR t0 t1 in
    let t1 := SLL64 t1 (8 - 1) in
    let t0 := XOR t0 t2 in
    let t0 := XOR t0 t1 in
    let t3 := SRL64 x7 6 in
    let t2 := SLL64 x7 (64 - 61) in
    let x0 := ADD64 x0 t0 in
    let t1 := SRL64 x7 19 in
    let t3 := XOR t3 t2 in
    let t2 := SLL64 t2 (61 - 19) in
    let t3 := XOR t3 t1 in
    let t1 := SRL64 t1 (61 - 19) in
    let t3 := XOR t3 t2 in
    let t3 := XOR t3 t1 in
    let x0 := ADD64 x0 t3 in
    ([x1; x2; x3; x4; x5; x6; x7; x0], ADD64 x0 k64).
End Update.
Definition z2 : v2 := (0, 0).
(** wasm512 130-164; [u64x2_shuffle::<1, 2>(a, b)] takes lane 1 of [a] and lane 0 of [b] *)
Definition wasm_update_x := sha512_update_x v2 z2 add2 xor2 (fun b a => u64x2_shuffle 1 2 a b) shr2 shl2.
(** avx 323-329 *)
Definition avx_update_x := sha512_update_x v2 z2 add2 xor2 (fun a b => alignr_epi8_2 a b 8) shr2 shl2.
(** avx 331-337: the 256-bit operations act on each 128-bit half *)
Definition v22 := (v2 * v2)%type.
Definition both (f : v2 -> v2 -> v2) (a b : v22) : v22 := (f (fst a) (fst b), f (snd a) (snd b)).
Definition avx2_update_x := sha512_update_x v22 (z2, z2) (both add2) (both xor2)
  (both (fun a b => alignr_epi8_2 a b 8)) (fun a n => (shr2 (fst a) n, shr2 (snd a) n)) (fun a n => (shl2 (fst a) n, shl2 (snd a) n)).

Definition nth2 (l : list v2) (i : nat) : v2 := nth i l z2.
Definition rounds_ms64 (s : list N) (ms : v2) : list N := fold_left sha_round64 (list_of_v2 ms) s.
Section Single.
  Variable load : nat -> bytes -> v2.
  Variable update_x : list v2 -> v2 -> list v2 * v2.
  (** wasm512 24-40, avx 71-90 *)
  Definition load_data (block : bytes) : list v2 * list v2 :=
    let x := map (fun i => load i block) (seq 0 8) in
    let ms := map (fun i => add2 (nth2 x i) (ld_k64 (2 * i))) (seq 0 8) in
    (x, ms).
  (** wasm512 43-61, avx 126-144: [n] counts the 32 passes, j = n mod 8, k64_idx = 16 + 2 n *)
  Definition step512 (st : list N * list v2 * list v2) (n : nat) : list N * list v2 * list v2 :=
    let '(s, x, ms) := st in
    let '(x, y) := update_x x (ld_k64 (16 + 2 * n)) in
    let j := (n mod 8)%nat in
    let s := rounds_ms64 s (nth2 ms j) in
    (s, x, upd ms j y).
  (** wasm512 64-70, avx 175-180 ([ms] seen as sixteen words) *)
  Definition rounds_64_79 (s : list N) (ms : list v2) : list N := fold_left rounds_ms64 (map (nth2 ms) (seq 0 8)) s.
  (** wasm512 13-18, avx 58-68 *)
  Definition block512 (state : list N) (block : bytes) : list N :=
    let '(x, ms) := load_data block in
    let '(s, _, ms) := fold_left step512 (seq 0 32) (state, x, ms) in
    accumulate_state 64 state (rounds_64_79 s ms).
End Single.
(** wasm512 27-28 *)
Definition wasm_load64 (i : nat) (block : bytes) : v2 :=
  v2_of_bytes (i8x16_shuffle [7;6;5;4;3;2;1;0;15;14;13;12;11;10;9;8]%nat (mem16 i block) (mem16 i block)).
(** wasm512 8-21 *)
Definition sha512_wasm (state : list N) (blocks : list bytes) : list N :=
  fold_left (block512 wasm_load64 wasm_update_x) blocks state.

(** avx 72-78 *)
Definition avx_load64 (i : nat) (block : bytes) : v2 :=
  shuffle_epi8_2 (v2_of_bytes (mem16 i block)) (setr_epi32 0x04050607 0x00010203 0x0c0d0e0f 0x08090a0b).
(** avx 58-68 *)
Definition avx_block : list N -> bytes -> list N := block512 avx_load64 avx_update_x.
(** avx 100-105: the same sixteen bytes for the low and the high half *)
Definition avx2_mask : bytes := set_epi64x 0x08090A0B0C0D0E0F 0x0001020304050607.
Definition avx2_load64 (i : nat) (data : bytes) : v22 :=
  (shuffle_epi8_2 (v2_of_bytes (mem16 i data)) avx2_mask, shuffle_epi8_2 (v2_of_bytes (mem16 (8 + i) data)) avx2_mask).
(** avx 93-123: returns x, ms, t2[0..8]; [data] are the 256 bytes of two blocks *)
Definition load_data_avx2 (data : bytes) : list v22 * list v2 * list v2 :=
  let x := map (fun i => avx2_load64 i data) (seq 0 8) in
  let y := map (fun i => both add2 (nth i x (z2, z2)) (ld_k64 (i * 2), ld_k64 (i * 2))) (seq 0 8) in
  (x, map fst y, map snd y).
(** avx 147-172: [n] counts the 32 passes; t2[8 i + j] with i from 1 is t2[8 + n],
    so the entries are appended in order *)
Definition step_avx2 (st : list N * list v22 * list v2 * list v2) (n : nat) :=
  let '(s, x, ms, t2) := st in
  let t := ld_k64 (16 + 2 * n) in
  let '(x, y) := avx2_update_x x (t, t) in
  let j := (n mod 8)%nat in
  let s := rounds_ms64 s (nth2 ms j) in
  (s, x, upd ms j (fst y), t2 ++ [snd y]).
(** avx 42-53 *)
Definition avx2_pair (state : list N) (data : bytes) : list N :=
  let '(x, ms, t2) := load_data_avx2 data in
  let '(s, _, ms, t2) := fold_left step_avx2 (seq 0 32) (state, x, ms, t2) in
  let state := accumulate_state 64 state (rounds_64_79 s ms) in
  accumulate_state 64 state (fold_left rounds_ms64 t2 state).
(** avx 41-54: the blocks two at a time; the two are adjacent in memory.  A
    single block left over does not occur: the count is even here. *)
Fixpoint avx2_pairs (state : list N) (blocks : list bytes) {struct blocks} : list N :=
  match blocks with
  | b1 :: b2 :: rest => avx2_pairs (avx2_pair state (b1 ++ b2)) rest
  | _ => state
  end.
(** avx 29-55 *)
Definition sha512_avx2 (state : list N) (blocks : list bytes) : list N :=
  if Nat.odd (length blocks) then
    match blocks with
    | b :: rest => avx2_pairs (avx_block state b) rest
    | [] => state
    end
  else avx2_pairs state blocks.

(** * AArch64, SHA-512 *)
(** arm512 39-46 *)
Definition arm_load64 (i : nat) (block : bytes) : v2 := v2_of_bytes (vrev64 (mem16 i block)).
(** arm512 49-53 and each later group: two rounds.  The variables rotate: the
    group at round 2 uses (gh, ab, cd, ef) where this one uses (ab, cd, ef, gh).
    The function returns the values assigned to the variables called [gh] and
    [cd] here. *)
Definition arm_rounds2 (ab cd ef gh s : v2) (t : nat) : v2 * v2 :=
  let initial_sum := add2 s (ld_k64 t) in
  let sum := add2 (vext1 initial_sum initial_sum) gh in
  let intermed := vsha512h sum (vext1 ef gh) (vext1 cd ef) in
  let gh := vsha512h2 intermed cd ab in
  let cd := add2 cd intermed in
  (gh, cd).
(** arm512 49-102 *)
Definition arm_first8 (st : v2 * v2 * v2 * v2) (m : list v2) : v2 * v2 * v2 * v2 :=
  let '(ab, cd, ef, gh) := st in
  let '(gh, cd) := arm_rounds2 ab cd ef gh (nth2 m 0) 0 in
  let '(ef, ab) := arm_rounds2 gh ab cd ef (nth2 m 1) 2 in
  let '(cd, gh) := arm_rounds2 ef gh ab cd (nth2 m 2) 4 in
  let '(ab, ef) := arm_rounds2 cd ef gh ab (nth2 m 3) 6 in
  let '(gh, cd) := arm_rounds2 ab cd ef gh (nth2 m 4) 8 in
  let '(ef, ab) := arm_rounds2 gh ab cd ef (nth2 m 5) 10 in
  let '(cd, gh) := arm_rounds2 ef gh ab cd (nth2 m 6) 12 in
  let '(ab, ef) := arm_rounds2 cd ef gh ab (nth2 m 7) 14 in
  (ab, cd, ef, gh).
(** arm512 104-168, one pass of the loop *)
Definition arm_pass (st : v2 * v2 * v2 * v2 * list v2) (t : nat) : v2 * v2 * v2 * v2 * list v2 :=
  let '(ab, cd, ef, gh, m) := st in
  let s0 := nth2 m 0 in let s1 := nth2 m 1 in let s2 := nth2 m 2 in let s3 := nth2 m 3 in
  let s4 := nth2 m 4 in let s5 := nth2 m 5 in let s6 := nth2 m 6 in let s7 := nth2 m 7 in
  let s0 := vsha512su1 (vsha512su0 s0 s1) s7 (vext1 s4 s5) in
  let '(gh, cd) := arm_rounds2 ab cd ef gh s0 t in
  let s1 := vsha512su1 (vsha512su0 s1 s2) s0 (vext1 s5 s6) in
  let '(ef, ab) := arm_rounds2 gh ab cd ef s1 (t + 2) in
  let s2 := vsha512su1 (vsha512su0 s2 s3) s1 (vext1 s6 s7) in
  let '(cd, gh) := arm_rounds2 ef gh ab cd s2 (t + 4) in
  let s3 := vsha512su1 (vsha512su0 s3 s4) s2 (vext1 s7 s0) in
  let '(ab, ef) := arm_rounds2 cd ef gh ab s3 (t + 6) in
  let s4 := vsha512su1 (vsha512su0 s4 s5) s3 (vext1 s0 s1) in
  let '(gh, cd) := arm_rounds2 ab cd ef gh s4 (t + 8) in
  let s5 := vsha512su1 (vsha512su0 s5 s6) s4 (vext1 s1 s2) in
  let '(ef, ab) := arm_rounds2 gh ab cd ef s5 (t + 10) in
  let s6 := vsha512su1 (vsha512su0 s6 s7) s5 (vext1 s2 s3) in
  let '(cd, gh) := arm_rounds2 ef gh ab cd s6 (t + 12) in
  let s7 := vsha512su1 (vsha512su0 s7 s0) s6 (vext1 s3 s4) in
  let '(ab, ef) := arm_rounds2 cd ef gh ab s7 (t + 14) in
  (ab, cd, ef, gh, [s0; s1; s2; s3; s4; s5; s6; s7]).
(** arm512 32-174 *)
Definition arm512_block (st : v2 * v2 * v2 * v2) (block : bytes) : v2 * v2 * v2 * v2 :=
  let m := map (fun i => arm_load64 i block) (seq 0 8) in
  let '(ab, cd, ef, gh) := arm_first8 st m in
  let '(ab, cd, ef, gh, _) := fold_left arm_pass [16; 32; 48; 64]%nat (ab, cd, ef, gh, m) in
  let '(ab_orig, cd_orig, ef_orig, gh_orig) := st in
  (add2 ab ab_orig, add2 cd cd_orig, add2 ef ef_orig, add2 gh gh_orig).
(** arm512 21-182 *)
Definition sha512_arm (state : list N) (blocks : list bytes) : list N :=
  let ld i := v2_of_list (firstn 2 (skipn i state)) in
  let '(ab, cd, ef, gh) := fold_left arm512_block blocks (ld 0%nat, ld 2%nat, ld 4%nat, ld 6%nat) in
  list_of_v2 ab ++ list_of_v2 cd ++ list_of_v2 ef ++ list_of_v2 gh.
