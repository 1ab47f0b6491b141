(** The memory accesses that the compression functions make through raw pointers, on a flat memory.  The
    computations between the accesses are those of the other model files.  A state behind a reference that the code
    accesses without raw pointers is read once at the start and written once at the end; the source accesses it
    in between as well, but through an exclusive reference.
    References: soft256, soft512 = sha2/src/sha256/soft.rs, sha2/src/sha512/soft.rs; ni, arm256, wasm256, avx, arm512,
    wasm512 as in Model/Sha2Simd.v; 256u, 256c, 256l, 512u, 512c, 512l as in Model/Sha2Riscv.v; x86, arm as in
    Model/Sha1Simd.v. *)
From Verif Require Import Base.Words Base.Bytes Base.Codec Model.Sha2Consts Model.Simd Model.Sha2Simd Model.Sha1Simd.
From Verif Require Model.LoongCpu Model.Sha256Soft Model.Sha512Soft Model.Sha2Riscv Model.Jh.

(** [f] on the elements of a list, in order *)
Fixpoint traverse {A B} (f : A -> option B) (l : list A) : option (list B) :=
  match l with
  | [] => Some []
  | x :: l => let* y := f x in let* ys := traverse f l in Some (y :: ys)
  end.
(** A loop whose body can fail *)
Definition loop {S A} (f : S -> A -> option S) (l : list A) (s : S) : option S :=
  fold_left (fun acc x => let* s := acc in f s x) l (Some s).

Section Accesses.
  (** [rd] are the ranges (start, length) that may be read, [m] is the memory. *)
  Variables (rd : list (N * N)) (m : N -> N).

  (** A load of [k] bytes that need not be aligned: [_mm_loadu_si128], [v128_load], [vld1q_*], [read_unaligned] *)
  Definition ld (a : N) (k : nat) : option bytes :=
    if Model.LoongCpu.allowed rd a (N.of_nat k) then Some (Model.LoongCpu.bytes_at m a k) else None.
  (** [ptr::read] and [ptr::read_volatile] of a k-byte integer: undefined unless the pointer is aligned *)
  Definition ld_aligned (a : N) (k : nat) : option bytes := if a mod N.of_nat k =? 0 then ld a k else None.
  (** A load instruction in inline assembly that may read bytes outside the ranges.  It does not fault if the address is
      a multiple of the width and one of the bytes is in a range, because protection works on whole pages. *)
  Definition ld_word (a : N) (k : nat) : option bytes :=
    if (a mod N.of_nat k =? 0) && existsb (fun r => (a <? fst r + snd r) && (fst r <? a + N.of_nat k)) rd
    then Some (Model.LoongCpu.bytes_at m a k) else None.

  (** The message block at [p] as [n] vectors: [data.add(i)] *)
  Definition vectors (p : N) (n : nat) : option (list bytes) := traverse (fun i => ld (p + 16 * N.of_nat i) 16) (seq 0 n).

  (** [pk]: the table of round constants *)
  Variable pk : N.
  (** [vld1q_u32(&K32[t])], [v128_load(K32.as_ptr().add(t).cast())] *)
  Definition k32 (t : nat) : option v4 := let* b := ld (pk + 4 * N.of_nat t) 16 in Some (v4_of_bytes b).
  (** [vld1q_u64(&K64[t])], [v128_load], [_mm_loadu_si128(K64.as_ptr().add(t).cast())] *)
  Definition k64 (t : nat) : option v2 := let* b := ld (pk + 8 * N.of_nat t) 16 in Some (v2_of_bytes b).

  (** ** SHA-256 and SHA-1 with the x86 instructions *)
  (** ni 63-67; the constants are read by indexing *)
  Definition ni_block_p (s : v4 * v4) (p : N) : option (v4 * v4) :=
    let* bs := vectors p 4 in Some (ni_block (fst s) (snd s) (concat bs)).
  (** x86 44-49 *)
  Definition ni1_block_p (s : v4 * v4) (p : N) : option (v4 * v4) :=
    let* bs := vectors p 4 in Some (ni1_block s (concat bs)).
  (** arm 28-31; the constants are values *)
  Definition arm1_block_p (s : v4 * N) (p : N) : option (v4 * N) :=
    let* bs := vectors p 4 in Some (arm1_block s (concat bs)).
  (** jh/src/compressor.rs 110-115 and 133-138: the four vectors are read twice *)
  Definition f8_p (s : list N) (p : N) : option (list N) :=
    let* bs := vectors p 4 in
    let* bs' := vectors p 4 in
    Some (Model.Jh.f8_impl s (concat bs)).

  (** ** SHA-256 on AArch64 *)
  (** arm256 43-46 and each later group *)
  Definition arm_rounds4_p (abcd efgh s : v4) (t : nat) : option (v4 * v4) :=
    let* k := k32 t in
    let tmp := add4 s k in
    let abcd_prev := abcd in
    let abcd := vsha256h abcd_prev efgh tmp in
    let efgh := vsha256h2 efgh abcd_prev tmp in
    Some (abcd, efgh).
  (** arm256 66-94 *)
  Definition arm_loop_p (st : v4 * v4 * v4 * v4 * v4 * v4) (t : nat) : option (v4 * v4 * v4 * v4 * v4 * v4) :=
    let '(abcd, efgh, s0, s1, s2, s3) := st in
    let s0 := vsha256su1 (vsha256su0 s0 s1) s2 s3 in
    let* (abcd, efgh) := arm_rounds4_p abcd efgh s0 t in
    let s1 := vsha256su1 (vsha256su0 s1 s2) s3 s0 in
    let* (abcd, efgh) := arm_rounds4_p abcd efgh s1 (t + 4) in
    let s2 := vsha256su1 (vsha256su0 s2 s3) s0 s1 in
    let* (abcd, efgh) := arm_rounds4_p abcd efgh s2 (t + 8) in
    let s3 := vsha256su1 (vsha256su0 s3 s0) s1 s2 in
    let* (abcd, efgh) := arm_rounds4_p abcd efgh s3 (t + 12) in
    Some (abcd, efgh, s0, s1, s2, s3).
  (** arm256 32-98; [block[16 * i..16 * i + 16].as_ptr()] *)
  Definition arm256_block_p (st : v4 * v4) (p : N) : option (v4 * v4) :=
    let '(abcd, efgh) := st in
    let* bs := vectors p 4 in
    let s0 := arm_load32 0 (nth 0 bs []) in
    let s1 := arm_load32 0 (nth 1 bs []) in
    let s2 := arm_load32 0 (nth 2 bs []) in
    let s3 := arm_load32 0 (nth 3 bs []) in
    let* (a, e) := arm_rounds4_p abcd efgh s0 0 in
    let* (a, e) := arm_rounds4_p a e s1 4 in
    let* (a, e) := arm_rounds4_p a e s2 8 in
    let* (a, e) := arm_rounds4_p a e s3 12 in
    let* (a, e, _, _, _, _) := loop arm_loop_p [16; 32; 48]%nat (a, e, s0, s1, s2, s3) in
    Some (add4 a abcd, add4 e efgh).

  (** ** SHA-256 on WebAssembly *)
  (** wasm256 25-41 *)
  Definition wasm256_load_p (p : N) : option (list (v4 * v4)) :=
    traverse (fun i =>
      let* b := ld (p + 16 * N.of_nat i) 16 in
      let x := v4_of_bytes (i8x16_shuffle [3;2;1;0;7;6;5;4;11;10;9;8;15;14;13;12]%nat b b) in
      let* k := k32 (4 * i) in
      Some (x, add4 x k)) (seq 0 4).
  (** wasm256 44-64 *)
  Definition wasm256_step_p (st : list N * list v4 * list v4) (n : nat) : option (list N * list v4 * list v4) :=
    let '(s, x, ms) := st in
    let* k := k32 (16 + 4 * n) in
    let '(x, y) := sha256_update_x x k in
    let j := (n mod 4)%nat in
    let s := wasm256_rounds_ms s (nth4 ms j) in
    Some (s, x, upd ms j y).
  (** wasm256 13-21 *)
  Definition wasm256_block_p (state : list N) (p : N) : option (list N) :=
    let* xs := wasm256_load_p p in
    let* (s, _, ms) := loop wasm256_step_p (seq 0 12) (state, map fst xs, map snd xs) in
    let s := fold_left wasm256_rounds_ms (map (nth4 ms) (seq 0 4)) s in
    Some (accumulate_state 32 state s).

  (** ** SHA-512 on WebAssembly, and one block with AVX *)
  Section Single.
    Variable load : nat -> bytes -> v2.
    Variable update_x : list v2 -> v2 -> list v2 * v2.
    (** wasm512 24-40, avx 71-90 *)
    Definition load_data_p (p : N) : option (list (v2 * v2)) :=
      traverse (fun i =>
        let* b := ld (p + 16 * N.of_nat i) 16 in
        let x := load 0%nat b in
        let* k := k64 (2 * i) in
        Some (x, add2 x k)) (seq 0 8).
    (** wasm512 43-61, avx 126-144 *)
    Definition step512_p (st : list N * list v2 * list v2) (n : nat) : option (list N * list v2 * list v2) :=
      let '(s, x, ms) := st in
      let* k := k64 (16 + 2 * n) in
      let '(x, y) := update_x x k in
      let j := (n mod 8)%nat in
      let s := rounds_ms64 s (nth2 ms j) in
      Some (s, x, upd ms j y).
    (** wasm512 13-18, avx 58-68 *)
    Definition block512_p (state : list N) (p : N) : option (list N) :=
      let* xs := load_data_p p in
      let* (s, _, ms) := loop step512_p (seq 0 32) (state, map fst xs, map snd xs) in
      Some (accumulate_state 64 state (rounds_64_79 s ms)).
  End Single.

  (** ** SHA-512 with AVX2 *)
  (** avx 93-123 *)
  Definition load_data_avx2_p (p : N) : option (list (v22 * v22)) :=
    traverse (fun i =>
      let* hi := ld (p + 16 * N.of_nat (8 + i)) 16 in
      let* lo := ld (p + 16 * N.of_nat i) 16 in
      let x := (shuffle_epi8_2 (v2_of_bytes lo) avx2_mask, shuffle_epi8_2 (v2_of_bytes hi) avx2_mask) in
      let* t := k64 (i * 2) in
      Some (x, both add2 x (t, t))) (seq 0 8).
  (** avx 147-172 *)
  Definition step_avx2_p (st : list N * list v22 * list v2 * list v2) (n : nat) :=
    let '(s, x, ms, t2) := st in
    let* t := k64 (16 + 2 * n) in
    let '(x, y) := avx2_update_x x (t, t) in
    let j := (n mod 8)%nat in
    let s := rounds_ms64 s (nth2 ms j) in
    Some (s, x, upd ms j (fst y), t2 ++ [snd y]).
  (** avx 42-53 *)
  Definition avx2_pair_p (state : list N) (p : N) : option (list N) :=
    let* xs := load_data_avx2_p p in
    let y := map snd xs in
    let* (s, _, ms, t2) := loop step_avx2_p (seq 0 32) (state, map fst xs, map fst y, map snd y) in
    let state := accumulate_state 64 state (rounds_64_79 s ms) in
    Some (accumulate_state 64 state (fold_left rounds_ms64 t2 state)).
  (** avx 29-55: [blocks.as_ptr().add(i)] for [i] in [(start_block..blocks.len()).step_by(2)] *)
  Definition sha512_avx2_p (state : list N) (pb : N) (len : nat) : option (list N) :=
    let* (state, start) :=
      if Nat.odd len then let* s := block512_p avx_load64 avx_update_x state pb in Some (s, 1%nat) else Some (state, 0%nat) in
    loop (fun s j => avx2_pair_p s (pb + 128 * N.of_nat (start + 2 * j))) (seq 0 ((len - start + 1) / 2)) state.

  (** ** SHA-512 on AArch64 *)
  (** arm512 49-53 and each later group *)
  Definition arm_rounds2_p (ab cd ef gh s : v2) (t : nat) : option (v2 * v2) :=
    let* k := k64 t in
    let initial_sum := add2 s k in
    let sum := add2 (vext1 initial_sum initial_sum) gh in
    let intermed := vsha512h sum (vext1 ef gh) (vext1 cd ef) in
    let gh := vsha512h2 intermed cd ab in
    let cd := add2 cd intermed in
    Some (gh, cd).
  (** arm512 49-102 *)
  Definition arm_first8_p (st : v2 * v2 * v2 * v2) (ms : list v2) : option (v2 * v2 * v2 * v2) :=
    let '(ab, cd, ef, gh) := st in
    let* (gh, cd) := arm_rounds2_p ab cd ef gh (nth2 ms 0) 0 in
    let* (ef, ab) := arm_rounds2_p gh ab cd ef (nth2 ms 1) 2 in
    let* (cd, gh) := arm_rounds2_p ef gh ab cd (nth2 ms 2) 4 in
    let* (ab, ef) := arm_rounds2_p cd ef gh ab (nth2 ms 3) 6 in
    let* (gh, cd) := arm_rounds2_p ab cd ef gh (nth2 ms 4) 8 in
    let* (ef, ab) := arm_rounds2_p gh ab cd ef (nth2 ms 5) 10 in
    let* (cd, gh) := arm_rounds2_p ef gh ab cd (nth2 ms 6) 12 in
    let* (ab, ef) := arm_rounds2_p cd ef gh ab (nth2 ms 7) 14 in
    Some (ab, cd, ef, gh).
  (** arm512 104-168 *)
  Definition arm_pass_p (st : v2 * v2 * v2 * v2 * list v2) (t : nat) : option (v2 * v2 * v2 * v2 * list v2) :=
    let '(ab, cd, ef, gh, ms) := st in
    let s0 := nth2 ms 0 in let s1 := nth2 ms 1 in let s2 := nth2 ms 2 in let s3 := nth2 ms 3 in
    let s4 := nth2 ms 4 in let s5 := nth2 ms 5 in let s6 := nth2 ms 6 in let s7 := nth2 ms 7 in
    let s0 := vsha512su1 (vsha512su0 s0 s1) s7 (vext1 s4 s5) in
    let* (gh, cd) := arm_rounds2_p ab cd ef gh s0 t in
    let s1 := vsha512su1 (vsha512su0 s1 s2) s0 (vext1 s5 s6) in
    let* (ef, ab) := arm_rounds2_p gh ab cd ef s1 (t + 2) in
    let s2 := vsha512su1 (vsha512su0 s2 s3) s1 (vext1 s6 s7) in
    let* (cd, gh) := arm_rounds2_p ef gh ab cd s2 (t + 4) in
    let s3 := vsha512su1 (vsha512su0 s3 s4) s2 (vext1 s7 s0) in
    let* (ab, ef) := arm_rounds2_p cd ef gh ab s3 (t + 6) in
    let s4 := vsha512su1 (vsha512su0 s4 s5) s3 (vext1 s0 s1) in
    let* (gh, cd) := arm_rounds2_p ab cd ef gh s4 (t + 8) in
    let s5 := vsha512su1 (vsha512su0 s5 s6) s4 (vext1 s1 s2) in
    let* (ef, ab) := arm_rounds2_p gh ab cd ef s5 (t + 10) in
    let s6 := vsha512su1 (vsha512su0 s6 s7) s5 (vext1 s2 s3) in
    let* (cd, gh) := arm_rounds2_p ef gh ab cd s6 (t + 12) in
    let s7 := vsha512su1 (vsha512su0 s7 s0) s6 (vext1 s3 s4) in
    let* (ab, ef) := arm_rounds2_p cd ef gh ab s7 (t + 14) in
    Some (ab, cd, ef, gh, [s0; s1; s2; s3; s4; s5; s6; s7]).
  (** arm512 32-174 *)
  Definition arm512_block_p (st : v2 * v2 * v2 * v2) (p : N) : option (v2 * v2 * v2 * v2) :=
    let* bs := vectors p 8 in
    let ms := map (arm_load64 0) bs in
    let* (ab, cd, ef, gh) := arm_first8_p st ms in
    let* (ab, cd, ef, gh, _) := loop arm_pass_p [16; 32; 48; 64]%nat (ab, cd, ef, gh, ms) in
    let '(ab_orig, cd_orig, ef_orig, gh_orig) := st in
    Some (add2 ab ab_orig, add2 cd cd_orig, add2 ef ef_orig, add2 gh gh_orig).

  (** ** The portable code: the constants are read with [read] or [read_volatile] *)
  (** soft256 49 *)
  Definition rk32_p (i j : nat) : option N := let* b := ld_aligned (pk + 4 * N.of_nat (4 * i + j)) 4 in Some (le_val b).
  (** soft256 35-57 *)
  Definition add_round_const_p (a : v4) (i : nat) : option v4 :=
    let '(a0, a1, a2, a3) := a in
    let* k0 := rk32_p i 0 in
    let* k1 := rk32_p i 1 in
    let* k2 := rk32_p i 2 in
    let* k3 := rk32_p i 3 in
    Some (add32 a0 k3, add32 a1 k2, add32 a2 k1, add32 a3 k0).
  (** soft256 168-175 *)
  Definition rounds4_p (abef cdgh rest : v4) (i : nat) : option (v4 * v4) :=
    let* t1 := add_round_const_p rest i in
    let cdgh := Model.Sha256Soft.sha256_digest_round_x2 cdgh abef t1 in
    let t2 := Model.Sha256Soft.sha256swap t1 in
    let abef := Model.Sha256Soft.sha256_digest_round_x2 abef cdgh t2 in
    Some (abef, cdgh).
  (** soft256 177-186 *)
  Definition schedule_rounds4_p (abef cdgh w0 w1 w2 w3 : v4) (i : nat) : option (v4 * v4 * v4) :=
    let w4 := Model.Sha256Soft.schedule w0 w1 w2 w3 in
    let* (abef, cdgh) := rounds4_p abef cdgh w4 i in
    Some (abef, cdgh, w4).
  (** soft256 189-228 *)
  Definition digest_block_u32_p (state block : list N) : option (list N) :=
    let abef := (get state 0, get state 1, get state 4, get state 5) in
    let cdgh := (get state 2, get state 3, get state 6, get state 7) in
    let w0 := (get block 3, get block 2, get block 1, get block 0) in
    let w1 := (get block 7, get block 6, get block 5, get block 4) in
    let w2 := (get block 11, get block 10, get block 9, get block 8) in
    let w3 := (get block 15, get block 14, get block 13, get block 12) in
    let* (abef, cdgh) := rounds4_p abef cdgh w0 0 in
    let* (abef, cdgh) := rounds4_p abef cdgh w1 1 in
    let* (abef, cdgh) := rounds4_p abef cdgh w2 2 in
    let* (abef, cdgh) := rounds4_p abef cdgh w3 3 in
    let* (abef, cdgh, w4) := schedule_rounds4_p abef cdgh w0 w1 w2 w3 4 in
    let* (abef, cdgh, w0) := schedule_rounds4_p abef cdgh w1 w2 w3 w4 5 in
    let* (abef, cdgh, w1) := schedule_rounds4_p abef cdgh w2 w3 w4 w0 6 in
    let* (abef, cdgh, w2) := schedule_rounds4_p abef cdgh w3 w4 w0 w1 7 in
    let* (abef, cdgh, w3) := schedule_rounds4_p abef cdgh w4 w0 w1 w2 8 in
    let* (abef, cdgh, w4) := schedule_rounds4_p abef cdgh w0 w1 w2 w3 9 in
    let* (abef, cdgh, w0) := schedule_rounds4_p abef cdgh w1 w2 w3 w4 10 in
    let* (abef, cdgh, w1) := schedule_rounds4_p abef cdgh w2 w3 w4 w0 11 in
    let* (abef, cdgh, w2) := schedule_rounds4_p abef cdgh w3 w4 w0 w1 12 in
    let* (abef, cdgh, w3) := schedule_rounds4_p abef cdgh w4 w0 w1 w2 13 in
    let* (abef, cdgh, w4) := schedule_rounds4_p abef cdgh w0 w1 w2 w3 14 in
    let* (abef, cdgh, w0) := schedule_rounds4_p abef cdgh w1 w2 w3 w4 15 in
    let '(a, b, e, f) := abef in
    let '(c, d, g, h) := cdgh in
    Some [add32 (get state 0) a; add32 (get state 1) b; add32 (get state 2) c; add32 (get state 3) d;
          add32 (get state 4) e; add32 (get state 5) f; add32 (get state 6) g; add32 (get state 7) h].
  (** soft256 230-234; the block is read without raw pointers *)
  Definition soft256_block_p (state : list N) (p : N) : option (list N) :=
    let* b := ld p 64 in digest_block_u32_p state (Model.Sha256Soft.to_u32s b).
  (** soft512 94-101 *)
  Definition rk64_p (i j : nat) : option N := let* b := ld_aligned (pk + 8 * N.of_nat (2 * i + j)) 8 in Some (le_val b).
  (** soft512 93-105 *)
  Definition add_rk_p (w : v2) (i : nat) : option v2 :=
    let* k0 := rk64_p i 0 in
    let* k1 := rk64_p i 1 in
    Some (add64 (fst w) k1, add64 (snd w) k0).
  (** soft512 115-125 *)
  Definition rounds4_512_p (ae bf cg dh w0 w1 : v2) (i : nat) : option (v2 * v2 * v2 * v2) :=
    let* wk0 := add_rk_p w0 i in
    let* wk1 := add_rk_p w1 (i + 1) in
    Some (Model.Sha512Soft.rounds4 ae bf cg dh wk0 wk1).
  (** soft512 141-194, as in Model/Sha512Soft.v *)
  Definition schedule2_rounds4_p (ae bf cg dh m0 m1 m2 m3 m4 m5 m6 : v2) (i : nat) : option (v2 * v2 * v2 * v2 * v2 * v2) :=
    let wa := Model.Sha512Soft.schedule m0 m1 m2 m3 m4 in
    let wb := Model.Sha512Soft.schedule m1 m5 m3 m6 wa in
    let* (ae, bf, cg, dh) := rounds4_512_p ae bf cg dh wa wb i in
    Some (ae, bf, cg, dh, wa, wb).
  (** soft512 108-209 *)
  Definition digest_block_u64_p (state block : list N) : option (list N) :=
    let ae := (get state 0, get state 4) in
    let bf := (get state 1, get state 5) in
    let cg := (get state 2, get state 6) in
    let dh := (get state 3, get state 7) in
    let w1 := (get block 3, get block 2) in
    let w0 := (get block 1, get block 0) in
    let* (ae, bf, cg, dh) := rounds4_512_p ae bf cg dh w0 w1 0 in
    let w3 := (get block 7, get block 6) in
    let w2 := (get block 5, get block 4) in
    let* (ae, bf, cg, dh) := rounds4_512_p ae bf cg dh w2 w3 2 in
    let w5 := (get block 11, get block 10) in
    let w4 := (get block 9, get block 8) in
    let* (ae, bf, cg, dh) := rounds4_512_p ae bf cg dh w4 w5 4 in
    let w7 := (get block 15, get block 14) in
    let w6 := (get block 13, get block 12) in
    let* (ae, bf, cg, dh) := rounds4_512_p ae bf cg dh w6 w7 6 in
    let* (ae, bf, cg, dh, w8, w9) := schedule2_rounds4_p ae bf cg dh w0 w1 w4 w5 w7 w2 w6 8 in
    let* (ae, bf, cg, dh, w0, w1) := schedule2_rounds4_p ae bf cg dh w2 w3 w6 w7 w9 w4 w8 10 in
    let* (ae, bf, cg, dh, w2, w3) := schedule2_rounds4_p ae bf cg dh w4 w5 w8 w9 w1 w6 w0 12 in
    let* (ae, bf, cg, dh, w4, w5) := schedule2_rounds4_p ae bf cg dh w6 w7 w0 w1 w3 w8 w2 14 in
    let* (ae, bf, cg, dh, w6, w7) := schedule2_rounds4_p ae bf cg dh w8 w9 w2 w3 w5 w0 w4 16 in
    let* (ae, bf, cg, dh, w8, w9) := schedule2_rounds4_p ae bf cg dh w0 w1 w4 w5 w7 w2 w6 18 in
    let* (ae, bf, cg, dh, w0, w1) := schedule2_rounds4_p ae bf cg dh w2 w3 w6 w7 w9 w4 w8 20 in
    let* (ae, bf, cg, dh, w2, w3) := schedule2_rounds4_p ae bf cg dh w4 w5 w8 w9 w1 w6 w0 22 in
    let* (ae, bf, cg, dh, w4, w5) := schedule2_rounds4_p ae bf cg dh w6 w7 w0 w1 w3 w8 w2 24 in
    let* (ae, bf, cg, dh, w6, w7) := schedule2_rounds4_p ae bf cg dh w8 w9 w2 w3 w5 w0 w4 26 in
    let* (ae, bf, cg, dh, w8, w9) := schedule2_rounds4_p ae bf cg dh w0 w1 w4 w5 w7 w2 w6 28 in
    let* (ae, bf, cg, dh, w0, w1) := schedule2_rounds4_p ae bf cg dh w2 w3 w6 w7 w9 w4 w8 30 in
    let* (ae, bf, cg, dh, w2, w3) := schedule2_rounds4_p ae bf cg dh w4 w5 w8 w9 w1 w6 w0 32 in
    let* (ae, bf, cg, dh, w4, w5) := schedule2_rounds4_p ae bf cg dh w6 w7 w0 w1 w3 w8 w2 34 in
    let* (ae, bf, cg, dh, w6, w7) := schedule2_rounds4_p ae bf cg dh w8 w9 w2 w3 w5 w0 w4 36 in
    let* (ae, bf, cg, dh, w8, w9) := schedule2_rounds4_p ae bf cg dh w0 w1 w4 w5 w7 w2 w6 38 in
    let '(a, e) := ae in
    let '(b, f) := bf in
    let '(c, g) := cg in
    let '(d, h) := dh in
    Some [add64 (get state 0) a; add64 (get state 1) b; add64 (get state 2) c; add64 (get state 3) d;
          add64 (get state 4) e; add64 (get state 5) f; add64 (get state 6) g; add64 (get state 7) h].
  (** soft512 211-215 *)
  Definition soft512_block_p (state : list N) (p : N) : option (list N) :=
    let* b := ld p 128 in digest_block_u64_p state (Model.Sha512Soft.to_u64s b).

  (** ** RISC-V *)
  (** 256l 4-22 and 39-80 ([k] = 4, [n] = 16), 512l 4-36, 89-129 ([k] = 8, [n] = 16), 512l 13-24, 39-86 ([k] = 4,
      [n] = 32; the reference to [u32; 32] is 32 aligned reads).  [p mod k] is [block.as_ptr() as usize % align_of]. *)
  Definition block_words_p (k n : nat) (p : N) : option (list N) :=
    let offset := p mod N.of_nat k in
    if offset =? 0 then
      let* ws := traverse (fun i => ld_aligned (p + N.of_nat (k * i)) k) (seq 0 n) in
      Some (Model.Sha2Riscv.aligned_words k n (concat ws))
    else
      let bp := p - offset in
      let* lo := ld_word bp k in
      let* ws := traverse (fun i => ld_aligned (bp + N.of_nat (k * (1 + i))) k) (seq 0 (n - 1)) in
      let* hi := ld_word (bp + N.of_nat (k * n)) k in
      Some (Model.Sha2Riscv.unaligned_words k n (N.to_nat offset) (lo ++ concat ws ++ hi)).
  (** 256l 4-10 *)
  Definition load_block256_p (p : N) : option (list N) :=
    let* ws := block_words_p 4 16 p in Some (map (Model.Sha2Riscv.to_be 4) ws).
  (** 512l 4-10 on riscv64 and on riscv32 *)
  Definition rv64_load_block512_p (p : N) : option (list N) :=
    let* ws := block_words_p 8 16 p in Some (map (Model.Sha2Riscv.to_be 8) ws).
  Definition rv32_load_block512_p (p : N) : option (list N) :=
    let* ws := block_words_p 4 32 p in
    Some (map (fun i => Model.Sha2Riscv.join (Model.Sha2Riscv.to_be 4 (get ws (2 * i))) (Model.Sha2Riscv.to_be 4 (get ws (2 * i + 1)))) (seq 0 16)).
  (** 256l 84-97, 512l 133-161 (on riscv32 two loads of four bytes): the slice of [len] constants of [k] bytes at [a] *)
  Definition opaque_load (k : nat) (a : N) (len R : nat) : option N :=
    if (R <? len)%nat then let* b := ld_aligned (a + N.of_nat (k * R)) k in Some (le_val b) else None.
  Section Rounds.
    Variables (w : N) (k : nat) (sum0 sum1 sig0 sig1 : N -> N) (K : list N) (passes : nat).
    (** 256u 24-45, 512u 56-77; [K[16 * i..]] is at [pk + 16 i k] *)
    Definition round_u_p (i R : nat) (state block : list N) : option (list N) :=
      let* kr := opaque_load k (pk + N.of_nat (k * (16 * i))) (length K - 16 * i) R in
      Some (Model.Sha2Riscv.round_with w sum0 sum1 K R kr (get block R) state).
    (** 256u 47-54, 512u 79-86 *)
    Definition round_schedule_u_p (i : nat) (sb : list N * list N) (R : nat) : option (list N * list N) :=
      let* state := round_u_p i R (fst sb) (snd sb) in
      Some (state, Model.Sha2Riscv.schedule_at w sig0 sig1 R (snd sb)).
    (** 256u 57-102, 512u 88-133 *)
    Definition compress_block_u_p (state block : list N) : option (list N) :=
      let* (s, b) := loop (fun sb i => loop (round_schedule_u_p i) (seq 0 16) sb) (seq 0 passes) (state, block) in
      let* s := loop (fun s R => round_u_p passes R s b) (seq 0 16) s in
      Some (map (fun i => wadd w (get state i) (get s i)) (seq 0 8)).
  End Rounds.
End Accesses.

(** ** The compression functions from the pointers to the state, the blocks and the constants *)
Section Whole.
  Variables (rd wr : list (N * N)) (m : N -> N) (ps pb pk : N) (len : nat).
  (** A store through a raw pointer *)
  Definition st (m : N -> N) (a : N) (l : bytes) : option (N -> N) :=
    if Model.LoongCpu.allowed wr a (N.of_nat (length l)) then Some (Model.LoongCpu.write m a l) else None.
  (** [for block in blocks] *)
  Definition each {S} (size : N) (f : S -> N -> option S) (s : S) : option S :=
    loop (fun s i => f s (pb + size * N.of_nat i)) (seq 0 len) s.
  (** A state of [n] words of [k] bytes behind a reference *)
  Definition by_ref (k n : nat) (f : list N -> option (list N)) : option (N -> N) :=
    let* b := ld rd m ps (k * n) in
    let* s := f (words_of_le k b) in
    st m ps (words_to_le k s).

  (** ni 42-98 *)
  Definition sha256_shani_p : option (N -> N) :=
    let* b0 := ld rd m ps 16 in
    let* b1 := ld rd m (ps + 16) 16 in
    let dcba := v4_of_bytes b0 in
    let efgh := v4_of_bytes b1 in
    let cdab := shuffle_epi32 dcba 0xB1 in
    let efgh := shuffle_epi32 efgh 0x1B in
    let abef := alignr_epi8_4 cdab efgh 8 in
    let cdgh := blend_epi16 efgh cdab 0xF0 in
    let* (abef, cdgh) := each 64 (ni_block_p rd m) (abef, cdgh) in
    let feba := shuffle_epi32 abef 0x1B in
    let dchg := shuffle_epi32 cdgh 0xB1 in
    let dcba := blend_epi16 feba dchg 0xF0 in
    let hgef := alignr_epi8_4 dchg feba 8 in
    let* m := st m ps (v4_bytes dcba) in
    st m (ps + 16) (v4_bytes hgef).
  (** arm256 23-104 *)
  Definition sha256_arm_p : option (N -> N) :=
    let* b0 := ld rd m ps 16 in
    let* b1 := ld rd m (ps + 16) 16 in
    let* (abcd, efgh) := each 64 (arm256_block_p rd m pk) (v4_of_bytes b0, v4_of_bytes b1) in
    let* m := st m ps (v4_bytes abcd) in
    st m (ps + 16) (v4_bytes efgh).
  (** arm512 21-182 *)
  Definition sha512_arm_p : option (N -> N) :=
    let* b0 := ld rd m ps 16 in
    let* b1 := ld rd m (ps + 16) 16 in
    let* b2 := ld rd m (ps + 32) 16 in
    let* b3 := ld rd m (ps + 48) 16 in
    let* (ab, cd, ef, gh) := each 128 (arm512_block_p rd m pk) (v2_of_bytes b0, v2_of_bytes b1, v2_of_bytes b2, v2_of_bytes b3) in
    let* m := st m ps (v2_bytes ab) in
    let* m := st m (ps + 16) (v2_bytes cd) in
    let* m := st m (ps + 32) (v2_bytes ef) in
    st m (ps + 48) (v2_bytes gh).
  (** x86 35-91; [state[4]] is indexed *)
  Definition sha1_shani_p : option (N -> N) :=
    let* b0 := ld rd m ps 16 in
    let* b1 := ld rd m (ps + 16) 4 in
    let state_abcd := shuffle_epi32 (v4_of_bytes b0) 27 in
    let state_e := set_epi32 (le_val b1) 0 0 0 in
    let* (state_abcd, state_e) := each 64 (ni1_block_p rd m) (state_abcd, state_e) in
    let state_abcd := shuffle_epi32 state_abcd 27 in
    let* m := st m ps (v4_bytes state_abcd) in
    let '(_, _, _, e) := state_e in
    st m (ps + 16) (le_bytes 4 e).
  (** arm 15-174 *)
  Definition sha1_arm_p : option (N -> N) :=
    let* b0 := ld rd m ps 16 in
    let* b1 := ld rd m (ps + 16) 4 in
    let* (abcd, e0) := each 64 (arm1_block_p rd m) (v4_of_bytes b0, le_val b1) in
    let* m := st m ps (v4_bytes abcd) in
    st m (ps + 16) (le_bytes 4 e0).

  (** The back ends of SHA-256 and SHA-512 that use raw pointers without assembly loops *)
  Inductive machine := MPortable | MX86 | MAarch64 | MWasm | MZknh (rv64 : bool) | MZknhCompact (rv64 : bool).
  (** 256u 104-108, 256c 72-76, 512u 135-139, 512c 104-108 *)
  Definition with_load (load : N -> option (list N)) (one : list N -> list N -> option (list N)) (s : list N) (p : N) : option (list N) :=
    let* b := load p in one s b.
  Definition run256 (t : machine) : option (N -> N) :=
    match t with
    | MPortable => by_ref 4 8 (each 64 (soft256_block_p rd m pk))
    | MX86 => sha256_shani_p
    | MAarch64 => sha256_arm_p
    | MWasm => by_ref 4 8 (each 64 (wasm256_block_p rd m pk))
    | MZknh _ => by_ref 4 8 (each 64 (with_load (load_block256_p rd m)
        (compress_block_u_p rd m pk 32 4 Model.Sha2Riscv.sha256sum0 Model.Sha2Riscv.sha256sum1 Model.Sha2Riscv.sha256sig0 Model.Sha2Riscv.sha256sig1 K32 3)))
    | MZknhCompact _ => by_ref 4 8 (each 64 (with_load (load_block256_p rd m)
        (fun s b => Some (Model.Sha2Riscv.compress_block_c 32 Model.Sha2Riscv.sha256sum0 Model.Sha2Riscv.sha256sum1 Model.Sha2Riscv.sha256sig0 Model.Sha2Riscv.sha256sig1 K32 3 s b))))
    end.
  Definition run512 (t : machine) : option (N -> N) :=
    match t with
    | MPortable => by_ref 8 8 (each 128 (soft512_block_p rd m pk))
    | MX86 => by_ref 8 8 (fun s => sha512_avx2_p rd m pk s pb len)
    | MAarch64 => sha512_arm_p
    | MWasm => by_ref 8 8 (each 128 (block512_p rd m pk wasm_load64 wasm_update_x))
    | MZknh rv64 => by_ref 8 8 (each 128 (if rv64
        then with_load (rv64_load_block512_p rd m) (compress_block_u_p rd m pk 64 8 Model.Sha2Riscv.rv64_sha512sum0
          Model.Sha2Riscv.rv64_sha512sum1 Model.Sha2Riscv.rv64_sha512sig0 Model.Sha2Riscv.rv64_sha512sig1 K64 4)
        else with_load (rv32_load_block512_p rd m) (compress_block_u_p rd m pk 64 8 Model.Sha2Riscv.rv32_sha512sum0
          Model.Sha2Riscv.rv32_sha512sum1 Model.Sha2Riscv.rv32_sha512sig0 Model.Sha2Riscv.rv32_sha512sig1 K64 4)))
    | MZknhCompact rv64 => by_ref 8 8 (each 128 (if rv64
        then with_load (rv64_load_block512_p rd m) (fun s b => Some (Model.Sha2Riscv.compress_block_c 64 Model.Sha2Riscv.rv64_sha512sum0
          Model.Sha2Riscv.rv64_sha512sum1 Model.Sha2Riscv.rv64_sha512sig0 Model.Sha2Riscv.rv64_sha512sig1 K64 4 s b))
        else with_load (rv32_load_block512_p rd m) (fun s b => Some (Model.Sha2Riscv.compress_block_c 64 Model.Sha2Riscv.rv32_sha512sum0
          Model.Sha2Riscv.rv32_sha512sum1 Model.Sha2Riscv.rv32_sha512sig0 Model.Sha2Riscv.rv32_sha512sig1 K64 4 s b))))
    end.
  (** [true]: x86, [false]: AArch64 *)
  Definition run1 (x86 : bool) : option (N -> N) := if x86 then sha1_shani_p else sha1_arm_p.
  (** jh/src/compressor.rs 163-173: the union of eight vectors *)
  Definition run_jh : option (N -> N) := by_ref 16 8 (each 64 (f8_p rd m)).
End Whole.

(** The pointers made with [add] in 256l 39-80 and 512l 39-129, as (pointer, bytes added): [bp.add(1 + i)]; the first
    and the last word are addressed by the assembly, and [bp] itself comes from [wrapping_sub]. *)
Definition zknh_adds (k n : nat) (p : N) : list (N * N) :=
  let offset := p mod N.of_nat k in
  if offset =? 0 then map (fun i => (p, N.of_nat (k * i))) (seq 0 n)
  else map (fun i => (p - offset, N.of_nat (k * (1 + i)))) (seq 0 (n - 1)).
