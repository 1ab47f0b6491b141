(** Model of the RISC-V Zknh backends of the sha2 crate:
    sha2/src/sha256/riscv_zknh.rs (256u), sha2/src/sha256/riscv_zknh_compact.rs (256c),
    sha2/src/sha256/riscv_zknh_utils.rs (256l), sha2/src/sha512/riscv_zknh.rs (512u),
    sha2/src/sha512/riscv_zknh_compact.rs (512c), sha2/src/sha512/riscv_zknh_utils.rs (512l).
    The round code of the SHA-256 and the SHA-512 files is the same text up to
    the word size, the four instructions, the constant table and the number of
    rounds; the section below is that text, instantiated twice.  The four
    instructions follow the RISC-V scalar cryptography specification. *)
From Verif Require Import Base.Words Base.Bytes Base.Codec Model.Sha2Consts.

(** RISC-V Cryptography Extensions Volume I, 3.22-3.25: sha256sig0, sha256sig1,
    sha256sum0, sha256sum1 on the low 32 bits of the source register. *)
Definition sha256sig0 (x : N) : N := N.lxor (N.lxor (rotr32 x 7) (rotr32 x 18)) (N.shiftr x 3).
Definition sha256sig1 (x : N) : N := N.lxor (N.lxor (rotr32 x 17) (rotr32 x 19)) (N.shiftr x 10).
Definition sha256sum0 (x : N) : N := N.lxor (N.lxor (rotr32 x 2) (rotr32 x 13)) (rotr32 x 22).
Definition sha256sum1 (x : N) : N := N.lxor (N.lxor (rotr32 x 6) (rotr32 x 11)) (rotr32 x 25).

(** 3.26-3.34, the RV64 instructions sha512sig0, sha512sig1, sha512sum0, sha512sum1. *)
Definition rv64_sha512sig0 (x : N) : N := N.lxor (N.lxor (rotr64 x 1) (rotr64 x 8)) (N.shiftr x 7).
Definition rv64_sha512sig1 (x : N) : N := N.lxor (N.lxor (rotr64 x 19) (rotr64 x 61)) (N.shiftr x 6).
Definition rv64_sha512sum0 (x : N) : N := N.lxor (N.lxor (rotr64 x 28) (rotr64 x 34)) (rotr64 x 39).
Definition rv64_sha512sum1 (x : N) : N := N.lxor (N.lxor (rotr64 x 14) (rotr64 x 18)) (rotr64 x 41).

(** The RV32 instructions sha512sig0h, sha512sig0l, sha512sig1h, sha512sig1l,
    sha512sum0r, sha512sum1r, each on two 32-bit registers. *)
Definition sha512sig0h (r1 r2 : N) : N :=
  N.lxor (N.lxor (N.lxor (N.lxor (N.shiftr r1 1) (N.shiftr r1 7)) (N.shiftr r1 8)) (wshl 32 r2 31)) (wshl 32 r2 24).
Definition sha512sig0l (r1 r2 : N) : N :=
  N.lxor (N.lxor (N.lxor (N.lxor (N.lxor (N.shiftr r1 1) (N.shiftr r1 7)) (N.shiftr r1 8))
    (wshl 32 r2 31)) (wshl 32 r2 25)) (wshl 32 r2 24).
Definition sha512sig1h (r1 r2 : N) : N :=
  N.lxor (N.lxor (N.lxor (N.lxor (wshl 32 r1 3) (N.shiftr r1 6)) (N.shiftr r1 19)) (N.shiftr r2 29)) (wshl 32 r2 13).
Definition sha512sig1l (r1 r2 : N) : N :=
  N.lxor (N.lxor (N.lxor (N.lxor (N.lxor (wshl 32 r1 3) (N.shiftr r1 6)) (N.shiftr r1 19))
    (N.shiftr r2 29)) (wshl 32 r2 26)) (wshl 32 r2 13).
Definition sha512sum0r (r1 r2 : N) : N :=
  N.lxor (N.lxor (N.lxor (N.lxor (N.lxor (wshl 32 r1 25) (wshl 32 r1 30)) (N.shiftr r1 28))
    (N.shiftr r2 7)) (N.shiftr r2 2)) (wshl 32 r2 4).
Definition sha512sum1r (r1 r2 : N) : N :=
  N.lxor (N.lxor (N.lxor (N.lxor (N.lxor (wshl 32 r1 23) (N.shiftr r1 14)) (N.shiftr r1 18))
    (N.shiftr r2 9)) (wshl 32 r2 18)) (wshl 32 r2 14).

(** 512u 16-44, 512c 16-44: the RV32 versions.  [(a as u64) << 32 | b]. *)
Definition join (a b : N) : N := N.lor (wshl 64 a 32) b.
Definition hi32 (x : N) : N := N.shiftr x 32 mod 2 ^ 32.
Definition lo32 (x : N) : N := x mod 2 ^ 32.
Definition rv32_sha512sum0 (x : N) : N :=
  join (sha512sum0r (hi32 x) (lo32 x)) (sha512sum0r (lo32 x) (hi32 x)).
Definition rv32_sha512sum1 (x : N) : N :=
  join (sha512sum1r (hi32 x) (lo32 x)) (sha512sum1r (lo32 x) (hi32 x)).
Definition rv32_sha512sig0 (x : N) : N :=
  join (sha512sig0h (hi32 x) (lo32 x)) (sha512sig0l (lo32 x) (hi32 x)).
Definition rv32_sha512sig1 (x : N) : N :=
  join (sha512sig1h (hi32 x) (lo32 x)) (sha512sig1l (lo32 x) (hi32 x)).

(** * Block loading.  [mem] is the memory from the aligned word holding the
    first byte of the block to the aligned word holding its last byte, [offset]
    the address of the block modulo the register width in bytes; [k] is that
    width.  [word k mem i] is the little-endian register load of word [i]. *)
Definition word (k : nat) (mem : bytes) (i : nat) : N := le_val (firstn k (skipn (k * i) mem)).
(** [to_be] of a k-byte register on a little-endian target *)
Definition to_be (k : nat) (x : N) : N := be_val (le_bytes k x).

(** 256l 13-22 ([k] = 4, [n] = 16), 512l 27-36 ([k] = 8, [n] = 16): the words
    of an aligned block, before [to_be] *)
Definition aligned_words (k n : nat) (mem : bytes) : list N := map (word k mem) (seq 0 n).
(** 256l 39-80 ([k] = 4, [n] = 16), 512l 39-86 ([k] = 4, [n] = 32), 512l 89-129
    ([k] = 8, [n] = 16): the words before [to_be].  The first and the last load
    are inline assembly so that the compiler does not see the bytes outside the
    block; [lwu]/[srl]/[sll] on RV64 give the same low 32 bits. *)
Definition unaligned_words (k n offset : nat) (mem : bytes) : list N :=
  let w := N.of_nat (8 * k) in
  let off1 := N.of_nat (8 * offset) mod w in
  let off2 := (w - off1) mod w in
  let lft := N.shiftr (word k mem 0) off1 in
  let '(res, lft) :=
    fold_left (fun '(res, lft) i =>
      let right := word k mem (1 + i) in
      (res ++ [N.lor lft (wshl w right off2)], N.shiftr right off1))
      (seq 0 (n - 1)) ([], lft) in
  let right := wshl w (word k mem n) off2 in
  res ++ [N.lor lft right].
(** 256l 4-10, 512l 4-10 *)
Definition block_words (k n offset : nat) (mem : bytes) : list N :=
  if (offset =? 0)%nat then aligned_words k n mem else unaligned_words k n offset mem.

(** 256l: the sixteen u32 words of a 64-byte block *)
Definition load_block256 (offset : nat) (mem : bytes) : list N :=
  map (to_be 4) (block_words 4 16 offset mem).
(** 512l on riscv64: the sixteen u64 words of a 128-byte block *)
Definition rv64_load_block512 (offset : nat) (mem : bytes) : list N :=
  map (to_be 8) (block_words 8 16 offset mem).
(** 512l 13-24 and 79-85 on riscv32: thirty-two u32 words joined in pairs *)
Definition rv32_load_block512 (offset : nat) (mem : bytes) : list N :=
  let block32 := block_words 4 32 offset mem in
  map (fun i => join (to_be 4 (get block32 (2 * i))) (to_be 4 (get block32 (2 * i + 1)))) (seq 0 16).

(** * Rounds *)
Section Rounds.
  Variable w : N.
  Variables sum0 sum1 sig0 sig1 : N -> N.
  Variable K : list N.
  (** number of sixteen-round passes with message scheduling: 3 or 4 *)
  Variable passes : nat.
  Local Notation "a [+] b" := (wadd w a b) (at level 50, left associativity).

  (** 256u 14-17, 256c 14-17, 512u 46-49, 512c 46-49 *)
  Definition ch (x y z : N) : N := N.lxor (N.land x y) (N.land (wnot w x) z).
  (** 256u 19-22, 256c 19-22, 512u 51-54, 512c 51-54 *)
  Definition maj (x y z : N) : N := N.lxor (N.lxor (N.land x y) (N.land x z)) (N.land y z).

  (** The common body of 256u 24-45, 256c 25-46, 512u 56-77, 512c 57-78, with
      the constant and the message word already read. *)
  Definition round_with (r : nat) (kr br : N) (state : list N) : list N :=
    let n := (length K - r)%nat in
    let a := ((n + 0) mod 8)%nat in
    let b := ((n + 1) mod 8)%nat in
    let c := ((n + 2) mod 8)%nat in
    let d := ((n + 3) mod 8)%nat in
    let e := ((n + 4) mod 8)%nat in
    let f := ((n + 5) mod 8)%nat in
    let g := ((n + 6) mod 8)%nat in
    let h := ((n + 7) mod 8)%nat in
    let state := upd state h (get state h [+] sum1 (get state e) [+] ch (get state e) (get state f) (get state g)
      [+] kr [+] br) in
    let state := upd state d (get state d [+] get state h) in
    upd state h (get state h [+] sum0 (get state a) [+] maj (get state a) (get state b) (get state c)).
  (** The common body of 256u 50-53, 256c 49-54, 512u 82-85, 512c 81-86. *)
  Definition schedule_at (r : nat) (block : list N) : list N :=
    upd block (r mod 16) (get block (r mod 16) [+] sig1 (get block ((r + 14) mod 16))
      [+] get block ((r + 9) mod 16) [+] sig0 (get block ((r + 1) mod 16))).

  (** 256u 24-45, 512u 56-77: [round::<R>]; [opaque_load::<R>(k)] is [k[R]]
      (256l 84-97, 512l 133-161) and its assertion [R < k.len()] always holds
      because the slices are taken at 16 i. *)
  Definition round_u (R : nat) (k : list N) (state block : list N) : list N :=
    round_with R (get k R) (get block R) state.
  (** 256u 47-54, 512u 79-86 *)
  Definition round_schedule_u (R : nat) (k : list N) '(state, block) : list N * list N :=
    let state := round_u R k state block in
    (state, schedule_at R block).
  (** 256u 57-102, 512u 88-133; the sixteen calls in a row are the folds over 0..16 *)
  Definition compress_block_u (state block : list N) : list N :=
    let '(s, b) := fold_left (fun sb i =>
      let k := skipn (16 * i) K in
      fold_left (fun sb R => round_schedule_u R k sb) (seq 0 16) sb) (seq 0 passes) (state, block) in
    let k := skipn (16 * passes) K in
    let s := fold_left (fun s R => round_u R k s b) (seq 0 16) s in
    map (fun i => get state i [+] get s i) (seq 0 8).

  (** 256c 25-46, 512c 57-78 *)
  Definition round_c (state block : list N) (r : nat) : list N :=
    round_with r (get K r) (get block (r mod 16)) state.
  (** 256c 57-70, 512c 89-102 *)
  Definition compress_block_c (state block : list N) : list N :=
    let '(s, _) := fold_left (fun '(s, b) r =>
      let s := round_c s b r in
      (s, if (r <? 16 * passes)%nat then schedule_at r b else b)) (seq 0 (16 * passes + 16)) (state, block) in
    map (fun i => get state i [+] get s i) (seq 0 8).
End Rounds.

(** 256u 104-108, 256c 72-76, 512u 135-139, 512c 104-108.  A block comes with
    the offset of its address and the memory words it lies in. *)
Definition compress_with (load : nat -> bytes -> list N) (one : list N -> list N -> list N)
    (state : list N) (blocks : list (nat * bytes)) : list N :=
  fold_left (fun st '(offset, mem) => one st (load offset mem)) blocks state.

Definition sha256_zknh := compress_with load_block256
  (compress_block_u 32 sha256sum0 sha256sum1 sha256sig0 sha256sig1 K32 3).
Definition sha256_zknh_compact := compress_with load_block256
  (compress_block_c 32 sha256sum0 sha256sum1 sha256sig0 sha256sig1 K32 3).
Definition sha512_zknh_rv64 := compress_with rv64_load_block512
  (compress_block_u 64 rv64_sha512sum0 rv64_sha512sum1 rv64_sha512sig0 rv64_sha512sig1 K64 4).
Definition sha512_zknh_rv32 := compress_with rv32_load_block512
  (compress_block_u 64 rv32_sha512sum0 rv32_sha512sum1 rv32_sha512sig0 rv32_sha512sig1 K64 4).
Definition sha512_zknh_compact_rv64 := compress_with rv64_load_block512
  (compress_block_c 64 rv64_sha512sum0 rv64_sha512sum1 rv64_sha512sig0 rv64_sha512sig1 K64 4).
Definition sha512_zknh_compact_rv32 := compress_with rv32_load_block512
  (compress_block_c 64 rv32_sha512sum0 rv32_sha512sum1 rv32_sha512sig0 rv32_sha512sig1 K64 4).
