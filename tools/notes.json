{
 "C19": {
  "status": "partial",
  "note": "The property as stated is false of the code: when the encoded prefix left_encode(rate)||encode_string(N)||encode_string(S) is an exact multiple of the rate the constructor absorbs an extra zero block (C19_*_refuted). Proved in all other cases; C19_code_behaviour says exactly what is computed in every case."
 },
 "C23": {
  "status": "partial",
  "note": "The property as stated is false of the code in two ways: new_with_salt_and_personal panics (instead of returning an error) for key lengths 65..128, salt/persona lengths 17..32 (Blake2b; halves for Blake2s), see C23_no_panic_refuted; and new_from_slice accepts the empty key, see C23_empty_key_refuted. C23_*_salt_personal and C23_*_slice give the exact outcome for every input."
 },
 "C30": {
  "status": "partial",
  "note": "Proved for every message shorter than 2^448 bits. For longer ones the property is false of the code: update_n loops over 1..7 and never carries into n[7] (C30_counter_refuted). C08_streebog gives the exact digest for all lengths."
 },
 "C32": {
  "status": "partial",
  "note": "Proved for every output size divisible by 8. For the other sizes the property is false of the code: finalize_fixed_core writes whole 8-byte words only, the last N mod 8 bytes stay zero (C32_all_sizes_refuted, C32_small_sizes_collide). C32_any_cipher says exactly what is computed for every size. Threefish (an external crate) is a parameter."
 },
 "C48": {
  "status": "partial",
  "note": "The property as stated is false of the code: Shake256 carries the identifier of SHAKE128 (C48_distinct_refuted, C48_shake256_wrong). Proved: it is the only clash, and every other hasher carries the identifier registered for its algorithm."
 },
 "C08": {
  "status": "partial",
  "note": "Proved, for messages of any length, for every hasher with a length counter: exact digests below, at and beyond the limit in both builds. The stated rule is false of sha1-checked with collision detection, whose length shift drops the high bits without a panic (C08_sha1_checked_refuted), and of BelT, whose block counter wraps without a panic (C08_belt_refuted). Whirlpool, GOST94 and Streebog count with multi-word counters modulo 2^256, 2^256 and 2^448 in both builds. For FSB the table PI is a parameter."
 },
 "C49": {
  "status": "partial",
  "note": "Proved for every core type of every crate that has a Drop implementation, and for the XOF readers of sha3. The property as stated is false of the code in two places: the BLAKE2 MACs with the feature reset keep the key block in memory (C49_blake2*_mac_refuted, _leaks; without reset they are clean, *_partial), and sha1-checked marks Sha1 as ZeroizeOnDrop but keeps the chaining value, which is the digest after finalization (C49_sha1_checked_refuted, _leaks). For KangarooTwelve, the MACs and sha1-checked, whose field lists are the longest, the fields considered are shown to determine the object (*_whole). Buffers inside the digest crate's wrappers, the Ascon state (both external) and stack copies are not modelled."
 },
 "C47": {
  "status": "partial",
  "note": "Proved for the SHA-2, BLAKE2, SHA-1, MD4, MD5, MD2, RIPEMD (initial values; the round constants through C15), SM3, BelT, Tiger, Shabal, JH (initial values; the round constants through C28), Ascon, Groestl, Whirlpool, Streebog (S-box and linear tables), Kupyna (matrix) and sha1-checked tables. Tables for which the standard gives no rule, only values (Kupyna and GOST S-boxes, Streebog iteration constants), are compared with a copy of the standard's listing in the respective specification; FSB's table of digits of pi is a parameter of the model."
 },
 "C04": {
  "status": "partial",
  "note": "The property as stated is false under the contract assumed of the digest crate (DESIGN.md section 3): the bytes after the buffer position are not checked, so two strings can denote one state (C04_injective_refuted), and a position byte beyond the block size panics (C04_total_refuted). Proved: every field of the core, the output size, the position and the buffered bytes are canonical and in range (C04_canonical_partial, C04_in_range, C04_injective_partial), and exactly when restoring panics (C04_panics)."
 },
 "C55": {
  "status": "partial",
  "note": "Loads, stores, alignment, result and frame are proved for every back end (C55_sha256, C55_sha512, C55_sha1, C55_jh). The last two sentences of the property are false of the code: on RISC-V bp.add is called on a pointer before the block, which need not belong to the allocation (C55_riscv_pointers says exactly when it does, C55_riscv_pointers_refuted), and the public safe function jh::f8_impl dereferences any pointer (C55_jh_f8_impl_refuted). The first and last load of an unaligned RISC-V block take in bytes beside it, within the same aligned word."
 },
 "C56": {
  "status": "partial",
  "note": "The property as stated is false of the code: a Skein hasher's name does not contain its output size (C56_unique_refuted). Proved: these are the only clashes, for all sizes (C56_only_skein), and Debug of the Skein cores does tell the sizes apart. The suffix with the output size for the other generic hashers is written by digest (external)."
 }
}