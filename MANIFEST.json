{
 "claims": [
  {
   "property": "C01",
   "status": "proved",
   "theorems": [
    "C01_cut",
    "C01_one_call"
   ],
   "note": ""
  },
  {
   "property": "C02",
   "status": "proved",
   "theorems": [
    "C02_histories",
    "C02_reset"
   ],
   "note": ""
  },
  {
   "property": "C03",
   "status": "proved",
   "theorems": [
    "C03_roundtrip",
    "C03_continue"
   ],
   "note": ""
  },
  {
   "property": "C04",
   "status": "partial",
   "theorems": [
    "C04_canonical_partial",
    "C04_in_range",
    "C04_injective_partial",
    "C04_injective_refuted",
    "C04_panics",
    "C04_total_refuted"
   ],
   "note": "The property as stated is false under the contract assumed of the digest crate (DESIGN.md section 3): the bytes after the buffer position are not checked, so two strings can denote one state (C04_injective_refuted), and a position byte beyond the block size panics (C04_total_refuted). Proved: every field of the core, the output size, the position and the buffered bytes are canonical and in range (C04_canonical_partial, C04_in_range, C04_injective_partial), and exactly when restoring panics (C04_panics)."
  },
  {
   "property": "C05",
   "status": "proved",
   "theorems": [
    "C05_stream",
    "C05_reads"
   ],
   "note": ""
  },
  {
   "property": "C06",
   "status": "proved",
   "theorems": [
    "C06_accepted",
    "C06_rejected",
    "C06_digest",
    "C06_length",
    "C06_fixed",
    "C06_standard_sizes_refuted",
    "C06_deviations"
   ],
   "note": ""
  },
  {
   "property": "C07",
   "status": "proved",
   "theorems": [
    "C07_new",
    "C07_histories",
    "C07_digest",
    "C07_modes"
   ],
   "note": ""
  },
  {
   "property": "C08",
   "status": "partial",
   "theorems": [
    "C08_sha1",
    "C08_sm3",
    "C08_sha2",
    "C08_ripemd",
    "C08_tiger",
    "C08_tiger2",
    "C08_md4",
    "C08_md5",
    "C08_jh",
    "C08_groestl",
    "C08_kupyna",
    "C08_blake2b",
    "C08_blake2s",
    "C08_skein",
    "C08_fsb",
    "C08_whirlpool",
    "C08_whirlpool_one_piece",
    "C08_streebog",
    "C08_belt",
    "C08_belt_refuted",
    "C08_sha1_checked",
    "C08_sha1_checked_refuted"
   ],
   "note": "Proved, for messages of any length, for every hasher with a length counter: exact digests below, at and beyond the limit in both builds. The stated rule is false of sha1-checked with collision detection, whose length shift drops the high bits without a panic (C08_sha1_checked_refuted), and of BelT, whose block counter wraps without a panic (C08_belt_refuted). Whirlpool, GOST94 and Streebog count with multi-word counters modulo 2^256, 2^256 and 2^448 in both builds. For FSB the table PI is a parameter."
  },
  {
   "property": "C09",
   "status": "proved",
   "theorems": [
    "C09_sha224_fips",
    "C09_sha256_fips"
   ],
   "note": ""
  },
  {
   "property": "C10",
   "status": "proved",
   "theorems": [
    "C10_sha384_fips",
    "C10_sha512_fips",
    "C10_sha512_224_fips",
    "C10_sha512_256_fips"
   ],
   "note": ""
  },
  {
   "property": "C11",
   "status": "proved",
   "theorems": [
    "C11_sha1_fips"
   ],
   "note": ""
  },
  {
   "property": "C12",
   "status": "proved",
   "theorems": [
    "C12_md5_rfc1321"
   ],
   "note": ""
  },
  {
   "property": "C13",
   "status": "proved",
   "theorems": [
    "C13_md4_rfc1320"
   ],
   "note": ""
  },
  {
   "property": "C14",
   "status": "proved",
   "theorems": [
    "C14_md2_rfc1319"
   ],
   "note": ""
  },
  {
   "property": "C15",
   "status": "proved",
   "theorems": [
    "C15_ripemd128",
    "C15_ripemd160",
    "C15_ripemd256",
    "C15_ripemd320"
   ],
   "note": ""
  },
  {
   "property": "C16",
   "status": "proved",
   "theorems": [
    "C16_sm3"
   ],
   "note": ""
  },
  {
   "property": "C17",
   "status": "proved",
   "theorems": [
    "C17_keccak224",
    "C17_keccak256",
    "C17_keccak384",
    "C17_keccak512",
    "C17_sha3_224",
    "C17_sha3_256",
    "C17_sha3_384",
    "C17_sha3_512",
    "C17_keccak256full",
    "C17_shake128",
    "C17_shake256",
    "C17_keccak_constants"
   ],
   "note": ""
  },
  {
   "property": "C18",
   "status": "proved",
   "theorems": [
    "C18_turboshake128",
    "C18_turboshake256",
    "C18_domain_bytes"
   ],
   "note": ""
  },
  {
   "property": "C19",
   "status": "partial",
   "theorems": [
    "C19_cshake128_partial",
    "C19_cshake256_partial",
    "C19_customized_partial",
    "C19_empty_is_shake",
    "C19_code_behaviour",
    "C19_cshake128_refuted",
    "C19_cshake256_refuted"
   ],
   "note": "The property as stated is false of the code: when the encoded prefix left_encode(rate)||encode_string(N)||encode_string(S) is an exact multiple of the rate the constructor absorbs an extra zero block (C19_*_refuted). Proved in all other cases; C19_code_behaviour says exactly what is computed in every case."
  },
  {
   "property": "C20",
   "status": "proved",
   "theorems": [
    "C20_k12"
   ],
   "note": ""
  },
  {
   "property": "C21",
   "status": "proved",
   "theorems": [
    "C21_blake2b",
    "C21_blake2s",
    "C21_blake2b_customized",
    "C21_blake2s_customized"
   ],
   "note": ""
  },
  {
   "property": "C22",
   "status": "proved",
   "theorems": [
    "C22_blake2b",
    "C22_blake2s",
    "C22_blake2b_slice",
    "C22_blake2s_slice"
   ],
   "note": ""
  },
  {
   "property": "C23",
   "status": "partial",
   "theorems": [
    "C23_blake2b_salt_personal",
    "C23_blake2s_salt_personal",
    "C23_blake2b_slice",
    "C23_blake2s_slice",
    "C23_no_panic_refuted",
    "C23_empty_key_refuted"
   ],
   "note": "The property as stated is false of the code in two ways: new_with_salt_and_personal panics (instead of returning an error) for key lengths 65..128, salt/persona lengths 17..32 (Blake2b; halves for Blake2s), see C23_no_panic_refuted; and new_from_slice accepts the empty key, see C23_empty_key_refuted. C23_*_salt_personal and C23_*_slice give the exact outcome for every input."
  },
  {
   "property": "C24",
   "status": "proved",
   "theorems": [
    "C24_blake2b",
    "C24_blake2s"
   ],
   "note": ""
  },
  {
   "property": "C25",
   "status": "proved",
   "theorems": [
    "C25_tiger",
    "C25_tiger2",
    "C25_sboxes"
   ],
   "note": ""
  },
  {
   "property": "C26",
   "status": "proved",
   "theorems": [
    "C26_whirlpool"
   ],
   "note": ""
  },
  {
   "property": "C27",
   "status": "proved",
   "theorems": [
    "C27_short",
    "C27_long",
    "C27_named"
   ],
   "note": ""
  },
  {
   "property": "C28",
   "status": "proved",
   "theorems": [
    "C28_compress",
    "C28_jh"
   ],
   "note": ""
  },
  {
   "property": "C29",
   "status": "proved",
   "theorems": [
    "C29_short",
    "C29_long",
    "C29_named"
   ],
   "note": ""
  },
  {
   "property": "C30",
   "status": "partial",
   "theorems": [
    "C30_streebog256",
    "C30_streebog512",
    "C30_counter_refuted"
   ],
   "note": "Proved for every message shorter than 2^448 bits. For longer ones the property is false of the code: update_n loops over 1..7 and never carries into n[7] (C30_counter_refuted). C08_streebog gives the exact digest for all lengths."
  },
  {
   "property": "C31",
   "status": "proved",
   "theorems": [
    "C31_step",
    "C31_any_parameters",
    "C31_crypto_pro",
    "C31_s2015",
    "C31_test",
    "C31_ua"
   ],
   "note": ""
  },
  {
   "property": "C32",
   "status": "partial",
   "theorems": [
    "C32_any_cipher",
    "C32_skein256_partial",
    "C32_skein512_partial",
    "C32_skein1024_partial",
    "C32_all_sizes_refuted",
    "C32_small_sizes_collide"
   ],
   "note": "Proved for every output size divisible by 8. For the other sizes the property is false of the code: finalize_fixed_core writes whole 8-byte words only, the last N mod 8 bytes stay zero (C32_all_sizes_refuted, C32_small_sizes_collide). C32_any_cipher says exactly what is computed for every size. Threefish (an external crate) is a parameter."
  },
  {
   "property": "C33",
   "status": "proved",
   "theorems": [
    "C33_round",
    "C33_shabal"
   ],
   "note": ""
  },
  {
   "property": "C34",
   "status": "proved",
   "theorems": [
    "C34_rotate",
    "C34_compress_160",
    "C34_compress_384",
    "C34_fsb"
   ],
   "note": ""
  },
  {
   "property": "C35",
   "status": "proved",
   "theorems": [
    "C35_any_cipher",
    "C35_belt",
    "C35_compress"
   ],
   "note": ""
  },
  {
   "property": "C36",
   "status": "proved",
   "theorems": [
    "C36_initial_states",
    "C36_hash256",
    "C36_xof128"
   ],
   "note": ""
  },
  {
   "property": "C37",
   "status": "proved",
   "theorems": [
    "C37_all_agree",
    "C37_fips"
   ],
   "note": ""
  },
  {
   "property": "C38",
   "status": "proved",
   "theorems": [
    "C38_all_agree",
    "C38_fips"
   ],
   "note": ""
  },
  {
   "property": "C39",
   "status": "proved",
   "theorems": [
    "C39_all_agree",
    "C39_fips"
   ],
   "note": ""
  },
  {
   "property": "C40",
   "status": "proved",
   "theorems": [
    "C40_sha256",
    "C40_sha512_rv64",
    "C40_sha512_rv32"
   ],
   "note": ""
  },
  {
   "property": "C41",
   "status": "proved",
   "theorems": [
    "C41_outcome",
    "C41_plain",
    "C41_configured"
   ],
   "note": ""
  },
  {
   "property": "C42",
   "status": "proved",
   "theorems": [
    "C42_partner",
    "C42_exact",
    "C42_table"
   ],
   "note": ""
  },
  {
   "property": "C43",
   "status": "proved",
   "theorems": [
    "C43_histories",
    "C43_reset"
   ],
   "note": ""
  },
  {
   "property": "C44",
   "status": "proved",
   "theorems": [
    "C44_md_padding",
    "C44_sponge_padding",
    "C44_md4",
    "C44_md5",
    "C44_sha1",
    "C44_sm3",
    "C44_sha256",
    "C44_sha512",
    "C44_ripemd128",
    "C44_ripemd160",
    "C44_ripemd256",
    "C44_ripemd320",
    "C44_tiger",
    "C44_tiger2",
    "C44_whirlpool",
    "C44_md2",
    "C44_keccak224",
    "C44_keccak256",
    "C44_keccak384",
    "C44_keccak512",
    "C44_sha3_224",
    "C44_sha3_256",
    "C44_sha3_384",
    "C44_sha3_512",
    "C44_shake128",
    "C44_shake256",
    "C44_turboshake128",
    "C44_turboshake256",
    "C44_jh224",
    "C44_jh256",
    "C44_jh384",
    "C44_jh512",
    "C44_ascon_hash",
    "C44_ascon_xof",
    "C44_groestl_short",
    "C44_groestl_long",
    "C44_kupyna_short",
    "C44_kupyna_long",
    "C44_shabal",
    "C44_sha224",
    "C44_sha384",
    "C44_sha512_224",
    "C44_sha512_256",
    "C44_sha2_blocks_64",
    "C44_sha2_blocks_128"
   ],
   "note": ""
  },
  {
   "property": "C45",
   "status": "proved",
   "theorems": [
    "C45_left_encode",
    "C45_length_encode",
    "C45_left_decodable",
    "C45_strings",
    "C45_right_decodable",
    "C45_k12_input"
   ],
   "note": ""
  },
  {
   "property": "C46",
   "status": "proved",
   "theorems": [
    "C46_domain_bytes",
    "C46_cshake_absorbs",
    "C46_families",
    "C46_turboshake",
    "C46_cshake_names",
    "C46_blake2b",
    "C46_blake2s"
   ],
   "note": ""
  },
  {
   "property": "C47",
   "status": "partial",
   "theorems": [
    "C47_sha256_k",
    "C47_sha512_k",
    "C47_sha256_iv",
    "C47_sha512_iv",
    "C47_sha384_iv",
    "C47_sha224_iv",
    "C47_sha512t_iv",
    "C47_blake2_iv",
    "C47_sha1_k",
    "C47_md4_k",
    "C47_blake2_sigma",
    "C47_counted_ivs",
    "C47_md2",
    "C47_md5",
    "C47_sm3",
    "C47_belt",
    "C47_tiger",
    "C47_shabal",
    "C47_jh_iv",
    "C47_ascon",
    "C47_aes_sbox",
    "C47_groestl",
    "C47_whirlpool",
    "C47_whirlpool_rc",
    "C47_streebog",
    "C47_kupyna_mds",
    "C47_sha1_checked_dvs"
   ],
   "note": "Proved for the SHA-2, BLAKE2, SHA-1, MD4, MD5, MD2, RIPEMD (initial values; the round constants through C15), SM3, BelT, Tiger, Shabal, JH (initial values; the round constants through C28), Ascon, Groestl, Whirlpool, Streebog (S-box and linear tables), Kupyna (matrix) and sha1-checked tables. Tables for which the standard gives no rule, only values (Kupyna and GOST S-boxes, Streebog iteration constants), are compared with a copy of the standard's listing in the respective specification; FSB's table of digits of pi is a parameter of the model."
  },
  {
   "property": "C48",
   "status": "partial",
   "theorems": [
    "C48_distinct_refuted",
    "C48_shake256_wrong",
    "C48_only_clash",
    "C48_registered",
    "C48_registry_distinct"
   ],
   "note": "The property as stated is false of the code: Shake256 carries the identifier of SHAKE128 (C48_distinct_refuted, C48_shake256_wrong). Proved: it is the only clash, and every other hasher carries the identifier registered for its algorithm."
  },
  {
   "property": "C49",
   "status": "partial",
   "theorems": [
    "C49_sha1",
    "C49_sha256",
    "C49_sha512",
    "C49_sm3",
    "C49_md2",
    "C49_md4",
    "C49_md5",
    "C49_ripemd",
    "C49_tiger",
    "C49_whirlpool",
    "C49_groestl",
    "C49_kupyna",
    "C49_fsb",
    "C49_jh",
    "C49_streebog",
    "C49_gost94",
    "C49_belt",
    "C49_shabal",
    "C49_skein",
    "C49_sha3",
    "C49_shake",
    "C49_turbo_shake",
    "C49_cshake",
    "C49_k12",
    "C49_k12_whole",
    "C49_blake2",
    "C49_blake2b_mac_partial",
    "C49_blake2s_mac_partial",
    "C49_mac_no_reset_whole",
    "C49_blake2b_mac_whole",
    "C49_blake2s_mac_whole",
    "C49_blake2b_mac_refuted",
    "C49_blake2s_mac_refuted",
    "C49_blake2b_mac_leaks",
    "C49_blake2s_mac_leaks",
    "C49_sha1_checked_whole",
    "C49_sha1_checked_refuted",
    "C49_sha1_checked_leaks",
    "C49_sha1_checked_detection_partial"
   ],
   "note": "Proved for every core type of every crate that has a Drop implementation, and for the XOF readers of sha3. The property as stated is false of the code in two places: the BLAKE2 MACs with the feature reset keep the key block in memory (C49_blake2*_mac_refuted, _leaks; without reset they are clean, *_partial), and sha1-checked marks Sha1 as ZeroizeOnDrop but keeps the chaining value, which is the digest after finalization (C49_sha1_checked_refuted, _leaks). For KangarooTwelve, the MACs and sha1-checked, whose field lists are the longest, the fields considered are shown to determine the object (*_whole). Buffers inside the digest crate's wrappers, the Ascon state (both external) and stack copies are not modelled."
  },
  {
   "property": "C50",
   "status": "proved",
   "theorems": [
    "C50_all_agree",
    "C50_rfc"
   ],
   "note": ""
  },
  {
   "property": "C51",
   "status": "proved",
   "theorems": [
    "C51_rotations",
    "C51_blake2b",
    "C51_blake2s",
    "C51_histories",
    "C51_tiger_tables"
   ],
   "note": ""
  },
  {
   "property": "C52",
   "status": "proved",
   "theorems": [
    "C52_sha256",
    "C52_sha512",
    "C52_sha1",
    "C52_md5",
    "C52_histories"
   ],
   "note": ""
  },
  {
   "property": "C53",
   "status": "proved",
   "theorems": [
    "C53_sha256",
    "C53_sha512",
    "C53_sha1",
    "C53_md5"
   ],
   "note": ""
  },
  {
   "property": "C54",
   "status": "proved",
   "theorems": [
    "C54_constant_time"
   ],
   "note": ""
  },
  {
   "property": "C55",
   "status": "partial",
   "theorems": [
    "C55_loads",
    "C55_aligned_loads",
    "C55_word_loads",
    "C55_stores",
    "C55_sha256",
    "C55_sha512",
    "C55_sha1",
    "C55_jh",
    "C55_riscv_pointers",
    "C55_riscv_pointers_refuted",
    "C55_jh_f8_impl_refuted"
   ],
   "note": "Loads, stores, alignment, result and frame are proved for every back end (C55_sha256, C55_sha512, C55_sha1, C55_jh). The last two sentences of the property are false of the code: on RISC-V bp.add is called on a pointer before the block, which need not belong to the allocation (C55_riscv_pointers says exactly when it does, C55_riscv_pointers_refuted), and the public safe function jh::f8_impl dereferences any pointer (C55_jh_f8_impl_refuted). The first and last load of an unaligned RISC-V block take in bytes beside it, within the same aligned word."
  },
  {
   "property": "C56",
   "status": "partial",
   "theorems": [
    "C56_unique_refuted",
    "C56_only_skein",
    "C56_skein_debug"
   ],
   "note": "The property as stated is false of the code: a Skein hasher's name does not contain its output size (C56_unique_refuted). Proved: these are the only clashes, for all sizes (C56_only_skein), and Debug of the Skein cores does tell the sizes apart. The suffix with the output size for the other generic hashers is written by digest (external)."
  },
  {
   "property": "C57",
   "status": "proved",
   "theorems": [
    "C57_sha256",
    "C57_sha512",
    "C57_sha1",
    "C57_sm3",
    "C57_md5",
    "C57_md4",
    "C57_ripemd",
    "C57_tiger",
    "C57_tiger2"
   ],
   "note": ""
  }
 ]
}