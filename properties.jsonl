{"id": "C01", "title": "Splitting a message over update calls never changes the digest", "statement": "For every hasher of the workspace, feeding a message through any sequence of `update` calls (any number of calls, any chunk lengths, empty chunks and chunks that straddle, fill or skip block boundaries included) and then finalizing gives exactly the digest obtained by hashing the whole message with a single call.", "quantifier": "all messages, all ways to cut them into a finite list of chunks, every hasher, builds with and without overflow checks", "why_tests_cant": "The number of cut patterns is exponential in the message length and the interesting ones depend on block size and buffer kind; tests try a handful.", "anchors": ["sha2/src/core_api.rs: UpdateCore::update_blocks", "blake2/src/macros.rs: update_blocks (lazy buffer)", "k12/src/lib.rs: update_blocks", "sha1-checked/src/lib.rs: Update::update"]}
{"id": "C02", "title": "Digest of any hasher in any history is the hash of what was fed to it", "statement": "In any history of operations on any number of hasher values (create, update, clone, reset, finalize_reset, finalize, serialize, deserialize), each digest produced equals the one-shot hash of exactly the bytes given to that value (and to the value it was cloned or deserialized from) since its creation or last reset.", "quantifier": "all finite histories of API calls over any number of hasher values", "why_tests_cant": "Histories are unbounded and interleave several values; a leak of state through reset, clone or serialization shows up only in particular orders.", "anchors": ["sha2/src/core_api.rs", "sha3/src/macros.rs: Reset", "blake2/src/macros.rs: Reset", "sha1-checked/src/lib.rs: Reset, FixedOutputReset", "k12/src/lib.rs: Reset", "gost94/src/gost94_core.rs: Reset"]}
{"id": "C03", "title": "Saving and restoring hasher state is lossless at every point", "statement": "For every hasher that implements state serialization and at any point of any history, deserialize(serialize(h)) succeeds and yields a hasher indistinguishable from h: the same later updates and finalizations give the same outputs.", "quantifier": "all reachable states (any message prefix, any buffer fill level)", "why_tests_cant": "The state space is 2^hundreds; field order, width or endianness slips are visible only for particular counter and state values.", "anchors": ["*/src/lib.rs: impl SerializableState", "sha2/src/core_api.rs: serialize, deserialize"]}
{"id": "C04", "title": "Accepted serialized states are canonical", "statement": "Deserialization of a byte string of the right length either fails, or yields a state whose serialization is that same byte string, so two different byte strings never denote the same state and no out-of-range field is accepted.", "quantifier": "all byte strings of the serialized length", "why_tests_cant": "Quantifies over all 2^(8n) byte strings.", "anchors": ["*/src/lib.rs: SerializableState::deserialize", "streebog/src/core_api.rs: deserialize", "ascon-hash/src/lib.rs: deserialize"]}
{"id": "C05", "title": "Extendable output does not depend on how it is read", "statement": "For every XOF (SHAKE, cSHAKE, TurboSHAKE, KangarooTwelve, Ascon-XOF) any sequence of `read` calls returns consecutive pieces of one output stream determined by the message: the concatenation of the pieces equals a single read of the total length, and shorter reads are prefixes of longer ones.", "quantifier": "all messages, all finite sequences of read lengths", "why_tests_cant": "Unboundedly many read patterns and stream lengths.", "anchors": ["sha3/src/macros.rs: XofReaderCore::read_block", "k12/src/lib.rs: KangarooTwelveReaderCore", "ascon-hash/src/lib.rs: AsconXofReaderCore"]}
{"id": "C06", "title": "Runtime output sizes: exactly the supported sizes are accepted, and the result is the prescribed slice of the full digest", "statement": "Constructing a variable-output hasher succeeds exactly for the supported sizes and fails with InvalidOutputSize otherwise; the digest of an accepted size n is the first (or, where the algorithm says so, last) n bytes of the algorithm's full result for that size.", "quantifier": "all output sizes (every natural number), all messages", "why_tests_cant": "Output size is an arbitrary usize; tests cover the named sizes only.", "anchors": ["sha2/src/core_api.rs: VariableOutputCore::new", "groestl/src/lib.rs", "jh/src/lib.rs", "kupyna/src/{short,long}.rs", "shabal/src/core_api.rs", "streebog/src/core_api.rs", "blake2/src/macros.rs"]}
{"id": "C07", "title": "No call sequence within the documented length limit panics", "statement": "For messages shorter than the algorithm's length limit no sequence of update / finalize calls hits an arithmetic overflow, an out-of-range index or an assertion, also in builds with overflow checks.", "quantifier": "all messages below the limit, all call sequences, both overflow-check modes", "why_tests_cant": "The limit is of the order of 2^61 bytes and cannot be approached by a test; index computations depend on message content.", "anchors": ["sha2/src/core_api.rs", "fsb/src/macros.rs: hash, define_iv, shift_and_truncate", "skein/src/lib.rs", "tiger/src/lib.rs", "whirlpool/src/lib.rs"]}
{"id": "C08", "title": "Behaviour at the length-counter limit", "statement": "When a message reaches the counter limit, a build with overflow checks panics instead of producing a digest, while a wrapping build continues with the counter reduced modulo its width; algorithms that use wrapping arithmetic (MD4, MD5, JH) never panic and encode the length modulo 2^64.", "quantifier": "all messages, of any length, including those longer than 2^64 bits", "why_tests_cant": "Messages of more than 2^61 bytes cannot be hashed by a test.", "anchors": ["sha2/src/core_api.rs: bit_len", "md5/src/lib.rs: wrapping_mul", "jh/src/lib.rs", "sha1/src/lib.rs", "streebog/src/core_api.rs: update_n"]}
{"id": "C09", "title": "SHA-224 and SHA-256 compute the FIPS 180-4 functions", "statement": "For every message of fewer than 2^64 bits, the SHA-224 / SHA-256 digest equals the one defined by FIPS 180-4.", "quantifier": "all messages shorter than 2^61 bytes", "why_tests_cant": "Test vectors fix finitely many messages.", "anchors": ["sha2/src/core_api.rs: Sha256VarCore", "sha2/src/sha256/soft.rs", "sha2/src/consts.rs"]}
{"id": "C10", "title": "SHA-384, SHA-512, SHA-512/224 and SHA-512/256 compute the FIPS 180-4 functions", "statement": "For every message of fewer than 2^128 bits the digest equals the one defined by FIPS 180-4, including the derived initial values of SHA-512/t.", "quantifier": "all messages shorter than 2^125 bytes", "why_tests_cant": "Test vectors fix finitely many messages.", "anchors": ["sha2/src/core_api.rs: Sha512VarCore", "sha2/src/sha512/soft.rs", "sha2/src/consts.rs"]}
{"id": "C11", "title": "SHA-1 computes the FIPS 180-4 function", "statement": "For every message of fewer than 2^64 bits the SHA-1 digest equals the one defined by FIPS 180-4.", "quantifier": "all messages shorter than 2^61 bytes", "why_tests_cant": "Test vectors fix finitely many messages.", "anchors": ["sha1/src/lib.rs", "sha1/src/compress/soft.rs"]}
{"id": "C12", "title": "MD5 computes the RFC 1321 function", "statement": "For every message the MD5 digest equals the one defined by RFC 1321 (length taken modulo 2^64).", "quantifier": "all messages, of any length", "why_tests_cant": "Test vectors fix finitely many messages.", "anchors": ["md5/src/lib.rs", "md5/src/compress/soft.rs", "md5/src/consts.rs"]}
{"id": "C13", "title": "MD4 computes the RFC 1320 function", "statement": "For every message the MD4 digest equals the one defined by RFC 1320 (length taken modulo 2^64).", "quantifier": "all messages, of any length", "why_tests_cant": "Test vectors fix finitely many messages.", "anchors": ["md4/src/lib.rs"]}
{"id": "C14", "title": "MD2 computes the RFC 1319 function", "statement": "For every message the MD2 digest equals the one defined by RFC 1319, including the checksum of RFC 1319 with its erratum.", "quantifier": "all messages, of any length", "why_tests_cant": "Test vectors fix finitely many messages.", "anchors": ["md2/src/lib.rs", "md2/src/consts.rs"]}
{"id": "C15", "title": "RIPEMD-128/160/256/320 compute their published functions", "statement": "For every message of fewer than 2^64 bits each RIPEMD variant's digest equals the one of its published specification.", "quantifier": "all messages shorter than 2^61 bytes, the four variants", "why_tests_cant": "Test vectors fix finitely many messages.", "anchors": ["ripemd/src/lib.rs", "ripemd/src/c128.rs", "ripemd/src/c160.rs", "ripemd/src/c256.rs", "ripemd/src/c320.rs"]}
{"id": "C16", "title": "SM3 computes the GB/T 32905-2016 function", "statement": "For every message of fewer than 2^64 bits the SM3 digest equals the standard's.", "quantifier": "all messages shorter than 2^61 bytes", "why_tests_cant": "Test vectors fix finitely many messages.", "anchors": ["sm3/src/lib.rs", "sm3/src/compress.rs"]}
{"id": "C17", "title": "Keccak-n, SHA3-n, SHAKE128 and SHAKE256 compute the FIPS 202 / Keccak sponge functions", "statement": "For every message and every output length, the result equals KECCAK[c](M || suffix, d) with the suffix bits prescribed for the variant.", "quantifier": "all messages, all output lengths", "why_tests_cant": "Test vectors fix finitely many messages; sponge padding edge cases depend on the length modulo the rate.", "anchors": ["sha3/src/lib.rs", "sha3/src/macros.rs", "sha3/src/state.rs"]}
{"id": "C18", "title": "TurboSHAKE128/256 compute their specified functions for every domain byte", "statement": "For every message, output length and domain separation byte in 0x01..=0x7F the output equals the TurboSHAKE specification; other domain bytes are rejected by a panic at construction.", "quantifier": "all messages, output lengths and domain bytes", "why_tests_cant": "Message, length and domain combine without bound.", "anchors": ["sha3/src/macros.rs: impl_turbo_shake", "sha3/src/lib.rs"]}
{"id": "C19", "title": "cSHAKE128/256 compute the SP 800-185 functions", "statement": "For every message, function name N and customization string S the output equals cSHAKE(X, L, N, S) of SP 800-185; with N and S empty it equals SHAKE.", "quantifier": "all messages, all N and S, all output lengths", "why_tests_cant": "The encoded prefix length relative to the rate matters and ranges over all lengths of N and S.", "anchors": ["sha3/src/macros.rs: impl_cshake, new_with_function_name, left_encode"]}
{"id": "C20", "title": "KangarooTwelve computes the specified tree hash", "statement": "For every message and customization string the output equals KangarooTwelve(M, C, L) for messages of any number of 8192-byte chunks.", "quantifier": "all messages, all customization strings, all output lengths", "why_tests_cant": "Chunk boundaries, number of chunks and customization length interact without bound.", "anchors": ["k12/src/lib.rs"]}
{"id": "C21", "title": "BLAKE2b and BLAKE2s compute the RFC 7693 functions for every output size", "statement": "For every message and output length 1..=64 (1..=32) the digest equals RFC 7693's unkeyed BLAKE2b (BLAKE2s).", "quantifier": "all messages shorter than the counter limit, all output sizes", "why_tests_cant": "Test vectors fix finitely many messages; the last-block rule depends on the length modulo the block size.", "anchors": ["blake2/src/macros.rs: blake2_impl", "blake2/src/lib.rs", "blake2/src/consts.rs"]}
{"id": "C22", "title": "Keyed BLAKE2 (with salt and personalization) computes the RFC 7693 / BLAKE2 parameter-block function", "statement": "For every key, salt, personalization and message accepted by the MAC constructors, the tag equals BLAKE2 of (key padded to one block) || message started from the parameter block with those fields.", "quantifier": "all keys, salts, personas, messages and output sizes accepted", "why_tests_cant": "Product of four unbounded or large domains.", "anchors": ["blake2/src/macros.rs: blake2_mac_impl, new_with_params"]}
{"id": "C23", "title": "BLAKE2 MAC constructors reject exactly the invalid parameters and never panic", "statement": "The MAC constructors return an error for empty-but-present or oversized key, oversized salt or persona, and otherwise succeed; they never panic.", "quantifier": "all key, salt and persona byte strings", "why_tests_cant": "Lengths are arbitrary; the limits are near boundaries tests do not probe.", "anchors": ["blake2/src/macros.rs: new_with_salt_and_personal, new_from_slice, new_with_params"]}
{"id": "C24", "title": "Resetting a keyed BLAKE2 MAC re-absorbs the key", "statement": "After reset or finalize_reset a keyed MAC behaves as a freshly keyed one with the same key, salt and persona.", "quantifier": "all keys and all histories before the reset", "why_tests_cant": "Unbounded histories and keys.", "anchors": ["blake2/src/macros.rs: Reset for $name", "blake2/src/macros.rs: FixedOutputReset"]}
{"id": "C25", "title": "Tiger and Tiger2 compute their published functions", "statement": "For every message of fewer than 2^64 bits the digest equals the Tiger (padding byte 0x01) or Tiger2 (0x80) specification.", "quantifier": "all messages shorter than 2^61 bytes", "why_tests_cant": "Test vectors fix finitely many messages.", "anchors": ["tiger/src/lib.rs", "tiger/src/compress.rs", "tiger/src/tables.rs"]}
{"id": "C26", "title": "Whirlpool computes the ISO/IEC 10118-3 function", "statement": "For every message the Whirlpool digest equals the specification, with a 256-bit length field, table lookups implementing SubBytes, ShiftColumns and MixRows.", "quantifier": "all messages, of any length below 2^256 bits", "why_tests_cant": "Test vectors fix finitely many messages; carries in the 256-bit counter cannot be reached by tests.", "anchors": ["whirlpool/src/lib.rs", "whirlpool/src/compress.rs", "whirlpool/src/consts.rs"]}
{"id": "C27", "title": "Groestl computes its specified function for all output sizes", "statement": "For every message and output size the digest equals the Groestl specification, including the block count in the padding.", "quantifier": "all messages, all output sizes", "why_tests_cant": "The padding block count rule depends on the message length modulo the block size.", "anchors": ["groestl/src/lib.rs", "groestl/src/compress512.rs", "groestl/src/compress1024.rs", "groestl/src/table.rs"]}
{"id": "C28", "title": "JH computes its specified function for the four output sizes", "statement": "For every message the JH-n digest equals the JH specification (bit-sliced E8).", "quantifier": "all messages", "why_tests_cant": "Test vectors fix finitely many messages.", "anchors": ["jh/src/lib.rs", "jh/src/compressor.rs", "jh/src/consts.rs"]}
{"id": "C29", "title": "Kupyna computes the DSTU 7564:2014 function", "statement": "For every message and output size the Kupyna digest equals the standard's.", "quantifier": "all messages", "why_tests_cant": "Test vectors fix finitely many messages.", "anchors": ["kupyna/src/short.rs", "kupyna/src/short_compress.rs", "kupyna/src/long.rs", "kupyna/src/utils.rs"]}
{"id": "C30", "title": "Streebog computes the GOST R 34.11-2012 function", "statement": "For every message the Streebog-256/512 digest equals the standard's, with the length counter N and checksum Sigma taken modulo 2^512.", "quantifier": "all messages, all reachable counter values", "why_tests_cant": "The 512-bit counter cannot be driven near its carries by hashing data.", "anchors": ["streebog/src/core_api.rs", "streebog/src/consts.rs"]}
{"id": "C31", "title": "GOST R 34.11-94 computes the RFC 5831 function", "statement": "For every message and parameter set the digest equals RFC 5831's, with the length and checksum modulo 2^256.", "quantifier": "all messages, all S-box parameter sets", "why_tests_cant": "Test vectors fix finitely many messages.", "anchors": ["gost94/src/gost94_core.rs", "gost94/src/params.rs"]}
{"id": "C32", "title": "Skein computes the Skein 1.3 function for every output size", "statement": "For every message and every output size N the digest equals Skein-256/512/1024 of the Skein 1.3 paper, all N bytes of it.", "quantifier": "all messages, all output sizes", "why_tests_cant": "Output sizes are type-level numbers, tests instantiate only a few; message-length edge cases.", "anchors": ["skein/src/lib.rs"]}
{"id": "C33", "title": "Shabal computes its specified function for the five output sizes", "statement": "For every message the Shabal-n digest equals the specification.", "quantifier": "all messages", "why_tests_cant": "Test vectors fix finitely many messages.", "anchors": ["shabal/src/core_api.rs", "shabal/src/consts.rs"]}
{"id": "C34", "title": "FSB computes its specified function", "statement": "For every message the FSB-n digest is Whirlpool applied to the final value of the FSB compression: XOR of w rotated and truncated pseudo-random vectors chosen by IV bits and message bits, with the specified padding.", "quantifier": "all messages, any content of the pseudo-random table", "why_tests_cant": "The bit-index arithmetic depends on every message bit and on shift values modulo 8.", "anchors": ["fsb/src/macros.rs", "fsb/src/lib.rs"]}
{"id": "C35", "title": "BelT hash computes the STB 34.101.31 function", "statement": "For every message the digest equals belt-hash with the 128-bit length and checksum s.", "quantifier": "all messages", "why_tests_cant": "Test vectors fix finitely many messages.", "anchors": ["belt-hash/src/lib.rs"]}
{"id": "C36", "title": "Ascon-Hash256 and Ascon-XOF128 compute their specified functions", "statement": "For every message and output length the result equals the sponge of the Ascon specification with the crate's initial value.", "quantifier": "all messages, all output lengths", "why_tests_cant": "Test vectors fix finitely many messages; padding depends on length modulo 8.", "anchors": ["ascon-hash/src/lib.rs"]}
{"id": "C37", "title": "All SHA-256 back ends agree", "statement": "For every chaining value and every list of blocks, the portable, x86 SHA-NI, AArch64, RISC-V Zknh (unrolled and compact), WebAssembly SIMD and LoongArch64 assembly back ends compute the same chaining value.", "quantifier": "all chaining values, all block lists, whichever back end the CPU detection selects", "why_tests_cant": "CPU detection picks one back end per machine; tests compare on few inputs.", "anchors": ["sha2/src/sha256.rs", "sha2/src/sha256/*.rs"]}
{"id": "C38", "title": "All SHA-512 back ends agree", "statement": "For every chaining value and every list of blocks (odd or even number), the portable, x86 AVX2 (two blocks at a time), AArch64, RISC-V Zknh and WebAssembly and LoongArch64 assembly back ends compute the same chaining value.", "quantifier": "all chaining values, all block lists, whichever back end is selected", "why_tests_cant": "As for SHA-256; the AVX2 path treats odd and even block counts differently.", "anchors": ["sha2/src/sha512.rs", "sha2/src/sha512/*.rs"]}
{"id": "C39", "title": "All SHA-1 back ends agree", "statement": "For every chaining value and every list of blocks, the portable, x86 SHA-NI and AArch64 and LoongArch64 assembly back ends compute the same chaining value.", "quantifier": "all chaining values, all block lists", "why_tests_cant": "CPU detection picks one back end per machine.", "anchors": ["sha1/src/compress.rs", "sha1/src/compress/*.rs"]}
{"id": "C40", "title": "Unaligned and aligned message loads on RISC-V read the same words", "statement": "For every address alignment of the block the RISC-V back ends obtain the sixteen big-endian words of the block.", "quantifier": "all block contents, all alignments, all contents of adjacent memory", "why_tests_cant": "Depends on the address the allocator returns and on neighbouring memory.", "anchors": ["sha2/src/sha256/riscv_zknh_utils.rs", "sha2/src/sha512/riscv_zknh_utils.rs"]}
{"id": "C41", "title": "Collision-detecting SHA-1 equals SHA-1 unless it reports a collision", "statement": "For every message and chunking, the digest of the sha1-checked hasher with detection disabled, or with detection enabled and no collision reported, or with safe hash disabled, equals SHA-1 of the message; the outcome of finalization says whether a collision was found.", "quantifier": "all messages, all chunkings, all detection configurations", "why_tests_cant": "The property is about every message; colliding blocks are astronomically rare in tests.", "anchors": ["sha1-checked/src/lib.rs", "sha1-checked/src/compress.rs"]}
{"id": "C42", "title": "A reported SHA-1 collision comes with a real colliding partner block", "statement": "When the detector reports a collision for a block (without the reduced-round option), there is a second chaining value and a second expanded message, differing from the first by one of the listed disturbance vectors, whose SHA-1 compression gives the very same output chaining value.", "quantifier": "all chaining values and blocks", "why_tests_cant": "Known colliding blocks are a handful.", "anchors": ["sha1-checked/src/compress.rs: recompress_fast_58, recompress_fast_65, compress"]}
{"id": "C43", "title": "Resetting a collision-detecting hasher forgets the collision but keeps its configuration", "statement": "After reset (or finalize_reset) a sha1-checked hasher behaves like a newly built one with the same configuration, whatever it hashed before.", "quantifier": "all histories, all configurations", "why_tests_cant": "Needs a history that contains a collision followed by arbitrary data.", "anchors": ["sha1-checked/src/lib.rs: Reset, DetectionState::reset, finalize_into_reset"]}
{"id": "C44", "title": "Message padding is injective, so hash collisions come from the compression function", "statement": "Two different messages (within the length limit) never produce the same sequence of padded blocks; hence from any two different messages with the same full-length digest one obtains two different inputs of the compression function with the same output.", "quantifier": "all pairs of messages", "why_tests_cant": "Quantifies over pairs of arbitrary messages.", "anchors": ["sha2/src/core_api.rs: len64_padding_be", "sha1/src/lib.rs", "md5/src/lib.rs", "sm3/src/lib.rs", "whirlpool/src/lib.rs", "sha3/src/macros.rs", "md2/src/lib.rs"]}
{"id": "C45", "title": "Length encodings are minimal and uniquely decodable", "statement": "cSHAKE's left_encode and KangarooTwelve's length_encode of every length are the standard's minimal big-endian encodings, and concatenations such as encode_string(N) || encode_string(S) determine N and S.", "quantifier": "all lengths up to the usize/u64 maximum, all pairs of strings", "why_tests_cant": "Lengths range over 2^64 values.", "anchors": ["sha3/src/macros.rs: left_encode", "k12/src/lib.rs: length_encode"]}
{"id": "C46", "title": "Domain separation between variants that share a permutation or compression function", "statement": "SHA3, SHAKE, Keccak, cSHAKE and TurboSHAKE with different domain bytes never absorb the same padded block sequence for any two messages; BLAKE2 instances that differ in output length, key length, salt or personalization start from different chaining values.", "quantifier": "all pairs of messages and parameter tuples", "why_tests_cant": "Quantifies over pairs of arbitrary inputs.", "anchors": ["sha3/src/lib.rs: pad constants", "sha3/src/macros.rs: finalize", "blake2/src/macros.rs: new_with_params"]}
{"id": "C47", "title": "Constant tables are the ones the standards derive", "statement": "Every entry of the round-constant, initial-value and lookup tables equals the value the standard's generation rule gives (square and cube roots of primes, S-box times MDS products, LFSR sequences, pi-based permutations, SHA-512/t IV generation).", "quantifier": "all table entries and all table indices", "why_tests_cant": "A wrong entry is exercised only by inputs that select it.", "anchors": ["sha2/src/consts.rs", "groestl/src/table.rs", "whirlpool/src/consts.rs", "streebog/src/consts.rs", "blake2/src/consts.rs", "md2/src/consts.rs", "ripemd/src/c*.rs"]}
{"id": "C48", "title": "Algorithm identifiers are distinct", "statement": "Different hash algorithms carry different object identifiers.", "quantifier": "all pairs of hashers with an OID", "why_tests_cant": "Tests do not compare identifiers across hashers.", "anchors": ["sha3/src/lib.rs: impl_shake OIDs", "sha2/src/lib.rs", "*/src/lib.rs: AssociatedOid"]}
{"id": "C49", "title": "Dropping a hasher with the zeroize feature erases its message-dependent state", "statement": "When the zeroize feature is on and a type is marked ZeroizeOnDrop, after drop every stored field that depends on the key or the message is zero.", "quantifier": "all states reachable by any history", "why_tests_cant": "Tests cannot observe memory after drop.", "anchors": ["blake2/src/macros.rs: Drop", "sha1-checked/src/lib.rs: Drop, ZeroizeOnDrop", "*/src/lib.rs: Drop"]}
{"id": "C50", "title": "All MD5 back ends agree", "statement": "For every state and every list of blocks, the LoongArch64 assembly back end of md5 leaves the same state as the portable compression function, whatever the scratch registers held before, and both compute the compression function of RFC 1321.", "quantifier": "all back ends, all states, all block lists, all prior register contents", "why_tests_cant": "The assembly runs only on LoongArch64 hardware, which CI of the project does not cover with generated inputs; tests on x86 never execute it.", "anchors": ["md5/src/compress.rs", "md5/src/compress/loongarch64_asm.rs", "md5/src/compress/soft.rs"]}
{"id": "C51", "title": "BLAKE2 and Tiger do not depend on byte order or vector features of the target", "statement": "On every target (little or big endian; with or without SSE2, SSSE3, NEON; with any combination of the simd, simd_opt, simd_asm features) every BLAKE2b/BLAKE2s hasher gives the digest of RFC 7693, any two targets behave alike in every history of API calls, every vector rotation used equals the lane-wise rotation, and the Tiger S-boxes read from the table file are the same words.", "quantifier": "all targets, all parameters, all messages, all histories", "why_tests_cant": "The big-endian and vector paths are compiled only for other targets or disabled features, so the test suite never runs them; a wrong byte shuffle shows only there.", "anchors": ["blake2/src/macros.rs", "blake2/src/simd.rs", "blake2/src/simd/simd_opt/u32x4.rs", "blake2/src/simd/simd_opt/u64x4.rs", "blake2/src/as_bytes.rs", "tiger/src/tables.rs"]}
{"id": "C52", "title": "The SHA-1, SHA-2 and MD5 hashers compute their standards on every back end", "statement": "With the compression function of any back end, chosen anew at every call and with arbitrary contents of scratch registers, scratch stack and surrounding memory, every SHA-1, SHA-2 and MD5 hasher gives the digest of its standard, and behaves like the portable hasher in every history of API calls, including clones, resets and saved states.", "quantifier": "all targets per call, all register and memory contents, all messages, all histories", "why_tests_cant": "A test run sees one target and whatever the registers happened to hold.", "anchors": ["sha2/src/core_api.rs", "sha2/src/sha256.rs", "sha2/src/sha512.rs", "sha1/src/lib.rs", "sha1/src/compress.rs", "md5/src/lib.rs", "md5/src/compress.rs"]}
{"id": "C53", "title": "The LoongArch64 assembly touches only its own memory and the registers it declares", "statement": "On a processor with 64-bit registers, a flat memory and a program counter, the SHA-256, SHA-512, SHA-1 and MD5 assembly, entered with pointers to the state, the blocks and the constants and with a nonzero number of blocks, never loads outside those ranges and its scratch words below the stack pointer, never stores outside the state and the scratch words, terminates at its end, leaves in the state (for MD5 in the registers) the standard's compression of all blocks, and leaves every register not named as changed in the asm! operands, the stack pointer included, and all other memory as it was.", "quantifier": "all initial register and memory contents, all pointers (aligned or not), all states, all numbers and contents of blocks", "why_tests_cant": "Tests run on other processors; an undeclared register, an unbalanced stack pointer or a stray access corrupts the caller only in some register allocations and memory layouts.", "anchors": ["sha2/src/sha256/loongarch64_asm.rs", "sha2/src/sha512/loongarch64_asm.rs", "sha1/src/compress/loongarch64_asm.rs", "md5/src/compress/loongarch64_asm.rs"]}
{"id": "C54", "title": "The LoongArch64 assembly runs in constant time", "statement": "The sequence of instructions executed by the SHA-256, SHA-512, SHA-1 and MD5 assembly and the sequence of addresses it accesses depend only on the pointers passed to it, the number of blocks, the stack pointer and the memory protection; never on the state, on message bytes, on other registers or on other memory.", "quantifier": "all pairs of initial register and memory contents that agree on the pointers, the block count and the stack pointer; all numbers of steps", "why_tests_cant": "A timing test samples a few inputs on one processor and cannot show that no pair of secrets is distinguishable.", "anchors": ["sha2/src/sha256/loongarch64_asm.rs", "sha2/src/sha512/loongarch64_asm.rs", "sha1/src/compress/loongarch64_asm.rs", "md5/src/compress/loongarch64_asm.rs"]}
{"id": "C55", "title": "The raw pointers of the unsafe compression functions stay within their operands", "statement": "The SHA-256 and SHA-512 compression functions of every target (portable with read_volatile, SHA-NI, AVX2, AArch64, WebAssembly, RISC-V Zknh in both versions and both register widths), the SHA-1 ones of x86 and AArch64, and JH's load only from the state, the blocks and the table of constants and store only to the state, whatever the alignment of state and blocks; typed reads are aligned; the state afterwards is the standard's; no other memory changes. Pointers computed on the way stay within the allocation of the block. Safe functions load only through pointers that are known to be valid.", "quantifier": "all memories, addresses, states, block lists (also empty) and targets", "why_tests_cant": "An out-of-bounds load usually returns something harmless and no test observes it; alignment and address are chosen by the allocator; most targets never run in the project's tests.", "anchors": ["sha2/src/sha256/soft.rs", "sha2/src/sha512/soft.rs", "sha2/src/sha256/x86_shani.rs", "sha2/src/sha512/x86_avx2.rs", "sha2/src/sha256/aarch64.rs", "sha2/src/sha512/aarch64.rs", "sha2/src/sha256/wasm32.rs", "sha2/src/sha512/wasm32.rs", "sha2/src/sha256/riscv_zknh.rs", "sha2/src/sha256/riscv_zknh_utils.rs", "sha2/src/sha512/riscv_zknh.rs", "sha2/src/sha512/riscv_zknh_utils.rs", "sha1/src/compress/x86.rs", "sha1/src/compress/aarch64.rs", "jh/src/compressor.rs"]}
{"id": "C56", "title": "Algorithm names tell hashers apart", "statement": "Two hasher types that write the same algorithm name are the same type, for all output sizes.", "quantifier": "all pairs of hasher types, including every output size of the generic ones", "why_tests_cant": "The sizes are unbounded type parameters and tests never compare names across hashers.", "anchors": ["*/src/lib.rs: AlgorithmName", "skein/src/lib.rs 164-174", "sha3/src/macros.rs", "sha2/src/core_api.rs", "gost94/src/params.rs"]}
{"id": "C57", "title": "A full-length digest can be continued", "statement": "For SHA-1, SHA-256, SHA-512, SM3, MD4, MD5, RIPEMD and Tiger, the saved state made of the digest of a message, its number of padded blocks and an empty buffer is accepted, and the restored hasher gives the digests of the padded message followed by whatever it is fed. So these digests must not be used as MACs by prefixing a key.", "quantifier": "all messages within the length limit, all continuations in any number of update calls, debug and release builds", "why_tests_cant": "The claim relates the digest, the padding and the serialization format for every message; tests check serialized states of single messages.", "anchors": ["sha2/src/core_api.rs 66-132, 184-249", "sha1/src/lib.rs", "sm3/src/lib.rs", "md4/src/lib.rs", "md5/src/lib.rs", "ripemd/src/lib.rs 70-166", "tiger/src/lib.rs 65-140"]}
