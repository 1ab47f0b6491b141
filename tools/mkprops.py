#!/usr/bin/env python3
"""Regenerates ../properties.jsonl (one JSON object per line)."""
import json, os
P = []
def p(title, statement, quantifier, why, anchors):
    P.append(dict(id="C%02d" % (len(P) + 1), title=title, statement=statement,
                  quantifier=quantifier, why_tests_cant=why, anchors=anchors))

p("Splitting a message over update calls never changes the digest",
  "For every hasher of the workspace, feeding a message through any sequence of `update` calls (any number of calls, any chunk lengths, empty chunks and chunks that straddle, fill or skip block boundaries included) and then finalizing gives exactly the digest obtained by hashing the whole message with a single call.",
  "all messages, all ways to cut them into a finite list of chunks, every hasher, builds with and without overflow checks",
  "The number of cut patterns is exponential in the message length and the interesting ones depend on block size and buffer kind; tests try a handful.",
  ["sha2/src/core_api.rs: UpdateCore::update_blocks", "blake2/src/macros.rs: update_blocks (lazy buffer)", "k12/src/lib.rs: update_blocks", "sha1-checked/src/lib.rs: Update::update"])
p("Digest of any hasher in any history is the hash of what was fed to it",
  "In any history of operations on any number of hasher values (create, update, clone, reset, finalize_reset, finalize, serialize, deserialize), each digest produced equals the one-shot hash of exactly the bytes given to that value (and to the value it was cloned or deserialized from) since its creation or last reset.",
  "all finite histories of API calls over any number of hasher values",
  "Histories are unbounded and interleave several values; a leak of state through reset, clone or serialization shows up only in particular orders.",
  ["sha2/src/core_api.rs", "sha3/src/macros.rs: Reset", "blake2/src/macros.rs: Reset", "sha1-checked/src/lib.rs: Reset, FixedOutputReset", "k12/src/lib.rs: Reset", "gost94/src/gost94_core.rs: Reset"])
p("Saving and restoring hasher state is lossless at every point",
  "For every hasher that implements state serialization and at any point of any history, deserialize(serialize(h)) succeeds and yields a hasher indistinguishable from h: the same later updates and finalizations give the same outputs.",
  "all reachable states (any message prefix, any buffer fill level)",
  "The state space is 2^hundreds; field order, width or endianness slips are visible only for particular counter and state values.",
  ["*/src/lib.rs: impl SerializableState", "sha2/src/core_api.rs: serialize, deserialize"])
p("Accepted serialized states are canonical",
  "Deserialization of a byte string of the right length either fails, or yields a state whose serialization is that same byte string, so two different byte strings never denote the same state and no out-of-range field is accepted.",
  "all byte strings of the serialized length",
  "Quantifies over all 2^(8n) byte strings.",
  ["*/src/lib.rs: SerializableState::deserialize", "streebog/src/core_api.rs: deserialize", "ascon-hash/src/lib.rs: deserialize"])
p("Extendable output does not depend on how it is read",
  "For every XOF (SHAKE, cSHAKE, TurboSHAKE, KangarooTwelve, Ascon-XOF) any sequence of `read` calls returns consecutive pieces of one output stream determined by the message: the concatenation of the pieces equals a single read of the total length, and shorter reads are prefixes of longer ones.",
  "all messages, all finite sequences of read lengths",
  "Unboundedly many read patterns and stream lengths.",
  ["sha3/src/macros.rs: XofReaderCore::read_block", "k12/src/lib.rs: KangarooTwelveReaderCore", "ascon-hash/src/lib.rs: AsconXofReaderCore"])
p("Runtime output sizes: exactly the supported sizes are accepted, and the result is the prescribed slice of the full digest",
  "Constructing a variable-output hasher succeeds exactly for the supported sizes and fails with InvalidOutputSize otherwise; the digest of an accepted size n is the first (or, where the algorithm says so, last) n bytes of the algorithm's full result for that size.",
  "all output sizes (every natural number), all messages",
  "Output size is an arbitrary usize; tests cover the named sizes only.",
  ["sha2/src/core_api.rs: VariableOutputCore::new", "groestl/src/lib.rs", "jh/src/lib.rs", "kupyna/src/{short,long}.rs", "shabal/src/core_api.rs", "streebog/src/core_api.rs", "blake2/src/macros.rs"])
p("No call sequence within the documented length limit panics",
  "For messages shorter than the algorithm's length limit no sequence of update / finalize calls hits an arithmetic overflow, an out-of-range index or an assertion, also in builds with overflow checks.",
  "all messages below the limit, all call sequences, both overflow-check modes",
  "The limit is of the order of 2^61 bytes and cannot be approached by a test; index computations depend on message content.",
  ["sha2/src/core_api.rs", "fsb/src/macros.rs: hash, define_iv, shift_and_truncate", "skein/src/lib.rs", "tiger/src/lib.rs", "whirlpool/src/lib.rs"])
p("Behaviour at the length-counter limit",
  "When a message reaches the counter limit, a build with overflow checks panics instead of producing a digest, while a wrapping build continues with the counter reduced modulo its width; algorithms that use wrapping arithmetic (MD4, MD5, JH) never panic and encode the length modulo 2^64.",
  "all messages, of any length, including those longer than 2^64 bits",
  "Messages of more than 2^61 bytes cannot be hashed by a test.",
  ["sha2/src/core_api.rs: bit_len", "md5/src/lib.rs: wrapping_mul", "jh/src/lib.rs", "sha1/src/lib.rs", "streebog/src/core_api.rs: update_n"])
p("SHA-224 and SHA-256 compute the FIPS 180-4 functions",
  "For every message of fewer than 2^64 bits, the SHA-224 / SHA-256 digest equals the one defined by FIPS 180-4.",
  "all messages shorter than 2^61 bytes", "Test vectors fix finitely many messages.",
  ["sha2/src/core_api.rs: Sha256VarCore", "sha2/src/sha256/soft.rs", "sha2/src/consts.rs"])
p("SHA-384, SHA-512, SHA-512/224 and SHA-512/256 compute the FIPS 180-4 functions",
  "For every message of fewer than 2^128 bits the digest equals the one defined by FIPS 180-4, including the derived initial values of SHA-512/t.",
  "all messages shorter than 2^125 bytes", "Test vectors fix finitely many messages.",
  ["sha2/src/core_api.rs: Sha512VarCore", "sha2/src/sha512/soft.rs", "sha2/src/consts.rs"])
p("SHA-1 computes the FIPS 180-4 function",
  "For every message of fewer than 2^64 bits the SHA-1 digest equals the one defined by FIPS 180-4.",
  "all messages shorter than 2^61 bytes", "Test vectors fix finitely many messages.",
  ["sha1/src/lib.rs", "sha1/src/compress/soft.rs"])
p("MD5 computes the RFC 1321 function",
  "For every message the MD5 digest equals the one defined by RFC 1321 (length taken modulo 2^64).",
  "all messages, of any length", "Test vectors fix finitely many messages.",
  ["md5/src/lib.rs", "md5/src/compress/soft.rs", "md5/src/consts.rs"])
p("MD4 computes the RFC 1320 function",
  "For every message the MD4 digest equals the one defined by RFC 1320 (length taken modulo 2^64).",
  "all messages, of any length", "Test vectors fix finitely many messages.", ["md4/src/lib.rs"])
p("MD2 computes the RFC 1319 function",
  "For every message the MD2 digest equals the one defined by RFC 1319, including the checksum of RFC 1319 with its erratum.",
  "all messages, of any length", "Test vectors fix finitely many messages.", ["md2/src/lib.rs", "md2/src/consts.rs"])
p("RIPEMD-128/160/256/320 compute their published functions",
  "For every message of fewer than 2^64 bits each RIPEMD variant's digest equals the one of its published specification.",
  "all messages shorter than 2^61 bytes, the four variants", "Test vectors fix finitely many messages.",
  ["ripemd/src/lib.rs", "ripemd/src/c128.rs", "ripemd/src/c160.rs", "ripemd/src/c256.rs", "ripemd/src/c320.rs"])
p("SM3 computes the GB/T 32905-2016 function",
  "For every message of fewer than 2^64 bits the SM3 digest equals the standard's.",
  "all messages shorter than 2^61 bytes", "Test vectors fix finitely many messages.", ["sm3/src/lib.rs", "sm3/src/compress.rs"])
p("Keccak-n, SHA3-n, SHAKE128 and SHAKE256 compute the FIPS 202 / Keccak sponge functions",
  "For every message and every output length, the result equals KECCAK[c](M || suffix, d) with the suffix bits prescribed for the variant.",
  "all messages, all output lengths", "Test vectors fix finitely many messages; sponge padding edge cases depend on the length modulo the rate.",
  ["sha3/src/lib.rs", "sha3/src/macros.rs", "sha3/src/state.rs"])
p("TurboSHAKE128/256 compute their specified functions for every domain byte",
  "For every message, output length and domain separation byte in 0x01..=0x7F the output equals the TurboSHAKE specification; other domain bytes are rejected by a panic at construction.",
  "all messages, output lengths and domain bytes", "Message, length and domain combine without bound.",
  ["sha3/src/macros.rs: impl_turbo_shake", "sha3/src/lib.rs"])
p("cSHAKE128/256 compute the SP 800-185 functions",
  "For every message, function name N and customization string S the output equals cSHAKE(X, L, N, S) of SP 800-185; with N and S empty it equals SHAKE.",
  "all messages, all N and S, all output lengths", "The encoded prefix length relative to the rate matters and ranges over all lengths of N and S.",
  ["sha3/src/macros.rs: impl_cshake, new_with_function_name, left_encode"])
p("KangarooTwelve computes the specified tree hash",
  "For every message and customization string the output equals KangarooTwelve(M, C, L) for messages of any number of 8192-byte chunks.",
  "all messages, all customization strings, all output lengths", "Chunk boundaries, number of chunks and customization length interact without bound.",
  ["k12/src/lib.rs"])
p("BLAKE2b and BLAKE2s compute the RFC 7693 functions for every output size",
  "For every message and output length 1..=64 (1..=32) the digest equals RFC 7693's unkeyed BLAKE2b (BLAKE2s).",
  "all messages shorter than the counter limit, all output sizes", "Test vectors fix finitely many messages; the last-block rule depends on the length modulo the block size.",
  ["blake2/src/macros.rs: blake2_impl", "blake2/src/lib.rs", "blake2/src/consts.rs"])
p("Keyed BLAKE2 (with salt and personalization) computes the RFC 7693 / BLAKE2 parameter-block function",
  "For every key, salt, personalization and message accepted by the MAC constructors, the tag equals BLAKE2 of (key padded to one block) || message started from the parameter block with those fields.",
  "all keys, salts, personas, messages and output sizes accepted", "Product of four unbounded or large domains.",
  ["blake2/src/macros.rs: blake2_mac_impl, new_with_params"])
p("BLAKE2 MAC constructors reject exactly the invalid parameters and never panic",
  "The MAC constructors return an error for empty-but-present or oversized key, oversized salt or persona, and otherwise succeed; they never panic.",
  "all key, salt and persona byte strings", "Lengths are arbitrary; the limits are near boundaries tests do not probe.",
  ["blake2/src/macros.rs: new_with_salt_and_personal, new_from_slice, new_with_params"])
p("Resetting a keyed BLAKE2 MAC re-absorbs the key",
  "After reset or finalize_reset a keyed MAC behaves as a freshly keyed one with the same key, salt and persona.",
  "all keys and all histories before the reset", "Unbounded histories and keys.",
  ["blake2/src/macros.rs: Reset for $name", "blake2/src/macros.rs: FixedOutputReset"])
p("Tiger and Tiger2 compute their published functions",
  "For every message of fewer than 2^64 bits the digest equals the Tiger (padding byte 0x01) or Tiger2 (0x80) specification.",
  "all messages shorter than 2^61 bytes", "Test vectors fix finitely many messages.", ["tiger/src/lib.rs", "tiger/src/compress.rs", "tiger/src/tables.rs"])
p("Whirlpool computes the ISO/IEC 10118-3 function",
  "For every message the Whirlpool digest equals the specification, with a 256-bit length field, table lookups implementing SubBytes, ShiftColumns and MixRows.",
  "all messages, of any length below 2^256 bits", "Test vectors fix finitely many messages; carries in the 256-bit counter cannot be reached by tests.",
  ["whirlpool/src/lib.rs", "whirlpool/src/compress.rs", "whirlpool/src/consts.rs"])
p("Groestl computes its specified function for all output sizes",
  "For every message and output size the digest equals the Groestl specification, including the block count in the padding.",
  "all messages, all output sizes", "The padding block count rule depends on the message length modulo the block size.",
  ["groestl/src/lib.rs", "groestl/src/compress512.rs", "groestl/src/compress1024.rs", "groestl/src/table.rs"])
p("JH computes its specified function for the four output sizes",
  "For every message the JH-n digest equals the JH specification (bit-sliced E8).",
  "all messages", "Test vectors fix finitely many messages.", ["jh/src/lib.rs", "jh/src/compressor.rs", "jh/src/consts.rs"])
p("Kupyna computes the DSTU 7564:2014 function",
  "For every message and output size the Kupyna digest equals the standard's.",
  "all messages", "Test vectors fix finitely many messages.", ["kupyna/src/short.rs", "kupyna/src/short_compress.rs", "kupyna/src/long.rs", "kupyna/src/utils.rs"])
p("Streebog computes the GOST R 34.11-2012 function",
  "For every message the Streebog-256/512 digest equals the standard's, with the length counter N and checksum Sigma taken modulo 2^512.",
  "all messages, all reachable counter values", "The 512-bit counter cannot be driven near its carries by hashing data.",
  ["streebog/src/core_api.rs", "streebog/src/consts.rs"])
p("GOST R 34.11-94 computes the RFC 5831 function",
  "For every message and parameter set the digest equals RFC 5831's, with the length and checksum modulo 2^256.",
  "all messages, all S-box parameter sets", "Test vectors fix finitely many messages.", ["gost94/src/gost94_core.rs", "gost94/src/params.rs"])
p("Skein computes the Skein 1.3 function for every output size",
  "For every message and every output size N the digest equals Skein-256/512/1024 of the Skein 1.3 paper, all N bytes of it.",
  "all messages, all output sizes", "Output sizes are type-level numbers, tests instantiate only a few; message-length edge cases.",
  ["skein/src/lib.rs"])
p("Shabal computes its specified function for the five output sizes",
  "For every message the Shabal-n digest equals the specification.",
  "all messages", "Test vectors fix finitely many messages.", ["shabal/src/core_api.rs", "shabal/src/consts.rs"])
p("FSB computes its specified function",
  "For every message the FSB-n digest is Whirlpool applied to the final value of the FSB compression: XOR of w rotated and truncated pseudo-random vectors chosen by IV bits and message bits, with the specified padding.",
  "all messages, any content of the pseudo-random table", "The bit-index arithmetic depends on every message bit and on shift values modulo 8.",
  ["fsb/src/macros.rs", "fsb/src/lib.rs"])
p("BelT hash computes the STB 34.101.31 function",
  "For every message the digest equals belt-hash with the 128-bit length and checksum s.",
  "all messages", "Test vectors fix finitely many messages.", ["belt-hash/src/lib.rs"])
p("Ascon-Hash256 and Ascon-XOF128 compute their specified functions",
  "For every message and output length the result equals the sponge of the Ascon specification with the crate's initial value.",
  "all messages, all output lengths", "Test vectors fix finitely many messages; padding depends on length modulo 8.",
  ["ascon-hash/src/lib.rs"])
p("All SHA-256 back ends agree",
  "For every chaining value and every list of blocks, the portable, x86 SHA-NI, AArch64, RISC-V Zknh (unrolled and compact), WebAssembly SIMD back ends compute the same chaining value.",
  "all chaining values, all block lists, whichever back end the CPU detection selects", "CPU detection picks one back end per machine; tests compare on few inputs.",
  ["sha2/src/sha256.rs", "sha2/src/sha256/*.rs"])
p("All SHA-512 back ends agree",
  "For every chaining value and every list of blocks (odd or even number), the portable, x86 AVX2 (two blocks at a time), AArch64, RISC-V Zknh and WebAssembly back ends compute the same chaining value.",
  "all chaining values, all block lists, whichever back end is selected", "As for SHA-256; the AVX2 path treats odd and even block counts differently.",
  ["sha2/src/sha512.rs", "sha2/src/sha512/*.rs"])
p("All SHA-1 back ends agree",
  "For every chaining value and every list of blocks, the portable, x86 SHA-NI and AArch64 back ends compute the same chaining value.",
  "all chaining values, all block lists", "CPU detection picks one back end per machine.",
  ["sha1/src/compress.rs", "sha1/src/compress/*.rs"])
p("Unaligned and aligned message loads on RISC-V read the same words",
  "For every address alignment of the block the RISC-V back ends obtain the sixteen big-endian words of the block.",
  "all block contents, all alignments, all contents of adjacent memory", "Depends on the address the allocator returns and on neighbouring memory.",
  ["sha2/src/sha256/riscv_zknh_utils.rs", "sha2/src/sha512/riscv_zknh_utils.rs"])
p("Collision-detecting SHA-1 equals SHA-1 unless it reports a collision",
  "For every message and chunking, the digest of the sha1-checked hasher with detection disabled, or with detection enabled and no collision reported, or with safe hash disabled, equals SHA-1 of the message; the outcome of finalization says whether a collision was found.",
  "all messages, all chunkings, all detection configurations", "The property is about every message; colliding blocks are astronomically rare in tests.",
  ["sha1-checked/src/lib.rs", "sha1-checked/src/compress.rs"])
p("A reported SHA-1 collision comes with a real colliding partner block",
  "When the detector reports a collision for a block (without the reduced-round option), there is a second chaining value and a second expanded message, differing from the first by one of the listed disturbance vectors, whose SHA-1 compression gives the very same output chaining value.",
  "all chaining values and blocks", "Known colliding blocks are a handful.",
  ["sha1-checked/src/compress.rs: recompress_fast_58, recompress_fast_65, compress"])
p("Resetting a collision-detecting hasher forgets the collision but keeps its configuration",
  "After reset (or finalize_reset) a sha1-checked hasher behaves like a newly built one with the same configuration, whatever it hashed before.",
  "all histories, all configurations", "Needs a history that contains a collision followed by arbitrary data.",
  ["sha1-checked/src/lib.rs: Reset, DetectionState::reset, finalize_into_reset"])
p("Message padding is injective, so hash collisions come from the compression function",
  "Two different messages (within the length limit) never produce the same sequence of padded blocks; hence from any two different messages with the same full-length digest one obtains two different inputs of the compression function with the same output.",
  "all pairs of messages", "Quantifies over pairs of arbitrary messages.",
  ["sha2/src/core_api.rs: len64_padding_be", "sha1/src/lib.rs", "md5/src/lib.rs", "sm3/src/lib.rs", "whirlpool/src/lib.rs", "sha3/src/macros.rs", "md2/src/lib.rs"])
p("Length encodings are minimal and uniquely decodable",
  "cSHAKE's left_encode and KangarooTwelve's length_encode of every length are the standard's minimal big-endian encodings, and concatenations such as encode_string(N) || encode_string(S) determine N and S.",
  "all lengths up to the usize/u64 maximum, all pairs of strings", "Lengths range over 2^64 values.",
  ["sha3/src/macros.rs: left_encode", "k12/src/lib.rs: length_encode"])
p("Domain separation between variants that share a permutation or compression function",
  "SHA3, SHAKE, Keccak, cSHAKE and TurboSHAKE with different domain bytes never absorb the same padded block sequence for any two messages; BLAKE2 instances that differ in output length, key length, salt or personalization start from different chaining values.",
  "all pairs of messages and parameter tuples", "Quantifies over pairs of arbitrary inputs.",
  ["sha3/src/lib.rs: pad constants", "sha3/src/macros.rs: finalize", "blake2/src/macros.rs: new_with_params"])
p("Constant tables are the ones the standards derive",
  "Every entry of the round-constant, initial-value and lookup tables equals the value the standard's generation rule gives (square and cube roots of primes, S-box times MDS products, LFSR sequences, pi-based permutations, SHA-512/t IV generation).",
  "all table entries and all table indices", "A wrong entry is exercised only by inputs that select it.",
  ["sha2/src/consts.rs", "groestl/src/table.rs", "whirlpool/src/consts.rs", "streebog/src/consts.rs", "blake2/src/consts.rs", "md2/src/consts.rs", "ripemd/src/c*.rs"])
p("Algorithm identifiers are distinct",
  "Different hash algorithms carry different object identifiers.",
  "all pairs of hashers with an OID", "Tests do not compare identifiers across hashers.",
  ["sha3/src/lib.rs: impl_shake OIDs", "sha2/src/lib.rs", "*/src/lib.rs: AssociatedOid"])
p("Dropping a hasher with the zeroize feature erases its message-dependent state",
  "When the zeroize feature is on and a type is marked ZeroizeOnDrop, after drop every stored field that depends on the key or the message is zero.",
  "all states reachable by any history", "Tests cannot observe memory after drop.",
  ["blake2/src/macros.rs: Drop", "sha1-checked/src/lib.rs: Drop, ZeroizeOnDrop", "*/src/lib.rs: Drop"])
path = os.path.join(os.path.dirname(os.path.abspath(__file__)), "..", "properties.jsonl")
with open(path, "w") as f:
    for d in P:
        f.write(json.dumps(d, ensure_ascii=False) + "\n")
print(len(P))
