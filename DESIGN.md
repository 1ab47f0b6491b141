# Formal model of RustCrypto/hashes: design

Pinned sources: `/repo` (23 hash crates). Language of the model: Coq 8.16.1 Gallina, standard library only.

## 1. Layout

| directory (`rocq/theories/...`) | contents |
|---|---|
| `Base/` | machine words over `N` (wrap written explicitly), byte conversions, block buffer, digest wrappers (the code of the external crates `block-buffer`, `digest`, modelled by contract), generic lemmas |
| `Spec/` | small reference specifications written from the standards, independent of the crates' code structure |
| `Model/` | the crates' code, function by function, each definition citing file and lines; no proofs |
| `Proof/` | lemmas: model = spec |
| `Props/` | property theorems only: statement, `exact lemma`, `Print Assumptions`, and a non-vacuity `Example` |

## 2. Modelling conventions

* A `uN` value is an `N`; arithmetic carries its wrap. `wrapping_add` is `(a + b) mod 2^w`. A plain `+`, `+=`, `*` on
  counters is checked arithmetic: it takes the build mode (`Checked` = overflow checks on, overflow is a panic, modelled as
  `None`; `Wrapping` = overflow checks off). Theorems quantify over the mode.
* Arrays are lists; `&mut self` functions return the new value; a panic is `None`; `Result::Err` is an explicit value.
* Bytes are `N`; a theorem that needs it says that message bytes are below 256 (always true of `u8`).
* Lengths of slices are naturals. Rust guarantees `len <= isize::MAX`; the model does not need this except where said.
* Macros are expanded by hand.
* `a[i]` is `get a i`. Where the index is not tested explicitly, a read beyond the end (a panic in Rust) gives `oob`, a bit sealed behind
  `Qed`: its value cannot be used, so an equality with a specification could not be proved if the result depended on such a read.
  `a[i] = v` is `upd a i v`; a write beyond the end gives a list of unknown length (`oob_length`, sealed likewise).
  The look-ups with a default that remain are in fixed tables of indices (`nth i sigma 0`), and slices (`firstn`, `skipn`), which are
  tested explicitly where the code can reach their end.

## 3. External code (trusted contract)

Not in `/repo`, modelled from their documented behaviour: `block-buffer` (eager / lazy `digest_blocks`, `digest_pad`,
`len64_padding_be/le`, `len128_padding_be`, `pad_with_zeros`, `serialize`/`deserialize`), `digest` (`CoreWrapper`,
`CtVariableCoreWrapper`, `RtVariableCoreWrapper`, `XofReaderCoreWrapper`), `keccak::p1600` (as Keccak-p[1600,n] of
FIPS 202), `ascon` permutation, `threefish`, `belt-block`, `ppv-lite86` vectors, CPU intrinsics (semantics from the vendor manuals).

Saved states (`SerializableState`) deserve a note, because the code that frames them is in `digest` 0.11.0-pre.10. A saved hasher is the
core's bytes (in `/repo`), for hashers of selectable size one byte with the output size, one byte with the buffer position, and the whole
block padded with zeros. This format is confirmed by every saved-state vector in `/repo/*/tests/mod.rs` (section 9). Three details are not
visible in `/repo` and are taken from our knowledge of that version: `deserialize` refuses a wrong output size, ignores the bytes after the
position, and takes `block[..pos]` before it checks the position, so that a position beyond the block panics. C04 depends on them;
nothing else does. Restoring a run-time sized hasher under another size is not modelled.

## 4. Plan per property

| id | model | proof method |
|---|---|---|
| C01 | generic buffer + every core's `update_blocks` | buffer invariant by induction on chunks: state = absorb(full blocks), buffer = remainder; per core: `update_blocks` is a monoid action of block lists |
| C02 | history machine over many hashers, generic in the core | simulation: each handle abstracts to the byte string fed since reset; induction on the history |
| C03, C04 | `serialize` / `deserialize` of every core and of the buffer | round-trip lemmas on LE/BE encodings |
| C05 | XOF reader wrapper + cores' `read_block` | invariant: reader position; induction on reads |
| C06 | `new(output_size)` + truncation wrapper | case analysis, refinement to spec |
| C07, C08 | checked/wrapping counters | `Some` result under the bound; exact characterisation beyond it |
| C09-C36 | each algorithm's code | refinement: code on any chunk list = specification on the concatenation |
| C37-C40 | back ends with intrinsics semantics | equality with the portable code for all states and blocks |
| C41-C43 | sha1-checked | refinement to SHA-1; forward/backward steps are inverse |
| C44 | padding functions of the specs | injectivity, then extraction of a compression collision by induction on block lists |
| C45, C46 | encoders, domain bytes, parameter block | decoders / inequalities for all inputs |
| C47 | constant tables | generation rule evaluated in the kernel (`forallb ... = true`, domain is finite) |
| C48 | OID strings | finite; refuted where the source violates it |
| C49 | drop code as a function on fields | per-field result; refuted where the source leaves data. Compiler behaviour (dead-store elimination, copies made by moves) cannot be expressed |
| C50 | Model/Loong.v, Model/Backends.v | the portable model refines RFC 1321; the assembly is proved equal to it instruction by instruction |
| C51 | Model/Blake2Target.v over a record of target features (Spec/Target.v) | rotations by byte shuffles equal rotations; then equality with the portable model and hence RFC 7693 |
| C52 | Model/BackendHashers.v | cores with any back end agree with the portable cores in every history (Base/Agree.v), hence with the standards |
| C53 | Model/LoongCpu.v: the same instruction lists on 64-bit registers, flat protected memory, program counter | simulation: one instruction of the processor follows one of the array machine of C37-C39/C50 |
| C54 | Model/LoongCpu.v: `observed`, the program counter and accessed address of every step | two runs agreeing on the pointer registers stay so; a syntactic check that nothing else feeds a pointer register or a branch |
| C55 | Model/Pointers.v: the loads and stores through raw pointers on a flat memory | each access lies in its range, so the loads return what the array models of C33-C42 are given; those give the result |
| C56 | Model/Names.v: the strings written by `write_alg_name` | the fixed parts are pairwise not prefixes of each other; decimal printing is injective; refuted for Skein |
| C57 | the hashers and codecs of C03, C09-C13, C15, C16, C25 | the chaining value after the padded message is the digest; the state written from it is one a hasher reaches, so C01 and C03 apply |

## 5. What is modelled, crate by crate

"Modelled" means: `new`/`default`, block update, finalization, reset, and state (de)serialization of every public hasher
of the crate, with the wrappers of section 3 around them. All macros (`impl_*!`, `format_compressor!`, ...) are expanded.
The model's registry of all of these is `Model/Hashers.v` (`alg`, `hasher`); the properties that say "every hasher"
(C01-C05, C07) quantify over it. The keyed BLAKE2 MACs and sha1-checked are not in the registry and have their own
theorems (C22-C24, C41-C43).

| crate | modelled | taken as given or left out |
|---|---|---|
| ascon-hash | both hashers, XOF reader | `ascon::State::permute_12` is Ascon-p[12] (`Spec.Ascon.p12`) |
| belt-hash | all | `belt_block_raw` is the STB 34.101.31 block cipher; theorems also hold for an arbitrary cipher |
| blake2 | `Blake2b/sVarCore`, fixed sizes, MACs, the portable vector types; the byte order of the target and the `simd`, `simd_opt`, `simd_asm` paths (Model/Blake2Target.v, C51) | the compiler intrinsics behind `simd` (`simd_shuffle`, `simd_add`, …) and the NEON instruction `vext` are modelled by their documented effect; instructions chosen by LLVM are not |
| fsb | all five sizes | contents of `pi.bin` (parameter `PI`, any table of the right length) |
| gost94 | core, all five parameter sets, any user S-box with entries below 16 | slices below 2^63 bytes, 64-bit `usize` (loop over `usize` lengths) |
| groestl | short, long, table | - |
| jh | core, tables | `ppv-lite86`: `u128x2` operations are lane-wise, `andnot a b = !a & b`, `swapK` exchanges adjacent K-bit groups, registers are little endian |
| k12 | all, including the `debug_assert!`s | - |
| kupyna | short, long, table | - |
| md2, md4, sm3, ripemd, tiger, whirlpool, shabal, streebog | all | Whirlpool: one `update` call below 2^61 bytes (see 7) |
| md5 | `soft`, LoongArch64 assembly (C50) | |
| sha1 | `soft`, x86 SHA-NI, AArch64, LoongArch64 | CPU feature detection (its answer is an argument, `Model/Backends.v`) |
| sha1-checked | all, `ubc_check` and tables included | the claim that the unavoidable-bit conditions are necessary for an attack is cryptanalysis, not code |
| sha2 | `soft` (both, with the macros), x86 SHA-NI, x86 AVX2, AArch64 (both), wasm32 (both), RISC-V Zknh (both sizes, compact and unrolled, with the aligned/unaligned loads), LoongArch64 (both) | CPU feature detection |
| sha3 | all cores, XOF readers, `block_api` helpers (`left_encode`, ...) | `keccak::p1600` is Keccak-p[1600, n] of FIPS 202 |
| skein | the three state sizes, any output size | `Threefish*::encrypt_block_u64` is Threefish of Skein 1.3 (theorems also for an arbitrary cipher) |

Byte order. blake2 and tiger read memory in the order of the machine and convert (C51); all other crates use `from_le_bytes`,
`to_be_bytes` and the like, whose model does not mention the machine.

CPU instructions (`Model/Simd.v`, `Model/Loong.v`, `Model/Sha2Riscv.v`) are defined from the manuals: Intel SDM, Arm
ARM, WebAssembly SIMD, RISC-V scalar cryptography volume I, LoongArch reference manual. RISC-V loads work on a byte memory
(`Spec/Memory.v`). The
LoongArch programs are modelled twice: `Model/Loong.v` (a register is its low `w` bits; state, input, constant table and
scratch stack are separate arrays; used by C37-C39, C50, C52) and `Model/LoongCpu.v` (64-bit registers with sign-extended
32-bit results, one flat memory with protection, program counter; C53). Unaligned loads are assumed to be supported, and the
caller's guarantees (valid, disjoint ranges; `asm!` passing the operands in the named registers) are hypotheses of C53.

Raw pointers (Model/Pointers.v, C55). Modelled are the loads and stores through pointers and the order of loads, on one flat memory. A state
behind an exclusive reference is read once at the start and written once at the end, and a run reads the memory as it was at the start; since
state, blocks and constants come from distinct references they do not overlap. Provenance is not modelled: the AArch64 code loads 16 bytes with
`vld1q_u32(&K32[t])`, a pointer made from a reference to one element; the model lets it read the whole table. The slices and references of safe
code are taken to be valid.

Not modelled anywhere: `Debug` formatting (other than Skein's, C56), the `Write` adapters, test and bench code, `collision`-unrelated
features, constant-time behaviour other than of the LoongArch assembly (C54: instruction and address trace), memory safety of `unsafe` blocks other than those of sha2, sha1, jh and md5 (C40, C53, C55), compiler
behaviour (C49: dead-store elimination, copies left by moves).

Constants. The model copies the constants of the source (large tables by `tools/gen_*.py` through `tools/rsconst.py`). The specifications
derive them from the standard's rule wherever there is one; those without a rule are written down a second time: Kupyna's
S-boxes, the S-boxes of GOST 28147-89 parameter sets, Streebog's iteration constants, JH's two 4-bit S-boxes, MD2's rule uses the
digits of pi, Keccak's rotation offsets and round constants come from their LFSR definition.
MD5's table uses a fixed-point sine series (`Spec/MD5.v`).

## 6. Scope remarks on single properties

* C06: `VariableOutputCore` implementations only.
* C07: `max_bytes` in `Model/Hashers.v` gives the documented limit per algorithm; `max_slice` the limit on one `update` argument.
* C08: every hasher with a length counter is covered, for all lengths: exact digest or panic in both builds. Refuted for sha1-checked with detection and for BelT (findings 8 and 16).
* C44: hash collisions are reduced to a compression collision for the hashers that output the whole chaining value; for truncated outputs
  and for sponges what is proved is injectivity of the padding (block sequence), which is what the code is responsible for.
* C46: SHA-2 variants' initial values, Keccak/SHA-3/SHAKE/TurboSHAKE/K12/cSHAKE suffixes, BLAKE2 parameter block, Skein configuration,
  JH/Shabal/Streebog/Ascon initial values.
* C49: what the `Drop` implementations of the crates do to their own fields. The wrapper's buffer is cleared by the digest crate.

## 7. Findings

What the attempt to prove the properties turned up in the sources. Items with a theorem are machine checked.

1. sha3: `Shake256` carries SHAKE128's object identifier (`sha3/src/lib.rs` 106, 116). `C48_shake256_wrong`.
2. sha3: cSHAKE absorbs a superfluous zero block when the encoded prefix is an exact multiple of the rate. `C19_*_refuted`.
3. skein: for an output size not divisible by 8 the last N mod 8 bytes are zero. `C32_all_sizes_refuted`, `C32_small_sizes_collide`.
4. streebog: `update_n` never carries into `n[7]`, so messages of 2^448 bits or more are counted wrongly (modulo 2^448). `C30_counter_refuted`, `C08_streebog`.
5. blake2: `new_with_salt_and_personal` of the MACs panics instead of returning an error for keys, salts or personas of up to twice the allowed
   size, and `new_from_slice` accepts an empty key. `C23_no_panic_refuted`, `C23_empty_key_refuted`.
6. blake2: with the features `reset` and `zeroize`, dropping a MAC wipes a copy of the key block; the key remains. `C49_blake2*_mac_refuted`, and
   `C49_blake2*_mac_leaks`: the whole key is in the memory of every dropped MAC.
7. sha1-checked: `Sha1` is marked `ZeroizeOnDrop` but keeps chaining value (the digest after finalization) and buffer. `C49_sha1_checked_refuted`.
8. sha1-checked: with detection on, `total <<= 3` silently drops bits for messages of 2^61 bytes or more even in a checked build. `C08_sha1_checked_refuted`.
9. blake2: the byte counter of BLAKE2b is a u64 where RFC 7693 has 128 bits; overflow panics or wraps. `C08_*`.
10. sha2: the table `K64X2` (`consts.rs` 84-92) is built wrongly; nothing uses it.
11. whirlpool: a single `update` with 2^61 bytes or more overflows a `u64` multiplication. `C08_whirlpool_one_piece`.
12. kupyna, groestl: the long variants accept output sizes that belong to the short ones (32 bytes for Kupyna, up to 32 for Groestl), and size 0 is
   accepted by BLAKE2, Groestl and short Kupyna. C06 states exactly which sizes are accepted.
13. blake2: salts or personas that differ only in trailing zeros give the same instance (C46 example). Inherent in the zero padding of the parameter block.
14. gost94: a user-defined S-box with an entry of 16 or more makes `sbox` overflow its 32-bit word.
15. ripemd: the doc comment of the `Ripemd128` identifier names RIPEMD-160.
16. belt-hash: the 128-bit block counter uses `wrapping_add`, so after 2^128 blocks a checked build returns a digest with a wrong length. `C08_belt_refuted`.
17. digest (external, see section 3): restoring a saved state ignores the unused bytes of the buffer, so saved states are malleable, and panics
   on a position byte larger than the block. `C04_injective_refuted`, `C04_total_refuted`.
18. sha2 on RISC-V: for an unaligned block `load_unaligned_block` (`sha256/riscv_zknh_utils.rs` 44, 62; the same in `sha512`) computes `bp`, which points
   up to k-1 bytes before the block, with `wrapping_sub` and then calls `bp.add(1 + i)`. `add` requires the pointer to lie in the allocation; if the
   block is the start of an allocation it does not, which is undefined behaviour (`wrapping_add` would do). `C55_riscv_pointers_refuted`.
19. jh: `f8_impl` (`lib.rs` 14, `compressor.rs` 98, "exported only for benchmarks") is a public safe function that loads 64 bytes from any
   pointer it is given. `C55_jh_f8_impl_refuted`.
20. skein: the algorithm name leaves out the output size, so e.g. `Skein512<U32>` and `Skein512<U64>` have the same name (`lib.rs` 165-167). `C56_unique_refuted`.
    gost94: the name of `Gost94UA` is "Gost28147UA" (`params.rs` 102).
21. ascon-hash: `AsconCore`, `AsconXofCore` and `AsconXofReaderCore` derive `Debug` and so print their sponge state (`lib.rs` 71, 131, 180, 204), where all other
    cores print a constant. Not modelled.

## 8. Trusted base

* Coq 8.16.1's kernel including `vm_compute`. Nothing is switched off; no file has an axiom, parameter, `Admitted`, functor or module type.
* `Print Assumptions` stands below each of the theorems in `Props/` and is printed by the build. For every one of them it
  answers "Closed under the global context": no axiom is used, not even one of the standard library. (`coqchk -o`
  over the whole library lists `Coq.ssr.ssrunder`'s module parameter among the loaded standard library files; no theorem depends on it.)
* The reading of the Rust sources into Gallina (`Model/`), with the conventions of section 2, and the contracts of sections 3 and 5.
* The specifications (`Spec/`). Each has published test vectors as `Example`s, as a guard against transcription errors.

## 9. Testing the theorems and the model

`seeded/LOG.jsonl` records attempts to break the model like a realistic bug would; each line names the definition, the edit,
the claim, and the theorems that no longer went through. Method: in a scratch copy the edit is made and the model files are rebuilt;
then every file that depends on the edit is rebuilt in order. A lemma whose proof fails is recorded as broken and admitted there (in the
scratch copy only), so that the run reaches the Props files; a theorem counts as failed when it depends on a broken lemma or its
own proof fails. An attempt counts as caught only if a theorem of the property named in the claim is among the failed ones.
All logged attempts are caught except one against `Sha2Simd.ni_rounds4`, made knowing that it changes no result.
In two of them (`md5_finalize`, `swap_idx`) a proof did not stop with an error but ran out of memory or time and was admitted by hand; their
lines say so.

`seeded/auto.jsonl` lists 497 further edits made by a program: one random number, operator or constructor of one line of a definition is
replaced, and the dependent files are rebuilt until the first failure. There the claim is not named and only the place of
the first failure is known, so "caught" says that some proof failed, not which theorem would have. 476 were caught; 14 ran into the time limit and
are inconclusive; 7 survived. Six of the survivors leave every claim true (the reason is in the file). The seventh, in the inline-assembly
load of `Model/Pointers.v`, and one of the inconclusive ones, in the default options of `Sha1Checked`, showed gaps: `C55_word_loads` and
`C41_configured` were added for them, and both edits are in the log as caught.

`tools/vectors.py` runs the model on the test vectors of `/repo` (`tests/data/*.blb`, the Ascon text files, and the saved states in
`tests/mod.rs`) in a scratch directory. These are tests of the model's fidelity, not proofs. They found one mistake: the framing of saved
states was modelled after a later version of `block-buffer`; model, C03 and C04 were corrected.
All 46 saved states agree (FSB is left out, its table `pi.bin` is not evaluated); so do all digests of messages of up to 1100 bytes that were run,
among them the 129 vectors each of Ascon-Hash256 and Ascon-XOF128 that the script ran.

`tools/` also has the generators for tables and the manifest.
