(** C44: padding is injective, and collisions come from the compression function.

    [collisions_reduce C within f iv bs pad] (Spec/Collision.v): whenever the
    hasher model [C] gives the same output on two different messages, in any
    build mode and with the messages cut in any way, the two chains of [f] over
    the blocks of the padded messages contain a collision of [f].
    For the hashers whose digest is not the whole chaining value (truncated
    SHA-2, the sponges, JH, Groestl, Kupyna, Shabal, MD2, Ascon) the blocks
    processed are proved to differ: [hashes_blocks] says the digest is [run] of
    the blocks of the padded message, [blocks_differ] that those determine it. *)
From Verif Require Import Base.Words Base.Bytes Base.Digest Base.Xof Spec.MD Spec.Collision Spec.Blocks Proof.Collision Proof.Padding.
From Verif Require Spec.MD4 Spec.MD5 Spec.SHA1 Spec.SHA2 Spec.SM3 Spec.RIPEMD Spec.Tiger Spec.Whirlpool Spec.MD2 Spec.JH Spec.Ascon Spec.Groestl Spec.Kupyna Spec.Keccak.
From Verif Require Model.Md4 Model.Md5 Model.Sha1 Model.Sha2 Model.Sm3 Model.Ripemd Model.Tiger Model.Whirlpool.
From Verif Require Model.Sha3 Model.Md2 Model.Jh Model.Ascon Model.Groestl Model.Kupyna Model.Shabal.
From Verif Require Proof.HashCollisions Proof.PaddedHashers.

(** The padding rule: a nonzero byte, zeros, and a suffix of fixed length. *)
Theorem C44_md_padding : forall bs delim s s' m m', (0 < bs)%nat -> delim <> 0 -> length s = length s' ->
  chunks bs (md_pad bs delim s m) = chunks bs (md_pad bs delim s' m') -> m = m'.
Proof. exact blocks_inj. Qed.
Print Assumptions C44_md_padding.

(** The sponge padding, for any domain bytes. *)
Theorem C44_sponge_padding : forall r D D' M M', (0 < r)%nat -> 0 < D < 128 -> 0 < D' < 128 ->
  chunks r (Spec.Keccak.turbo_pad r D M) = chunks r (Spec.Keccak.turbo_pad r D' M') -> M = M' /\ D = D'.
Proof. exact turbo_blocks_inj. Qed.
Print Assumptions C44_sponge_padding.

Theorem C44_md4 : collisions_reduce Model.Md4.Md4 (bits_below 64) Spec.MD4.compress Spec.MD4.iv 64 Spec.MD4.pad.
Proof. exact Proof.HashCollisions.md4. Qed.
Print Assumptions C44_md4.

Theorem C44_md5 : collisions_reduce Model.Md5.Md5 (bits_below 64) Spec.MD5.compress Spec.MD5.iv 64 Spec.MD5.pad.
Proof. exact Proof.HashCollisions.md5. Qed.
Print Assumptions C44_md5.

Theorem C44_sha1 : collisions_reduce Model.Sha1.Sha1 (bits_below 64) Spec.SHA1.compress Spec.SHA1.iv 64 Spec.SHA1.pad.
Proof. exact Proof.HashCollisions.sha1. Qed.
Print Assumptions C44_sha1.

Theorem C44_sm3 : collisions_reduce Model.Sm3.Sm3 (bits_below 64) Spec.SM3.compress Spec.SM3.iv 64 Spec.SM3.pad.
Proof. exact Proof.HashCollisions.sm3. Qed.
Print Assumptions C44_sm3.

Theorem C44_sha256 : collisions_reduce Model.Sha2.Sha256 (bits_below 64)
  (Spec.SHA2.compress Spec.SHA2.sha256_params) Spec.SHA2.iv256 64 Spec.SHA2.pad256.
Proof. exact Proof.HashCollisions.sha256. Qed.
Print Assumptions C44_sha256.

Theorem C44_sha512 : collisions_reduce Model.Sha2.Sha512 (bits_below 128)
  (Spec.SHA2.compress Spec.SHA2.sha512_params) Spec.SHA2.iv512 128 Spec.SHA2.pad512.
Proof. exact Proof.HashCollisions.sha512. Qed.
Print Assumptions C44_sha512.

Theorem C44_ripemd128 : collisions_reduce Model.Ripemd.Ripemd128 (bits_below 64) Spec.RIPEMD.compress128 Spec.RIPEMD.iv128 64 Spec.RIPEMD.pad.
Proof. exact Proof.HashCollisions.ripemd128. Qed.
Print Assumptions C44_ripemd128.

Theorem C44_ripemd160 : collisions_reduce Model.Ripemd.Ripemd160 (bits_below 64) Spec.RIPEMD.compress160 Spec.RIPEMD.iv160 64 Spec.RIPEMD.pad.
Proof. exact Proof.HashCollisions.ripemd160. Qed.
Print Assumptions C44_ripemd160.

Theorem C44_ripemd256 : collisions_reduce Model.Ripemd.Ripemd256 (bits_below 64) Spec.RIPEMD.compress256 Spec.RIPEMD.iv256 64 Spec.RIPEMD.pad.
Proof. exact Proof.HashCollisions.ripemd256. Qed.
Print Assumptions C44_ripemd256.

Theorem C44_ripemd320 : collisions_reduce Model.Ripemd.Ripemd320 (bits_below 64) Spec.RIPEMD.compress320 Spec.RIPEMD.iv320 64 Spec.RIPEMD.pad.
Proof. exact Proof.HashCollisions.ripemd320. Qed.
Print Assumptions C44_ripemd320.

Theorem C44_tiger : collisions_reduce Model.Tiger.Tiger (bits_below 64) (Spec.Tiger.compress Spec.Tiger.T) Spec.Tiger.iv 64
  (fun msg => md_pad 64 0x01 (le_bytes 8 (8 * blen msg)) msg).
Proof. exact Proof.HashCollisions.tiger. Qed.
Print Assumptions C44_tiger.

Theorem C44_tiger2 : collisions_reduce Model.Tiger.Tiger2 (bits_below 64) (Spec.Tiger.compress Spec.Tiger.T) Spec.Tiger.iv 64
  (fun msg => md_pad 64 0x80 (le_bytes 8 (8 * blen msg)) msg).
Proof. exact Proof.HashCollisions.tiger2. Qed.
Print Assumptions C44_tiger2.

Theorem C44_whirlpool : collisions_reduce Model.Whirlpool.Whirlpool (bits_below 64) Spec.Whirlpool.compress (repeat (zeros 8) 8) 64
  (fun msg => md_pad 64 0x80 (be_bytes 32 (8 * blen msg)) msg).
Proof. exact Proof.HashCollisions.whirlpool. Qed.
Print Assumptions C44_whirlpool.

Theorem C44_md2 : hashes_blocks Model.Md2.Md2 any 16 Spec.MD2.pad md2_run /\ blocks_differ 16 Spec.MD2.pad.
Proof. exact Proof.PaddedHashers.md2. Qed.
Print Assumptions C44_md2.

Theorem C44_keccak224 : sponge_hasher Model.Sha3.Keccak224 24 144 28 0x01.
Proof. exact Proof.PaddedHashers.keccak224. Qed.
Print Assumptions C44_keccak224.

Theorem C44_keccak256 : sponge_hasher Model.Sha3.Keccak256 24 136 32 0x01.
Proof. exact Proof.PaddedHashers.keccak256. Qed.
Print Assumptions C44_keccak256.

Theorem C44_keccak384 : sponge_hasher Model.Sha3.Keccak384 24 104 48 0x01.
Proof. exact Proof.PaddedHashers.keccak384. Qed.
Print Assumptions C44_keccak384.

Theorem C44_keccak512 : sponge_hasher Model.Sha3.Keccak512 24 72 64 0x01.
Proof. exact Proof.PaddedHashers.keccak512. Qed.
Print Assumptions C44_keccak512.

Theorem C44_sha3_224 : sponge_hasher Model.Sha3.Sha3_224 24 144 28 0x06.
Proof. exact Proof.PaddedHashers.sha3_224. Qed.
Print Assumptions C44_sha3_224.

Theorem C44_sha3_256 : sponge_hasher Model.Sha3.Sha3_256 24 136 32 0x06.
Proof. exact Proof.PaddedHashers.sha3_256. Qed.
Print Assumptions C44_sha3_256.

Theorem C44_sha3_384 : sponge_hasher Model.Sha3.Sha3_384 24 104 48 0x06.
Proof. exact Proof.PaddedHashers.sha3_384. Qed.
Print Assumptions C44_sha3_384.

Theorem C44_sha3_512 : sponge_hasher Model.Sha3.Sha3_512 24 72 64 0x06.
Proof. exact Proof.PaddedHashers.sha3_512. Qed.
Print Assumptions C44_sha3_512.

Theorem C44_shake128 : forall ns, sponge_hasher (xof_core Model.Sha3.Shake128 ns) 24 168 (total ns) 0x1F.
Proof. exact Proof.PaddedHashers.shake128. Qed.
Print Assumptions C44_shake128.

Theorem C44_shake256 : forall ns, sponge_hasher (xof_core Model.Sha3.Shake256 ns) 24 136 (total ns) 0x1F.
Proof. exact Proof.PaddedHashers.shake256. Qed.
Print Assumptions C44_shake256.

Theorem C44_turboshake128 : forall ds ns, 0x01 <= ds <= 0x7F -> sponge_hasher (xof_core (Model.Sha3.TurboShake128 ds) ns) 12 168 (total ns) ds.
Proof. exact Proof.PaddedHashers.turboshake128. Qed.
Print Assumptions C44_turboshake128.

Theorem C44_turboshake256 : forall ds ns, 0x01 <= ds <= 0x7F -> sponge_hasher (xof_core (Model.Sha3.TurboShake256 ds) ns) 12 136 (total ns) ds.
Proof. exact Proof.PaddedHashers.turboshake256. Qed.
Print Assumptions C44_turboshake256.

Theorem C44_jh224 : jh_hasher Model.Jh.Jh224 28.
Proof. exact Proof.PaddedHashers.jh224. Qed.
Print Assumptions C44_jh224.

Theorem C44_jh256 : jh_hasher Model.Jh.Jh256 32.
Proof. exact Proof.PaddedHashers.jh256. Qed.
Print Assumptions C44_jh256.

Theorem C44_jh384 : jh_hasher Model.Jh.Jh384 48.
Proof. exact Proof.PaddedHashers.jh384. Qed.
Print Assumptions C44_jh384.

Theorem C44_jh512 : jh_hasher Model.Jh.Jh512 64.
Proof. exact Proof.PaddedHashers.jh512. Qed.
Print Assumptions C44_jh512.

Theorem C44_ascon_hash : hashes_blocks Model.Ascon.AsconHash256 any 8 Spec.Ascon.pad (ascon_run 0x0000080100cc0002 32) /\ blocks_differ 8 Spec.Ascon.pad.
Proof. exact Proof.PaddedHashers.ascon_hash. Qed.
Print Assumptions C44_ascon_hash.

Theorem C44_ascon_xof : forall ns, hashes_blocks (xof_core Model.Ascon.AsconXof128 ns) any 8 Spec.Ascon.pad (ascon_run 0x0000080000cc0003 (total ns)) /\ blocks_differ 8 Spec.Ascon.pad.
Proof. exact Proof.PaddedHashers.ascon_xof. Qed.
Print Assumptions C44_ascon_xof.

Theorem C44_groestl_short : forall k, (k <= 32)%nat -> groestl_hasher (Model.Groestl.GroestlShort k) Spec.Groestl.short k.
Proof. exact Proof.PaddedHashers.groestl_short. Qed.
Print Assumptions C44_groestl_short.

Theorem C44_groestl_long : forall k, (k <= 64)%nat -> groestl_hasher (Model.Groestl.GroestlLong k) Spec.Groestl.long k.
Proof. exact Proof.PaddedHashers.groestl_long. Qed.
Print Assumptions C44_groestl_long.

Theorem C44_kupyna_short : forall k, (k <= 32)%nat -> kupyna_hasher (Model.Kupyna.KupynaShort k) Spec.Kupyna.short k.
Proof. exact Proof.PaddedHashers.kupyna_short. Qed.
Print Assumptions C44_kupyna_short.

Theorem C44_kupyna_long : forall k, (k <= 64)%nat -> kupyna_hasher (Model.Kupyna.KupynaLong k) Spec.Kupyna.long k.
Proof. exact Proof.PaddedHashers.kupyna_long. Qed.
Print Assumptions C44_kupyna_long.

Theorem C44_shabal : shabal_hasher Model.Shabal.Shabal192 24 /\ shabal_hasher Model.Shabal.Shabal224 28 /\ shabal_hasher Model.Shabal.Shabal256 32 /\
  shabal_hasher Model.Shabal.Shabal384 48 /\ shabal_hasher Model.Shabal.Shabal512 64.
Proof. exact Proof.PaddedHashers.shabal. Qed.
Print Assumptions C44_shabal.

Theorem C44_sha224 : hashes_blocks Model.Sha2.Sha224 (bits_below 64) 64 Spec.SHA2.pad256 (run256 Spec.SHA2.iv224 28).
Proof. exact Proof.PaddedHashers.sha224. Qed.
Print Assumptions C44_sha224.

Theorem C44_sha384 : hashes_blocks Model.Sha2.Sha384 (bits_below 128) 128 Spec.SHA2.pad512 (run512 Spec.SHA2.iv384 48).
Proof. exact Proof.PaddedHashers.sha384. Qed.
Print Assumptions C44_sha384.

Theorem C44_sha512_224 : hashes_blocks Model.Sha2.Sha512_224 (bits_below 128) 128 Spec.SHA2.pad512 (run512 (Spec.SHA2.iv512t Spec.SHA2.name512_224) 28).
Proof. exact Proof.PaddedHashers.sha512_224. Qed.
Print Assumptions C44_sha512_224.

Theorem C44_sha512_256 : hashes_blocks Model.Sha2.Sha512_256 (bits_below 128) 128 Spec.SHA2.pad512 (run512 (Spec.SHA2.iv512t Spec.SHA2.name512_256) 32).
Proof. exact Proof.PaddedHashers.sha512_256. Qed.
Print Assumptions C44_sha512_256.

Theorem C44_sha2_blocks_64 : blocks_differ 64 Spec.SHA2.pad256.
Proof. exact Proof.PaddedHashers.differ256. Qed.
Print Assumptions C44_sha2_blocks_64.

Theorem C44_sha2_blocks_128 : blocks_differ 128 Spec.SHA2.pad512.
Proof. exact Proof.PaddedHashers.differ512. Qed.
Print Assumptions C44_sha2_blocks_128.

(** Non-vacuity: messages are within the limits, different and equal outputs are possible;
    a chain over a compression function that only counts to 2 has a collision. *)
Example C44_hyps : let msg := [97; 98; 99] in let msg' := [97; 98] in
  bytes_ok msg /\ bytes_ok msg' /\ bits_below 64 msg /\ bits_below 64 msg' /\ msg <> msg' /\
  outputs Model.Md5.Md5 msg (h_digest Model.Md5.Md5 Checked [[97]; [98; 99]]) /\ h_digest Model.Md5.Md5 Checked [[97]; [98; 99]] <> None.
Proof.
  cbv zeta. split; [repeat constructor|]. split; [repeat constructor|]. split; [reflexivity|]. split; [reflexivity|]. split; [discriminate|].
  split; [|vm_compute; discriminate]. exists Checked, [[97]; [98; 99]]. split; [repeat constructor|]. split; reflexivity.
Qed.
Example C44_toy : collision_in (fun (h : N) (b : bytes) => N.modulo (h + 1) 2) 0 [[1]; [2]] [[1]; [3]].
Proof.
  exists 1, [2], 1, [3]. split; [exists [[1]], []; now split|]. split; [exists [[1]], []; now split|]. split; [discriminate|reflexivity].
Qed.
Example C44_params : (0 < 136)%nat /\ 0 < 0x06 < 128 /\ (28 <= 32)%nat /\ Spec.Groestl.padded_blocks Spec.Groestl.short 3 < 2 ^ 64.
Proof. repeat split; lia || reflexivity. Qed.
