(** C08: messages longer than the length counter.

    [panics_or_wraps C w H] (Spec/Overflow.v): for every message, however long and however cut,
    a checked build of the hasher model [C] panics exactly when the length in bits is 2^w or
    more and otherwise gives [H bits msg]; a wrapping build gives [H (bits mod 2^w) msg].
    [always_wraps]: both builds do the latter.  [H bits msg] is the standard with the number
    [bits] in place of the length. *)
From Verif Require Import Base.Words Base.Bytes Base.Digest Base.Limit Spec.MD Spec.Overflow Spec.Overflow2.
From Verif Require Spec.SHA1 Spec.SHA2 Spec.SM3 Spec.RIPEMD Spec.Tiger Spec.MD4 Spec.MD5 Spec.JH Spec.Groestl Spec.Kupyna Spec.BLAKE2 Spec.Threefish Spec.Skein Spec.FSB Spec.Whirlpool Spec.Streebog Spec.Belt.
From Verif Require Model.Sha1 Model.Sha2 Model.Sm3 Model.Ripemd Model.Tiger Model.Md4 Model.Md5 Model.Jh Model.Groestl Model.Kupyna Model.Blake2 Model.Skein Model.Sha1Checked Model.Fsb Model.Whirlpool Model.Streebog Model.Belt.
From Verif Require Proof.Overflow Proof.Overflow2 Proof.Blake2 Proof.Skein.

Theorem C08_sha1 : panics_or_wraps Model.Sha1.Sha1 64 sha1_len.
Proof. exact Proof.Overflow.sha1_limit. Qed.
Print Assumptions C08_sha1.

Theorem C08_sm3 : panics_or_wraps Model.Sm3.Sm3 64 sm3_len.
Proof. exact Proof.Overflow.sm3_limit. Qed.
Print Assumptions C08_sm3.

Theorem C08_sha2 :
  panics_or_wraps Model.Sha2.Sha224 64 (sha256_len Spec.SHA2.iv224 28) /\
  panics_or_wraps Model.Sha2.Sha256 64 (sha256_len Spec.SHA2.iv256 32) /\
  panics_or_wraps Model.Sha2.Sha384 128 (sha512_len Spec.SHA2.iv384 48) /\
  panics_or_wraps Model.Sha2.Sha512 128 (sha512_len Spec.SHA2.iv512 64) /\
  panics_or_wraps Model.Sha2.Sha512_224 128 (sha512_len (Spec.SHA2.iv512t Spec.SHA2.name512_224) 28) /\
  panics_or_wraps Model.Sha2.Sha512_256 128 (sha512_len (Spec.SHA2.iv512t Spec.SHA2.name512_256) 32).
Proof. exact Proof.Overflow.sha2_limits. Qed.
Print Assumptions C08_sha2.

Theorem C08_ripemd :
  panics_or_wraps Model.Ripemd.Ripemd128 64 rmd128_len /\ panics_or_wraps Model.Ripemd.Ripemd160 64 rmd160_len /\
  panics_or_wraps Model.Ripemd.Ripemd256 64 rmd256_len /\ panics_or_wraps Model.Ripemd.Ripemd320 64 rmd320_len.
Proof. exact Proof.Overflow.ripemd_limits. Qed.
Print Assumptions C08_ripemd.

Theorem C08_tiger : panics_or_wraps Model.Tiger.Tiger 64 (tiger_len 0x01).
Proof. exact (Proof.Overflow.tiger_limit false). Qed.
Print Assumptions C08_tiger.

Theorem C08_tiger2 : panics_or_wraps Model.Tiger.Tiger2 64 (tiger_len 0x80).
Proof. exact (Proof.Overflow.tiger_limit true). Qed.
Print Assumptions C08_tiger2.

(** MD4, MD5 and JH never panic. *)
Theorem C08_md4 : always_wraps Model.Md4.Md4 64 md4_len.
Proof. exact Proof.Overflow.md4_limit. Qed.
Print Assumptions C08_md4.

Theorem C08_md5 : always_wraps Model.Md5.Md5 64 md5_len.
Proof. exact Proof.Overflow.md5_limit. Qed.
Print Assumptions C08_md5.

Theorem C08_jh :
  always_wraps Model.Jh.Jh224 64 (jh_len 28) /\ always_wraps Model.Jh.Jh256 64 (jh_len 32) /\
  always_wraps Model.Jh.Jh384 64 (jh_len 48) /\ always_wraps Model.Jh.Jh512 64 (jh_len 64).
Proof. exact Proof.Overflow.jh_limits. Qed.
Print Assumptions C08_jh.

(** Groestl and Kupyna count blocks. *)
Theorem C08_groestl : (forall k, (k <= 32)%nat -> groestl_panics_or_wraps (Model.Groestl.GroestlShort k) Spec.Groestl.short k) /\
  (forall k, (k <= 64)%nat -> groestl_panics_or_wraps (Model.Groestl.GroestlLong k) Spec.Groestl.long k).
Proof. exact Proof.Overflow.groestl_limits. Qed.
Print Assumptions C08_groestl.

Theorem C08_kupyna : (forall k, (k <= 32)%nat -> kupyna_panics_or_wraps (Model.Kupyna.KupynaShort k) Spec.Kupyna.short k) /\
  (forall k, (k <= 64)%nat -> kupyna_panics_or_wraps (Model.Kupyna.KupynaLong k) Spec.Kupyna.long k).
Proof. exact Proof.Overflow.kupyna_limits. Qed.
Print Assumptions C08_kupyna.

(** BLAKE2 and Skein count bytes in 64 bits, although BLAKE2b and Skein allow longer messages. *)
Theorem C08_blake2b : forall salt persona nn s,
  Model.Blake2.new_with_params Model.Blake2.Blake2b salt persona 0 nn = Some s ->
  blake2_panics_or_wraps (Model.Blake2.blake2_core Model.Blake2.Blake2b s [] nn) Spec.BLAKE2.BLAKE2b salt persona nn.
Proof. exact (Proof.Overflow.blake2_limit _ _ Proof.Blake2.same_b). Qed.
Print Assumptions C08_blake2b.

Theorem C08_blake2s : forall salt persona nn s,
  Model.Blake2.new_with_params Model.Blake2.Blake2s salt persona 0 nn = Some s ->
  blake2_panics_or_wraps (Model.Blake2.blake2_core Model.Blake2.Blake2s s [] nn) Spec.BLAKE2.BLAKE2s salt persona nn.
Proof. exact (Proof.Overflow.blake2_limit _ _ Proof.Blake2.same_s). Qed.
Print Assumptions C08_blake2s.

(** For any output size below 2^61 and any cipher; that the last NO mod 8 bytes are zero is C32. *)
Theorem C08_skein : forall nw NO E, (4 <= nw)%nat ->
  (forall K T P, (length K = nw /\ words_ok 64 K) -> length T = 2%nat -> words_ok 64 T -> (length P = nw /\ words_ok 64 P) ->
     length (E K T P) = nw /\ words_ok 64 (E K T P)) ->
  forall cs, N.of_nat NO < 2 ^ 61 -> Forall bytes_ok cs ->
  let cut digest := firstn (NO - NO mod 8) digest ++ zeros (NO mod 8) in
  Model.Skein.skein_digest (8 * nw) NO E Checked cs
  = (if blen (concat cs) <? 2 ^ 64 then Some (cut (Spec.Skein.Skein (8 * nw) (Spec.Skein.on_words E) NO (concat cs))) else None) /\
  Model.Skein.skein_digest (8 * nw) NO E Wrapping cs = Some (cut (Skein64 (8 * nw) (Spec.Skein.on_words E) NO (concat cs))).
Proof. exact (fun nw NO E Hnw HE => Proof.Overflow2.skein_exact nw NO E Hnw HE). Qed.
Print Assumptions C08_skein.

(** FSB, for any table PI of the right size *)
Theorem C08_fsb : forall PI, N.of_nat (length PI) = 272384 -> bytes_ok PI ->
  panics_or_wraps (Model.Fsb.Fsb160 PI) 64 (fsb_len PI Spec.FSB.FSB160 20) /\
  panics_or_wraps (Model.Fsb.Fsb224 PI) 64 (fsb_len PI Spec.FSB.FSB224 28) /\
  panics_or_wraps (Model.Fsb.Fsb256 PI) 64 (fsb_len PI Spec.FSB.FSB256 32) /\
  panics_or_wraps (Model.Fsb.Fsb384 PI) 64 (fsb_len PI Spec.FSB.FSB384 48) /\
  panics_or_wraps (Model.Fsb.Fsb512 PI) 64 (fsb_len PI Spec.FSB.FSB512 64).
Proof. exact Proof.Overflow2.fsb_limits. Qed.
Print Assumptions C08_fsb.

(** Whirlpool counts modulo 2^256 in both builds, as long as each piece is shorter than 2^61 bytes ... *)
Theorem C08_whirlpool : forall m cs, Forall bytes_ok cs -> Forall (slice_below (2 ^ 61)) cs ->
  h_digest Model.Whirlpool.Whirlpool m cs = Some (whirlpool_len ((8 * blen (concat cs)) mod 2 ^ 256) (concat cs)).
Proof. exact Proof.Overflow2.wp_limit. Qed.
Print Assumptions C08_whirlpool.

(** ... because the whole blocks of one piece are counted in 64 bits. *)
Theorem C08_whirlpool_one_piece : forall msg, bytes_ok msg ->
  h_digest Model.Whirlpool.Whirlpool Checked [msg] = (if 512 * (blen msg / 64) <? 2 ^ 64 then Some (whirlpool_len (8 * blen msg) msg) else None) /\
  h_digest Model.Whirlpool.Whirlpool Wrapping [msg] = Some (whirlpool_len ((512 * (blen msg / 64)) mod 2 ^ 64 + 8 * (blen msg mod 64)) msg).
Proof. exact Proof.Overflow2.wp_one_piece. Qed.
Print Assumptions C08_whirlpool_one_piece.

(** Streebog counts modulo 2^448 in both builds, where the standard has 2^512 (see C30).  GOST R 34.11-94
    counts modulo 2^256 like its standard; C31 has no bound on the length. *)
Theorem C08_streebog : forall m cs, Forall bytes_ok cs ->
  h_digest Model.Streebog.Streebog256 m cs = Some (Streebog_mod 448 32 (concat cs)) /\
  h_digest Model.Streebog.Streebog512 m cs = Some (Streebog_mod 448 64 (concat cs)).
Proof. exact Proof.Overflow2.sb_limits. Qed.
Print Assumptions C08_streebog.

(** BelT: the block counter wraps in both builds, the final multiplications only in a wrapping one ... *)
Theorem C08_belt : belt_panics_or_wraps Model.Belt.BeltHash.
Proof. exact Proof.Overflow2.belt_limit. Qed.
Print Assumptions C08_belt.

(** ... so a checked build does not panic on all messages beyond the limit (the first is 2^133 bytes long). *)
Theorem C08_belt_refuted : ~ (forall cs, Forall bytes_ok cs -> 2 ^ 128 <= 8 * blen (concat cs) -> h_digest Model.Belt.BeltHash Checked cs = None).
Proof. exact Proof.Overflow2.belt_silent. Qed.
Print Assumptions C08_belt_refuted.

(** sha1-checked: with collision detection a checked build only panics at 2^64 bytes ... *)
Theorem C08_sha1_checked : forall b cs, h_digest (Model.Sha1Checked.Sha1Checked b) Checked cs = None <->
  2 ^ 64 <= (if Model.Sha1Checked.b_detect b then blen (concat cs) else 8 * blen (concat cs)).
Proof. exact Proof.Overflow.sha1c_limit. Qed.
Print Assumptions C08_sha1_checked.

(** ... so the property, that it panics at the limit of 2^64 bits, is false of it. *)
Theorem C08_sha1_checked_refuted : ~ (forall b cs, Forall bytes_ok cs -> 2 ^ 64 <= 8 * blen (concat cs) ->
  h_digest (Model.Sha1Checked.Sha1Checked b) Checked cs = None).
Proof. exact Proof.Overflow.sha1c_limit_refuted. Qed.
Print Assumptions C08_sha1_checked_refuted.

(** The length-indexed functions are the standards at the true length. *)
Example C08_lengths : forall msg, sha1_len (8 * blen msg) msg = Spec.SHA1.SHA1 msg /\ md5_len (8 * blen msg) msg = Spec.MD5.MD5 msg /\
  sha256_len Spec.SHA2.iv256 32 (8 * blen msg) msg = Spec.SHA2.SHA256 msg.
Proof. now split. Qed.
(** 2^61 zero bytes: SHA-256 panics or hashes length 0, SHA-512 does neither, MD5 always hashes length 0. *)
Example C08_sha256_panics : h_digest Model.Sha2.Sha256 Checked [repeat 0 (N.to_nat (2 ^ 61))] = None.
Proof. exact (Proof.Overflow.panic_case _ _ _ (2 ^ 61) (proj1 (proj2 Proof.Overflow.sha2_limits)) ltac:(discriminate)). Qed.
Example C08_sha256_wraps : h_digest Model.Sha2.Sha256 Wrapping [repeat 0 (N.to_nat (2 ^ 61))]
  = Some (sha256_len Spec.SHA2.iv256 32 0 (concat [repeat 0 (N.to_nat (2 ^ 61))])).
Proof. exact (Proof.Overflow.wrap_case _ _ _ (2 ^ 61) (proj1 (proj2 Proof.Overflow.sha2_limits))). Qed.
Example C08_md5_wraps : h_digest Model.Md5.Md5 Checked [repeat 0 (N.to_nat (2 ^ 61 + 3))]
  = Some (md5_len 24 (concat [repeat 0 (N.to_nat (2 ^ 61 + 3))])).
Proof. exact (Proof.Overflow.always_case _ _ _ (2 ^ 61 + 3) Checked Proof.Overflow.md5_limit). Qed.
(** The hypotheses of the BLAKE2 theorems hold of the usual parameters. *)
Example C08_blake2_case : (exists s, Model.Blake2.new_with_params Model.Blake2.Blake2b [] [] 0 64 = Some s) /\
  (exists s, Model.Blake2.new_with_params Model.Blake2.Blake2s [1] [2] 0 32 = Some s).
Proof. split; eexists; reflexivity. Qed.
Example C08_lengths2 : forall msg, belt_len (8 * blen msg) msg = Spec.Belt.BeltHash msg /\ whirlpool_len (8 * blen msg) msg = Spec.Whirlpool.Whirlpool msg /\
  (forall PI P out, fsb_len PI P out (8 * blen msg) msg = Spec.FSB.FSB PI P out msg) /\ (forall hl, Streebog_mod 512 hl msg = Spec.Streebog.Streebog hl msg).
Proof. repeat split. Qed.
(** 2^61 zero bytes in one piece: Whirlpool panics or hashes length 0. *)
Example C08_whirlpool_case : h_digest Model.Whirlpool.Whirlpool Checked [repeat 0 (N.to_nat (2 ^ 61))] = None /\
  h_digest Model.Whirlpool.Whirlpool Wrapping [repeat 0 (N.to_nat (2 ^ 61))] = Some (whirlpool_len 0 (repeat 0 (N.to_nat (2 ^ 61)))).
Proof. exact Proof.Overflow2.wp_case. Qed.
(** The hypotheses of the Skein and FSB theorems hold of Threefish and of a table of zeros. *)
Example C08_skein_case : forall K T P, (length K = 8%nat /\ words_ok 64 K) -> length T = 2%nat -> words_ok 64 T -> (length P = 8%nat /\ words_ok 64 P) ->
  length (Spec.Threefish.encrypt Spec.Threefish.Threefish512 K T P) = 8%nat /\ words_ok 64 (Spec.Threefish.encrypt Spec.Threefish.Threefish512 K T P).
Proof. exact (Proof.Skein.threefish_cipher Spec.Threefish.Threefish512). Qed.
Example C08_fsb_case : N.of_nat (length (zeros (N.to_nat 272384))) = 272384 /\ bytes_ok (zeros (N.to_nat 272384)).
Proof. split; [rewrite zeros_length; now rewrite N2Nat.id|apply zeros_ok]. Qed.
