(** What hashers do with messages longer than their length counter can express. *)
From Verif Require Import Base.Words Base.Bytes Base.Codec Base.Digest Spec.MD.
From Verif Require Spec.MD4 Spec.MD5 Spec.SHA1 Spec.SHA2 Spec.SM3 Spec.RIPEMD Spec.Tiger Spec.JH Spec.Groestl Spec.Kupyna Spec.BLAKE2.

(** [H bits msg] is the hash function with the number [bits] in place of the length of [msg] in bits.
    A checked build panics exactly when the length does not fit [w] bits; a wrapping build
    uses it modulo 2^w. *)
Definition panics_or_wraps (C : core) (w : N) (H : N -> bytes -> bytes) : Prop :=
  forall cs, Forall bytes_ok cs ->
  h_digest C Checked cs = (if 8 * blen (concat cs) <? 2 ^ w then Some (H (8 * blen (concat cs)) (concat cs)) else None) /\
  h_digest C Wrapping cs = Some (H ((8 * blen (concat cs)) mod 2 ^ w) (concat cs)).
(** Both builds use the length modulo 2^w. *)
Definition always_wraps (C : core) (w : N) (H : N -> bytes -> bytes) : Prop :=
  forall m cs, Forall bytes_ok cs -> h_digest C m cs = Some (H ((8 * blen (concat cs)) mod 2 ^ w) (concat cs)).

Definition md4_len (bits : N) (msg : bytes) : bytes :=
  Spec.MD4.output (md_iterate Spec.MD4.compress 64 Spec.MD4.iv (md_pad 64 0x80 (le_bytes 8 bits) msg)).
Definition md5_len (bits : N) (msg : bytes) : bytes :=
  Spec.MD5.output (md_iterate Spec.MD5.compress 64 Spec.MD5.iv (md_pad 64 0x80 (le_bytes 8 bits) msg)).
Definition sha1_len (bits : N) (msg : bytes) : bytes :=
  Spec.SHA1.output (md_iterate Spec.SHA1.compress 64 Spec.SHA1.iv (md_pad 64 0x80 (be_bytes 8 bits) msg)).
Definition sm3_len (bits : N) (msg : bytes) : bytes :=
  Spec.SM3.output (md_iterate Spec.SM3.compress 64 Spec.SM3.iv (md_pad 64 0x80 (be_bytes 8 bits) msg)).
Definition sha256_len iv n (bits : N) (msg : bytes) : bytes :=
  firstn n (Spec.SHA2.output 4 (md_iterate (Spec.SHA2.compress Spec.SHA2.sha256_params) 64 iv (md_pad 64 0x80 (be_bytes 8 bits) msg))).
Definition sha512_len iv n (bits : N) (msg : bytes) : bytes :=
  firstn n (Spec.SHA2.output 8 (md_iterate (Spec.SHA2.compress Spec.SHA2.sha512_params) 128 iv (md_pad 128 0x80 (be_bytes 16 bits) msg))).
Definition rmd128_len (bits : N) (msg : bytes) : bytes :=
  Spec.RIPEMD.out (Spec.RIPEMD.l4 (md_iterate Spec.RIPEMD.compress128 64 Spec.RIPEMD.iv128 (md_pad 64 0x80 (le_bytes 8 bits) msg))).
Definition rmd160_len (bits : N) (msg : bytes) : bytes :=
  Spec.RIPEMD.out (Spec.RIPEMD.l5 (md_iterate Spec.RIPEMD.compress160 64 Spec.RIPEMD.iv160 (md_pad 64 0x80 (le_bytes 8 bits) msg))).
Definition rmd256_len (bits : N) (msg : bytes) : bytes :=
  let '(l, r) := md_iterate Spec.RIPEMD.compress256 64 Spec.RIPEMD.iv256 (md_pad 64 0x80 (le_bytes 8 bits) msg) in
  Spec.RIPEMD.out (Spec.RIPEMD.l4 l ++ Spec.RIPEMD.l4 r).
Definition rmd320_len (bits : N) (msg : bytes) : bytes :=
  let '(l, r) := md_iterate Spec.RIPEMD.compress320 64 Spec.RIPEMD.iv320 (md_pad 64 0x80 (le_bytes 8 bits) msg) in
  Spec.RIPEMD.out (Spec.RIPEMD.l5 l ++ Spec.RIPEMD.l5 r).
Definition tiger_len (first : N) (bits : N) (msg : bytes) : bytes :=
  Spec.Tiger.output (md_iterate (Spec.Tiger.compress Spec.Tiger.T) 64 Spec.Tiger.iv (md_pad 64 first (le_bytes 8 bits) msg)).
Definition jh_len (k : nat) (bits : N) (msg : bytes) : bytes :=
  skipn (128 - k) (fold_left Spec.JH.F8
    (chunks 64 (msg ++ [0x80] ++ zeros (47 + (64 - length msg mod 64) mod 64) ++ be_bytes 16 bits)) (Spec.JH.H0 k)).
(** Groestl encodes the number of blocks of the padded message. *)
Definition groestl_len (p : Spec.Groestl.params) (n : nat) (blocks : N) (msg : bytes) : bytes :=
  Spec.Groestl.Omega p n (md_iterate (Spec.Groestl.f p) (Spec.Groestl.l p) (Spec.Groestl.iv p n)
    (md_pad (Spec.Groestl.l p) 0x80 (be_bytes 8 blocks) msg)).
Definition groestl_panics_or_wraps (C : core) (p : Spec.Groestl.params) (n : nat) : Prop :=
  forall cs, Forall bytes_ok cs -> let msg := concat cs in let blocks := Spec.Groestl.padded_blocks p (length msg) in
  h_digest C Checked cs = (if blocks <? 2 ^ 64 then Some (groestl_len p n blocks msg) else None) /\
  h_digest C Wrapping cs = Some (groestl_len p n (blocks mod 2 ^ 64) msg).
(** Kupyna counts whole blocks in 64 bits, but the length in bits in 96. *)
Definition kupyna_len (p : Spec.Kupyna.params) (n : nat) (bits : N) (msg : bytes) : bytes :=
  let h := md_iterate (Spec.Kupyna.compress p) (Spec.Kupyna.l p) (Spec.Kupyna.iv p)
    (md_pad (Spec.Kupyna.l p) 0x80 (le_bytes 12 bits) msg) in
  Spec.Kupyna.R n (concat (Spec.Groestl.sum (Spec.Kupyna.Txor p h) h)).
Definition kupyna_panics_or_wraps (C : core) (p : Spec.Kupyna.params) (n : nat) : Prop :=
  forall cs, Forall bytes_ok cs -> let msg := concat cs in
  let size := N.of_nat (Spec.Kupyna.l p) in let blocks := blen msg / size in
  h_digest C Checked cs = (if blocks <? 2 ^ 64 then Some (kupyna_len p n (8 * blen msg) msg) else None) /\
  h_digest C Wrapping cs = Some (kupyna_len p n (8 * (size * (blocks mod 2 ^ 64) + blen msg mod size)) msg).
(** BLAKE2 with the byte counter kept in 64 bits (for BLAKE2s, the width of the standard). *)
Fixpoint absorb64 (V : Spec.BLAKE2.variant) (fuel : nat) (h : list N) (t : N) (d : bytes) : list N :=
  match fuel with
  | O => h
  | S fuel =>
      if (length d <=? Spec.BLAKE2.bb V)%nat
      then Spec.BLAKE2.F V h (Spec.BLAKE2.le_words V (Spec.BLAKE2.zpad (Spec.BLAKE2.bb V) d)) ((t + blen d) mod 2 ^ 64) true
      else absorb64 V fuel (Spec.BLAKE2.F V h (Spec.BLAKE2.le_words V (firstn (Spec.BLAKE2.bb V) d)) ((t + N.of_nat (Spec.BLAKE2.bb V)) mod 2 ^ 64) false)
                  (t + N.of_nat (Spec.BLAKE2.bb V)) (skipn (Spec.BLAKE2.bb V) d)
  end.
Definition BLAKE2_64 (V : Spec.BLAKE2.variant) (salt persona : bytes) (nn : nat) (M : bytes) : bytes :=
  firstn nn (concat (map (le_bytes (Spec.BLAKE2.wbytes V)) (absorb64 V (S (length M)) (Spec.BLAKE2.init V salt persona 0 nn) 0 M))).
Definition blake2_panics_or_wraps (C : core) (V : Spec.BLAKE2.variant) (salt persona : bytes) (nn : nat) : Prop :=
  forall cs, Forall bytes_ok cs -> let msg := concat cs in
  h_digest C Checked cs = (if blen msg <? 2 ^ 64 then Some (Spec.BLAKE2.BLAKE2 V salt persona [] nn msg) else None) /\
  h_digest C Wrapping cs = Some (BLAKE2_64 V salt persona nn msg).
