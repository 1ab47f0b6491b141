(** C10: SHA-384, SHA-512, SHA-512/224 and SHA-512/256 hashers compute the
    functions of FIPS 180-4 (Spec/SHA2.v) on every message within the
    standard's length limit (2^128 bits), however it is cut into [update] calls. *)
From Verif Require Import Base.Words Base.Bytes Base.Digest Base.DigestFacts Model.Sha2 Proof.Sha2.
From Verif Require Spec.SHA2.

Theorem C10_sha384_fips : forall m cs,
  Forall bytes_ok cs -> 8 * N.of_nat (length (concat cs)) < 2 ^ 128 ->
  h_digest Sha384 m cs = Some (Spec.SHA2.SHA384 (concat cs)).
Proof. exact (digest_spec _ _ _ _ Sha384_ok). Qed.
Print Assumptions C10_sha384_fips.

Theorem C10_sha512_fips : forall m cs,
  Forall bytes_ok cs -> 8 * N.of_nat (length (concat cs)) < 2 ^ 128 ->
  h_digest Sha512 m cs = Some (Spec.SHA2.SHA512 (concat cs)).
Proof. exact (digest_spec _ _ _ _ Sha512_ok). Qed.
Print Assumptions C10_sha512_fips.

Theorem C10_sha512_224_fips : forall m cs,
  Forall bytes_ok cs -> 8 * N.of_nat (length (concat cs)) < 2 ^ 128 ->
  h_digest Sha512_224 m cs = Some (Spec.SHA2.SHA512_224 (concat cs)).
Proof. exact (digest_spec _ _ _ _ Sha512_224_ok). Qed.
Print Assumptions C10_sha512_224_fips.

Theorem C10_sha512_256_fips : forall m cs,
  Forall bytes_ok cs -> 8 * N.of_nat (length (concat cs)) < 2 ^ 128 ->
  h_digest Sha512_256 m cs = Some (Spec.SHA2.SHA512_256 (concat cs)).
Proof. exact (digest_spec _ _ _ _ Sha512_256_ok). Qed.
Print Assumptions C10_sha512_256_fips.

Example C10_hyps : Forall bytes_ok [[97; 98]; []; [99]] /\
  8 * N.of_nat (length (concat [[97; 98]; []; [99]])) < 2 ^ 128.
Proof. split; [repeat constructor|reflexivity]. Qed.
Example C10_kat_Sha512 : option_map be_val (h_digest Sha512 Checked [[97; 98]; []; [99]])
  = Some 0xddaf35a193617abacc417349ae20413112e6fa4e89a97ea20a9eeee64b55d39a2192992a274fc1a836ba3c23a3feebbd454d4423643ce80e2a9ac94fa54ca49f.
Proof. vm_compute. reflexivity. Qed.
Example C10_kat_Sha512_224 : option_map be_val (h_digest Sha512_224 Checked [[97; 98]; []; [99]])
  = Some 0x4634270f707b6a54daae7530460842e20e37ed265ceee9a43e8924aa.
Proof. vm_compute. reflexivity. Qed.
