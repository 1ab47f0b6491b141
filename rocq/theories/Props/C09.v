(** C09: SHA-224 and SHA-256 hashers compute the functions of FIPS 180-4
    (Spec/SHA2.v) on every message within the standard's length limit, however
    the message is cut into [update] calls, in debug and release builds. *)
From Verif Require Import Base.Words Base.Bytes Base.Digest Base.DigestFacts Model.Sha2 Proof.Sha2.
From Verif Require Spec.SHA2.

Theorem C09_sha224_fips : forall m cs,
  Forall bytes_ok cs -> 8 * N.of_nat (length (concat cs)) < 2 ^ 64 ->
  h_digest Sha224 m cs = Some (Spec.SHA2.SHA224 (concat cs)).
Proof. exact (digest_spec _ _ _ _ Sha224_ok). Qed.
Print Assumptions C09_sha224_fips.

Theorem C09_sha256_fips : forall m cs,
  Forall bytes_ok cs -> 8 * N.of_nat (length (concat cs)) < 2 ^ 64 ->
  h_digest Sha256 m cs = Some (Spec.SHA2.SHA256 (concat cs)).
Proof. exact (digest_spec _ _ _ _ Sha256_ok). Qed.
Print Assumptions C09_sha256_fips.

(** The hypotheses are met by ordinary inputs; known answers: SHA-256("abc"),
    SHA-224("abc") from the standard's examples. *)
Example C09_hyps : Forall bytes_ok [[97; 98]; []; [99]] /\
  8 * N.of_nat (length (concat [[97; 98]; []; [99]])) < 2 ^ 64.
Proof. split; [repeat constructor|reflexivity]. Qed.
Example C09_kat_Sha256 : option_map be_val (h_digest Sha256 Checked [[97; 98]; []; [99]])
  = Some 0xba7816bf8f01cfea414140de5dae2223b00361a396177a9cb410ff61f20015ad.
Proof. vm_compute. reflexivity. Qed.
Example C09_kat_Sha224 : option_map be_val (h_digest Sha224 Checked [[97; 98]; []; [99]])
  = Some 0x23097d223405d8228642a477bda255b32aadbce4bda0b3f7e36c9da7.
Proof. vm_compute. reflexivity. Qed.
