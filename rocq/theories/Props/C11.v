(** C11: SHA-1 hashers compute the function of FIPS 180-4 (Spec/SHA1.v) on every
    message within the standard's length limit, however the message is cut into
    [update] calls, in debug and release builds. *)
From Verif Require Import Base.Words Base.Bytes Base.Digest Base.DigestFacts Model.Sha1 Proof.Sha1.
From Verif Require Spec.SHA1.

Theorem C11_sha1_fips : forall m cs,
  Forall bytes_ok cs -> 8 * N.of_nat (length (concat cs)) < 2 ^ 64 ->
  h_digest Sha1 m cs = Some (Spec.SHA1.SHA1 (concat cs)).
Proof. exact (digest_spec _ _ _ _ Sha1_ok). Qed.
Print Assumptions C11_sha1_fips.

(** The hypotheses are met by ordinary inputs; known answers for "abc". *)
Example C11_hyps : Forall bytes_ok [[97; 98]; []; [99]] /\
  8 * N.of_nat (length (concat [[97; 98]; []; [99]])) < 2 ^ 64.
Proof. split; [repeat constructor|reflexivity]. Qed.
Example C11_kat_Sha1 : option_map be_val (h_digest Sha1 Checked [[97; 98]; []; [99]])
  = Some 0xa9993e364706816aba3e25717850c26c9cd0d89d.
Proof. vm_compute. reflexivity. Qed.
