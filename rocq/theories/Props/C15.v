(** C15: RIPEMD-128, -160, -256 and -320 hashers compute the functions of the
    RIPEMD-160 paper and its extensions (Spec/RIPEMD.v) on every message of fewer
    than 2^64 bits, in debug and release builds. *)
From Verif Require Import Base.Words Base.Bytes Base.Digest Base.DigestFacts Model.Ripemd Proof.Ripemd.
From Verif Require Spec.RIPEMD.

Theorem C15_ripemd128 : forall m cs,
  Forall bytes_ok cs -> 8 * N.of_nat (length (concat cs)) < 2 ^ 64 ->
  h_digest Ripemd128 m cs = Some (Spec.RIPEMD.RIPEMD128 (concat cs)).
Proof. exact (digest_spec _ _ _ _ Ripemd128_ok). Qed.
Print Assumptions C15_ripemd128.

Theorem C15_ripemd160 : forall m cs,
  Forall bytes_ok cs -> 8 * N.of_nat (length (concat cs)) < 2 ^ 64 ->
  h_digest Ripemd160 m cs = Some (Spec.RIPEMD.RIPEMD160 (concat cs)).
Proof. exact (digest_spec _ _ _ _ Ripemd160_ok). Qed.
Print Assumptions C15_ripemd160.

Theorem C15_ripemd256 : forall m cs,
  Forall bytes_ok cs -> 8 * N.of_nat (length (concat cs)) < 2 ^ 64 ->
  h_digest Ripemd256 m cs = Some (Spec.RIPEMD.RIPEMD256 (concat cs)).
Proof. exact (digest_spec _ _ _ _ Ripemd256_ok). Qed.
Print Assumptions C15_ripemd256.

Theorem C15_ripemd320 : forall m cs,
  Forall bytes_ok cs -> 8 * N.of_nat (length (concat cs)) < 2 ^ 64 ->
  h_digest Ripemd320 m cs = Some (Spec.RIPEMD.RIPEMD320 (concat cs)).
Proof. exact (digest_spec _ _ _ _ Ripemd320_ok). Qed.
Print Assumptions C15_ripemd320.

(** The hypotheses are met by ordinary inputs; known answers for "abc". *)
Example C15_hyps : Forall bytes_ok [[97; 98]; []; [99]] /\
  8 * N.of_nat (length (concat [[97; 98]; []; [99]])) < 2 ^ 64.
Proof. split; [repeat constructor|reflexivity]. Qed.
Example C15_kat_Ripemd128 : option_map be_val (h_digest Ripemd128 Checked [[97; 98]; []; [99]])
  = Some 0xc14a12199c66e4ba84636b0f69144c77.
Proof. vm_compute. reflexivity. Qed.
Example C15_kat_Ripemd160 : option_map be_val (h_digest Ripemd160 Checked [[97; 98]; []; [99]])
  = Some 0x8eb208f7e05d987a9b044a8e98c6b087f15a0bfc.
Proof. vm_compute. reflexivity. Qed.
Example C15_kat_Ripemd320 : option_map be_val (h_digest Ripemd320 Checked [[97; 98]; []; [99]])
  = Some 0xde4c01b3054f8930a79d09ae738e92301e5a17085beffdc1b8d116713e74f82fa942d64cdbc4682d.
Proof. vm_compute. reflexivity. Qed.
Example C15_kat_Ripemd256 : option_map be_val (h_digest Ripemd256 Checked [[97; 98]; []; [99]])
  = Some 0xafbd6e228b9d8cbbcef5ca2d03e6dba10ac0bc7dcbe4680e1e42d2e975459b65.
Proof. vm_compute. reflexivity. Qed.
