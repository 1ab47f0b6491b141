(** C17: the Keccak-n, SHA3-n, SHAKE128 and SHAKE256 hashers compute the sponge
    functions of FIPS 202 and the Keccak submission (Spec/Keccak.v) on every
    message; the extendable outputs are right for every sequence of reads. *)
From Verif Require Import Base.Words Base.Bytes Base.Digest Base.DigestFacts Base.Xof Model.Sha3 Proof.Sha3.
From Verif Require Spec.Keccak.

Theorem C17_keccak224 : forall m cs, Forall bytes_ok cs ->
  h_digest Keccak224 m cs = Some (Spec.Keccak.Keccak_224 (concat cs)).
Proof. exact (fun m cs B => digest_spec _ _ _ _ Keccak224_ok m cs B I). Qed.
Print Assumptions C17_keccak224.

Theorem C17_keccak256 : forall m cs, Forall bytes_ok cs ->
  h_digest Keccak256 m cs = Some (Spec.Keccak.Keccak_256 (concat cs)).
Proof. exact (fun m cs B => digest_spec _ _ _ _ Keccak256_ok m cs B I). Qed.
Print Assumptions C17_keccak256.

Theorem C17_keccak384 : forall m cs, Forall bytes_ok cs ->
  h_digest Keccak384 m cs = Some (Spec.Keccak.Keccak_384 (concat cs)).
Proof. exact (fun m cs B => digest_spec _ _ _ _ Keccak384_ok m cs B I). Qed.
Print Assumptions C17_keccak384.

Theorem C17_keccak512 : forall m cs, Forall bytes_ok cs ->
  h_digest Keccak512 m cs = Some (Spec.Keccak.Keccak_512 (concat cs)).
Proof. exact (fun m cs B => digest_spec _ _ _ _ Keccak512_ok m cs B I). Qed.
Print Assumptions C17_keccak512.

Theorem C17_sha3_224 : forall m cs, Forall bytes_ok cs ->
  h_digest Sha3_224 m cs = Some (Spec.Keccak.SHA3_224 (concat cs)).
Proof. exact (fun m cs B => digest_spec _ _ _ _ Sha3_224_ok m cs B I). Qed.
Print Assumptions C17_sha3_224.

Theorem C17_sha3_256 : forall m cs, Forall bytes_ok cs ->
  h_digest Sha3_256 m cs = Some (Spec.Keccak.SHA3_256 (concat cs)).
Proof. exact (fun m cs B => digest_spec _ _ _ _ Sha3_256_ok m cs B I). Qed.
Print Assumptions C17_sha3_256.

Theorem C17_sha3_384 : forall m cs, Forall bytes_ok cs ->
  h_digest Sha3_384 m cs = Some (Spec.Keccak.SHA3_384 (concat cs)).
Proof. exact (fun m cs B => digest_spec _ _ _ _ Sha3_384_ok m cs B I). Qed.
Print Assumptions C17_sha3_384.

Theorem C17_sha3_512 : forall m cs, Forall bytes_ok cs ->
  h_digest Sha3_512 m cs = Some (Spec.Keccak.SHA3_512 (concat cs)).
Proof. exact (fun m cs B => digest_spec _ _ _ _ Sha3_512_ok m cs B I). Qed.
Print Assumptions C17_sha3_512.

Theorem C17_keccak256full : forall m cs, Forall bytes_ok cs ->
  h_digest Keccak256Full m cs = Some (Spec.Keccak.Keccak_256_full (concat cs)).
Proof. exact (fun m cs B => digest_spec _ _ _ _ Keccak256Full_ok m cs B I). Qed.
Print Assumptions C17_keccak256full.

(** [ns]: the lengths of the successive reads. *)
Theorem C17_shake128 : forall ns m cs, Forall bytes_ok cs ->
  h_digest (xof_core Shake128 ns) m cs = Some (Spec.Keccak.SHAKE128 (concat cs) (total ns)).
Proof. exact (fun ns m cs B => digest_spec _ _ _ _ (Shake128_ok ns) m cs B I). Qed.
Print Assumptions C17_shake128.

(** [ns]: the lengths of the successive reads. *)
Theorem C17_shake256 : forall ns m cs, Forall bytes_ok cs ->
  h_digest (xof_core Shake256 ns) m cs = Some (Spec.Keccak.SHAKE256 (concat cs) (total ns)).
Proof. exact (fun ns m cs B => digest_spec _ _ _ _ (Shake256_ok ns) m cs B I). Qed.
Print Assumptions C17_shake256.

(** The tables in the specification follow the generation rules of FIPS 202. *)
Theorem C17_keccak_constants : Spec.Keccak.RC = map Spec.Keccak.RC_rule (seq 0 24) /\
  Spec.Keccak.rho_offsets = Spec.Keccak.rho_rule.
Proof. exact (conj RC_rule rho_offsets_rule). Qed.
Print Assumptions C17_keccak_constants.

(** The hypotheses are met by ordinary inputs; known answers for "abc". *)
Example C17_hyps : Forall bytes_ok [[97; 98]; []; [99]].
Proof. repeat constructor. Qed.
Example C17_kat_Sha3_224 : option_map be_val (h_digest Sha3_224 Checked [[97; 98]; []; [99]])
  = Some 0xe642824c3f8cf24ad09234ee7d3c766fc9a3a5168d0c94ad73b46fdf.
Proof. vm_compute. reflexivity. Qed.
Example C17_kat_Sha3_512 : option_map be_val (h_digest Sha3_512 Checked [[97; 98]; []; [99]])
  = Some 0xb751850b1a57168a5693cd924b6b096e08f621827444f70d884f5d0240d2712e10e116e9192af3c91a7ec57647e3934057340b4cf408d5a56592f8274eec53f0.
Proof. vm_compute. reflexivity. Qed.
Example C17_kat_Shake128 : option_map be_val (h_digest (xof_core Shake128 [7; 0; 13]%nat) Checked [[97; 98]; []; [99]])
  = Some 0x5881092dd818bf5cf8a3ddb793fbcba74097d5c5.
Proof. vm_compute. reflexivity. Qed.
