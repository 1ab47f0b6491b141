(** C16: SM3 hashers compute the function of GB/T 32905-2016 (Spec/SM3.v) on every
    message of fewer than 2^64 bits, in debug and release builds. *)
From Verif Require Import Base.Words Base.Bytes Base.Digest Base.DigestFacts Model.Sm3 Proof.Sm3.
From Verif Require Spec.SM3.

Theorem C16_sm3 : forall m cs,
  Forall bytes_ok cs -> 8 * N.of_nat (length (concat cs)) < 2 ^ 64 ->
  h_digest Sm3 m cs = Some (Spec.SM3.SM3 (concat cs)).
Proof. exact (digest_spec _ _ _ _ Sm3_ok). Qed.
Print Assumptions C16_sm3.

(** The hypotheses are met by ordinary inputs; known answers for "abc". *)
Example C16_hyps : Forall bytes_ok [[97; 98]; []; [99]] /\
  8 * N.of_nat (length (concat [[97; 98]; []; [99]])) < 2 ^ 64.
Proof. split; [repeat constructor|reflexivity]. Qed.
Example C16_kat_Sm3 : option_map be_val (h_digest Sm3 Checked [[97; 98]; []; [99]])
  = Some 0x66c7f0f462eeedd9d1f2d46bdc10e4e24167c4875cf2f7a2297da02b8f4ba8e0.
Proof. vm_compute. reflexivity. Qed.
