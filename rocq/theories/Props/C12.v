(** C12: MD5 hashers compute the function of RFC 1321 (Spec/MD5.v) on every
    message, of any length (the RFC takes the bit length modulo 2^64, and so does
    the crate), in debug and release builds. *)
From Verif Require Import Base.Words Base.Bytes Base.Digest Base.DigestFacts Model.Md5 Proof.Md5.
From Verif Require Spec.MD5.

Theorem C12_md5_rfc1321 : forall m cs, Forall bytes_ok cs ->
  h_digest Md5 m cs = Some (Spec.MD5.MD5 (concat cs)).
Proof. exact (fun m cs B => digest_spec _ _ _ _ Md5_ok m cs B I). Qed.
Print Assumptions C12_md5_rfc1321.

(** The hypotheses are met by ordinary inputs; known answers for "abc". *)
Example C12_hyps : Forall bytes_ok [[97; 98]; []; [99]].
Proof. repeat constructor. Qed.
Example C12_kat_Md5 : option_map be_val (h_digest Md5 Checked [[97; 98]; []; [99]])
  = Some 0x900150983cd24fb0d6963f7d28e17f72.
Proof. vm_compute. reflexivity. Qed.
