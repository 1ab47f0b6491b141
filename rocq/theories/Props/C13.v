(** C13: MD4 hashers compute the function of RFC 1320 (Spec/MD4.v) on every
    message, of any length, in debug and release builds. *)
From Verif Require Import Base.Words Base.Bytes Base.Digest Base.DigestFacts Model.Md4 Proof.Md4.
From Verif Require Spec.MD4.

Theorem C13_md4_rfc1320 : forall m cs, Forall bytes_ok cs ->
  h_digest Md4 m cs = Some (Spec.MD4.MD4 (concat cs)).
Proof. exact (fun m cs B => digest_spec _ _ _ _ Md4_ok m cs B I). Qed.
Print Assumptions C13_md4_rfc1320.

(** The hypotheses are met by ordinary inputs; known answers for "abc". *)
Example C13_hyps : Forall bytes_ok [[97; 98]; []; [99]].
Proof. repeat constructor. Qed.
Example C13_kat_Md4 : option_map be_val (h_digest Md4 Checked [[97; 98]; []; [99]])
  = Some 0xa448017aaf21d8525fc10ae87aa6729d.
Proof. vm_compute. reflexivity. Qed.
