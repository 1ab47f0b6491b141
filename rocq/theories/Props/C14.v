(** C14: MD2 hashers compute the function of RFC 1319 (Spec/MD2.v) on every
    message, of any length, in debug and release builds. *)
From Verif Require Import Base.Words Base.Bytes Base.Digest Base.DigestFacts Model.Md2 Proof.Md2.
From Verif Require Spec.MD2.

Theorem C14_md2_rfc1319 : forall m cs, Forall bytes_ok cs ->
  h_digest Md2 m cs = Some (Spec.MD2.MD2 (concat cs)).
Proof. exact (fun m cs B => digest_spec _ _ _ _ Md2_ok m cs B I). Qed.
Print Assumptions C14_md2_rfc1319.

(** The hypotheses are met by ordinary inputs; known answers for "abc". *)
Example C14_hyps : Forall bytes_ok [[97; 98]; []; [99]].
Proof. repeat constructor. Qed.
Example C14_kat_Md2 : option_map be_val (h_digest Md2 Checked [[97; 98]; []; [99]])
  = Some 0xda853b0d3f88d99b30283a69e6ded6bb.
Proof. vm_compute. reflexivity. Qed.
