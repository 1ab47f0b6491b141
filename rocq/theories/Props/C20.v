(** C20: KangarooTwelve computes KT128 of RFC 9861 (Spec/K12.v) for every message,
    however cut into pieces, every customization string and every sequence of
    reads, provided the message and the customization string together are shorter
    than 2^64 - 16 bytes. *)
From Verif Require Import Base.Words Base.Bytes Base.Digest Base.DigestFacts Base.Xof Model.K12 Proof.K12.
From Verif Require Spec.K12.

Theorem C20_k12 : forall C ns m cs, bytes_ok C -> Forall bytes_ok cs ->
  N.of_nat (length (concat cs) + length C) + 16 < 2 ^ 64 ->
  h_digest (xof_core (K12 C) ns) m cs = Some (Spec.K12.KT128 (concat cs) C (total ns)).
Proof. exact (fun C ns m cs HC B W => digest_spec _ _ _ _ (K12_ok C ns HC) m cs B W). Qed.
Print Assumptions C20_k12.

(** Non-vacuity, and the RFC's first test vector. *)
Example C20_hyps : bytes_ok [7] /\ Forall bytes_ok [[97; 98]; []; [99]] /\
  N.of_nat (length (concat [[97; 98]; []; [99]]) + length [7]) + 16 < 2 ^ 64.
Proof. repeat split; repeat constructor. Qed.
Example C20_kat : option_map be_val (h_digest (xof_core (K12 []) [5; 27]%nat) Checked [])
  = Some 0x1AC2D450FC3B4205D19DA7BFCA1B37513C0803577AC7167F06FE2CE1F0EF39E5.
Proof. vm_compute. reflexivity. Qed.
