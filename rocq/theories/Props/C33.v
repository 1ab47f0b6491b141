(** C33: the shabal crate computes Shabal (Spec/Shabal.v, initial values from the digest length and
    three full final rounds) for its five digest sizes on every message, cut into any pieces. *)
From Verif Require Import Base.Words Base.Bytes Base.Codec Base.Digest Model.ShabalTables Model.Shabal Proof.Shabal.
From Verif Require Spec.Shabal.

(** One message round, from any state *)
Theorem C33_round : forall A B C W x, length A = 12%nat -> words_ok 32 A -> length B = 16%nat -> words_ok 32 B ->
  length C = 16%nat -> words_ok 32 C -> W < 2 ^ 64 -> length x = 64%nat -> bytes_ok x ->
  block_step (mkSt A B C W) x = (let '(A', B', C') := Spec.Shabal.round (A, B, C) W (words_of_le 4 x) in mkSt A' B' C' ((W + 1) mod 2 ^ 64)).
Proof. exact block_bytes. Qed.
Print Assumptions C33_round.

Theorem C33_shabal : forall m cs, Forall bytes_ok cs ->
  h_digest Shabal192 m cs = Some (Spec.Shabal.Shabal 24 (concat cs)) /\ h_digest Shabal224 m cs = Some (Spec.Shabal.Shabal 28 (concat cs)) /\
  h_digest Shabal256 m cs = Some (Spec.Shabal.Shabal 32 (concat cs)) /\ h_digest Shabal384 m cs = Some (Spec.Shabal.Shabal 48 (concat cs)) /\
  h_digest Shabal512 m cs = Some (Spec.Shabal.Shabal 64 (concat cs)).
Proof. exact Shabal_digest. Qed.
Print Assumptions C33_shabal.

(** Non-vacuity and a known answer (Shabal-192 of "a"). *)
Example C33_hyps : Forall bytes_ok [[97; 98]; []; [99]].
Proof. repeat constructor. Qed.
Example C33_hyps_round : let '(A, B, C) := INIT_256 in length A = 12%nat /\ words_ok 32 A /\ length B = 16%nat /\ words_ok 32 B /\
  length C = 16%nat /\ words_ok 32 C /\ length (repeat 97 64) = 64%nat /\ bytes_ok (repeat 97 64).
Proof. repeat split; repeat constructor. Qed.
Example C33_kat : option_map be_val (h_digest Shabal192 Checked [[97]]) = Some 0x8f29c9cfe1723fbe06f5f7d329ab87f8ef81a1cdcb0569fe.
Proof. vm_compute. reflexivity. Qed.
