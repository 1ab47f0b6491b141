(** C25: the tiger crate computes Tiger and Tiger2 (Spec/Tiger.v, with S-boxes
    derived by the designers' generation program) on every message shorter than
    2^61 bytes, cut into any pieces. *)
From Verif Require Import Base.Words Base.Bytes Base.Digest Base.DigestFacts Model.TigerTables Model.Tiger Proof.TigerSboxes Proof.Tiger.
From Verif Require Spec.Tiger.

Theorem C25_tiger : forall m cs, Forall bytes_ok cs -> 8 * N.of_nat (length (concat cs)) < 2 ^ 64 ->
  h_digest Tiger m cs = Some (Spec.Tiger.Tiger (concat cs)).
Proof. exact (fun m cs B W => digest_spec _ _ _ _ Tiger_ok m cs B W). Qed.
Print Assumptions C25_tiger.

Theorem C25_tiger2 : forall m cs, Forall bytes_ok cs -> 8 * N.of_nat (length (concat cs)) < 2 ^ 64 ->
  h_digest Tiger2 m cs = Some (Spec.Tiger.Tiger2 (concat cs)).
Proof. exact (fun m cs B W => digest_spec _ _ _ _ Tiger2_ok m cs B W). Qed.
Print Assumptions C25_tiger2.

Theorem C25_sboxes : TABLES = Spec.Tiger.SBOXES.
Proof. exact (eq_sym tiger_sboxes). Qed.
Print Assumptions C25_sboxes.

(** Non-vacuity and known answers for "abc". *)
Example C25_hyps : Forall bytes_ok [[97; 98]; []; [99]] /\ 8 * N.of_nat (length (concat [[97; 98]; []; [99]])) < 2 ^ 64.
Proof. split; [repeat constructor|reflexivity]. Qed.
Example C25_kat : option_map be_val (h_digest Tiger Checked [[97; 98]; []; [99]])
  = Some 0x2aab1484e8c158f2bfb8c5ff41b57a525129131c957b5f93.
Proof. vm_compute. reflexivity. Qed.
