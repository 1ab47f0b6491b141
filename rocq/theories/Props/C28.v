(** C28: the jh crate computes JH (Spec/JH.v) for its four digest sizes on every message shorter
    than 2^64 bits, cut into any pieces. *)
From Verif Require Import Base.Words Base.Bytes Base.Codec Base.Digest Model.Jh Proof.Jh.
From Verif Require Spec.JH.

(** The bit-sliced compression function with its precomputed constants is F_8 of the specification. *)
Theorem C28_compress : forall h b, length h = 128%nat -> bytes_ok h -> length b = 64%nat -> bytes_ok b ->
  words_to_le 16 (f8_impl (words_of_le 16 h) b) = Spec.JH.F8 h b.
Proof. exact f8_bytes. Qed.
Print Assumptions C28_compress.

Theorem C28_jh : forall m cs, Forall bytes_ok cs -> 8 * N.of_nat (length (concat cs)) < 2 ^ 64 ->
  h_digest Jh224 m cs = Some (Spec.JH.JH 28 (concat cs)) /\ h_digest Jh256 m cs = Some (Spec.JH.JH 32 (concat cs)) /\
  h_digest Jh384 m cs = Some (Spec.JH.JH 48 (concat cs)) /\ h_digest Jh512 m cs = Some (Spec.JH.JH 64 (concat cs)).
Proof. exact Jh_digest. Qed.
Print Assumptions C28_jh.

(** Non-vacuity and the known answer of JH-256 for the empty message. *)
Example C28_hyps : let cs := [[97; 98]; []; [99]] in Forall bytes_ok cs /\ 8 * N.of_nat (length (concat cs)) < 2 ^ 64.
Proof. split; [repeat constructor|reflexivity]. Qed.
Example C28_kat : option_map be_val (h_digest Jh256 Checked [[]])
  = Some 0x46e64619c18bb0a92a5e87185a47eef83ca747b8fcc8e1412921357e326df434.
Proof. vm_compute. reflexivity. Qed.
