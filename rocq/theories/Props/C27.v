(** C27: the groestl crate computes Groestl (Spec/Groestl.v, with the AES S-box derived
    from field inversion) for every digest size, on every message of fewer than 2^64
    blocks (after padding), cut into any pieces. *)
From Verif Require Import Base.Words Base.Bytes Base.Digest Base.DigestFacts Model.Groestl Proof.Groestl.
From Verif Require Spec.Groestl.

Theorem C27_short : forall k m cs, (k <= 32)%nat -> Forall bytes_ok cs ->
  Spec.Groestl.padded_blocks Spec.Groestl.short (length (concat cs)) < 2 ^ 64 ->
  h_digest (GroestlShort k) m cs = Some (Spec.Groestl.hash Spec.Groestl.short k (concat cs)).
Proof. exact (fun k m cs K B W => digest_spec _ _ _ _ (GroestlShort_ok k K) m cs B W). Qed.
Print Assumptions C27_short.

Theorem C27_long : forall k m cs, (k <= 64)%nat -> Forall bytes_ok cs ->
  Spec.Groestl.padded_blocks Spec.Groestl.long (length (concat cs)) < 2 ^ 64 ->
  h_digest (GroestlLong k) m cs = Some (Spec.Groestl.hash Spec.Groestl.long k (concat cs)).
Proof. exact (fun k m cs K B W => digest_spec _ _ _ _ (GroestlLong_ok k K) m cs B W). Qed.
Print Assumptions C27_long.

(** The four named hashers are the standard ones. *)
Theorem C27_named : forall m cs, Forall bytes_ok cs -> N.of_nat (length (concat cs)) + 72 < 2 ^ 70 ->
  h_digest Groestl224 m cs = Some (Spec.Groestl.Groestl 28 (concat cs)) /\
  h_digest Groestl256 m cs = Some (Spec.Groestl.Groestl 32 (concat cs)) /\
  h_digest Groestl384 m cs = Some (Spec.Groestl.Groestl 48 (concat cs)) /\
  h_digest Groestl512 m cs = Some (Spec.Groestl.Groestl 64 (concat cs)).
Proof. exact Groestl_named. Qed.
Print Assumptions C27_named.

(** Non-vacuity and the known answer of Groestl-256 for "abc". *)
Example C27_hyps : let cs := [[97; 98]; []; [99]] in
  Forall bytes_ok cs /\ Spec.Groestl.padded_blocks Spec.Groestl.short (length (concat cs)) < 2 ^ 64 /\
  Spec.Groestl.padded_blocks Spec.Groestl.long (length (concat cs)) < 2 ^ 64 /\ N.of_nat (length (concat cs)) + 72 < 2 ^ 70.
Proof. split; [repeat constructor|repeat split]. Qed.
Example C27_kat : option_map be_val (h_digest Groestl256 Checked [[97; 98]; []; [99]])
  = Some 0xf3c1bb19c048801326a7efbcf16e3d7887446249829c379e1840d1a3a1e7d4d2.
Proof. vm_compute. reflexivity. Qed.
