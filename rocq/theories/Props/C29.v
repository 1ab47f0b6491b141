(** C29: the kupyna crate computes Kupyna (Spec/Kupyna.v) for every digest size, on every
    message shorter than 2^70 bytes, cut into any pieces. *)
From Verif Require Import Base.Words Base.Bytes Base.Digest Model.Kupyna Proof.Kupyna.
From Verif Require Spec.Kupyna.

Theorem C29_short : forall k m cs, (k <= 32)%nat -> Forall bytes_ok cs -> N.of_nat (length (concat cs)) < 2 ^ 70 ->
  h_digest (KupynaShort k) m cs = Some (Spec.Kupyna.hash Spec.Kupyna.short k (concat cs)).
Proof. exact Kupyna_short_digest. Qed.
Print Assumptions C29_short.

Theorem C29_long : forall k m cs, (k <= 64)%nat -> Forall bytes_ok cs -> N.of_nat (length (concat cs)) < 2 ^ 70 ->
  h_digest (KupynaLong k) m cs = Some (Spec.Kupyna.hash Spec.Kupyna.long k (concat cs)).
Proof. exact Kupyna_long_digest. Qed.
Print Assumptions C29_long.

(** The four named hashers are the standard ones. *)
Theorem C29_named : forall m cs, Forall bytes_ok cs -> N.of_nat (length (concat cs)) < 2 ^ 70 ->
  h_digest Kupyna224 m cs = Some (Spec.Kupyna.Kupyna 28 (concat cs)) /\
  h_digest Kupyna256 m cs = Some (Spec.Kupyna.Kupyna 32 (concat cs)) /\
  h_digest Kupyna384 m cs = Some (Spec.Kupyna.Kupyna 48 (concat cs)) /\
  h_digest Kupyna512 m cs = Some (Spec.Kupyna.Kupyna 64 (concat cs)).
Proof. exact (fun m cs B W => conj (Kupyna_short_digest 28 m cs ltac:(lia) B W) (conj (Kupyna_short_digest 32 m cs ltac:(lia) B W)
  (conj (Kupyna_long_digest 48 m cs ltac:(lia) B W) (Kupyna_long_digest 64 m cs ltac:(lia) B W)))). Qed.
Print Assumptions C29_named.

(** Non-vacuity and the known answer of Kupyna-256 for the bytes 00..3f (DSTU 7564:2014). *)
Example C29_hyps : let cs := [[97; 98]; []; [99]] in Forall bytes_ok cs /\ N.of_nat (length (concat cs)) < 2 ^ 70.
Proof. split; [repeat constructor|reflexivity]. Qed.
Example C29_kat : option_map be_val (h_digest Kupyna256 Checked [map N.of_nat (seq 0 40); map N.of_nat (seq 40 24)])
  = Some 0x08F4EE6F1BE6903B324C4E27990CB24EF69DD58DBE84813EE0A52F6631239875.
Proof. vm_compute. reflexivity. Qed.
