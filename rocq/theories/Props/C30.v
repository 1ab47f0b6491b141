(** C30: the streebog crate computes GOST R 34.11-2012 (Spec/Streebog.v) with 256- and 512-bit
    digests on every message shorter than 2^448 bits, cut into any pieces. *)
From Verif Require Import Base.Words Base.Bytes Base.Codec Base.Digest Model.Streebog Proof.Streebog.
From Verif Require Spec.Streebog.

Theorem C30_streebog256 : forall m cs, Forall bytes_ok cs -> 8 * N.of_nat (length (concat cs)) < 2 ^ 448 ->
  h_digest Streebog256 m cs = Some (Spec.Streebog.Streebog 32 (concat cs)).
Proof. exact Streebog256_digest. Qed.
Print Assumptions C30_streebog256.

Theorem C30_streebog512 : forall m cs, Forall bytes_ok cs -> 8 * N.of_nat (length (concat cs)) < 2 ^ 448 ->
  h_digest Streebog512 m cs = Some (Spec.Streebog.Streebog 64 (concat cs)).
Proof. exact Streebog512_digest. Qed.
Print Assumptions C30_streebog512.

(** The bound is the code's, not the standard's: the standard counts bits modulo 2^512, but the
    loop of [update_n] stops before the last of its eight words and loses a carry. *)
Theorem C30_counter_refuted : ~ (forall n len, words_ok 64 n -> length n = 8%nat -> len <= 64 ->
  le_val (words_to_le 8 (update_n n len)) = (le_val (words_to_le 8 n) + 8 * len) mod 2 ^ 512).
Proof. exact update_n_refuted. Qed.
Print Assumptions C30_counter_refuted.

(** Non-vacuity and the first known answer of the standard (63 bytes "0123...12"). *)
Example C30_hyps : let cs := [[97; 98]; []; [99]] in Forall bytes_ok cs /\ 8 * N.of_nat (length (concat cs)) < 2 ^ 448.
Proof. split; [repeat constructor|reflexivity]. Qed.
Example C30_kat : option_map be_val (h_digest Streebog256 Checked [map (fun i => 48 + N.of_nat (i mod 10)) (seq 0 30); map (fun i => 48 + N.of_nat (i mod 10)) (seq 30 33)])
  = Some 0x9d151eefd8590b89daa6ba6cb74af9275dd051026bb149a452fd84e5e57b5500.
Proof. vm_compute. reflexivity. Qed.
