(** C32: the skein crate computes Skein 1.3 (Spec/Skein.v) for every output size that is a multiple
    of 8 bytes, over Threefish and over any other cipher in its place; for the other sizes the last
    [NO mod 8] bytes are zero instead, so the property as stated is false. *)
From Verif Require Import Base.Words Base.Bytes Base.Digest Model.Skein Proof.Skein.
From Verif Require Spec.Threefish Spec.Skein.

(** Every block size, cipher and output size: what is computed *)
Theorem C32_any_cipher : forall nw NO E m cs, (4 <= nw)%nat -> N.of_nat NO < 2 ^ 61 ->
  (forall K T P, (length K = nw /\ words_ok 64 K) -> length T = 2%nat -> words_ok 64 T -> (length P = nw /\ words_ok 64 P) ->
     length (E K T P) = nw /\ words_ok 64 (E K T P)) ->
  Forall bytes_ok cs -> N.of_nat (length (concat cs)) < 2 ^ 64 ->
  skein_digest (8 * nw) NO E m cs =
    Some (firstn (NO - NO mod 8) (Spec.Skein.Skein (8 * nw) (Spec.Skein.on_words E) NO (concat cs)) ++ zeros (NO mod 8)).
Proof. exact (fun nw NO E m cs Hnw HN HE => skein_spec nw NO E Hnw HE m cs HN). Qed.
Print Assumptions C32_any_cipher.

Theorem C32_skein256_partial : forall NO m cs, (NO mod 8 = 0)%nat -> N.of_nat NO < 2 ^ 61 ->
  Forall bytes_ok cs -> N.of_nat (length (concat cs)) < 2 ^ 64 ->
  skein_digest 32 NO (Spec.Threefish.encrypt Spec.Threefish.Threefish256) m cs = Some (Spec.Skein.Skein256 NO (concat cs)).
Proof. exact (skein_whole Spec.Threefish.Threefish256 ltac:(cbn; lia)). Qed.
Print Assumptions C32_skein256_partial.
Theorem C32_skein512_partial : forall NO m cs, (NO mod 8 = 0)%nat -> N.of_nat NO < 2 ^ 61 ->
  Forall bytes_ok cs -> N.of_nat (length (concat cs)) < 2 ^ 64 ->
  skein_digest 64 NO (Spec.Threefish.encrypt Spec.Threefish.Threefish512) m cs = Some (Spec.Skein.Skein512 NO (concat cs)).
Proof. exact (skein_whole Spec.Threefish.Threefish512 ltac:(cbn; lia)). Qed.
Print Assumptions C32_skein512_partial.
Theorem C32_skein1024_partial : forall NO m cs, (NO mod 8 = 0)%nat -> N.of_nat NO < 2 ^ 61 ->
  Forall bytes_ok cs -> N.of_nat (length (concat cs)) < 2 ^ 64 ->
  skein_digest 128 NO (Spec.Threefish.encrypt Spec.Threefish.Threefish1024) m cs = Some (Spec.Skein.Skein1024 NO (concat cs)).
Proof. exact (skein_whole Spec.Threefish.Threefish1024 ltac:(cbn; lia)). Qed.
Print Assumptions C32_skein1024_partial.

(** The full statement, without [NO mod 8 = 0], fails: one byte of output is always 0. *)
Theorem C32_all_sizes_refuted : ~ (forall NO m cs, N.of_nat NO < 2 ^ 61 ->
  Forall bytes_ok cs -> N.of_nat (length (concat cs)) < 2 ^ 64 ->
  skein_digest 32 NO (Spec.Threefish.encrypt Spec.Threefish.Threefish256) m cs = Some (Spec.Skein.Skein256 NO (concat cs))).
Proof. exact skein_refuted. Qed.
Print Assumptions C32_all_sizes_refuted.
(** ... so that for sizes below 8 every two messages collide. *)
Theorem C32_small_sizes_collide : forall NO m cs, (NO < 8)%nat -> Forall bytes_ok cs -> N.of_nat (length (concat cs)) < 2 ^ 64 ->
  skein_digest 32 NO (Spec.Threefish.encrypt Spec.Threefish.Threefish256) m cs = Some (zeros NO).
Proof. exact (skein_small Spec.Threefish.Threefish256 ltac:(cbn; lia)). Qed.
Print Assumptions C32_small_sizes_collide.

(** Non-vacuity and a known answer: Skein-256-256, "abc". *)
Example C32_hyps : let cs := [[97; 98]; []; [99]] in (32 mod 8 = 0)%nat /\ N.of_nat 32 < 2 ^ 61 /\
  Forall bytes_ok cs /\ N.of_nat (length (concat cs)) < 2 ^ 64.
Proof. split; [reflexivity|]. split; [reflexivity|]. split; repeat constructor. Qed.
Example C32_hyps_cipher : forall K T P, (length K = 4%nat /\ words_ok 64 K) -> length T = 2%nat -> words_ok 64 T -> (length P = 4%nat /\ words_ok 64 P) ->
  length (Spec.Threefish.encrypt Spec.Threefish.Threefish256 K T P) = 4%nat /\ words_ok 64 (Spec.Threefish.encrypt Spec.Threefish.Threefish256 K T P).
Proof. exact (threefish_cipher Spec.Threefish.Threefish256). Qed.
Example C32_kat : option_map be_val (skein_digest 32 32 (Spec.Threefish.encrypt Spec.Threefish.Threefish256) Checked [[97; 98]; []; [99]])
  = Some 16982704591596075488844637577711580677754895637831843054714656392930194626672.
Proof. vm_compute. reflexivity. Qed.
