(** C35: the belt-hash crate computes belt-hash of STB 34.101.31 (Spec/Belt.v) on every message
    shorter than 2^128 bits, cut into any pieces: over any block cipher on 32-bit words, and over the
    cipher of the standard. *)
From Verif Require Import Base.Words Base.Bytes Base.Codec Base.Digest Base.DigestFacts Model.Belt Proof.Belt.
From Verif Require Spec.Belt.

Theorem C35_any_cipher : forall E,
  (forall x k, length x = 4%nat /\ words_ok 32 x -> length k = 8%nat /\ words_ok 32 k -> length (E x k) = 4%nat /\ words_ok 32 (E x k)) ->
  forall m cs, Forall bytes_ok cs -> 8 * N.of_nat (length (concat cs)) < 2 ^ 128 ->
  h_digest (belt_core E) m cs
  = Some (Spec.Belt.hash (fun K X => words_to_le 4 (E (words_of_le 4 X) (words_of_le 4 K))) (words_to_le 4 H0) (concat cs)).
Proof. exact (fun E HE m cs B W => digest_spec _ _ _ _ (belt_core_ok E HE) m cs B W). Qed.
Print Assumptions C35_any_cipher.

Theorem C35_belt : forall m cs, Forall bytes_ok cs -> 8 * N.of_nat (length (concat cs)) < 2 ^ 128 ->
  h_digest BeltHash m cs = Some (Spec.Belt.BeltHash (concat cs)).
Proof. exact (fun m cs B W => digest_spec _ _ _ _ BeltHash_ok m cs B W). Qed.
Print Assumptions C35_belt.

(** The exported [belt_compress] *)
Theorem C35_compress : forall x1 x2 h, length x1 = 4%nat /\ words_ok 32 x1 -> length x2 = 4%nat /\ words_ok 32 x2 -> length h = 8%nat /\ words_ok 32 h ->
  words_to_le 4 (fst (belt_compress Spec.Belt.block x1 x2 h))
  = Spec.Belt.sigma1 Spec.Belt.F (words_to_le 4 x1) (words_to_le 4 x2) (firstn 16 (words_to_le 4 h)) (skipn 16 (words_to_le 4 h)) /\
  words_to_le 4 (snd (belt_compress Spec.Belt.block x1 x2 h))
  = Spec.Belt.sigma2 Spec.Belt.F (words_to_le 4 x1) (words_to_le 4 x2) (firstn 16 (words_to_le 4 h)) (skipn 16 (words_to_le 4 h)).
Proof. exact belt_compress_spec. Qed.
Print Assumptions C35_compress.

(** Non-vacuity; the cipher of the standard meets the hypothesis of the first theorem; known answers
    (STB 34.101.31, tables A.23 and A.8). *)
Example C35_hyps : Forall bytes_ok [[0xB1; 0x94]; []; [0xBA]] /\ 8 * N.of_nat (length (concat [[0xB1; 0x94]; []; [0xBA]])) < 2 ^ 128.
Proof. split; [repeat constructor|reflexivity]. Qed.
Example C35_cipher : forall x k, length x = 4%nat /\ words_ok 32 x -> length k = 8%nat /\ words_ok 32 k ->
  length (Spec.Belt.block x k) = 4%nat /\ words_ok 32 (Spec.Belt.block x k).
Proof. exact spec_cipher_ok. Qed.
Example C35_kat : option_map be_val (h_digest BeltHash Checked [[0xB1; 0x94; 0xBA; 0xC8]; [0x0A; 0x08; 0xF5; 0x3B; 0x36; 0x6D; 0x00; 0x8E; 0x58]])
  = Some 0xABEF9725D4C5A83597A367D14494CC2542F20F659DDFECC961A3EC550CBA8C75.
Proof. vm_compute. reflexivity. Qed.
