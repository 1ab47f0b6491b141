(** Skein 1.3 (Ferguson et al., 2010), sections 3.4 to 3.5: simple hashing, over a tweakable
    block cipher [E key tweak plaintext] on byte strings; [Nb] is the state size in bytes and
    [No] the number of output bytes. *)
From Verif Require Import Base.Words Base.Bytes Base.Codec.
From Verif Require Spec.Threefish.

Section Skein.
  Context (Nb : nat) (E : bytes -> bytes -> bytes -> bytes).
  Definition zpad (d : bytes) : bytes := d ++ zeros (Nb - length d).
  Definition step (H : bytes) (T : N) (M : bytes) : bytes := xor_bytes (E H (le_bytes 16 T) M) M.
  (** UBI: [M] is what remains of the message, [pos] what has been processed; bits 126 and 127
      of the tweak mark the first and the last block, the type value is [Ts]. *)
  Fixpoint UBI_from (fuel : nat) (H : bytes) (pos : N) (first : bool) (M : bytes) (Ts : N) : bytes :=
    match fuel with
    | O => H
    | S fuel =>
        if (length M <=? Nb)%nat
        then step H (Ts + (pos + N.of_nat (length M)) + N.b2n first * 2 ^ 126 + 2 ^ 127) (zpad M)
        else UBI_from fuel (step H (Ts + (pos + N.of_nat Nb) + N.b2n first * 2 ^ 126) (firstn Nb M))
               (pos + N.of_nat Nb) false (skipn Nb M) Ts
    end.
  Definition UBI (G M : bytes) (Ts : N) : bytes := UBI_from (S (length M)) G 0 true M Ts.
  Definition T_cfg : N := 4 * 2 ^ 120.
  Definition T_msg : N := 48 * 2 ^ 120.
  Definition T_out : N := 63 * 2 ^ 120.
  (** Schema identifier "SHA3", version 1, output length in bits, no tree. *)
  Definition config (No : nat) : bytes :=
    [0x53; 0x48; 0x41; 0x33] ++ le_bytes 2 1 ++ zeros 2 ++ le_bytes 8 (8 * N.of_nat No) ++ zeros 16.
  Definition Output (G : bytes) (No : nat) : bytes :=
    firstn No (flat_map (fun i => UBI G (le_bytes 8 (N.of_nat i)) T_out) (seq 0 ((No + Nb - 1) / Nb))).
  Definition Skein (No : nat) (M : bytes) : bytes :=
    Output (UBI (UBI (zeros Nb) (config No) T_cfg) M T_msg) No.
End Skein.

(** A cipher on 64-bit words as one on bytes, words being little-endian (section 3.2), and the
    three functions. *)
Definition on_words (E : list N -> list N -> list N -> list N) (K T P : bytes) : bytes :=
  words_to_le 8 (E (words_of_le 8 K) (words_of_le 8 T) (words_of_le 8 P)).
Definition Skein256 : nat -> bytes -> bytes := Skein 32 (on_words (Threefish.encrypt Threefish.Threefish256)).
Definition Skein512 : nat -> bytes -> bytes := Skein 64 (on_words (Threefish.encrypt Threefish.Threefish512)).
Definition Skein1024 : nat -> bytes -> bytes := Skein 128 (on_words (Threefish.encrypt Threefish.Threefish1024)).
