(** belt-hash of STB 34.101.31-2020 (sections 6.1.2, 6.3.2, 7.8), on strings of bytes, over a block
    cipher F taking a key of 32 bytes and a block of 16 bytes; and the block cipher itself. *)
From Verif Require Import Base.Words Base.Bytes Base.Codec.

Section Hash.
  Context (F : bytes -> bytes -> bytes).
  Definition ones : bytes := repeat 0xFF 16.
  (** 6.3.2, for X = X1 X2 X3 X4 *)
  Definition sigma1 (X1 X2 X3 X4 : bytes) : bytes := xor_bytes (xor_bytes (F (X1 ++ X2) (xor_bytes X3 X4)) X3) X4.
  Definition sigma2 (X1 X2 X3 X4 : bytes) : bytes :=
    let u := sigma1 X1 X2 X3 X4 in
    xor_bytes (F (u ++ X4) X1) X1 ++ xor_bytes (F (xor_bytes u ones ++ X3) X2) X2.
  Definition lo (x : bytes) : bytes := firstn 16 x.
  Definition hi (x : bytes) : bytes := skipn 16 x.
  Definition step (st : bytes * bytes) (X : bytes) : bytes * bytes :=
    let '(s, h) := st in
    (xor_bytes s (sigma1 (lo X) (hi X) (lo h) (hi h)), sigma2 (lo X) (hi X) (lo h) (hi h)).
  (** 7.8.3: the message is cut into blocks of 32 bytes, the last one completed with zeros; the last
      compression takes the length in bits, on 128 bits, and the sum s *)
  Definition hash (h0 X : bytes) : bytes :=
    let padded := X ++ zeros ((32 - length X mod 32) mod 32) in
    let '(s, h) := fold_left step (chunks 32 padded) (zeros 16, h0) in
    sigma2 (le_bytes 16 (8 * N.of_nat (length X))) s (lo h) (hi h).
End Hash.

(** 6.1.2: the table H *)
Definition H : bytes :=
  [0xB1; 0x94; 0xBA; 0xC8; 0x0A; 0x08; 0xF5; 0x3B; 0x36; 0x6D; 0x00; 0x8E; 0x58; 0x4A; 0x5D; 0xE4;
   0x85; 0x04; 0xFA; 0x9D; 0x1B; 0xB6; 0xC7; 0xAC; 0x25; 0x2E; 0x72; 0xC2; 0x02; 0xFD; 0xCE; 0x0D;
   0x5B; 0xE3; 0xD6; 0x12; 0x17; 0xB9; 0x61; 0x81; 0xFE; 0x67; 0x86; 0xAD; 0x71; 0x6B; 0x89; 0x0B;
   0x5C; 0xB0; 0xC0; 0xFF; 0x33; 0xC3; 0x56; 0xB8; 0x35; 0xC4; 0x05; 0xAE; 0xD8; 0xE0; 0x7F; 0x99;
   0xE1; 0x2B; 0xDC; 0x1A; 0xE2; 0x82; 0x57; 0xEC; 0x70; 0x3F; 0xCC; 0xF0; 0x95; 0xEE; 0x8D; 0xF1;
   0xC1; 0xAB; 0x76; 0x38; 0x9F; 0xE6; 0x78; 0xCA; 0xF7; 0xC6; 0xF8; 0x60; 0xD5; 0xBB; 0x9C; 0x4F;
   0xF3; 0x3C; 0x65; 0x7B; 0x63; 0x7C; 0x30; 0x6A; 0xDD; 0x4E; 0xA7; 0x79; 0x9E; 0xB2; 0x3D; 0x31;
   0x3E; 0x98; 0xB5; 0x6E; 0x27; 0xD3; 0xBC; 0xCF; 0x59; 0x1E; 0x18; 0x1F; 0x4C; 0x5A; 0xB7; 0x93;
   0xE9; 0xDE; 0xE7; 0x2C; 0x8F; 0x0C; 0x0F; 0xA6; 0x2D; 0xDB; 0x49; 0xF4; 0x6F; 0x73; 0x96; 0x47;
   0x06; 0x07; 0x53; 0x16; 0xED; 0x24; 0x7A; 0x37; 0x39; 0xCB; 0xA3; 0x83; 0x03; 0xA9; 0x8B; 0xF6;
   0x92; 0xBD; 0x9B; 0x1C; 0xE5; 0xD1; 0x41; 0x01; 0x54; 0x45; 0xFB; 0xC9; 0x5E; 0x4D; 0x0E; 0xF2;
   0x68; 0x20; 0x80; 0xAA; 0x22; 0x7D; 0x64; 0x2F; 0x26; 0x87; 0xF9; 0x34; 0x90; 0x40; 0x55; 0x11;
   0xBE; 0x32; 0x97; 0x13; 0x43; 0xFC; 0x9A; 0x48; 0xA0; 0x2A; 0x88; 0x5F; 0x19; 0x4B; 0x09; 0xA1;
   0x7E; 0xCD; 0xA4; 0xD0; 0x15; 0x44; 0xAF; 0x8C; 0xA5; 0x84; 0x50; 0xBF; 0x66; 0xD2; 0xE8; 0x8A;
   0xA2; 0xD7; 0x46; 0x52; 0x42; 0xA8; 0xDF; 0xB3; 0x69; 0x74; 0xC5; 0x51; 0xEB; 0x23; 0x29; 0x21;
   0xD4; 0xEF; 0xD9; 0xB4; 0x3A; 0x62; 0x28; 0x75; 0x91; 0x14; 0x10; 0xEA; 0x77; 0x6C; 0xDA; 0x1D].
Definition sub (x : N) : N := get H (N.to_nat x).
(** G_r: the table on the four bytes of a word, then a rotation *)
Definition G (r : N) (u : N) : N := rotl 32 (le_val (map sub (le_bytes 4 u))) r.
(** Round [i] (from 1) with its seven keys *)
Definition round (K : nat -> N) (st : N * N * N * N) (i : nat) : N * N * N * N :=
  let '(a, b, c, d) := st in
  let k j := K ((7 * i - 7 + j) mod 8)%nat in
  let b := N.lxor b (G 5 (add32 a (k 0%nat))) in
  let c := N.lxor c (G 21 (add32 d (k 1%nat))) in
  let a := sub32 a (G 13 (add32 b (k 2%nat))) in
  let e := N.lxor (G 21 (add32 (add32 b c) (k 3%nat))) (N.of_nat i) in
  let b := add32 b e in
  let c := sub32 c e in
  let d := add32 d (G 13 (add32 c (k 4%nat))) in
  let b := N.lxor b (G 21 (add32 a (k 5%nat))) in
  let c := N.lxor c (G 5 (add32 d (k 6%nat))) in
  (b, d, a, c).
Definition block (x key : list N) : list N :=
  let '(a, b, c, d) := fold_left (round (get key)) (seq 1 8) (get x 0, get x 1, get x 2, get x 3) in
  [b; d; a; c].
Definition F (K X : bytes) : bytes := words_to_le 4 (block (words_of_le 4 X) (words_of_le 4 K)).
Definition BeltHash : bytes -> bytes := hash F (firstn 32 H).
