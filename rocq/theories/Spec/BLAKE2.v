(** BLAKE2b and BLAKE2s: RFC 7693, with the parameter block of the BLAKE2
    specification (section 2.8) for salt and personalization. *)
From Verif Require Import Base.Words Base.Bytes.

(** RFC 7693 section 2.1 *)
Record variant := mkVariant {
  w : N;             (* bits in a word *)
  nr : nat;          (* rounds *)
  bb : nat;          (* block bytes *)
  maxout : nat;      (* largest digest and key *)
  R1 : N; R2 : N; R3 : N; R4 : N;
  IV : list N
}.
Definition wbytes (V : variant) : nat := (maxout V / 8)%nat.

(** Section 2.7 *)
Definition SIGMA : list (list nat) := [
  [ 0;  1;  2;  3;  4;  5;  6;  7;  8;  9; 10; 11; 12; 13; 14; 15];
  [14; 10;  4;  8;  9; 15; 13;  6;  1; 12;  0;  2; 11;  7;  5;  3];
  [11;  8; 12;  0;  5;  2; 15; 13; 10; 14;  3;  6;  7;  1;  9;  4];
  [ 7;  9;  3;  1; 13; 12; 11; 14;  2;  6;  5; 10;  4;  0; 15;  8];
  [ 9;  0;  5;  7;  2;  4; 10; 15; 14;  1; 11; 12;  6;  8;  3; 13];
  [ 2; 12;  6; 10;  0; 11;  8;  3;  4; 13;  7;  5; 15; 14;  1;  9];
  [12;  5;  1; 15; 14; 13;  4; 10;  0;  7;  6;  3;  9;  2;  8; 11];
  [13; 11;  7; 14; 12;  1;  3;  9;  5;  0; 15;  4;  8;  6;  2; 10];
  [ 6; 15; 14;  9; 11;  3;  0;  8; 12;  2; 13;  7;  1;  4; 10;  5];
  [10;  2;  8;  4;  7;  6;  1;  5; 15; 11;  9; 14;  3; 12; 13;  0]]%nat.

(** Section 3.1: the mixing function G *)
Definition mix (V : variant) (va vb vc vd x y : N) : N * N * N * N :=
  assign va := wadd (w V) (wadd (w V) va vb) x in
  assign vd := rotr (w V) (N.lxor vd va) (R1 V) in
  assign vc := wadd (w V) vc vd in
  assign vb := rotr (w V) (N.lxor vb vc) (R2 V) in
  assign va := wadd (w V) (wadd (w V) va vb) y in
  assign vd := rotr (w V) (N.lxor vd va) (R3 V) in
  assign vc := wadd (w V) vc vd in
  assign vb := rotr (w V) (N.lxor vb vc) (R4 V) in
  (va, vb, vc, vd).
Definition G (V : variant) (v : list N) (a b c d : nat) (x y : N) : list N :=
  let '(va, vb, vc, vd) := mix V (get v a) (get v b) (get v c) (get v d) x y in
  upd (upd (upd (upd v a va) b vb) c vc) d vd.
(** Section 3.2: the compression function F *)
Definition round_with (V : variant) (m : list N) (v : list N) (s : list nat) : list N :=
  let x j := get m (nth j s 0%nat) in
  let v := G V v 0 4 8 12 (x 0%nat) (x 1%nat) in
  let v := G V v 1 5 9 13 (x 2%nat) (x 3%nat) in
  let v := G V v 2 6 10 14 (x 4%nat) (x 5%nat) in
  let v := G V v 3 7 11 15 (x 6%nat) (x 7%nat) in
  let v := G V v 0 5 10 15 (x 8%nat) (x 9%nat) in
  let v := G V v 1 6 11 12 (x 10%nat) (x 11%nat) in
  let v := G V v 2 7 8 13 (x 12%nat) (x 13%nat) in
  G V v 3 4 9 14 (x 14%nat) (x 15%nat).
Definition round (V : variant) (m : list N) (v : list N) (i : nat) : list N :=
  round_with V m v (nth (i mod 10) SIGMA []).
Definition F (V : variant) (h m : list N) (t : N) (f : bool) : list N :=
  let v := h ++ IV V in
  let v := upd v 12 (N.lxor (get v 12) (t mod 2 ^ w V)) in
  let v := upd v 13 (N.lxor (get v 13) (t / 2 ^ w V mod 2 ^ w V)) in
  let v := if f then upd v 14 (wnot (w V) (get v 14)) else v in
  let v := fold_left (round V m) (seq 0 (nr V)) v in
  map (fun i => N.lxor (get h i) (N.lxor (get v i) (get v (i + 8)))) (seq 0 8).

(** Little-endian words of a block padded with zeros to [n] bytes *)
Definition zpad (n : nat) (l : bytes) : bytes := l ++ zeros (n - length l).
Definition le_words (V : variant) (l : bytes) : list N := map le_val (chunks (wbytes V) l).

(** The parameter block for sequential mode: digest length, key length, fanout
    1, depth 1, zeros, salt, personalization. *)
Definition param_block (V : variant) (salt persona : bytes) (kk nn : nat) : bytes :=
  let q := (maxout V / 4)%nat in
  zpad (2 * q) [N.of_nat nn; N.of_nat kk; 1; 1] ++ zpad q salt ++ zpad q persona.
Definition xor_words (a b : list N) : list N := map (fun p => N.lxor (fst p) (snd p)) (combine a b).
Definition init (V : variant) (salt persona : bytes) (kk nn : nat) : list N :=
  xor_words (IV V) (le_words V (param_block V salt persona kk nn)).

(** Section 3.3.  [d] is the data still to be absorbed, [t] what has been. *)
Fixpoint absorb (V : variant) (fuel : nat) (h : list N) (t : N) (d : bytes) : list N :=
  match fuel with
  | O => h
  | S fuel =>
      if (length d <=? bb V)%nat
      then F V h (le_words V (zpad (bb V) d)) (t + N.of_nat (length d)) true
      else absorb V fuel (F V h (le_words V (firstn (bb V) d)) (t + N.of_nat (bb V)) false)
                  (t + N.of_nat (bb V)) (skipn (bb V) d)
  end.
Definition BLAKE2 (V : variant) (salt persona key : bytes) (nn : nat) (M : bytes) : bytes :=
  let d := match key with [] => M | _ => zpad (bb V) key ++ M end in
  let h := absorb V (S (length d)) (init V salt persona (length key) nn) 0 d in
  firstn nn (concat (map (le_bytes (wbytes V)) h)).

Definition BLAKE2b : variant := mkVariant 64 12 128 64 32 24 16 63 [
  0x6a09e667f3bcc908; 0xbb67ae8584caa73b; 0x3c6ef372fe94f82b; 0xa54ff53a5f1d36f1;
  0x510e527fade682d1; 0x9b05688c2b3e6c1f; 0x1f83d9abfb41bd6b; 0x5be0cd19137e2179].
Definition BLAKE2s : variant := mkVariant 32 10 64 32 16 12 8 7 [
  0x6A09E667; 0xBB67AE85; 0x3C6EF372; 0xA54FF53A; 0x510E527F; 0x9B05688C; 0x1F83D9AB; 0x5BE0CD19].
