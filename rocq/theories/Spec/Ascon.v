(** Ascon-Hash256 and Ascon-XOF128 (NIST SP 800-232, sections 2-5), on messages made of bytes.
    A state is five 64-bit words. *)
From Verif Require Import Base.Words Base.Bytes.

Definition state := (N * N * N * N * N)%type.
(** 3.2: the constant of round i of Ascon-p[12] is 0xf0 - i 0x10 + i *)
Definition constant (i : nat) : N := 0xf0 - 15 * N.of_nat i.
(** 3.3: the substitution layer, one 5-bit S-box per bit position (table 6: input x0 x1 x2 x3 x4,
    x0 the most significant bit) *)
Definition sbox : list N :=
  [0x4; 0xb; 0x1f; 0x14; 0x1a; 0x15; 0x9; 0x2; 0x1b; 0x5; 0x8; 0x12; 0x1d; 0x3; 0x6; 0x1c;
   0x1e; 0x13; 0x7; 0xe; 0x0; 0xd; 0x11; 0x18; 0x10; 0xc; 0x1; 0x19; 0x16; 0xa; 0xf; 0x17].
Definition word (f : N -> bool) : N := fold_left N.add (map (fun i => if f (N.of_nat i) then 2 ^ N.of_nat i else 0) (seq 0 64)) 0.
Definition sub_layer (s : state) : state :=
  let '(x0, x1, x2, x3, x4) := s in
  let column j := 16 * N.b2n (N.testbit x0 j) + 8 * N.b2n (N.testbit x1 j) + 4 * N.b2n (N.testbit x2 j)
                  + 2 * N.b2n (N.testbit x3 j) + N.b2n (N.testbit x4 j) in
  let out b := word (fun j => N.testbit (nth (N.to_nat (column j)) sbox 0) b) in
  (out 4, out 3, out 2, out 1, out 0).
(** 3.4: the linear layer *)
Definition lin_layer (s : state) : state :=
  let '(x0, x1, x2, x3, x4) := s in
  let sigma a b x := N.lxor x (N.lxor (rotr 64 x a) (rotr 64 x b)) in
  (sigma 19 28 x0, sigma 61 39 x1, sigma 1 6 x2, sigma 10 17 x3, sigma 7 41 x4).
Definition round (s : state) (i : nat) : state :=
  let '(x0, x1, x2, x3, x4) := s in lin_layer (sub_layer (x0, x1, N.lxor x2 (constant i), x3, x4)).
Definition p12 (s : state) : state := fold_left round (seq 0 12) s.

(** 5: rate of 8 bytes; the padding appends a bit 1 (the byte 0x01) and zeros; every block, including
    the last, is followed by the permutation *)
Definition absorb (s : state) (block : bytes) : state :=
  let '(x0, x1, x2, x3, x4) := s in p12 (N.lxor x0 (le_val block), x1, x2, x3, x4).
Definition pad (M : bytes) : bytes := M ++ [1] ++ zeros (7 - length M mod 8).
Fixpoint squeeze (n : nat) (s : state) : bytes :=
  match n with
  | O => []
  | S n => let '(x0, _, _, _, _) := s in le_bytes 8 x0 ++ squeeze n (p12 s)
  end.
Definition sponge (iv : N) (M : bytes) (d : nat) : bytes :=
  firstn d (squeeze d (fold_left absorb (chunks 8 (pad M)) (p12 (iv, 0, 0, 0, 0)))).
(** Table 13: the initial values *)
Definition Hash256 (M : bytes) : bytes := sponge 0x0000080100cc0002 M 32.
Definition XOF128 (M : bytes) (d : nat) : bytes := sponge 0x0000080000cc0003 M d.
