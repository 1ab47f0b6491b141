(** The rules by which the standards derive their constants. *)
From Verif Require Import Base.Words Base.Bytes Spec.GF.

(** ** Primes and their roots *)
Definition prime (p : N) : Prop := 2 <= p /\ forall d, 2 <= d < p -> p mod d <> 0.
(** [p] is the prime with [i] primes below it *)
Definition nth_prime (i : nat) (p : N) : Prop :=
  prime p /\ exists l, length l = i /\ NoDup l /\ forall q, In q l <-> prime q /\ q < p.
(** [c] is the integer part of 2^w times the [r]-th root of [p] *)
Definition scaled_root (r w p c : N) : Prop := c ^ r <= p * 2 ^ (r * w) < (c + 1) ^ r.
(** [c] is made of the first [w] bits of the fractional part of the root *)
Definition root_bits (r w p c : N) : Prop := exists c', scaled_root r w p c' /\ c = c' mod 2 ^ w.

(** ** belt: a linear feedback shift register run 116 steps from one entry to the next (STB 34.101.31, 6.1.2 and the
    generation of the table H: H(10) = 0, H(11) = 8E) *)
Definition parity (x : N) : N := fold_right N.lxor 0 (map (fun i => N.b2n (N.testbit x (N.of_nat i))) (seq 0 8)).
Definition belt_shift (x : N) : N := x / 2 + 128 * parity (N.land x 0x63).
Definition belt_table (H : list N) : Prop :=
  length H = 256%nat /\ get H 10 = 0 /\ get H 11 = 0x8E /\
  forall x, (11 <= x < 265)%nat -> get H ((x + 1) mod 256) = Nat.iter 116 belt_shift (get H (x mod 256)).

(** ** The bytes 01 23 45 67 89 ab cd ef fe dc ba 98 76 54 32 10 f0 e1 d2 c3, and their continuation in RIPEMD-256 and
    RIPEMD-320, cut into little-endian words *)
Definition counting : bytes :=
  map (fun i => 16 * N.of_nat (2 * i) + N.of_nat (2 * i + 1)) (seq 0 8) ++
  map (fun i => 16 * (15 - N.of_nat (2 * i)) + (14 - N.of_nat (2 * i))) (seq 0 8).
Definition fifth : bytes := map (fun i => 16 * (15 - N.of_nat i) + N.of_nat i) (seq 0 4).
(** the two digits of every byte exchanged *)
Definition swapped (b : bytes) : bytes := map (fun x => 16 * (x mod 16) + x / 16) b.

(** ** The S-box of AES: the inverse modulo x^8 + x^4 + x^3 + x + 1, then an affine map *)
Definition aes_sbox (S : N -> N) : Prop := forall x, x < 256 -> exists y, y < 256 /\
  (x = 0 -> y = 0) /\ (x <> 0 -> gmul 0x11b x y = 1) /\ S x < 256 /\
  forall i, i < 8 -> N.testbit (S x) i =
    xorb (N.testbit 0x63 i) (xorb (N.testbit y i) (xorb (N.testbit y ((i + 4) mod 8)) (xorb (N.testbit y ((i + 5) mod 8))
      (xorb (N.testbit y ((i + 6) mod 8)) (N.testbit y ((i + 7) mod 8)))))).
