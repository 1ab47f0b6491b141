(** "Nothing up my sleeve" numbers: fractional parts of square and cube roots
    of primes, as used by FIPS 180-4, RIPEMD, BLAKE2 and MD4. *)
From Verif Require Import Base.Words.

Definition is_prime (n : nat) : bool :=
  (2 <=? n)%nat && forallb (fun d => negb (n mod d =? 0)%nat) (seq 2 (n - 2)).
Definition primes_below (n : nat) : list nat := filter is_prime (seq 0 n).
(** The first [k] primes (correct as long as they are below 420). *)
Definition primes (k : nat) : list N := map N.of_nat (firstn k (primes_below 420)).

(** Integer cube root, bit by bit: the largest [r < 2^bits] with [r^3 <= x]. *)
Fixpoint icbrt_aux (bits : nat) (x r : N) : N :=
  match bits with
  | O => r
  | S b => let r' := r + 2 ^ N.of_nat b in
           if r' * r' * r' <=? x then icbrt_aux b x r' else icbrt_aux b x r
  end.
Definition icbrt (x : N) : N := icbrt_aux (N.to_nat (N.size x / 3 + 1)) x 0.

(** floor(2^w * sqrt p), floor(2^w * cbrt p) *)
Definition sqrt_bits (w p : N) : N := N.sqrt (p * 2 ^ (2 * w)).
Definition cbrt_bits (w p : N) : N := icbrt (p * 2 ^ (3 * w)).
(** The first [w] bits of the fractional parts. *)
Definition sqrt_frac (w p : N) : N := sqrt_bits w p mod 2 ^ w.
Definition cbrt_frac (w p : N) : N := cbrt_bits w p mod 2 ^ w.
