(** FSB (Augot et al., "SHA-3 proposal: FSB", 2008): the compression function XORs [w] columns of a
    quasi-cyclic matrix; the result goes through Whirlpool.  Bit strings are lists of booleans, the
    first bit of a byte being its most significant one.  [PI] is the table of pseudo-random bytes
    (from the digits of pi). *)
From Verif Require Import Base.Words Base.Bytes Spec.MD.
From Verif Require Spec.Whirlpool.

Definition bits_of_byte (x : N) : list bool := map (fun i => N.testbit x (7 - N.of_nat i)) (seq 0 8).
Definition bits (b : bytes) : list bool := flat_map bits_of_byte b.
(** The number written by a bit string, most significant bit first *)
Definition num (l : list bool) : N := fold_left (fun x b => 2 * x + N.b2n b) l 0.
Definition pack (l : list bool) : bytes := map num (chunks 8 l).
(** The [i]-th group of [k] bits *)
Definition group (k i : nat) (l : list bool) : list bool := firstn k (skipn (k * i) l).
Definition xor_bits (a b : list bool) : list bool := map (fun p => xorb (fst p) (snd p)) (combine a b).

(** Parameters (table 3): [n] columns, [w] of them XORed, [r] output bits, vectors of [p] bits, [s]
    input bits.  [nw] is n / w. *)
Record params := mkParams { nw : N; w : nat; r : nat; p : nat; s : nat }.
Definition FSB160 : params := mkParams 16384 80 640 653 1120.
Definition FSB224 : params := mkParams 16384 112 896 907 1568.
Definition FSB256 : params := mkParams 16384 128 1024 1061 1792.
Definition FSB384 : params := mkParams 8192 184 1472 1483 2392.
Definition FSB512 : params := mkParams 8192 248 1984 1987 3224.

Section FSB.
  Context (PI : bytes) (P : params).
  (** The [j]-th vector: the first [p] bits of the [j]-th piece of p/8 + 1 bytes *)
  Definition vector (j : nat) : list bool :=
    let size := (p P / 8 + 1)%nat in firstn (p P) (bits (firstn size (skipn (j * size) PI))).
  (** Column [W]: cyclic shift to the right, truncated to [r] bits *)
  Definition rotate_right (k : nat) (v : list bool) : list bool := skipn (length v - k) v ++ firstn (length v - k) v.
  Definition column (W : N) : list bool :=
    firstn (r P) (rotate_right (N.to_nat (W mod N.of_nat (r P))) (vector (N.to_nat (W / N.of_nat (r P))))).
  (** The indices of the columns: W_i = i n / w + IV_i + M_i 2^(r/w) *)
  Definition index (IV M : list bool) (i : nat) : N :=
    N.of_nat i * nw P + num (group (r P / w P) i IV) + num (group ((s P - r P) / w P) i M) * 2 ^ N.of_nat (r P / w P).
  Definition compress (IV : list bool) (block : bytes) : list bool :=
    fold_left xor_bits (map (fun i => column (index IV (bits block) i)) (seq 0 (w P))) (repeat false (r P)).
  (** The hash function with [out] bytes of output *)
  Definition FSB (out : nat) (msg : bytes) : bytes :=
    let final := md_iterate compress ((s P - r P) / 8) (repeat false (r P))
                   (md_pad ((s P - r P) / 8) 0x80 (be_bytes 8 (8 * blen msg)) msg) in
    firstn out (Spec.Whirlpool.Whirlpool (pack final)).
End FSB.
