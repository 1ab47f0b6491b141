(** RFC 1321: MD5. *)
From Verif Require Import Base.Words Base.Bytes Spec.MD.

(** "T[i] = floor(4294967296 * abs(sin(i)))", i in radians, by a fixed point
    Taylor series with 256 fractional bits (the terms are below 2^100, so the
    rounding error is far below 2^-32). *)
Definition fp : Z := (2 ^ 256)%Z.
Fixpoint sin_series (fuel : nat) (k x term acc : Z) : Z :=
  match fuel with
  | O => acc
  | S n => sin_series n (k + 2)%Z x (- (term * x * x / ((k + 1) * (k + 2))))%Z (acc + term)%Z
  end.
Definition sin_fp (i : Z) : Z := sin_series 200 1 i (i * fp) 0.
Definition T (i : N) : N := Z.to_N (Z.abs (sin_fp (Z.of_N i)) * 2 ^ 32 / fp)%Z.
Definition T_table : list N := map (fun i => T (N.of_nat i)) (seq 1 64).

Definition F (x y z : N) : N := N.lor (N.land x y) (N.land (not32 x) z).
Definition G (x y z : N) : N := N.lor (N.land x z) (N.land y (not32 z)).
Definition H (x y z : N) : N := N.lxor (N.lxor x y) z.
Definition I (x y z : N) : N := N.lxor y (N.lor x (not32 z)).

(** Step [i] (0..63): auxiliary function, index of the message word, shift. *)
Definition aux (i : nat) : N -> N -> N -> N :=
  nth (i / 16) [F; G; H; I] F.
Definition widx (i : nat) : nat :=
  nth (i / 16) [i; 5 * i + 1; 3 * i + 5; 7 * i]%nat 0%nat mod 16.
Definition shift (i : nat) : N :=
  nth (i mod 4) (nth (i / 16) [[7; 12; 17; 22]; [5; 9; 14; 20]; [4; 11; 16; 23]; [6; 10; 15; 21]] []) 0.

(** "a = b + ((a + F(b,c,d) + X[k] + T[i]) <<< s)", then the roles rotate. *)
Definition vars := (N * N * N * N)%type.
Definition step (X : list N) (v : vars) (i : nat) : vars :=
  let '(a, b, c, d) := v in
  (d, add32 b (rotl32 (add32 (add32 (add32 a (aux i b c d)) (get X (widx i))) (get T_table i)) (shift i)), b, c).
Definition compress (v : vars) (block : bytes) : vars :=
  let X := map le_val (chunks 4 block) in
  let '(a0, b0, c0, d0) := v in
  let '(a, b, c, d) := fold_left (step X) (seq 0 64) v in
  (add32 a a0, add32 b b0, add32 c c0, add32 d d0).

(** word A: 01 23 45 67, word B: 89 ab cd ef, word C: fe dc ba 98, word D: 76 54 32 10 *)
Definition iv : vars :=
  (le_val [0x01; 0x23; 0x45; 0x67], le_val [0x89; 0xab; 0xcd; 0xef],
   le_val [0xfe; 0xdc; 0xba; 0x98], le_val [0x76; 0x54; 0x32; 0x10]).
(** The length in bits, low-order 64 bits ([le_bytes 8] keeps these). *)
Definition pad (msg : bytes) : bytes := md_pad 64 0x80 (le_bytes 8 (8 * blen msg)) msg.
Definition output (v : vars) : bytes :=
  let '(a, b, c, d) := v in concat (map (le_bytes 4) [a; b; c; d]).
Definition MD5 (msg : bytes) : bytes := output (md_iterate compress 64 iv (pad msg)).
