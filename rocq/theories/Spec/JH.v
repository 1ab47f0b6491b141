(** JH (Wu, "The hash function JH", 2011, the 42-round version). *)
From Verif Require Import Base.Words Base.Bytes.

(** ** Section 3: the S-boxes, the linear transformation, the permutation *)
Definition S0 : list N := [9; 0; 4; 11; 13; 12; 3; 15; 1; 10; 2; 6; 7; 5; 8; 14].
Definition S1 : list N := [3; 12; 6; 13; 5; 7; 1; 9; 15; 2; 0; 4; 11; 10; 14; 8].
Definition S (c : bool) (x : N) : N := get (if c then S1 else S0) (N.to_nat x).
(** Multiplication by 2 in GF(2)[x]/(x^4 + x + 1). *)
Definition dbl (x : N) : N := if 2 * x <? 16 then 2 * x else N.lxor (2 * x) 0x13.
Definition L (ab : N * N) : N * N :=
  let '(a, b) := ab in let d := N.lxor b (dbl a) in let c := N.lxor a (dbl d) in (c, d).
(** P_d on arrays of 2^d elements: [b_i = a_(..)]. *)
Definition pi_ (d : nat) (a : list N) : list N :=
  map (fun i => get a (nth (i mod 4) [i; i; i + 1; i - 1]%nat 0%nat)) (seq 0 (2 ^ d)).
Definition P' (d : nat) (a : list N) : list N :=
  map (fun i => get a (if i <? 2 ^ (d - 1) then 2 * i else 2 * (i - 2 ^ (d - 1)) + 1)%nat) (seq 0 (2 ^ d)).
Definition phi (d : nat) (a : list N) : list N :=
  map (fun i => get a (if i <? 2 ^ (d - 1) then i else if Nat.even i then i + 1 else i - 1)%nat) (seq 0 (2 ^ d)).
Definition P (d : nat) (a : list N) : list N := phi d (P' d (pi_ d a)).
(** The round function R_d on 2^d four-bit elements; [c i] is the i-th bit of the constant. *)
Definition R (d : nat) (a : list N) (c : nat -> bool) : list N :=
  let v := map (fun i => S (c i) (get a i)) (seq 0 (2 ^ d)) in
  let w := flat_map (fun i => let '(x, y) := L (get v (2 * i), get v (2 * i + 1)) in [x; y]) (seq 0 (2 ^ (d - 1))) in
  P d w.

(** ** Section 3.5: the round constants: C_0 is the fractional part of the square root of 2, and
    C_r = R_6(C_(r-1), 0) *)
Definition C0 : list N := map (fun i => (N.sqrt (2 * 2 ^ 512) / 16 ^ (63 - N.of_nat i)) mod 16) (seq 0 64).
Definition constants : list (list N) :=
  rev (fold_left (fun l (_ : nat) => R 6 (hd [] l) (fun _ => false) :: l) (seq 0 41) [C0]).
Definition cbit (c : list N) (i : nat) : bool := N.testbit (get c (i / 4)) (N.of_nat (3 - i mod 4)).

(** ** Section 4: E_8 and F_8; bit 0 is the most significant bit of the first byte *)
Definition bit (a : bytes) (t : nat) : bool := N.testbit (get a (t / 8)) (N.of_nat (7 - t mod 8)).
Definition num (l : list bool) : N := fold_left (fun x b => 2 * x + N.b2n b) l 0.
(** q_(2i) = A^i || A^(i+256) || A^(i+512) || A^(i+768), q_(2i+1) = A^(i+128) || ... *)
Definition group (a : bytes) : list N :=
  map (fun e => num (map (fun k => bit a (e / 2 + 128 * (e mod 2) + 256 * k)) (seq 0 4))) (seq 0 256).
Definition degroup (q : list N) : bytes :=
  let b t := N.testbit (get q (2 * (t mod 128) + (t / 128) mod 2)) (N.of_nat (3 - t / 256)) in
  map (fun s => num (map (fun u => b (8 * s + u)%nat) (seq 0 8))) (seq 0 128).
Definition E8 (a : bytes) : bytes := degroup (fold_left (fun q c => R 8 q (cbit c)) constants (group a)).
Definition F8 (h m : bytes) : bytes :=
  let b := E8 (xor_bytes (firstn 64 h) m ++ skipn 64 h) in
  firstn 64 b ++ xor_bytes (skipn 64 b) m.

(** ** Section 5: padding, initial value, digest ([k] bytes) *)
Definition pad (msg : bytes) : bytes :=
  msg ++ [0x80] ++ zeros (47 + (64 - length msg mod 64) mod 64) ++ be_bytes 16 (8 * N.of_nat (length msg)).
Definition H0 (k : nat) : bytes := F8 (be_bytes 2 (8 * N.of_nat k) ++ zeros 126) (zeros 64).
Definition JH (k : nat) (msg : bytes) : bytes :=
  skipn (128 - k) (fold_left F8 (chunks 64 (pad msg)) (H0 k)).
