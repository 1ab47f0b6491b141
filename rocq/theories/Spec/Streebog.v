(** Streebog, GOST R 34.11-2012 (RFC 6986).  512-bit vectors a_63 || ... || a_0 are lists of
    64 bytes, a_0 (the least significant byte, the first byte of a message block) first. *)
From Verif Require Import Base.Words Base.Bytes Spec.GF Spec.StreebogTables.

(** ** The substitution pi (RFC 6986, section 6.2), described by its discrete logarithm
    structure (Perrin, "Partitions in the S-box of Streebog and Kuznyechik", 2019):
    pi(0) = kappa(0), pi(alpha^(17 j)) = kappa(16 - j) for 0 < j <= 15, and
    pi(alpha^(i + 17 j)) = kappa(16 - i) + alpha^(17 s(j)) for 0 < i <= 16, j < 15. *)
Definition alphas : list N :=  (* alpha^0, ..., alpha^254 in GF(2)[x]/(x^8+x^4+x^3+x^2+1) *)
  rev (fold_left (fun l (_ : nat) => xtime 0x11d (hd 0 l) :: l) (seq 0 254) [1]).
Definition alpha (k : nat) : N := get alphas (k mod 255).
Definition kappa (x : nat) : N :=
  N.lxor 0xfc (xors (map (fun i => if N.testbit (N.of_nat x) (N.of_nat i) then get [0x12; 0x26; 0x24; 0x30] i else 0) (seq 0 4))).
Definition s_ : list nat := [0; 12; 9; 8; 7; 4; 14; 6; 5; 10; 2; 11; 1; 3; 13]%nat.
Definition pi_pairs : list (N * N) :=
  (0, kappa 0) :: map (fun j => (alpha (17 * j), kappa (16 - j))) (seq 1 15)
  ++ flat_map (fun i => map (fun j => (alpha (i + 17 * j), N.lxor (kappa (16 - i)) (alpha (17 * nth j s_ 0%nat)))) (seq 0 15)) (seq 1 16).
Definition pi_value (x : N) : N :=
  match find (fun p => fst p =? x) pi_pairs with Some p => snd p | None => 0 end.
Definition PI : list N := map (fun x => pi_value (N.of_nat x)) (seq 0 256).
Definition pi (x : N) : N := get PI (N.to_nat x).

(** ** The linear map l (section 6.4), described as multiplication with a matrix over
    GF(2)[x]/(x^8+x^6+x^5+x^4+1) (Kazymyrov and Kazymyrova, "Algebraic aspects of the Russian
    hash standard GOST R 34.11-2012", 2013): the most significant byte comes first and the
    bits of bytes are taken in reverse order. *)
Definition L_matrix : list (list N) := [
  [0x71; 0x05; 0x09; 0xB9; 0x61; 0xA2; 0x27; 0x0E];
  [0x04; 0x88; 0x5B; 0xB2; 0xE4; 0x36; 0x5F; 0x65];
  [0x5F; 0xCB; 0xAD; 0x0F; 0xBA; 0x2C; 0x04; 0xA5];
  [0xE5; 0x01; 0x54; 0xBA; 0x0F; 0x11; 0x2A; 0x76];
  [0xD4; 0x81; 0x1C; 0xFA; 0x39; 0x5E; 0x15; 0x24];
  [0x05; 0x71; 0x5E; 0x66; 0x17; 0x1C; 0xD0; 0x02];
  [0x2D; 0xF1; 0xE7; 0x28; 0x55; 0xA0; 0x4C; 0x9A];
  [0x0E; 0x02; 0xF6; 0x8A; 0x15; 0x9D; 0x39; 0x71]].
Definition rev8 (x : N) : N := xors (map (fun i => if N.testbit x (N.of_nat i) then 2 ^ (7 - N.of_nat i) else 0) (seq 0 8)).
Definition l (w : list N) : list N := rev (map rev8 (mat_vec 0x171 L_matrix (map rev8 (rev w)))).

(** ** Transformations of vectors *)
Definition X (k a : list N) : list N := xor_bytes k a.
Definition S (a : list N) : list N := map pi a.
(** tau(8 r + c) = 8 c + r *)
Definition tau (i : nat) : nat := (8 * (i mod 8) + i / 8)%nat.
Definition P (a : list N) : list N := map (fun i => get a (tau i)) (seq 0 64).
Definition L (a : list N) : list N := concat (map l (chunks 8 a)).
Definition LPS (a : list N) : list N := L (P (S a)).

(** The key schedule and cipher: on (K_i, state), one round with constant C_i. *)
Definition round (KA : list N * list N) (C : list N) : list N * list N :=
  let '(K, a) := KA in (LPS (X K C), LPS (X K a)).
Definition E (K m : list N) : list N := let '(K13, a) := fold_left round C (K, m) in X K13 a.
Definition g (N_ h m : list N) : list N := X (E (LPS (X h N_)) m) (X h m).

(** ** Hashing: stages 1 to 3 of section 8; [hl] is the digest size in bytes (32 or 64) *)
Definition vec (x : N) : list N := le_bytes 64 x.
Definition IV (hl : nat) : list N := if (hl =? 32)%nat then repeat 1 64 else zeros 64.
Definition stage2 (st : list N * N * N) (m : bytes) : list N * N * N :=
  let '(h, n, sigma) := st in (g (vec n) h m, (n + 512) mod 2 ^ 512, (sigma + le_val m) mod 2 ^ 512).
Definition stage3 (st : list N * N * N) (M : bytes) : list N :=
  let '(h, n, sigma) := st in
  let m := M ++ [1] ++ zeros (63 - length M) in
  let h := g (vec n) h m in
  let n := (n + 8 * N.of_nat (length M)) mod 2 ^ 512 in
  let sigma := (sigma + le_val m) mod 2 ^ 512 in
  let h := g (zeros 64) h (vec n) in
  g (zeros 64) h (vec sigma).
(** The digest: all of h, or its most significant 256 bits. *)
Definition Streebog (hl : nat) (msg : bytes) : bytes :=
  skipn (64 - hl) (stage3 (fold_left stage2 (chunks 64 msg) (IV hl, 0, 0)) (remainder 64 msg)).
