(** Groestl, from the Groestl specification ("Groestl -- a SHA-3 candidate",
    March 2, 2011).  Digest sizes are in bytes. *)
From Verif Require Import Base.Words Base.Bytes Spec.MD Spec.GF.

(** ** The S-box of AES: inversion in GF(2^8) modulo x^8+x^4+x^3+x+1, then an affine map *)
Definition aes_poly : N := 0x11b.
(** x^254 = ((((((x^2 x)^2 x)^2 x)^2 x)^2 x)^2 x)^2; the inverse of x, and 0 for 0 *)
Definition inverse (x : N) : N :=
  let sq y := gmul aes_poly y y in
  sq (Nat.iter 6 (fun y => gmul aes_poly (sq y) x) x).
Definition affine (y : N) : N :=
  fold_right (fun i acc => 2 * acc + N.b2n (xorb (N.testbit 0x63 (N.of_nat i))
    (xorb (N.testbit y (N.of_nat i)) (xorb (N.testbit y (N.of_nat ((i + 4) mod 8)))
    (xorb (N.testbit y (N.of_nat ((i + 5) mod 8))) (xorb (N.testbit y (N.of_nat ((i + 6) mod 8)))
    (N.testbit y (N.of_nat ((i + 7) mod 8))))))))) 0 (seq 0 8).
Definition SBOX : list N := map (fun x => affine (inverse (N.of_nat x))) (seq 0 256).
Definition S (x : N) : N := get SBOX (N.to_nat x).

(** ** The permutations.  A state has 8 rows and [v] columns; it is a list of columns
    and is filled column by column. *)
Definition matrix := list (list N).
Record params := mkP { v : nat; rounds : nat; sigmaP : list nat; sigmaQ : list nat }.
Definition short := mkP 8 10 [0; 1; 2; 3; 4; 5; 6; 7]%nat [1; 3; 5; 7; 0; 2; 4; 6]%nat.
Definition long := mkP 16 14 [0; 1; 2; 3; 4; 5; 6; 11]%nat [1; 3; 5; 11; 0; 2; 4; 6]%nat.

(** Entry in row i of column j. *)
Definition at_ (A : matrix) (i j : nat) : N := get (nth j A []) i.
Definition build (n : nat) (f : nat -> nat -> N) : matrix := map (fun j => map (fun i => f i j) (seq 0 8)) (seq 0 n).
(** AddRoundConstant *)
Definition addP (p : params) (r : nat) (A : matrix) : matrix :=
  build (v p) (fun i j => N.lxor (at_ A i j) (if (i =? 0)%nat then N.lxor (16 * N.of_nat j) (N.of_nat r) else 0)).
Definition addQ (p : params) (r : nat) (A : matrix) : matrix :=
  build (v p) (fun i j => N.lxor (at_ A i j)
    (if (i =? 7)%nat then N.lxor (N.lxor 0xff (16 * N.of_nat j)) (N.of_nat r) else 0xff)).
Definition SubBytes (A : matrix) : matrix := map (map S) A.
(** Row i is rotated to the left by sigma_i places. *)
Definition ShiftBytes (p : params) (sigma : list nat) (A : matrix) : matrix :=
  build (v p) (fun i j => at_ A i ((j + nth i sigma 0) mod v p)%nat).
Definition B : matrix := circulant [2; 2; 3; 4; 5; 3; 5; 7].
Definition MixBytes (A : matrix) : matrix := map (mat_vec aes_poly B) A.
Definition P (p : params) (A : matrix) : matrix :=
  fold_left (fun A r => MixBytes (ShiftBytes p (sigmaP p) (SubBytes (addP p r A)))) (seq 0 (rounds p)) A.
Definition Q (p : params) (A : matrix) : matrix :=
  fold_left (fun A r => MixBytes (ShiftBytes p (sigmaQ p) (SubBytes (addQ p r A)))) (seq 0 (rounds p)) A.
Definition sum (X Y : matrix) : matrix := map (fun p => xor_bytes (fst p) (snd p)) (combine X Y).

(** ** Compression, iteration and output transformation *)
Definition f (p : params) (h : matrix) (block : bytes) : matrix :=
  let m := chunks 8 block in sum (sum (P p (sum h m)) (Q p m)) h.
(** Block size in bytes. *)
Definition l (p : params) : nat := (8 * v p)%nat.
(** The initial value: the digest size in bits, as an l-bit number. *)
Definition iv (p : params) (n : nat) : matrix := chunks 8 (be_bytes (l p) (8 * N.of_nat n)).
(** The number of blocks of the padded message, (N + w + 65) / l in bits with
    w = -N - 65 mod l. *)
Definition padded_blocks (p : params) (len : nat) : N :=
  let ell := 8 * N.of_nat (l p) in
  let N' := 8 * N.of_nat len in
  let w := (ell - (N' + 65) mod ell) mod ell in (N' + w + 65) / ell.
Definition Omega (p : params) (n : nat) (x : matrix) : bytes :=
  let out := concat (sum (P p x) x) in skipn (length out - n) out.
Definition hash (p : params) (n : nat) (msg : bytes) : bytes :=
  Omega p n (md_iterate (f p) (l p) (iv p n) (md_pad (l p) 0x80 (be_bytes 8 (padded_blocks p (length msg))) msg)).
(** Digests of 1 to 32 bytes use the short variant, of 33 to 64 bytes the long one. *)
Definition Groestl (n : nat) : bytes -> bytes := hash (if (n <=? 32)%nat then short else long) n.
