(** Kupyna (DSTU 7564:2014), from Oliynykov et al., "A new standard of Ukraine: the
    Kupyna hash function" (IACR ePrint 2015/885).  Digest sizes are in bytes. *)
From Verif Require Import Base.Words Base.Bytes Spec.MD Spec.GF Spec.KupynaTables.
From Verif Require Spec.Groestl.
(** A state has 8 rows and [c] columns, and is filled column by column, as in Groestl. *)
Import Spec.Groestl (matrix, at_, build, sum).

Record params := mkP { c : nat; rounds : nat; last_shift : nat; iv0 : N }.
Definition short := mkP 8 10 7 0x40.   (* l = 512,  IV = 1 << 510 *)
Definition long := mkP 16 14 11 0x80.  (* l = 1024, IV = 1 << 1023 *)

(** Column j gets the byte (j << 4) xor nu in its first place. *)
Definition kappa (p : params) (nu : nat) (A : matrix) : matrix :=
  build (c p) (fun i j => N.lxor (at_ A i j) (if (i =? 0)%nat then N.lxor (16 * N.of_nat j) (N.of_nat nu) else 0)).
(** Columns are little-endian numbers modulo 2^64. *)
Definition zeta (p : params) (nu j : nat) : list N :=
  [0xf3; 0xf0; 0xf0; 0xf0; 0xf0; 0xf0; 0xf0; N.lxor (16 * N.of_nat (c p - 1 - j)) (N.of_nat nu)].
Definition eta (p : params) (nu : nat) (A : matrix) : matrix :=
  map (fun j => le_bytes 8 ((le_val (nth j A []) + le_val (zeta p nu j)) mod 2 ^ 64)) (seq 0 (c p)).
(** Row i is substituted with pi_(i mod 4). *)
Definition sub (i : nat) (x : N) : N := get (nth (i mod 4) PI []) (N.to_nat x).
Definition pi' (p : params) (A : matrix) : matrix := build (c p) (fun i j => sub i (at_ A i j)).
(** Row i is shifted to the right by i places, the last row by 7 or 11. *)
Definition shift (p : params) (i : nat) : nat := if (i =? 7)%nat then last_shift p else i.
Definition tau (p : params) (A : matrix) : matrix :=
  build (c p) (fun i j => at_ A i ((j + c p - shift p i) mod c p)%nat).
(** Multiplication with a circulant matrix modulo x^8+x^4+x^3+x^2+1. *)
Definition psi (A : matrix) : matrix := map (mat_vec 0x11d (circulant [1; 1; 5; 1; 8; 6; 7; 4])) A.
Definition Txor (p : params) (A : matrix) : matrix :=
  fold_left (fun A nu => psi (tau p (pi' p (kappa p nu A)))) (seq 0 (rounds p)) A.
Definition Tplus (p : params) (A : matrix) : matrix :=
  fold_left (fun A nu => psi (tau p (pi' p (eta p nu A)))) (seq 0 (rounds p)) A.

Definition l (p : params) : nat := (8 * c p)%nat.
Definition compress (p : params) (h : matrix) (block : bytes) : matrix :=
  let m := chunks 8 block in sum (sum (Txor p (sum h m)) (Tplus p m)) h.
Definition iv (p : params) : matrix := chunks 8 (iv0 p :: zeros (l p - 1)).
(** The last n bytes. *)
Definition R (n : nat) (x : bytes) : bytes := skipn (length x - n) x.
(** The length in bits is appended as a 96-bit little-endian number. *)
Definition hash (p : params) (n : nat) (msg : bytes) : bytes :=
  let h := md_iterate (compress p) (l p) (iv p) (md_pad (l p) 0x80 (le_bytes 12 (8 * blen msg)) msg) in
  R n (concat (sum (Txor p h) h)).
(** Digests of 1 to 32 bytes use the short variant, of 33 to 64 bytes the long one. *)
Definition Kupyna (n : nat) : bytes -> bytes := hash (if (n <=? 32)%nat then short else long) n.
