(** Whirlpool (Barreto and Rijmen, "The WHIRLPOOL hashing function", 2003 revision;
    ISO/IEC 10118-3:2004). *)
From Verif Require Import Base.Words Base.Bytes Spec.MD Spec.GF.

(** The S-box, from the 4-bit mini-boxes E, its inverse, and R. *)
Definition E : list N := [0x1; 0xB; 0x9; 0xC; 0xD; 0x6; 0xF; 0x3; 0xE; 0x8; 0x7; 0x4; 0xA; 0x2; 0x5; 0x0].
Definition R : list N := [0x7; 0xC; 0xB; 0xD; 0xE; 0x4; 0x9; 0xF; 0x6; 0x3; 0x8; 0xA; 0x2; 0x5; 0x1; 0x0].
Definition box (b : list N) (x : N) : N := get b (N.to_nat x).
Definition Einv (y : N) : N :=
  match find (fun x => box E (N.of_nat x) =? y) (seq 0 16) with Some x => N.of_nat x | None => 0 end.
Definition S (x : N) : N :=
  let u := box E (x / 16) in
  let l := Einv (x mod 16) in
  let r := box R (N.lxor u l) in
  16 * box E (N.lxor u r) + Einv (N.lxor l r).

(** States are 8 x 8 matrices of bytes, filled row by row. *)
Definition matrix := list (list N).
Definition at_ (M : matrix) (i j : nat) : N := get (nth i M []) j.
Definition gamma (M : matrix) : matrix := map (map S) M.
(** Column j is shifted down by j places. *)
Definition pi (M : matrix) : matrix := map (fun i => map (fun j => at_ M ((i + 8 - j) mod 8) j) (seq 0 8)) (seq 0 8).
(** Multiplication of the rows with the circulant matrix C, modulo x^8+x^4+x^3+x^2+1. *)
Definition C : matrix := circulant [1; 1; 4; 1; 8; 5; 2; 9].
Definition theta (M : matrix) : matrix := map (mat_vec 0x11d (transpose C)) M.
Definition sigma (K M : matrix) : matrix := map (fun p => xor_bytes (fst p) (snd p)) (combine K M).
Definition rho (K M : matrix) : matrix := sigma K (theta (pi (gamma M))).
(** Round constants, r = 1..10: the first row is S[8(r-1)..8(r-1)+7]. *)
Definition c (r : nat) : matrix :=
  map (fun j => S (N.of_nat (8 * (r - 1) + j))) (seq 0 8) :: repeat (zeros 8) 7.
(** The cipher W and its key schedule, 10 rounds. *)
Definition round (KM : matrix * matrix) (r : nat) : matrix * matrix :=
  let K := rho (c r) (fst KM) in (K, rho K (snd KM)).
Definition W (K M : matrix) : matrix := snd (fold_left round (seq 1 10) (K, sigma K M)).
(** Miyaguchi-Preneel. *)
Definition compress (H : matrix) (block : bytes) : matrix :=
  let M := chunks 8 block in sigma (sigma (W H M) H) M.
(** The length in bits is appended as a 256-bit big-endian number. *)
Definition Whirlpool (msg : bytes) : bytes :=
  concat (md_iterate compress 64 (repeat (zeros 8) 8) (md_pad 64 0x80 (be_bytes 32 (8 * blen msg)) msg)).
