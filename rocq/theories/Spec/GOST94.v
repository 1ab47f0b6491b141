(** GOST R 34.11-94 (RFC 5831), over GOST 28147-89 (RFC 5830) with an arbitrary S-box.
    256-bit words are natural numbers below 2^256, the first byte of a message being the
    least significant one. *)
From Verif Require Import Base.Words Base.Bytes.

(** The [n] parts of [w] bits of [x], the least significant first, and back. *)
Definition part (w : N) (n : nat) (x : N) : list N := map (fun i => (x / 2 ^ (w * N.of_nat i)) mod 2 ^ w) (seq 0 n).
Definition cat (w : N) (l : list N) : N := fold_right (fun x acc => x + 2 ^ w * acc) 0 l.

(** ** GOST 28147-89 in simple substitution mode *)
Definition sub (S : list (list N)) (x : N) : N :=
  cat 4 (map (fun p => get (fst p) (N.to_nat (snd p))) (combine S (part 4 8 x))).
Definition round_f (S : list (list N)) (a k : N) : N := rotl32 (sub S ((a + k) mod 2 ^ 32)) 11.
Definition round (S : list (list N)) (ab : N * N) (k : N) : N * N := (N.lxor (snd ab) (round_f S (fst ab) k), fst ab).
(** Keys K1..K8 three times, then K8..K1; no exchange of the halves in round 32. *)
Definition E (S : list (list N)) (K h : N) : N :=
  let k := part 32 8 K in
  let '(a, b) := fold_left (round S) (k ++ k ++ k ++ rev k) (h mod 2 ^ 32, h / 2 ^ 32) in
  cat 32 [b; a].

(** ** The step function (RFC 5831, section 5) *)
Definition A (x : N) : N :=
  match part 64 4 x with [x1; x2; x3; x4] => cat 64 [x2; x3; x4; N.lxor x1 x2] | _ => 0 end.
(** phi(i + 1 + 4 (k - 1)) = 8 i + k, for i = 0..3 and k = 1..8 *)
Definition phi (j : nat) : nat := let i := ((j - 1) mod 4)%nat in let k := ((j - 1) / 4 + 1)%nat in (8 * i + k)%nat.
Definition P (y : N) : N := cat 8 (map (fun j => get (part 8 32 y) (phi j - 1)) (seq 1 32)).
Definition C3 : N := 0xff00ffff000000ffff0000ff00ffff0000ff00ff00ff00ffff00ff00ff00ff00.
(** The four keys; C2 = C4 = 0. *)
Definition next (C : N) (UV : N * N) : N * N := (N.lxor (A (fst UV)) C, A (A (snd UV))).
Definition key (UV : N * N) : N := P (N.lxor (fst UV) (snd UV)).
Definition keys (H M : N) : list N :=
  let w1 := (H, M) in let w2 := next 0 w1 in let w3 := next C3 w2 in let w4 := next 0 w3 in
  [key w1; key w2; key w3; key w4].
Definition psi (g : N) : N :=
  match part 16 16 g with
  | g1 :: g2 :: g3 :: g4 :: r =>
      cat 16 (g2 :: g3 :: g4 :: r ++ [N.lxor (N.lxor (N.lxor (N.lxor (N.lxor g1 g2) g3) g4) (get (part 16 16 g) 12)) (get (part 16 16 g) 15)])
  | _ => 0
  end.
Definition psis (n : nat) (x : N) : N := Nat.iter n psi x.
Definition chi (S : list (list N)) (M H : N) : N :=
  let s := cat 64 (map (fun kh => E S (fst kh) (snd kh)) (combine (keys H M) (part 64 4 H))) in
  psis 61 (N.lxor H (psis 1 (N.lxor M (psis 12 s)))).

(** ** Hashing (section 7).  The message is cut into 256-bit blocks, the last one filled up
    with zeros; H is the hash value, [sum] the sum of the blocks modulo 2^256.  (For the empty
    message the text of the standard processes one zero block; like all implementations known
    to us, the definition has no block then.) *)
Definition blocks (msg : bytes) : list N :=
  map le_val (chunks 32 msg) ++ match remainder 32 msg with [] => [] | r => [le_val r] end.
Definition GOST94 (S : list (list N)) (IV : bytes) (msg : bytes) : bytes :=
  let bl := blocks msg in
  let H := fold_left (fun H M => chi S M H) bl (le_val IV) in
  let H := chi S ((8 * N.of_nat (length msg)) mod 2 ^ 256) H in
  let H := chi S (fold_left N.add bl 0 mod 2 ^ 256) H in
  le_bytes 32 H.

(** ** Parameter sets; row i substitutes the i-th nibble, the least significant one being the first. *)
(** id-GostR3411-94-CryptoProParamSet (RFC 4357, section 11.2) *)
Definition pi_CryptoPro : list (list N) := [
  [10; 4; 5; 6; 8; 1; 3; 7; 13; 12; 14; 0; 9; 2; 11; 15];
  [5; 15; 4; 0; 2; 13; 11; 9; 1; 7; 6; 3; 12; 14; 10; 8];
  [7; 15; 12; 14; 9; 4; 1; 0; 3; 11; 5; 2; 6; 10; 8; 13];
  [4; 10; 7; 12; 0; 15; 2; 8; 14; 1; 6; 5; 13; 11; 9; 3];
  [7; 6; 4; 11; 9; 12; 2; 10; 1; 8; 0; 14; 15; 13; 3; 5];
  [7; 6; 2; 4; 13; 9; 15; 0; 10; 1; 5; 11; 8; 14; 12; 3];
  [13; 14; 4; 1; 7; 0; 5; 10; 3; 12; 8; 15; 6; 2; 9; 11];
  [1; 3; 10; 9; 5; 11; 4; 15; 8; 6; 7; 14; 13; 0; 2; 12]].
(** the S-box of GOST R 34.12-2015, n = 64 (RFC 7836, id-tc26-gost-28147-param-Z) *)
Definition pi_2015 : list (list N) := [
  [12; 4; 6; 2; 10; 5; 11; 9; 14; 8; 13; 7; 0; 3; 15; 1];
  [6; 8; 2; 3; 9; 10; 5; 12; 1; 14; 4; 7; 11; 13; 0; 15];
  [11; 3; 5; 8; 2; 15; 10; 13; 14; 1; 7; 4; 12; 9; 6; 0];
  [12; 8; 2; 1; 13; 4; 15; 6; 7; 0; 10; 5; 3; 14; 9; 11];
  [7; 15; 5; 10; 8; 1; 6; 13; 0; 9; 3; 14; 11; 4; 2; 12];
  [5; 13; 15; 6; 9; 2; 12; 10; 11; 7; 8; 1; 4; 3; 14; 0];
  [8; 14; 2; 5; 6; 9; 1; 12; 15; 4; 11; 0; 13; 10; 3; 7];
  [1; 7; 14; 13; 0; 5; 8; 3; 4; 15; 10; 6; 9; 12; 11; 2]].
(** id-GostR3411-94-TestParamSet (RFC 4357; the S-box of the example in RFC 5831) *)
Definition pi_test : list (list N) := [
  [4; 10; 9; 2; 13; 8; 0; 14; 6; 11; 1; 12; 7; 15; 5; 3];
  [14; 11; 4; 12; 6; 13; 15; 10; 2; 3; 8; 1; 0; 7; 5; 9];
  [5; 8; 1; 13; 10; 3; 4; 2; 14; 15; 12; 7; 6; 0; 9; 11];
  [7; 13; 10; 1; 0; 8; 9; 15; 14; 4; 6; 12; 11; 2; 5; 3];
  [6; 12; 7; 1; 5; 15; 13; 8; 4; 10; 9; 14; 0; 3; 11; 2];
  [4; 11; 10; 0; 7; 2; 1; 13; 3; 6; 8; 5; 9; 12; 15; 14];
  [13; 11; 4; 1; 3; 15; 5; 9; 0; 10; 14; 7; 6; 8; 2; 12];
  [1; 15; 13; 0; 5; 7; 10; 4; 9; 2; 3; 14; 6; 11; 8; 12]].
(** the S-box No. 1 of the Ukrainian DSTU GOST 28147:2009 parameter set *)
Definition pi_UA : list (list N) := [
  [10; 9; 13; 6; 14; 11; 4; 5; 15; 1; 3; 12; 7; 0; 8; 2];
  [8; 0; 12; 4; 9; 6; 7; 11; 2; 3; 1; 15; 5; 14; 10; 13];
  [15; 6; 5; 8; 14; 11; 10; 4; 12; 0; 3; 7; 2; 9; 1; 13];
  [3; 8; 13; 9; 6; 11; 15; 0; 2; 5; 12; 10; 4; 14; 1; 7];
  [15; 8; 14; 9; 7; 2; 0; 13; 12; 6; 1; 5; 11; 4; 3; 10];
  [2; 8; 9; 7; 5; 15; 0; 11; 12; 1; 13; 14; 10; 3; 6; 4];
  [3; 8; 11; 5; 6; 4; 14; 10; 2; 12; 1; 7; 9; 15; 13; 0];
  [1; 2; 3; 14; 6; 13; 11; 8; 15; 10; 12; 5; 7; 9; 0; 4]].
