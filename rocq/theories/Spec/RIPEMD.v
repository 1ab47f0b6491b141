(** RIPEMD-128, RIPEMD-160, RIPEMD-256, RIPEMD-320 (Dobbertin, Bosselaers,
    Preneel, "RIPEMD-160: A Strengthened Version of RIPEMD"). *)
From Verif Require Import Base.Words Base.Bytes Spec.MD Spec.Roots.

(** Boolean functions f1 .. f5 *)
Definition f (i : nat) (x y z : N) : N :=
  match i with
  | 0%nat => N.lxor (N.lxor x y) z
  | 1%nat => N.lor (N.land x y) (N.land (not32 x) z)
  | 2%nat => N.lxor (N.lor x (not32 y)) z
  | 3%nat => N.lor (N.land x z) (N.land y (not32 z))
  | _ => N.lxor x (N.lor y (not32 z))
  end.
(** Added constants: integer part of 2^30 times square (left line) or cube
    (right line) roots of the first primes *)
Definition KL (i : nat) : N := nth i [0; sqrt_bits 30 2; sqrt_bits 30 3; sqrt_bits 30 5; sqrt_bits 30 7] 0.
Definition KR (i : nat) : N := nth i [cbrt_bits 30 2; cbrt_bits 30 3; cbrt_bits 30 5; cbrt_bits 30 7] 0.

(** Selection of message words: the permutation rho, and pi(i) = 9i + 5 mod 16 *)
Definition rho (i : nat) : nat := nth i [7; 4; 13; 1; 10; 6; 15; 3; 12; 0; 9; 5; 2; 14; 11; 8]%nat 0%nat.
Definition pi (i : nat) : nat := ((9 * i + 5) mod 16)%nat.
Definition rL (round j : nat) : nat := Nat.iter round rho j.
Definition rR (round j : nat) : nat := Nat.iter round rho (pi j).
(** Shifts, by round and message word *)
Definition shifts (round word : nat) : N :=
  nth word (nth round
   [ [11; 14; 15; 12; 5; 8; 7; 9; 11; 13; 14; 15; 6; 7; 9; 8];
     [12; 13; 11; 15; 6; 9; 9; 7; 12; 15; 11; 13; 7; 8; 7; 7];
     [13; 15; 14; 11; 7; 7; 6; 8; 13; 14; 13; 12; 5; 5; 6; 9];
     [14; 11; 12; 14; 8; 6; 5; 5; 15; 12; 15; 14; 9; 9; 8; 6];
     [15; 12; 13; 13; 9; 5; 8; 6; 14; 11; 12; 11; 8; 6; 5; 5] ] []) 0.

(** ** RIPEMD-128 / 256: four rounds on four words *)
Definition v4 := (N * N * N * N)%type.
(** T := rol_s(A + f(B,C,D) + X[r] + K); A := D; D := C; C := B; B := T *)
Definition step4 (X : list N) (fi : N -> N -> N -> N) (k : N) (r : nat) (s : N) (v : v4) : v4 :=
  let '(A, B, C, D) := v in
  (D, rotl32 (add32 (add32 (add32 A (fi B C D)) (get X r)) k) s, B, C).
Definition left4 (X : list N) (v : v4) (t : nat) : v4 :=
  let r := (t / 16)%nat in let j := (t mod 16)%nat in
  step4 X (f r) (KL r) (rL r j) (shifts r (rL r j)) v.
(** the right line of RIPEMD-128 has constants 50A28BE6, 5C4DD124, 6D703EF3, 0 *)
Definition KR128 (i : nat) : N := nth i [cbrt_bits 30 2; cbrt_bits 30 3; cbrt_bits 30 5; 0] 0.
Definition right4 (X : list N) (v : v4) (t : nat) : v4 :=
  let r := (t / 16)%nat in let j := (t mod 16)%nat in
  step4 X (f (3 - r)) (KR128 r) (rR r j) (shifts r (rR r j)) v.

Definition compress128 (h : v4) (block : bytes) : v4 :=
  let X := map le_val (chunks 4 block) in
  let '(A, B, C, D) := fold_left (left4 X) (seq 0 64) h in
  let '(A', B', C', D') := fold_left (right4 X) (seq 0 64) h in
  let '(h0, h1, h2, h3) := h in
  (add32 (add32 h1 C) D', add32 (add32 h2 D) A', add32 (add32 h3 A) B', add32 (add32 h0 B) C').

(** RIPEMD-256: two parallel lines; after each round one chaining variable is
    exchanged (A, B, C, D after rounds 1, 2, 3, 4). *)
Definition round256 (X : list N) (vv : v4 * v4) (r : nat) : v4 * v4 :=
  let '(A, B, C, D) := fold_left (left4 X) (seq (16 * r) 16) (fst vv) in
  let '(A', B', C', D') := fold_left (right4 X) (seq (16 * r) 16) (snd vv) in
  match r with
  | 0%nat => ((A', B, C, D), (A, B', C', D'))
  | 1%nat => ((A, B', C, D), (A', B, C', D'))
  | 2%nat => ((A, B, C', D), (A', B', C, D'))
  | _ => ((A, B, C, D'), (A', B', C', D))
  end.
Definition compress256 (h : v4 * v4) (block : bytes) : v4 * v4 :=
  let X := map le_val (chunks 4 block) in
  let '((A, B, C, D), (A', B', C', D')) := fold_left (round256 X) (seq 0 4) h in
  let '((h0, h1, h2, h3), (h4, h5, h6, h7)) := h in
  ((add32 h0 A, add32 h1 B, add32 h2 C, add32 h3 D), (add32 h4 A', add32 h5 B', add32 h6 C', add32 h7 D')).

(** ** RIPEMD-160 / 320: five rounds on five words *)
Definition v5 := (N * N * N * N * N)%type.
(** T := rol_s(A + f(B,C,D) + X[r] + K) + E; A := E; E := D; D := rol_10(C); C := B; B := T *)
Definition step5 (X : list N) (fi : N -> N -> N -> N) (k : N) (r : nat) (s : N) (v : v5) : v5 :=
  let '(A, B, C, D, E) := v in
  (E, add32 (rotl32 (add32 (add32 (add32 A (fi B C D)) (get X r)) k) s) E, B, rotl32 C 10, D).
Definition left5 (X : list N) (v : v5) (t : nat) : v5 :=
  let r := (t / 16)%nat in let j := (t mod 16)%nat in
  step5 X (f r) (KL r) (rL r j) (shifts r (rL r j)) v.
Definition right5 (X : list N) (v : v5) (t : nat) : v5 :=
  let r := (t / 16)%nat in let j := (t mod 16)%nat in
  step5 X (f (4 - r)) (KR r) (rR r j) (shifts r (rR r j)) v.

Definition compress160 (h : v5) (block : bytes) : v5 :=
  let X := map le_val (chunks 4 block) in
  let '(A, B, C, D, E) := fold_left (left5 X) (seq 0 80) h in
  let '(A', B', C', D', E') := fold_left (right5 X) (seq 0 80) h in
  let '(h0, h1, h2, h3, h4) := h in
  (add32 (add32 h1 C) D', add32 (add32 h2 D) E', add32 (add32 h3 E) A', add32 (add32 h4 A) B', add32 (add32 h0 B) C').

(** RIPEMD-320: exchanges of B, D, A, C, E after rounds 1 .. 5. *)
Definition round320 (X : list N) (vv : v5 * v5) (r : nat) : v5 * v5 :=
  let '(A, B, C, D, E) := fold_left (left5 X) (seq (16 * r) 16) (fst vv) in
  let '(A', B', C', D', E') := fold_left (right5 X) (seq (16 * r) 16) (snd vv) in
  match r with
  | 0%nat => ((A, B', C, D, E), (A', B, C', D', E'))
  | 1%nat => ((A, B, C, D', E), (A', B', C', D, E'))
  | 2%nat => ((A', B, C, D, E), (A, B', C', D', E'))
  | 3%nat => ((A, B, C', D, E), (A', B', C, D', E'))
  | _ => ((A, B, C, D, E'), (A', B', C', D', E))
  end.
Definition compress320 (h : v5 * v5) (block : bytes) : v5 * v5 :=
  let X := map le_val (chunks 4 block) in
  let '((A, B, C, D, E), (A', B', C', D', E')) := fold_left (round320 X) (seq 0 5) h in
  let '((h0, h1, h2, h3, h4), (h5, h6, h7, h8, h9)) := h in
  ((add32 h0 A, add32 h1 B, add32 h2 C, add32 h3 D, add32 h4 E),
   (add32 h5 A', add32 h6 B', add32 h7 C', add32 h8 D', add32 h9 E')).

(** ** Initial values, padding, output *)
Definition iv128 : v4 := (0x67452301, 0xefcdab89, 0x98badcfe, 0x10325476).
Definition iv160 : v5 := (0x67452301, 0xefcdab89, 0x98badcfe, 0x10325476, 0xc3d2e1f0).
Definition iv256 : v4 * v4 := (iv128, (0x76543210, 0xfedcba98, 0x89abcdef, 0x01234567)).
Definition iv320 : v5 * v5 := (iv160, (0x76543210, 0xfedcba98, 0x89abcdef, 0x01234567, 0x3c2d1e0f)).
Definition pad (msg : bytes) : bytes := md_pad 64 0x80 (le_bytes 8 (8 * blen msg)) msg.
Definition l4 (v : v4) : list N := let '(a, b, c, d) := v in [a; b; c; d].
Definition l5 (v : v5) : list N := let '(a, b, c, d, e) := v in [a; b; c; d; e].
Definition out (ws : list N) : bytes := concat (map (le_bytes 4) ws).

Definition RIPEMD128 (msg : bytes) : bytes := out (l4 (md_iterate compress128 64 iv128 (pad msg))).
Definition RIPEMD160 (msg : bytes) : bytes := out (l5 (md_iterate compress160 64 iv160 (pad msg))).
Definition RIPEMD256 (msg : bytes) : bytes :=
  let '(x, y) := md_iterate compress256 64 iv256 (pad msg) in out (l4 x ++ l4 y).
Definition RIPEMD320 (msg : bytes) : bytes :=
  let '(x, y) := md_iterate compress320 64 iv320 (pad msg) in out (l5 x ++ l5 y).
