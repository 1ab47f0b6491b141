(** Model of the portable SHA-256 backend, sha2/src/sha256/soft.rs and
    sha2/src/sha256.rs.  A [u32; 4] is a 4-tuple, [u32; 8] and [u32; 16] are lists. *)
From Verif Require Import Base.Words Base.Bytes Base.Codec Model.Sha2Consts.

Definition v4 := (N * N * N * N)%type.

(** soft.rs 5-7 *)
Definition shr (v : v4) (o : N) : v4 :=
  let '(v0, v1, v2, v3) := v in (N.shiftr v0 o, N.shiftr v1 o, N.shiftr v2 o, N.shiftr v3 o).
(** soft.rs 10-12 *)
Definition shl (v : v4) (o : N) : v4 :=
  let '(v0, v1, v2, v3) := v in (wshl 32 v0 o, wshl 32 v1 o, wshl 32 v2 o, wshl 32 v3 o).
(** soft.rs 15-17 *)
Definition or (a b : v4) : v4 :=
  let '(a0, a1, a2, a3) := a in let '(b0, b1, b2, b3) := b in
  (N.lor a0 b0, N.lor a1 b1, N.lor a2 b2, N.lor a3 b3).
(** soft.rs 20-22 *)
Definition xor (a b : v4) : v4 :=
  let '(a0, a1, a2, a3) := a in let '(b0, b1, b2, b3) := b in
  (N.lxor a0 b0, N.lxor a1 b1, N.lxor a2 b2, N.lxor a3 b3).
(** soft.rs 25-32 *)
Definition add (a b : v4) : v4 :=
  let '(a0, a1, a2, a3) := a in let '(b0, b1, b2, b3) := b in
  (add32 a0 b0, add32 a1 b1, add32 a2 b2, add32 a3 b3).

(** soft.rs 36-50 [k(i, j)]: the pointer read of K32[4i + j] is in bounds for
    the sixteen values of [i] used below *)
Definition rk (i j : nat) : N := get K32 (4 * i + j).
(** soft.rs 35-57 *)
Definition add_round_const (a : v4) (i : nat) : v4 :=
  let '(a0, a1, a2, a3) := a in
  (add32 a0 (rk i 3), add32 a1 (rk i 2), add32 a2 (rk i 1), add32 a3 (rk i 0)).

(** soft.rs 59-61 *)
Definition sha256load (v2 v3 : v4) : v4 :=
  let '(a0, a1, a2, a3) := v2 in let '(b0, b1, b2, b3) := v3 in (b3, a0, a1, a2).
(** soft.rs 63-65 *)
Definition sha256swap (v : v4) : v4 := let '(v0, v1, v2, v3) := v in (v2, v3, v0, v1).

(** soft.rs 70-75 *)
Definition sigma0x4 (x : v4) : v4 :=
  let t1 := or (shr x 7) (shl x 25) in
  let t2 := or (shr x 18) (shl x 14) in
  let t3 := shr x 3 in
  xor (xor t1 t2) t3.
(** soft.rs 67-78 *)
Definition sha256msg1 (v0 v1 : v4) : v4 := add v0 (sigma0x4 (sha256load v0 v1)).

(** soft.rs 81-85 *)
Definition sigma1 (a : N) : N := N.lxor (N.lxor (rotr32 a 17) (rotr32 a 19)) (N.shiftr a 10).
(** soft.rs 80-96 *)
Definition sha256msg2 (v4_ v3 : v4) : v4 :=
  let '(x3, x2, x1, x0) := v4_ in
  let '(w15, w14, _, _) := v3 in
  let w16 := add32 x0 (sigma1 w14) in
  let w17 := add32 x1 (sigma1 w15) in
  let w18 := add32 x2 (sigma1 w16) in
  let w19 := add32 x3 (sigma1 w17) in
  (w19, w18, w17, w16).

(** soft.rs 99-118 *)
Definition big_sigma0 (a : N) : N := N.lxor (N.lxor (rotr32 a 2) (rotr32 a 13)) (rotr32 a 22).
Definition big_sigma1 (a : N) : N := N.lxor (N.lxor (rotr32 a 6) (rotr32 a 11)) (rotr32 a 25).
Definition bool3ary_202 (a b c : N) : N := N.lxor c (N.land a (N.lxor b c)).
Definition bool3ary_232 (a b c : N) : N := N.lxor (N.lxor (N.land a b) (N.land a c)) (N.land b c).

(** soft.rs 98-159 *)
Definition sha256_digest_round_x2 (cdgh abef wk : v4) : v4 :=
  let '(_, _, wk1, wk0) := wk in
  let '(a0, b0, e0, f0) := abef in
  let '(c0, d0, g0, h0) := cdgh in
  let x0 := add32 (add32 (add32 (big_sigma1 e0) (bool3ary_202 e0 f0 g0)) wk0) h0 in
  let y0 := add32 (big_sigma0 a0) (bool3ary_232 a0 b0 c0) in
  let '(a1, b1, c1, d1, e1, f1, g1, h1) :=
    (add32 x0 y0, a0, b0, c0, add32 x0 d0, e0, f0, g0) in
  let x1 := add32 (add32 (add32 (big_sigma1 e1) (bool3ary_202 e1 f1 g1)) wk1) h1 in
  let y1 := add32 (big_sigma0 a1) (bool3ary_232 a1 b1 c1) in
  let '(a2, b2, _, _, e2, f2, _, _) :=
    (add32 x1 y1, a1, b1, c1, add32 x1 d1, e1, f1, g1) in
  (a2, b2, e2, f2).

(** soft.rs 161-166 *)
Definition schedule (v0 v1 v2 v3 : v4) : v4 :=
  let t1 := sha256msg1 v0 v1 in
  let t2 := sha256load v2 v3 in
  let t3 := add t1 t2 in
  sha256msg2 t3 v3.

(** soft.rs 168-175; the macro assigns [abef] and [cdgh], the function returns them *)
Definition rounds4 (abef cdgh rest : v4) (i : nat) : v4 * v4 :=
  let t1 := add_round_const rest i in
  let cdgh := sha256_digest_round_x2 cdgh abef t1 in
  let t2 := sha256swap t1 in
  let abef := sha256_digest_round_x2 abef cdgh t2 in
  (abef, cdgh).

(** soft.rs 177-186; also returns the assigned [w4] *)
Definition schedule_rounds4 (abef cdgh w0 w1 w2 w3 : v4) (i : nat) : v4 * v4 * v4 :=
  let w4 := schedule w0 w1 w2 w3 in
  let '(abef, cdgh) := rounds4 abef cdgh w4 i in
  (abef, cdgh, w4).

(** soft.rs 189-228 *)
Definition sha256_digest_block_u32 (state : list N) (block : list N) : list N :=
  let abef := (get state 0, get state 1, get state 4, get state 5) in
  let cdgh := (get state 2, get state 3, get state 6, get state 7) in
  let w0 := (get block 3, get block 2, get block 1, get block 0) in
  let w1 := (get block 7, get block 6, get block 5, get block 4) in
  let w2 := (get block 11, get block 10, get block 9, get block 8) in
  let w3 := (get block 15, get block 14, get block 13, get block 12) in
  let '(abef, cdgh) := rounds4 abef cdgh w0 0 in
  let '(abef, cdgh) := rounds4 abef cdgh w1 1 in
  let '(abef, cdgh) := rounds4 abef cdgh w2 2 in
  let '(abef, cdgh) := rounds4 abef cdgh w3 3 in
  let '(abef, cdgh, w4) := schedule_rounds4 abef cdgh w0 w1 w2 w3 4 in
  let '(abef, cdgh, w0) := schedule_rounds4 abef cdgh w1 w2 w3 w4 5 in
  let '(abef, cdgh, w1) := schedule_rounds4 abef cdgh w2 w3 w4 w0 6 in
  let '(abef, cdgh, w2) := schedule_rounds4 abef cdgh w3 w4 w0 w1 7 in
  let '(abef, cdgh, w3) := schedule_rounds4 abef cdgh w4 w0 w1 w2 8 in
  let '(abef, cdgh, w4) := schedule_rounds4 abef cdgh w0 w1 w2 w3 9 in
  let '(abef, cdgh, w0) := schedule_rounds4 abef cdgh w1 w2 w3 w4 10 in
  let '(abef, cdgh, w1) := schedule_rounds4 abef cdgh w2 w3 w4 w0 11 in
  let '(abef, cdgh, w2) := schedule_rounds4 abef cdgh w3 w4 w0 w1 12 in
  let '(abef, cdgh, w3) := schedule_rounds4 abef cdgh w4 w0 w1 w2 13 in
  let '(abef, cdgh, w4) := schedule_rounds4 abef cdgh w0 w1 w2 w3 14 in
  let '(abef, cdgh, w0) := schedule_rounds4 abef cdgh w1 w2 w3 w4 15 in
  let '(a, b, e, f) := abef in
  let '(c, d, g, h) := cdgh in
  [add32 (get state 0) a; add32 (get state 1) b; add32 (get state 2) c; add32 (get state 3) d;
   add32 (get state 4) e; add32 (get state 5) f; add32 (get state 6) g; add32 (get state 7) h].

(** sha2/src/sha256.rs 41-47 *)
Definition to_u32s (block : bytes) : list N := words_of_be 4 block.

(** soft.rs 230-234, one iteration of the loop; the whole loop is
    [fold_left compress_block blocks] *)
Definition compress_block (state : list N) (block : bytes) : list N :=
  sha256_digest_block_u32 state (to_u32s block).
Definition compress (state : list N) (blocks : list bytes) : list N :=
  fold_left compress_block blocks state.
