(** Model of the portable SHA-512 backend, sha2/src/sha512/soft.rs and
    sha2/src/sha512.rs.  A [u64; 2] is a pair, [u64; 8] and [u64; 16] are lists. *)
From Verif Require Import Base.Words Base.Bytes Base.Codec Model.Sha2Consts.

Definition v2 := (N * N)%type.

(** soft.rs 5-7 *)
Definition sha512load (v0 v1 : v2) : v2 := (snd v1, fst v0).
(** soft.rs 12-14 *)
Definition sigma0 (x : N) : N := N.lxor (N.lxor (rotr64 x 1) (rotr64 x 8)) (N.shiftr x 7).
(** soft.rs 17-19 *)
Definition sigma1 (x : N) : N := N.lxor (N.lxor (rotr64 x 19) (rotl64 x 3)) (N.shiftr x 6).
(** soft.rs 10-36 *)
Definition sha512_schedule_x2 (v0 v1 v4to5 v7 : v2) : v2 :=
  let '(w1, w0) := v0 in
  let '(_, w2) := v1 in
  let '(w10, w9) := v4to5 in
  let '(w15, w14) := v7 in
  let w16 := add64 (add64 (add64 (sigma1 w14) w9) (sigma0 w1)) w0 in
  let w17 := add64 (add64 (add64 (sigma1 w15) w10) (sigma0 w2)) w1 in
  (w17, w16).

(** soft.rs 46-65 *)
Definition big_sigma0 (a : N) : N := N.lxor (N.lxor (rotr64 a 28) (rotr64 a 34)) (rotr64 a 39).
Definition big_sigma1 (a : N) : N := N.lxor (N.lxor (rotr64 a 14) (rotr64 a 18)) (rotr64 a 41).
Definition bool3ary_202 (a b c : N) : N := N.lxor c (N.land a (N.lxor b c)).
Definition bool3ary_232 (a b c : N) : N := N.lxor (N.lxor (N.land a b) (N.land a c)) (N.land b c).

(** soft.rs 39-90 *)
Definition sha512_digest_round (ae bf cg dh : v2) (wk0 : N) : v2 :=
  let '(a0, e0) := ae in
  let '(b0, f0) := bf in
  let '(c0, g0) := cg in
  let '(d0, h0) := dh in
  let x0 := add64 (add64 (add64 (big_sigma1 e0) (bool3ary_202 e0 f0 g0)) wk0) h0 in
  let y0 := add64 (big_sigma0 a0) (bool3ary_232 a0 b0 c0) in
  (add64 x0 y0, add64 x0 d0).

(** soft.rs 94-101 [rk(i, j)]: reads K64[2i + j] *)
Definition rk (i j : nat) : N := get K64 (2 * i + j).
(** soft.rs 93-105 *)
Definition add_rk (w : v2) (i : nat) : v2 := (add64 (fst w) (rk i 1), add64 (snd w) (rk i 0)).

(** soft.rs 109-113, macro [schedule!] *)
Definition schedule (v0 v1 v4 v5 v7 : v2) : v2 := sha512_schedule_x2 v0 v1 (sha512load v4 v5) v7.

(** soft.rs 115-125, macro [rounds4!]; returns the four assigned variables *)
Definition rounds4 (ae bf cg dh wk0 wk1 : v2) : v2 * v2 * v2 * v2 :=
  let '(u, t) := wk0 in
  let '(w, v) := wk1 in
  let dh := sha512_digest_round ae bf cg dh t in
  let cg := sha512_digest_round dh ae bf cg u in
  let bf := sha512_digest_round cg dh ae bf v in
  let ae := sha512_digest_round bf cg dh ae w in
  (ae, bf, cg, dh).

(** Two schedule steps and four rounds, as they occur together at soft.rs
    141-194: [wa = schedule!(..); wb = schedule!(..); rounds4!(.., add_rk(wa, i), add_rk(wb, i + 1))].
    [m0 .. m6] are the arguments of the two schedule calls in order: the first
    call takes (m0, m1, m2, m3, m4), the second (m1, m5, m3, m6, wa). *)
Definition schedule2_rounds4 (ae bf cg dh m0 m1 m2 m3 m4 m5 m6 : v2) (i : nat)
  : v2 * v2 * v2 * v2 * v2 * v2 :=
  let wa := schedule m0 m1 m2 m3 m4 in
  let wb := schedule m1 m5 m3 m6 wa in
  let '(ae, bf, cg, dh) := rounds4 ae bf cg dh (add_rk wa i) (add_rk wb (i + 1)) in
  (ae, bf, cg, dh, wa, wb).

(** soft.rs 108-209 *)
Definition sha512_digest_block_u64 (state : list N) (block : list N) : list N :=
  let ae := (get state 0, get state 4) in
  let bf := (get state 1, get state 5) in
  let cg := (get state 2, get state 6) in
  let dh := (get state 3, get state 7) in
  let w1 := (get block 3, get block 2) in
  let w0 := (get block 1, get block 0) in
  let '(ae, bf, cg, dh) := rounds4 ae bf cg dh (add_rk w0 0) (add_rk w1 1) in
  let w3 := (get block 7, get block 6) in
  let w2 := (get block 5, get block 4) in
  let '(ae, bf, cg, dh) := rounds4 ae bf cg dh (add_rk w2 2) (add_rk w3 3) in
  let w5 := (get block 11, get block 10) in
  let w4 := (get block 9, get block 8) in
  let '(ae, bf, cg, dh) := rounds4 ae bf cg dh (add_rk w4 4) (add_rk w5 5) in
  let w7 := (get block 15, get block 14) in
  let w6 := (get block 13, get block 12) in
  let '(ae, bf, cg, dh) := rounds4 ae bf cg dh (add_rk w6 6) (add_rk w7 7) in
  let '(ae, bf, cg, dh, w8, w9) := schedule2_rounds4 ae bf cg dh w0 w1 w4 w5 w7 w2 w6 8 in
  let '(ae, bf, cg, dh, w0, w1) := schedule2_rounds4 ae bf cg dh w2 w3 w6 w7 w9 w4 w8 10 in
  let '(ae, bf, cg, dh, w2, w3) := schedule2_rounds4 ae bf cg dh w4 w5 w8 w9 w1 w6 w0 12 in
  let '(ae, bf, cg, dh, w4, w5) := schedule2_rounds4 ae bf cg dh w6 w7 w0 w1 w3 w8 w2 14 in
  let '(ae, bf, cg, dh, w6, w7) := schedule2_rounds4 ae bf cg dh w8 w9 w2 w3 w5 w0 w4 16 in
  let '(ae, bf, cg, dh, w8, w9) := schedule2_rounds4 ae bf cg dh w0 w1 w4 w5 w7 w2 w6 18 in
  let '(ae, bf, cg, dh, w0, w1) := schedule2_rounds4 ae bf cg dh w2 w3 w6 w7 w9 w4 w8 20 in
  let '(ae, bf, cg, dh, w2, w3) := schedule2_rounds4 ae bf cg dh w4 w5 w8 w9 w1 w6 w0 22 in
  let '(ae, bf, cg, dh, w4, w5) := schedule2_rounds4 ae bf cg dh w6 w7 w0 w1 w3 w8 w2 24 in
  let '(ae, bf, cg, dh, w6, w7) := schedule2_rounds4 ae bf cg dh w8 w9 w2 w3 w5 w0 w4 26 in
  let '(ae, bf, cg, dh, w8, w9) := schedule2_rounds4 ae bf cg dh w0 w1 w4 w5 w7 w2 w6 28 in
  let '(ae, bf, cg, dh, w0, w1) := schedule2_rounds4 ae bf cg dh w2 w3 w6 w7 w9 w4 w8 30 in
  let '(ae, bf, cg, dh, w2, w3) := schedule2_rounds4 ae bf cg dh w4 w5 w8 w9 w1 w6 w0 32 in
  let '(ae, bf, cg, dh, w4, w5) := schedule2_rounds4 ae bf cg dh w6 w7 w0 w1 w3 w8 w2 34 in
  let '(ae, bf, cg, dh, w6, w7) := schedule2_rounds4 ae bf cg dh w8 w9 w2 w3 w5 w0 w4 36 in
  let '(ae, bf, cg, dh, w8, w9) := schedule2_rounds4 ae bf cg dh w0 w1 w4 w5 w7 w2 w6 38 in
  let '(a, e) := ae in
  let '(b, f) := bf in
  let '(c, g) := cg in
  let '(d, h) := dh in
  [add64 (get state 0) a; add64 (get state 1) b; add64 (get state 2) c; add64 (get state 3) d;
   add64 (get state 4) e; add64 (get state 5) f; add64 (get state 6) g; add64 (get state 7) h].

(** sha2/src/sha512.rs 41-47 *)
Definition to_u64s (block : bytes) : list N := words_of_be 8 block.

(** soft.rs 211-215 *)
Definition compress_block (state : list N) (block : bytes) : list N :=
  sha512_digest_block_u64 state (to_u64s block).
Definition compress (state : list N) (blocks : list bytes) : list N :=
  fold_left compress_block blocks state.
