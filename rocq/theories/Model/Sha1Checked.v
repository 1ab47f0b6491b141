(** Model of the sha1-checked crate: sha1-checked/src/compress.rs and lib.rs
    (the tables and [ubc_check] are in Model/Sha1CheckedTables.v).
    A [u32; 5], [u32; 16] or [u32; 80] is a list; a function that takes
    [&mut] arguments returns their new values in argument order. *)
From Verif Require Import Base.Words Base.Bytes Base.Codec Base.BlockBuffer Base.Digest.
From Verif Require Import Model.Sha1CheckedTables.
From Verif Require Model.Sha1.

(** ** compress.rs *)
(** 13 *)
Definition K : list N := [0x5A827999; 0x6ED9EBA1; 0x8F1BBCDC; 0xCA62C1D6].
(** 15-18 *)
Definition mix (w : list N) (t : nat) : N :=
  rotl32 (N.lxor (N.lxor (N.lxor (get w (t - 3)) (get w (t - 8))) (get w (t - 14))) (get w (t - 16))) 1.
(** 20-38 *)
Definition f1 (b c d : N) : N := N.lxor d (N.land b (N.lxor c d)).
Definition f2 (b c d : N) : N := N.lxor (N.lxor b c) d.
Definition f3 (b c d : N) : N := add32 (N.land b c) (N.land d (N.lxor b c)).
Definition f4 (b c d : N) : N := N.lxor (N.lxor b c) d.

(** 40-60; [round3_step] and [round4_step] differ in [f] and [K] only.
    Returns the new [b] and [e]. *)
Definition round_step (f : N -> N -> N -> N) (k a b c d e mt : N) : N * N :=
  let e := add32 e (add32 (add32 (add32 (rotl32 a 5) (f b c d)) k) mt) in
  let b := rotl32 b 30 in
  (b, e).
Definition round3_step := round_step f3 (get K 2).
Definition round4_step := round_step f4 (get K 3).
(** 62-104; the four functions differ in [f] and [K] only *)
Definition round_step_bw (f : N -> N -> N -> N) (k a b c d e mt : N) : N * N :=
  let b := rotr32 b 30 in
  let e := sub32 e (add32 (add32 (add32 (rotl32 a 5) (f b c d)) k) mt) in
  (b, e).
Definition round1_step_bw := round_step_bw f1 (get K 0).
Definition round2_step_bw := round_step_bw f2 (get K 1).
Definition round3_step_bw := round_step_bw f3 (get K 2).
Definition round4_step_bw := round_step_bw f4 (get K 3).
(** 106-126; returns the new [b], [e], [w] *)
Definition full_round_step (f : N -> N -> N -> N) (k a b c d e : N) (w : list N) (t : nat) : N * N * list N :=
  let w := upd w t (mix w t) in
  let e := add32 e (add32 (add32 (add32 (get w t) (rotl32 a 5)) (f b c d)) k) in
  let b := rotl32 b 30 in
  (b, e, w).
Definition full_round3_step := full_round_step f3 (get K 2).
Definition full_round4_step := full_round_step f4 (get K 3).

Definition v5 := (N * N * N * N * N)%type.
(** 128-264, 282-326; the four functions differ in [f] and [K] only *)
Definition round_step4 (f : N -> N -> N -> N) (k a b c d e : N) (w : list N) (t : nat) : v5 :=
  let e := add32 e (add32 (add32 (add32 (get w t) (rotl32 a 5)) (f b c d)) k) in
  let b := rotl32 b 30 in
  let d := add32 d (add32 (add32 (add32 (get w (t + 1)) (rotl32 e 5)) (f a b c)) k) in
  let a := rotl32 a 30 in
  let c := add32 c (add32 (add32 (add32 (get w (t + 2)) (rotl32 d 5)) (f e a b)) k) in
  let e := rotl32 e 30 in
  let b := add32 b (add32 (add32 (add32 (get w (t + 3)) (rotl32 c 5)) (f d e a)) k) in
  let d := rotl32 d 30 in
  (a, b, c, d, e).
Definition round1_step4 := round_step4 f1 (get K 0).
Definition round2_step4 := round_step4 f2 (get K 1).
Definition round3_step4 := round_step4 f3 (get K 2).
Definition round4_step4 := round_step4 f4 (get K 3).
(** 266-280 *)
Definition full_round1_step_load4 (a b c d e : N) (m w : list N) (t : nat) : v5 * list N :=
  let w := upd w t (get m t) in
  let w := upd w (t + 1) (get m (t + 1)) in
  let w := upd w (t + 2) (get m (t + 2)) in
  let w := upd w (t + 3) (get m (t + 3)) in
  (round1_step4 a b c d e w t, w).
(** the four assignments to [w] common to the functions below *)
Definition expand4 (w : list N) (t : nat) : list N :=
  let w := upd w t (mix w t) in
  let w := upd w (t + 1) (mix w (t + 1)) in
  let w := upd w (t + 2) (mix w (t + 2)) in
  upd w (t + 3) (mix w (t + 3)).
(** 328-394 *)
Definition full_round1_step_expand4 (a b c d e : N) (w : list N) (t : nat) : v5 * list N :=
  let w := expand4 w t in (round1_step4 a b c d e w t, w).
Definition full_round2_step4 (a b c d e : N) (w : list N) (t : nat) : v5 * list N :=
  let w := expand4 w t in (round2_step4 a b c d e w t, w).
Definition full_round3_step4 (a b c d e : N) (w : list N) (t : nat) : v5 * list N :=
  let w := expand4 w t in (round3_step4 a b c d e w t, w).
Definition full_round4_step4 (a b c d e : N) (w : list N) (t : nat) : v5 * list N :=
  let w := expand4 w t in (round4_step4 a b c d e w t, w).
(** 396-458; the four functions differ in the step function only *)
Definition step_bw4 (bw : N -> N -> N -> N -> N -> N -> N * N) (a b c d e : N) (m : list N) (t : nat) : v5 :=
  let '(b, e) := bw a b c d e (get m t) in
  let '(c, a) := bw b c d e a (get m (t - 1)) in
  let '(d, b) := bw c d e a b (get m (t - 2)) in
  let '(e, c) := bw d e a b c (get m (t - 3)) in
  (a, b, c, d, e).
Definition round1_step_bw4 := step_bw4 round1_step_bw.
Definition round2_step_bw4 := step_bw4 round2_step_bw.
Definition round3_step_bw4 := step_bw4 round3_step_bw.
Definition round4_step_bw4 := step_bw4 round4_step_bw.
(** 460-466 *)
Definition add_assign (left right : list N) : list N :=
  [add32 (get left 0) (get right 0); add32 (get left 1) (get right 1); add32 (get left 2) (get right 2);
   add32 (get left 3) (get right 3); add32 (get left 4) (get right 4)].

(** 468-496 *)
Definition compression_w (ihv w : list N) : list N :=
  let '(a, b, c, d, e) := (get ihv 0, get ihv 1, get ihv 2, get ihv 3, get ihv 4) in
  let '(a, b, c, d, e) := round1_step4 a b c d e w 0 in
  let '(b, c, d, e, a) := round1_step4 b c d e a w 4 in
  let '(c, d, e, a, b) := round1_step4 c d e a b w 8 in
  let '(d, e, a, b, c) := round1_step4 d e a b c w 12 in
  let '(e, a, b, c, d) := round1_step4 e a b c d w 16 in
  let '(a, b, c, d, e) := round2_step4 a b c d e w 20 in
  let '(b, c, d, e, a) := round2_step4 b c d e a w 24 in
  let '(c, d, e, a, b) := round2_step4 c d e a b w 28 in
  let '(d, e, a, b, c) := round2_step4 d e a b c w 32 in
  let '(e, a, b, c, d) := round2_step4 e a b c d w 36 in
  let '(a, b, c, d, e) := round3_step4 a b c d e w 40 in
  let '(b, c, d, e, a) := round3_step4 b c d e a w 44 in
  let '(c, d, e, a, b) := round3_step4 c d e a b w 48 in
  let '(d, e, a, b, c) := round3_step4 d e a b c w 52 in
  let '(e, a, b, c, d) := round3_step4 e a b c d w 56 in
  let '(a, b, c, d, e) := round4_step4 a b c d e w 60 in
  let '(b, c, d, e, a) := round4_step4 b c d e a w 64 in
  let '(c, d, e, a, b) := round4_step4 c d e a b w 68 in
  let '(d, e, a, b, c) := round4_step4 d e a b c w 72 in
  let '(e, a, b, c, d) := round4_step4 e a b c d w 76 in
  add_assign ihv [a; b; c; d; e].

(** 498-549; returns the new [ihv], [w], [state_58], [state_65] *)
Definition compression_states (ihv m w : list N) : list N * list N * list N * list N :=
  let '(a, b, c, d, e) := (get ihv 0, get ihv 1, get ihv 2, get ihv 3, get ihv 4) in
  let '((a, b, c, d, e), w) := full_round1_step_load4 a b c d e m w 0 in
  let '((b, c, d, e, a), w) := full_round1_step_load4 b c d e a m w 4 in
  let '((c, d, e, a, b), w) := full_round1_step_load4 c d e a b m w 8 in
  let '((d, e, a, b, c), w) := full_round1_step_load4 d e a b c m w 12 in
  let '((e, a, b, c, d), w) := full_round1_step_expand4 e a b c d w 16 in
  let '((a, b, c, d, e), w) := full_round2_step4 a b c d e w 20 in
  let '((b, c, d, e, a), w) := full_round2_step4 b c d e a w 24 in
  let '((c, d, e, a, b), w) := full_round2_step4 c d e a b w 28 in
  let '((d, e, a, b, c), w) := full_round2_step4 d e a b c w 32 in
  let '((e, a, b, c, d), w) := full_round2_step4 e a b c d w 36 in
  let '((a, b, c, d, e), w) := full_round3_step4 a b c d e w 40 in
  let '((b, c, d, e, a), w) := full_round3_step4 b c d e a w 44 in
  let '((c, d, e, a, b), w) := full_round3_step4 c d e a b w 48 in
  let '((d, e, a, b, c), w) := full_round3_step4 d e a b c w 52 in
  let '(a, d, w) := full_round3_step e a b c d w 56 in
  let '(e, c, w) := full_round3_step d e a b c w 57 in
  let state_58 := [a; b; c; d; e] in
  let '(d, b, w) := full_round3_step c d e a b w 58 in
  let '(c, a, w) := full_round3_step b c d e a w 59 in
  let '((a, b, c, d, e), w) := full_round4_step4 a b c d e w 60 in
  let '(c, a, w) := full_round4_step b c d e a w 64 in
  let state_65 := [a; b; c; d; e] in
  let '(b, e, w) := full_round4_step a b c d e w 65 in
  let '(a, d, w) := full_round4_step e a b c d w 66 in
  let '(e, c, w) := full_round4_step d e a b c w 67 in
  let '((c, d, e, a, b), w) := full_round4_step4 c d e a b w 68 in
  let '((d, e, a, b, c), w) := full_round4_step4 d e a b c w 72 in
  let '((e, a, b, c, d), w) := full_round4_step4 e a b c d w 76 in
  (add_assign ihv [a; b; c; d; e], w, state_58, state_65).

(** 551-596; returns the new [ihvin] and [ihvout] *)
Definition recompress_fast_58 (me2 state : list N) : list N * list N :=
  let '(a, b, c, d, e) := (get state 0, get state 1, get state 2, get state 3, get state 4) in
  let '(e, c) := round3_step_bw d e a b c (get me2 57) in
  let '(a, d) := round3_step_bw e a b c d (get me2 56) in
  let '(a, b, c, d, e) := round3_step_bw4 a b c d e me2 55 in
  let '(e, a, b, c, d) := round3_step_bw4 e a b c d me2 51 in
  let '(d, e, a, b, c) := round3_step_bw4 d e a b c me2 47 in
  let '(c, d, e, a, b) := round3_step_bw4 c d e a b me2 43 in
  let '(b, c, d, e, a) := round2_step_bw4 b c d e a me2 39 in
  let '(a, b, c, d, e) := round2_step_bw4 a b c d e me2 35 in
  let '(e, a, b, c, d) := round2_step_bw4 e a b c d me2 31 in
  let '(d, e, a, b, c) := round2_step_bw4 d e a b c me2 27 in
  let '(c, d, e, a, b) := round2_step_bw4 c d e a b me2 23 in
  let '(b, c, d, e, a) := round1_step_bw4 b c d e a me2 19 in
  let '(a, b, c, d, e) := round1_step_bw4 a b c d e me2 15 in
  let '(e, a, b, c, d) := round1_step_bw4 e a b c d me2 11 in
  let '(d, e, a, b, c) := round1_step_bw4 d e a b c me2 7 in
  let '(c, d, e, a, b) := round1_step_bw4 c d e a b me2 3 in
  let ihvin := [a; b; c; d; e] in
  let '(a, b, c, d, e) := (get state 0, get state 1, get state 2, get state 3, get state 4) in
  let '(d, b) := round3_step c d e a b (get me2 58) in
  let '(c, a) := round3_step b c d e a (get me2 59) in
  let '(a, b, c, d, e) := round4_step4 a b c d e me2 60 in
  let '(b, c, d, e, a) := round4_step4 b c d e a me2 64 in
  let '(c, d, e, a, b) := round4_step4 c d e a b me2 68 in
  let '(d, e, a, b, c) := round4_step4 d e a b c me2 72 in
  let '(e, a, b, c, d) := round4_step4 e a b c d me2 76 in
  (ihvin, add_assign ihvin [a; b; c; d; e]).

(** 598-643 *)
Definition recompress_fast_65 (me2 state : list N) : list N * list N :=
  let '(a, b, c, d, e) := (get state 0, get state 1, get state 2, get state 3, get state 4) in
  let '(c, a) := round4_step_bw b c d e a (get me2 64) in
  let '(c, d, e, a, b) := round4_step_bw4 c d e a b me2 63 in
  let '(b, c, d, e, a) := round3_step_bw4 b c d e a me2 59 in
  let '(a, b, c, d, e) := round3_step_bw4 a b c d e me2 55 in
  let '(e, a, b, c, d) := round3_step_bw4 e a b c d me2 51 in
  let '(d, e, a, b, c) := round3_step_bw4 d e a b c me2 47 in
  let '(c, d, e, a, b) := round3_step_bw4 c d e a b me2 43 in
  let '(b, c, d, e, a) := round2_step_bw4 b c d e a me2 39 in
  let '(a, b, c, d, e) := round2_step_bw4 a b c d e me2 35 in
  let '(e, a, b, c, d) := round2_step_bw4 e a b c d me2 31 in
  let '(d, e, a, b, c) := round2_step_bw4 d e a b c me2 27 in
  let '(c, d, e, a, b) := round2_step_bw4 c d e a b me2 23 in
  let '(b, c, d, e, a) := round1_step_bw4 b c d e a me2 19 in
  let '(a, b, c, d, e) := round1_step_bw4 a b c d e me2 15 in
  let '(e, a, b, c, d) := round1_step_bw4 e a b c d me2 11 in
  let '(d, e, a, b, c) := round1_step_bw4 d e a b c me2 7 in
  let '(c, d, e, a, b) := round1_step_bw4 c d e a b me2 3 in
  let ihvin := [a; b; c; d; e] in
  let '(a, b, c, d, e) := (get state 0, get state 1, get state 2, get state 3, get state 4) in
  let '(b, e) := round4_step a b c d e (get me2 65) in
  let '(a, d) := round4_step e a b c d (get me2 66) in
  let '(e, c) := round4_step d e a b c (get me2 67) in
  let '(c, d, e, a, b) := round4_step4 c d e a b me2 68 in
  let '(d, e, a, b, c) := round4_step4 d e a b c me2 72 in
  let '(e, a, b, c, d) := round4_step4 e a b c d me2 76 in
  (ihvin, add_assign ihvin [a; b; c; d; e]).

(** 645-660 *)
Definition recompression_step (step : testt) (me2 state : list N) : list N * list N :=
  match step with
  | T58 => recompress_fast_58 me2 state
  | T65 => recompress_fast_65 me2 state
  end.
(** 662-665 *)
Definition xor (a b : list N) : N :=
  N.lor (N.lor (N.lor (N.lor (N.lxor (get a 0) (get b 0)) (N.lxor (get a 1) (get b 1)))
    (N.lxor (get a 2) (get b 2))) (N.lxor (get a 3) (get b 3))) (N.lxor (get a 4) (get b 4)).

(** lib.rs 337-352 *)
Record DetectionState := mkDS {
  safe_hash : bool; use_ubc : bool; reduced_round_collision : bool;
  found_collision : bool;
  ihv1 : list N; ihv2 : list N; m1 : list N; m2 : list N;
  state_58 : list N; state_65 : list N
}.

(** compress.rs 699-738: the loop over [SHA1_DVS] from any point on; [m1],
    [state_58], [state_65], [ihv1] and the options are read from [ctx],
    [m2] and [ihv2] are overwritten.  The table is a parameter so that the
    recursion is over it. *)
Fixpoint dv_loop (dvs : list info) (ubc_mask : N) (state : list N) (ctx : DetectionState) {struct dvs}
  : list N * DetectionState :=
  match dvs with
  | [] => (state, ctx)
  | dv :: rest =>
      if negb (N.land ubc_mask (wshl 32 1 (i_maskb dv)) =? 0) then
        let m2 := xor_bytes (m1 ctx) (i_dm dv) in
        let '(ihv2, ihvtmp) := recompression_step (i_testt dv) m2
          (match i_testt dv with T58 => state_58 ctx | T65 => state_65 ctx end) in
        let found := (0 =? xor ihvtmp state) || (reduced_round_collision ctx && (0 =? xor (ihv1 ctx) ihv2)) in
        let ctx := mkDS (safe_hash ctx) (use_ubc ctx) (reduced_round_collision ctx) (found_collision ctx || found)
                     (ihv1 ctx) ihv2 (m1 ctx) m2 (state_58 ctx) (state_65 ctx) in
        if found then
          let state := if safe_hash ctx then compression_w (compression_w state (m1 ctx)) (m1 ctx) else state in
          (state, ctx)
        else dv_loop rest ubc_mask state ctx
      else dv_loop rest ubc_mask state ctx
  end.
(** compress.rs 675-740, one iteration of the loop over blocks *)
Definition compress_block (s : list N * DetectionState) (block : bytes) : list N * DetectionState :=
  let '(state, ctx) := s in
  let ihv1 := state in
  let block_u32 := words_of_be 4 block in
  let '(state, m1, state_58, state_65) := compression_states state block_u32 (m1 ctx) in
  let ctx := mkDS (safe_hash ctx) (use_ubc ctx) (reduced_round_collision ctx) (found_collision ctx)
               ihv1 (ihv2 ctx) m1 (m2 ctx) state_58 state_65 in
  let ubc_mask := if use_ubc ctx then ubc_check m1 else 0xFFFFFFFF in
  if negb (ubc_mask =? 0) then dv_loop SHA1_DVS ubc_mask state ctx else (state, ctx).
(** compress.rs 667-741 *)
Definition compress (state : list N) (ctx : DetectionState) (blocks : list bytes) : list N * DetectionState :=
  fold_left compress_block blocks (state, ctx).

(** compress.rs 743-747 *)
Definition SHA1_PADDING : bytes := 0x80 :: zeros 63.
(** [dst[..src.len()].copy_from_slice(src)] at offset [o] *)
Definition blit (dst : bytes) (o : nat) (src : bytes) : bytes :=
  firstn o dst ++ src ++ skipn (o + length src) dst.
(** compress.rs 749-787.  [total + last] is a plain addition; [total <<= 3]
    drops the high bits in every build profile. *)
Definition finalize (m : mode) (state : list N) (total : N) (last_block : bytes) (ctx : DetectionState)
  : option (list N * DetectionState) :=
  let* total := cadd m 64 total (N.of_nat (length last_block)) in
  let last := length last_block in
  let needs_two_blocks := (56 <=? last)%nat in
  let buffer := zeros 64 in
  let buffer := blit buffer 0 last_block in
  let left := (64 - last)%nat in
  let '(buffer, state, ctx) :=
    if needs_two_blocks then
      let padn := (120 - last)%nat in
      let pad := firstn padn SHA1_PADDING in
      let '(pad0, pad1) := (firstn left pad, skipn left pad) in
      let buffer := blit buffer last pad0 in
      let '(state, ctx) := compress state ctx [buffer] in
      let buffer := blit buffer 0 pad1 in
      (buffer, state, ctx)
    else
      let padn := (56 - last)%nat in
      let buffer := blit buffer last (firstn padn SHA1_PADDING) in
      (buffer, state, ctx) in
  let total := wshl 64 total 3 in
  let buffer := upd buffer 56 (N.shiftr total 56 mod 256) in
  let buffer := upd buffer 57 (N.shiftr total 48 mod 256) in
  let buffer := upd buffer 58 (N.shiftr total 40 mod 256) in
  let buffer := upd buffer 59 (N.shiftr total 32 mod 256) in
  let buffer := upd buffer 60 (N.shiftr total 24 mod 256) in
  let buffer := upd buffer 61 (N.shiftr total 16 mod 256) in
  let buffer := upd buffer 62 (N.shiftr total 8 mod 256) in
  let buffer := upd buffer 63 (total mod 256) in
  Some (compress state ctx [buffer]).

(** ** lib.rs *)
(** 41 *)
Definition INITIAL_H : list N := [0x67452301; 0xEFCDAB89; 0x98BADCFE; 0x10325476; 0xC3D2E1F0].
(** 261-304: [Builder] and its options *)
Record Builder := mkBuilder { b_detect : bool; b_safe : bool; b_ubc : bool; b_reduced : bool }.
Definition builder : Builder := mkBuilder true true true false.
Definition detect_collision (b : Builder) (x : bool) := mkBuilder x (b_safe b) (b_ubc b) (b_reduced b).
Definition set_safe_hash (b : Builder) (x : bool) := mkBuilder (b_detect b) x (b_ubc b) (b_reduced b).
Definition set_use_ubc (b : Builder) (x : bool) := mkBuilder (b_detect b) (b_safe b) x (b_reduced b).
Definition set_reduced_round_collision (b : Builder) (x : bool) := mkBuilder (b_detect b) (b_safe b) (b_ubc b) x.
(** 306-323 *)
Definition into_detection_state (b : Builder) : option DetectionState :=
  if b_detect b then
    Some (mkDS (b_safe b) (b_ubc b) (b_reduced b) false (zeros 5) (zeros 5) (zeros 80) (zeros 80) (zeros 5) (zeros 5))
  else None.
(** 362-374 *)
Definition ds_reset (ctx : DetectionState) : DetectionState :=
  mkDS (safe_hash ctx) (use_ubc ctx) (reduced_round_collision ctx)
    false (zeros 5) (zeros 5) (zeros 80) (zeros 80) (zeros 5) (zeros 5).

(** 47-53 without the buffer: [h] and [detection], then [block_len] (the
    buffer is part of [hst]) *)
Definition sha1c_st := ((list N * option DetectionState) * N)%type.
(** 182-194: the closure given to [digest_blocks] *)
Definition sha1c_update (m : mode) (s : sha1c_st) (blocks : list bytes) : option sha1c_st :=
  let '((h, detection), block_len) := s in
  let* block_len := cadd m 64 block_len (N.of_nat (length blocks)) in
  match detection with
  | Some ctx => let '(h, ctx) := compress h ctx blocks in Some ((h, Some ctx), block_len)
  | None => Some ((Model.Sha1.compress h blocks, None), block_len)
  end.
(** 108-124 *)
Definition finalize_inner (m : mode) (s : sha1c_st) (buffer : bytes) : option (bytes * sha1c_st) :=
  let '((h, detection), block_len) := s in
  let bs := 64 in
  match detection with
  | Some ctx =>
      let* total := cmul m 64 bs block_len in
      let* (h, ctx) := finalize m h total buffer ctx in
      Some (words_to_be 4 h, ((h, Some ctx), block_len))
  | None =>
      let* t := cmul m 64 bs block_len in
      let* t := cadd m 64 (N.of_nat (length buffer)) t in
      let* bit_len := cmul m 64 8 t in
      let h := Model.Sha1.compress h (len64_padding_be 64 bit_len buffer) in
      Some (words_to_be 4 h, ((h, None), block_len))
  end.
(** 161-171 *)
Definition sha1c_reset (s : sha1c_st) : sha1c_st * bytes :=
  let '((_, detection), _) := s in
  (((INITIAL_H, match detection with Some ctx => Some (ds_reset ctx) | None => None end), 0), []).
(** The hasher built by [b] (325-334 [build], 173-219 [Update],
    [FixedOutput], [FixedOutputReset]): the crate does not use [CoreWrapper]
    but buffers the same way. *)
Definition Sha1Checked (b : Builder) : core :=
  mkCore sha1c_st 64 Eager ((INITIAL_H, into_detection_state b), 0) []
    sha1c_update finalize_inner sha1c_reset None.

(** 127-152 *)
Inductive CollisionResult := ROk (out : bytes) | RMitigated (out : bytes) | RCollision (out : bytes).
Definition r_hash (r : CollisionResult) : bytes :=
  match r with ROk s => s | RMitigated s => s | RCollision s => s end.
Definition has_collision (r : CollisionResult) : bool := match r with ROk _ => false | _ => true end.
(** 92-106 *)
Definition try_finalize (m : mode) (s : sha1c_st) (buffer : bytes) : option CollisionResult :=
  let* (out, s) := finalize_inner m s buffer in
  match snd (fst s) with
  | Some ctx =>
      if found_collision ctx then
        if safe_hash ctx then Some (RMitigated out) else Some (RCollision out)
      else Some (ROk out)
  | None => Some (ROk out)
  end.
(** Build, update on each chunk, [try_finalize]; 86-90 [try_digest] is the
    case of the default builder and one chunk. *)
Definition try_digest (b : Builder) (m : mode) (chunks : list bytes) : option CollisionResult :=
  let* h := h_updates (Sha1Checked b) m (h_new (Sha1Checked b)) chunks in
  try_finalize m (fst h) (snd h).
