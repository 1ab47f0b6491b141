(** Model of the sm3 crate: sm3/src/compress.rs and sm3/src/lib.rs. *)
From Verif Require Import Base.Words Base.Bytes Base.Codec Base.BlockBuffer Base.Digest.

(** sm3/src/consts.rs 3-12: [T32] *)
Definition T32 : list N :=
  [0x79cc4519; 0xf3988a32; 0xe7311465; 0xce6228cb; 0x9cc45197; 0x3988a32f; 0x7311465e; 0xe6228cbc;
   0xcc451979; 0x988a32f3; 0x311465e7; 0x6228cbce; 0xc451979c; 0x88a32f39; 0x11465e73; 0x228cbce6;
   0x9d8a7a87; 0x3b14f50f; 0x7629ea1e; 0xec53d43c; 0xd8a7a879; 0xb14f50f3; 0x629ea1e7; 0xc53d43ce;
   0x8a7a879d; 0x14f50f3b; 0x29ea1e76; 0x53d43cec; 0xa7a879d8; 0x4f50f3b1; 0x9ea1e762; 0x3d43cec5;
   0x7a879d8a; 0xf50f3b14; 0xea1e7629; 0xd43cec53; 0xa879d8a7; 0x50f3b14f; 0xa1e7629e; 0x43cec53d;
   0x879d8a7a; 0x0f3b14f5; 0x1e7629ea; 0x3cec53d4; 0x79d8a7a8; 0xf3b14f50; 0xe7629ea1; 0xcec53d43;
   0x9d8a7a87; 0x3b14f50f; 0x7629ea1e; 0xec53d43c; 0xd8a7a879; 0xb14f50f3; 0x629ea1e7; 0xc53d43ce;
   0x8a7a879d; 0x14f50f3b; 0x29ea1e76; 0x53d43cec; 0xa7a879d8; 0x4f50f3b1; 0x9ea1e762; 0x3d43cec5].
(** sm3/src/consts.rs 14-16: [H0] *)
Definition H0 : list N :=
  [0x7380166f; 0x4914b2b9; 0x172442d7; 0xda8a0600; 0xa96f30bc; 0x163138aa; 0xe38dee4d; 0xb0fb0e4e].

(** compress.rs 5-33 *)
Definition ff1 (x y z : N) : N := N.lxor (N.lxor x y) z.
Definition ff2 (x y z : N) : N := N.lor (N.lor (N.land x y) (N.land x z)) (N.land y z).
Definition gg1 (x y z : N) : N := N.lxor (N.lxor x y) z.
Definition gg2 (x y z : N) : N := N.lxor (N.land (N.lxor y z) x) z.
Definition p0 (x : N) : N := N.lxor (N.lxor x (rotl32 x 9)) (rotl32 x 17).
Definition p1 (x : N) : N := N.lxor (N.lxor x (rotl32 x 15)) (rotl32 x 23).
(** compress.rs 36-38; [i & 0x0f] is [i mod 16] *)
Definition w1 (x : list N) (i : nat) : N := get x (i mod 16).
(** compress.rs 41-46; returns the updated buffer and the result *)
Definition w2 (x : list N) (i : nat) : list N * N :=
  let tw := N.lxor (N.lxor (w1 x i) (w1 x (i - 9))) (rotl32 (w1 x (i - 3)) 15) in
  let tw := N.lxor (N.lxor (p1 tw) (rotl32 (w1 x (i - 13)) 7)) (w1 x (i - 6)) in
  (upd x (i mod 16) tw, tw).
(** compress.rs 49-51 *)
Definition t (i : nat) : N := get T32 i.

Definition v8 := (N * N * N * N * N * N * N * N)%type.
(** compress.rs 53-82 *)
Definition sm3_round1 (a b c d e f g h t w1 w2 : N) : v8 :=
  let ss1 := rotl32 (add32 (add32 (rotl32 a 12) e) t) 7 in
  let ss2 := N.lxor ss1 (rotl32 a 12) in
  let d := add32 (add32 (add32 d (ff1 a b c)) ss2) (N.lxor w1 w2) in
  let h := add32 (add32 (add32 h (gg1 e f g)) ss1) w1 in
  let b := rotl32 b 9 in
  let f := rotl32 f 19 in
  let h := p0 h in
  (a, b, c, d, e, f, g, h).
(** compress.rs 84-113 *)
Definition sm3_round2 (a b c d e f g h t w1 w2 : N) : v8 :=
  let ss1 := rotl32 (add32 (add32 (rotl32 a 12) e) t) 7 in
  let ss2 := N.lxor ss1 (rotl32 a 12) in
  let d := add32 (add32 (add32 d (ff2 a b c)) ss2) (N.lxor w1 w2) in
  let h := add32 (add32 (add32 h (gg2 e f g)) ss1) w1 in
  let b := rotl32 b 9 in
  let f := rotl32 f 19 in
  let h := p0 h in
  (a, b, c, d, e, f, g, h).

(** compress.rs 151-236: the macro calls R1!/R2! (lines 163-226) are generated
    from the source text; arguments are evaluated left to right, so [w1(&x, i)]
    reads [x] before [w2(&mut x, j)] updates it *)
Definition compress_u32 (state block : list N) : list N :=
  assign x := block in
  let a := get state 0 in let b := get state 1 in let c := get state 2 in let d := get state 3 in
  let e := get state 4 in let f := get state 5 in let g := get state 6 in let h := get state 7 in
  assign u := w1 x 0 in assign '(x, u') := (x, w1 x 4) in
  assign '(a, b, c, d, e, f, g, h) := sm3_round1 a b c d e f g h (t 0) u u' in
  assign u := w1 x 1 in assign '(x, u') := (x, w1 x 5) in
  assign '(d, a, b, c, h, e, f, g) := sm3_round1 d a b c h e f g (t 1) u u' in
  assign u := w1 x 2 in assign '(x, u') := (x, w1 x 6) in
  assign '(c, d, a, b, g, h, e, f) := sm3_round1 c d a b g h e f (t 2) u u' in
  assign u := w1 x 3 in assign '(x, u') := (x, w1 x 7) in
  assign '(b, c, d, a, f, g, h, e) := sm3_round1 b c d a f g h e (t 3) u u' in
  assign u := w1 x 4 in assign '(x, u') := (x, w1 x 8) in
  assign '(a, b, c, d, e, f, g, h) := sm3_round1 a b c d e f g h (t 4) u u' in
  assign u := w1 x 5 in assign '(x, u') := (x, w1 x 9) in
  assign '(d, a, b, c, h, e, f, g) := sm3_round1 d a b c h e f g (t 5) u u' in
  assign u := w1 x 6 in assign '(x, u') := (x, w1 x 10) in
  assign '(c, d, a, b, g, h, e, f) := sm3_round1 c d a b g h e f (t 6) u u' in
  assign u := w1 x 7 in assign '(x, u') := (x, w1 x 11) in
  assign '(b, c, d, a, f, g, h, e) := sm3_round1 b c d a f g h e (t 7) u u' in
  assign u := w1 x 8 in assign '(x, u') := (x, w1 x 12) in
  assign '(a, b, c, d, e, f, g, h) := sm3_round1 a b c d e f g h (t 8) u u' in
  assign u := w1 x 9 in assign '(x, u') := (x, w1 x 13) in
  assign '(d, a, b, c, h, e, f, g) := sm3_round1 d a b c h e f g (t 9) u u' in
  assign u := w1 x 10 in assign '(x, u') := (x, w1 x 14) in
  assign '(c, d, a, b, g, h, e, f) := sm3_round1 c d a b g h e f (t 10) u u' in
  assign u := w1 x 11 in assign '(x, u') := (x, w1 x 15) in
  assign '(b, c, d, a, f, g, h, e) := sm3_round1 b c d a f g h e (t 11) u u' in
  assign u := w1 x 12 in assign '(x, u') := w2 x 16 in
  assign '(a, b, c, d, e, f, g, h) := sm3_round1 a b c d e f g h (t 12) u u' in
  assign u := w1 x 13 in assign '(x, u') := w2 x 17 in
  assign '(d, a, b, c, h, e, f, g) := sm3_round1 d a b c h e f g (t 13) u u' in
  assign u := w1 x 14 in assign '(x, u') := w2 x 18 in
  assign '(c, d, a, b, g, h, e, f) := sm3_round1 c d a b g h e f (t 14) u u' in
  assign u := w1 x 15 in assign '(x, u') := w2 x 19 in
  assign '(b, c, d, a, f, g, h, e) := sm3_round1 b c d a f g h e (t 15) u u' in
  assign u := w1 x 16 in assign '(x, u') := w2 x 20 in
  assign '(a, b, c, d, e, f, g, h) := sm3_round2 a b c d e f g h (t 16) u u' in
  assign u := w1 x 17 in assign '(x, u') := w2 x 21 in
  assign '(d, a, b, c, h, e, f, g) := sm3_round2 d a b c h e f g (t 17) u u' in
  assign u := w1 x 18 in assign '(x, u') := w2 x 22 in
  assign '(c, d, a, b, g, h, e, f) := sm3_round2 c d a b g h e f (t 18) u u' in
  assign u := w1 x 19 in assign '(x, u') := w2 x 23 in
  assign '(b, c, d, a, f, g, h, e) := sm3_round2 b c d a f g h e (t 19) u u' in
  assign u := w1 x 20 in assign '(x, u') := w2 x 24 in
  assign '(a, b, c, d, e, f, g, h) := sm3_round2 a b c d e f g h (t 20) u u' in
  assign u := w1 x 21 in assign '(x, u') := w2 x 25 in
  assign '(d, a, b, c, h, e, f, g) := sm3_round2 d a b c h e f g (t 21) u u' in
  assign u := w1 x 22 in assign '(x, u') := w2 x 26 in
  assign '(c, d, a, b, g, h, e, f) := sm3_round2 c d a b g h e f (t 22) u u' in
  assign u := w1 x 23 in assign '(x, u') := w2 x 27 in
  assign '(b, c, d, a, f, g, h, e) := sm3_round2 b c d a f g h e (t 23) u u' in
  assign u := w1 x 24 in assign '(x, u') := w2 x 28 in
  assign '(a, b, c, d, e, f, g, h) := sm3_round2 a b c d e f g h (t 24) u u' in
  assign u := w1 x 25 in assign '(x, u') := w2 x 29 in
  assign '(d, a, b, c, h, e, f, g) := sm3_round2 d a b c h e f g (t 25) u u' in
  assign u := w1 x 26 in assign '(x, u') := w2 x 30 in
  assign '(c, d, a, b, g, h, e, f) := sm3_round2 c d a b g h e f (t 26) u u' in
  assign u := w1 x 27 in assign '(x, u') := w2 x 31 in
  assign '(b, c, d, a, f, g, h, e) := sm3_round2 b c d a f g h e (t 27) u u' in
  assign u := w1 x 28 in assign '(x, u') := w2 x 32 in
  assign '(a, b, c, d, e, f, g, h) := sm3_round2 a b c d e f g h (t 28) u u' in
  assign u := w1 x 29 in assign '(x, u') := w2 x 33 in
  assign '(d, a, b, c, h, e, f, g) := sm3_round2 d a b c h e f g (t 29) u u' in
  assign u := w1 x 30 in assign '(x, u') := w2 x 34 in
  assign '(c, d, a, b, g, h, e, f) := sm3_round2 c d a b g h e f (t 30) u u' in
  assign u := w1 x 31 in assign '(x, u') := w2 x 35 in
  assign '(b, c, d, a, f, g, h, e) := sm3_round2 b c d a f g h e (t 31) u u' in
  assign u := w1 x 32 in assign '(x, u') := w2 x 36 in
  assign '(a, b, c, d, e, f, g, h) := sm3_round2 a b c d e f g h (t 32) u u' in
  assign u := w1 x 33 in assign '(x, u') := w2 x 37 in
  assign '(d, a, b, c, h, e, f, g) := sm3_round2 d a b c h e f g (t 33) u u' in
  assign u := w1 x 34 in assign '(x, u') := w2 x 38 in
  assign '(c, d, a, b, g, h, e, f) := sm3_round2 c d a b g h e f (t 34) u u' in
  assign u := w1 x 35 in assign '(x, u') := w2 x 39 in
  assign '(b, c, d, a, f, g, h, e) := sm3_round2 b c d a f g h e (t 35) u u' in
  assign u := w1 x 36 in assign '(x, u') := w2 x 40 in
  assign '(a, b, c, d, e, f, g, h) := sm3_round2 a b c d e f g h (t 36) u u' in
  assign u := w1 x 37 in assign '(x, u') := w2 x 41 in
  assign '(d, a, b, c, h, e, f, g) := sm3_round2 d a b c h e f g (t 37) u u' in
  assign u := w1 x 38 in assign '(x, u') := w2 x 42 in
  assign '(c, d, a, b, g, h, e, f) := sm3_round2 c d a b g h e f (t 38) u u' in
  assign u := w1 x 39 in assign '(x, u') := w2 x 43 in
  assign '(b, c, d, a, f, g, h, e) := sm3_round2 b c d a f g h e (t 39) u u' in
  assign u := w1 x 40 in assign '(x, u') := w2 x 44 in
  assign '(a, b, c, d, e, f, g, h) := sm3_round2 a b c d e f g h (t 40) u u' in
  assign u := w1 x 41 in assign '(x, u') := w2 x 45 in
  assign '(d, a, b, c, h, e, f, g) := sm3_round2 d a b c h e f g (t 41) u u' in
  assign u := w1 x 42 in assign '(x, u') := w2 x 46 in
  assign '(c, d, a, b, g, h, e, f) := sm3_round2 c d a b g h e f (t 42) u u' in
  assign u := w1 x 43 in assign '(x, u') := w2 x 47 in
  assign '(b, c, d, a, f, g, h, e) := sm3_round2 b c d a f g h e (t 43) u u' in
  assign u := w1 x 44 in assign '(x, u') := w2 x 48 in
  assign '(a, b, c, d, e, f, g, h) := sm3_round2 a b c d e f g h (t 44) u u' in
  assign u := w1 x 45 in assign '(x, u') := w2 x 49 in
  assign '(d, a, b, c, h, e, f, g) := sm3_round2 d a b c h e f g (t 45) u u' in
  assign u := w1 x 46 in assign '(x, u') := w2 x 50 in
  assign '(c, d, a, b, g, h, e, f) := sm3_round2 c d a b g h e f (t 46) u u' in
  assign u := w1 x 47 in assign '(x, u') := w2 x 51 in
  assign '(b, c, d, a, f, g, h, e) := sm3_round2 b c d a f g h e (t 47) u u' in
  assign u := w1 x 48 in assign '(x, u') := w2 x 52 in
  assign '(a, b, c, d, e, f, g, h) := sm3_round2 a b c d e f g h (t 48) u u' in
  assign u := w1 x 49 in assign '(x, u') := w2 x 53 in
  assign '(d, a, b, c, h, e, f, g) := sm3_round2 d a b c h e f g (t 49) u u' in
  assign u := w1 x 50 in assign '(x, u') := w2 x 54 in
  assign '(c, d, a, b, g, h, e, f) := sm3_round2 c d a b g h e f (t 50) u u' in
  assign u := w1 x 51 in assign '(x, u') := w2 x 55 in
  assign '(b, c, d, a, f, g, h, e) := sm3_round2 b c d a f g h e (t 51) u u' in
  assign u := w1 x 52 in assign '(x, u') := w2 x 56 in
  assign '(a, b, c, d, e, f, g, h) := sm3_round2 a b c d e f g h (t 52) u u' in
  assign u := w1 x 53 in assign '(x, u') := w2 x 57 in
  assign '(d, a, b, c, h, e, f, g) := sm3_round2 d a b c h e f g (t 53) u u' in
  assign u := w1 x 54 in assign '(x, u') := w2 x 58 in
  assign '(c, d, a, b, g, h, e, f) := sm3_round2 c d a b g h e f (t 54) u u' in
  assign u := w1 x 55 in assign '(x, u') := w2 x 59 in
  assign '(b, c, d, a, f, g, h, e) := sm3_round2 b c d a f g h e (t 55) u u' in
  assign u := w1 x 56 in assign '(x, u') := w2 x 60 in
  assign '(a, b, c, d, e, f, g, h) := sm3_round2 a b c d e f g h (t 56) u u' in
  assign u := w1 x 57 in assign '(x, u') := w2 x 61 in
  assign '(d, a, b, c, h, e, f, g) := sm3_round2 d a b c h e f g (t 57) u u' in
  assign u := w1 x 58 in assign '(x, u') := w2 x 62 in
  assign '(c, d, a, b, g, h, e, f) := sm3_round2 c d a b g h e f (t 58) u u' in
  assign u := w1 x 59 in assign '(x, u') := w2 x 63 in
  assign '(b, c, d, a, f, g, h, e) := sm3_round2 b c d a f g h e (t 59) u u' in
  assign u := w1 x 60 in assign '(x, u') := w2 x 64 in
  assign '(a, b, c, d, e, f, g, h) := sm3_round2 a b c d e f g h (t 60) u u' in
  assign u := w1 x 61 in assign '(x, u') := w2 x 65 in
  assign '(d, a, b, c, h, e, f, g) := sm3_round2 d a b c h e f g (t 61) u u' in
  assign u := w1 x 62 in assign '(x, u') := w2 x 66 in
  assign '(c, d, a, b, g, h, e, f) := sm3_round2 c d a b g h e f (t 62) u u' in
  assign u := w1 x 63 in assign '(x, u') := w2 x 67 in
  assign '(b, c, d, a, f, g, h, e) := sm3_round2 b c d a f g h e (t 63) u u' in
  [N.lxor (get state 0) a; N.lxor (get state 1) b; N.lxor (get state 2) c; N.lxor (get state 3) d;
   N.lxor (get state 4) e; N.lxor (get state 5) f; N.lxor (get state 6) g; N.lxor (get state 7) h].

(** compress.rs 238-246 *)
Definition compress_block (state : list N) (block : bytes) : list N :=
  compress_u32 state (words_of_be 4 block).
Definition compress (state : list N) (blocks : list bytes) : list N := fold_left compress_block blocks state.

(** ** Sm3Core (lib.rs 35-38) as (h, block_len) *)
Definition sm3_st := (list N * N)%type.
(** lib.rs 59-62 *)
Definition sm3_update (m : mode) (s : sm3_st) (blocks : list bytes) : option sm3_st :=
  let* block_len := cadd m 64 (snd s) (N.of_nat (length blocks)) in
  Some (compress (fst s) blocks, block_len).
(** lib.rs 67-76 *)
Definition sm3_finalize (m : mode) (s : sm3_st) (buffer : bytes) : option (bytes * sm3_st) :=
  let bs := 64 in
  let* t := cmul m 64 bs (snd s) in
  let* t := cadd m 64 (N.of_nat (length buffer)) t in
  let* bit_len := cmul m 64 8 t in
  let h := compress (fst s) (len64_padding_be 64 bit_len buffer) in
  Some (words_to_be 4 h, s).
(** lib.rs 121-149 *)
Definition sm3_codec : codec sm3_st := mkCodec 40 (ser_counted 4 8) (deser_counted 4 8).
(** lib.rs 41; 79-94 [Default], [Reset] *)
Definition Sm3 : core :=
  mkCore sm3_st 64 Eager (H0, 0) [] sm3_update sm3_finalize (fun _ => ((H0, 0), [])) (Some sm3_codec).
