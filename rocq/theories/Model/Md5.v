(** Model of the md5 crate: portable backend md5/src/compress/soft.rs and hasher
    md5/src/lib.rs. *)
From Verif Require Import Base.Words Base.Bytes Base.Codec Base.BlockBuffer Base.Digest.

(** md5/src/consts.rs 1-1: [STATE_INIT] *)
Definition STATE_INIT : list N :=
  [0x67452301; 0xefcdab89; 0x98badcfe; 0x10325476].
(** md5/src/consts.rs 3-16: [RC] *)
Definition RC : list N :=
  [0xd76aa478; 0xe8c7b756; 0x242070db; 0xc1bdceee; 0xf57c0faf; 0x4787c62a; 0xa8304613; 0xfd469501;
   0x698098d8; 0x8b44f7af; 0xffff5bb1; 0x895cd7be; 0x6b901122; 0xfd987193; 0xa679438e; 0x49b40821;
   0xf61e2562; 0xc040b340; 0x265e5a51; 0xe9b6c7aa; 0xd62f105d; 0x02441453; 0xd8a1e681; 0xe7d3fbc8;
   0x21e1cde6; 0xc33707d6; 0xf4d50d87; 0x455a14ed; 0xa9e3e905; 0xfcefa3f8; 0x676f02d9; 0x8d2a4c8a;
   0xfffa3942; 0x8771f681; 0x6d9d6122; 0xfde5380c; 0xa4beea44; 0x4bdecfa9; 0xf6bb4b60; 0xbebfbc70;
   0x289b7ec6; 0xeaa127fa; 0xd4ef3085; 0x04881d05; 0xd9d4d039; 0xe6db99e5; 0x1fa27cf8; 0xc4ac5665;
   0xf4292244; 0x432aff97; 0xab9423a7; 0xfc93a039; 0x655b59c3; 0x8f0ccc92; 0xffeff47d; 0x85845dd1;
   0x6fa87e4f; 0xfe2ce6e0; 0xa3014314; 0x4e0811a1; 0xf7537e82; 0xbd3af235; 0x2ad7d2bb; 0xeb86d391].

(** soft.rs 5-12 *)
Definition op_f (w x y z m c s : N) : N :=
  add32 (rotl32 (add32 (add32 (add32 (N.lor (N.land x y) (N.land (not32 x) z)) w) m) c) s) x.
(** soft.rs 14-21 *)
Definition op_g (w x y z m c s : N) : N :=
  add32 (rotl32 (add32 (add32 (add32 (N.lor (N.land x z) (N.land y (not32 z))) w) m) c) s) x.
(** soft.rs 24-31 *)
Definition op_h (w x y z m c s : N) : N :=
  add32 (rotl32 (add32 (add32 (add32 (N.lxor (N.lxor x y) z) w) m) c) s) x.
(** soft.rs 34-41 *)
Definition op_i (w x y z m c s : N) : N :=
  add32 (rotl32 (add32 (add32 (add32 (N.lxor y (N.lor x (not32 z))) w) m) c) s) x.

(** soft.rs 55-137: the 64 assignments of [compress_block] (generated from the source text) *)
Definition rounds (data : list N) (a b c d : N) : N * N * N * N :=
  assign a := op_f a b c d (get data 0) (get RC 0) 7 in
  assign d := op_f d a b c (get data 1) (get RC 1) 12 in
  assign c := op_f c d a b (get data 2) (get RC 2) 17 in
  assign b := op_f b c d a (get data 3) (get RC 3) 22 in
  assign a := op_f a b c d (get data 4) (get RC 4) 7 in
  assign d := op_f d a b c (get data 5) (get RC 5) 12 in
  assign c := op_f c d a b (get data 6) (get RC 6) 17 in
  assign b := op_f b c d a (get data 7) (get RC 7) 22 in
  assign a := op_f a b c d (get data 8) (get RC 8) 7 in
  assign d := op_f d a b c (get data 9) (get RC 9) 12 in
  assign c := op_f c d a b (get data 10) (get RC 10) 17 in
  assign b := op_f b c d a (get data 11) (get RC 11) 22 in
  assign a := op_f a b c d (get data 12) (get RC 12) 7 in
  assign d := op_f d a b c (get data 13) (get RC 13) 12 in
  assign c := op_f c d a b (get data 14) (get RC 14) 17 in
  assign b := op_f b c d a (get data 15) (get RC 15) 22 in
  assign a := op_g a b c d (get data 1) (get RC 16) 5 in
  assign d := op_g d a b c (get data 6) (get RC 17) 9 in
  assign c := op_g c d a b (get data 11) (get RC 18) 14 in
  assign b := op_g b c d a (get data 0) (get RC 19) 20 in
  assign a := op_g a b c d (get data 5) (get RC 20) 5 in
  assign d := op_g d a b c (get data 10) (get RC 21) 9 in
  assign c := op_g c d a b (get data 15) (get RC 22) 14 in
  assign b := op_g b c d a (get data 4) (get RC 23) 20 in
  assign a := op_g a b c d (get data 9) (get RC 24) 5 in
  assign d := op_g d a b c (get data 14) (get RC 25) 9 in
  assign c := op_g c d a b (get data 3) (get RC 26) 14 in
  assign b := op_g b c d a (get data 8) (get RC 27) 20 in
  assign a := op_g a b c d (get data 13) (get RC 28) 5 in
  assign d := op_g d a b c (get data 2) (get RC 29) 9 in
  assign c := op_g c d a b (get data 7) (get RC 30) 14 in
  assign b := op_g b c d a (get data 12) (get RC 31) 20 in
  assign a := op_h a b c d (get data 5) (get RC 32) 4 in
  assign d := op_h d a b c (get data 8) (get RC 33) 11 in
  assign c := op_h c d a b (get data 11) (get RC 34) 16 in
  assign b := op_h b c d a (get data 14) (get RC 35) 23 in
  assign a := op_h a b c d (get data 1) (get RC 36) 4 in
  assign d := op_h d a b c (get data 4) (get RC 37) 11 in
  assign c := op_h c d a b (get data 7) (get RC 38) 16 in
  assign b := op_h b c d a (get data 10) (get RC 39) 23 in
  assign a := op_h a b c d (get data 13) (get RC 40) 4 in
  assign d := op_h d a b c (get data 0) (get RC 41) 11 in
  assign c := op_h c d a b (get data 3) (get RC 42) 16 in
  assign b := op_h b c d a (get data 6) (get RC 43) 23 in
  assign a := op_h a b c d (get data 9) (get RC 44) 4 in
  assign d := op_h d a b c (get data 12) (get RC 45) 11 in
  assign c := op_h c d a b (get data 15) (get RC 46) 16 in
  assign b := op_h b c d a (get data 2) (get RC 47) 23 in
  assign a := op_i a b c d (get data 0) (get RC 48) 6 in
  assign d := op_i d a b c (get data 7) (get RC 49) 10 in
  assign c := op_i c d a b (get data 14) (get RC 50) 15 in
  assign b := op_i b c d a (get data 5) (get RC 51) 21 in
  assign a := op_i a b c d (get data 12) (get RC 52) 6 in
  assign d := op_i d a b c (get data 3) (get RC 53) 10 in
  assign c := op_i c d a b (get data 10) (get RC 54) 15 in
  assign b := op_i b c d a (get data 1) (get RC 55) 21 in
  assign a := op_i a b c d (get data 8) (get RC 56) 6 in
  assign d := op_i d a b c (get data 15) (get RC 57) 10 in
  assign c := op_i c d a b (get data 6) (get RC 58) 15 in
  assign b := op_i b c d a (get data 13) (get RC 59) 21 in
  assign a := op_i a b c d (get data 4) (get RC 60) 6 in
  assign d := op_i d a b c (get data 11) (get RC 61) 10 in
  assign c := op_i c d a b (get data 2) (get RC 62) 15 in
  assign b := op_i b c d a (get data 9) (get RC 63) 21 in
  (a, b, c, d).

(** soft.rs 44-143 *)
Definition compress_block (state : list N) (input : bytes) : list N :=
  let data := words_of_le 4 input in
  let '(a, b, c, d) := rounds data (get state 0) (get state 1) (get state 2) (get state 3) in
  [add32 (get state 0) a; add32 (get state 1) b; add32 (get state 2) c; add32 (get state 3) d].
(** soft.rs 146-150 *)
Definition compress (state : list N) (blocks : list bytes) : list N := fold_left compress_block blocks state.

(** ** Md5Core (lib.rs 35-38) as (state, block_len) *)
Definition md5_st := (list N * N)%type.
(** lib.rs 61-65: [wrapping_add] in every build *)
Definition md5_update (_ : mode) (s : md5_st) (blocks : list bytes) : option md5_st :=
  let* block_len := cadd Wrapping 64 (snd s) (N.of_nat (length blocks)) in
  Some (compress (fst s) blocks, block_len).
(** lib.rs 70-81 *)
Definition md5_finalize (_ : mode) (s : md5_st) (buffer : bytes) : option (bytes * md5_st) :=
  let bit_len := wmul 64 (wadd 64 (wmul 64 (snd s) 64) (N.of_nat (length buffer))) 8 in
  let h := compress (fst s) (len64_padding_le 64 bit_len buffer) in
  Some (words_to_le 4 h, s).
(** lib.rs 128-156 *)
Definition md5_codec : codec md5_st := mkCodec 24 (ser_counted 4 8) (deser_counted 4 4).
(** lib.rs 41; 84-99 [Default], [Reset] *)
Definition Md5 : core :=
  mkCore md5_st 64 Eager (STATE_INIT, 0) [] md5_update md5_finalize (fun _ => ((STATE_INIT, 0), [])) (Some md5_codec).
