(** Model of the jh crate (jh/src/compressor.rs, jh/src/lib.rs).  The vectors of ppv-lite86 are
    modelled as numbers: [u128x1] is a 128-bit word and [u128x2] a pair of them; see DESIGN.md for the
    contract assumed of that crate. *)
From Verif Require Import Base.Words Base.Bytes Base.Codec Base.BlockBuffer Base.Digest Model.JhTables.

(** ppv-lite86: lane-wise operations on [u128x2], and [swapK] (exchange adjacent K-bit groups) *)
Definition v2 := (N * N)%type.
Definition v2map2 (f : N -> N -> N) (a b : v2) : v2 := (f (fst a) (fst b), f (snd a) (snd b)).
Definition v2xor := v2map2 N.lxor.
Definition v2and := v2map2 N.land.
Definition v2or := v2map2 N.lor.
Definition v2not (a : v2) : v2 := (wnot 128 (fst a), wnot 128 (snd a)).
Definition v2andnot (a b : v2) : v2 := v2and (v2not a) b.
Definition swapmask (k : N) : N := (2 ^ 128 - 1) / (2 ^ k + 1).
Definition swap (k : N) (x : N) : N :=
  N.lor (wshl 128 (N.land x (swapmask k)) k) (N.land (N.shiftr x k) (swapmask k)).

(** compressor.rs 33-57: [X8::zip] and [X8::unzip]; 59-76: [ss] *)
Definition ss (y : list N) (k : v2) : list N :=
  let m0 := (get y 0, get y 1) in
  let m1 := (get y 2, get y 3) in
  let m2 := (get y 4, get y 5) in
  let m3 := (get y 6, get y 7) in
  let m3 := v2not m3 in
  let m0 := v2xor m0 (v2andnot m2 k) in
  let k := v2xor k (v2and m0 m1) in
  let m0 := v2xor m0 (v2and m3 m2) in
  let m3 := v2xor m3 (v2andnot m1 m2) in
  let m1 := v2xor m1 (v2and m0 m2) in
  let m2 := v2xor m2 (v2andnot m3 m0) in
  let m0 := v2xor m0 (v2or m1 m3) in
  let m3 := v2xor m3 (v2and m1 m2) in
  let m2 := v2xor m2 k in
  let m1 := v2xor m1 (v2and k m0) in
  [fst m0; snd m0; fst m1; snd m1; fst m2; snd m2; fst m3; snd m3].
(** compressor.rs 78-89 *)
Definition l (y : list N) : list N :=
  let y0 := get y 0 in let y1 := get y 1 in let y2 := get y 2 in let y3 := get y 3 in
  let y4 := get y 4 in let y5 := get y 5 in let y6 := get y 6 in let y7 := get y 7 in
  let y1 := N.lxor y1 y2 in
  let y3 := N.lxor y3 y4 in
  let y5 := N.lxor y5 (N.lxor y6 y0) in
  let y7 := N.lxor y7 y0 in
  let y0 := N.lxor y0 y3 in
  let y2 := N.lxor y2 y5 in
  let y4 := N.lxor y4 (N.lxor y7 y1) in
  let y6 := N.lxor y6 y1 in
  [y0; y1; y2; y3; y4; y5; y6; y7].
(** compressor.rs 118-132: one iteration of the unrolled loop body *)
Definition round (y : list N) (jrc : nat * v2) : list N :=
  let '(j, rc) := jrc in
  let y := ss y rc in
  let y := l y in
  let f := swap (2 ^ N.of_nat j) in
  [get y 0; f (get y 1); get y 2; f (get y 3); get y 4; f (get y 5); get y 6; f (get y 7)].
(** compressor.rs 96-150: [f8_impl], and 163-173: [Compressor::update].  [chunks_exact(7)] and [unroll7]
    run over the constants with j = 0, ..., 6 repeated. *)
Definition f8_impl (state : list N) (data : bytes) : list N :=
  let d := words_of_le 16 data in
  let y := map (fun i => if (i <? 4)%nat then N.lxor (get state i) (get d i) else get state i) (seq 0 8) in
  let y := fold_left (fun y rc => fold_left round (combine (seq 0 7) rc) y) (chunks 7 E8_BITSLICE_ROUNDCONSTANT) y in
  map (fun i => if (4 <=? i)%nat then N.lxor (get y i) (get d (i - 4)) else get y i) (seq 0 8).

(** [JhCore] (lib.rs 34-39): (state, block_len) *)
Definition jh_st := (list N * N)%type.
(** lib.rs 64-72 *)
Definition jh_update (m : mode) (s : jh_st) (blocks : list bytes) : option jh_st :=
  let block_len := wadd 64 (snd s) (N.of_nat (length blocks)) in
  Some (fold_left f8_impl blocks (fst s), block_len).
(** lib.rs 77-90; [None] is [Err(InvalidOutputSize)] *)
Definition var_new (output_size : nat) : option jh_st :=
  if (output_size =? 28)%nat then Some (JH224_H0, 0)
  else if (output_size =? 32)%nat then Some (JH256_H0, 0)
  else if (output_size =? 48)%nat then Some (JH384_H0, 0)
  else if (output_size =? 64)%nat then Some (JH512_H0, 0)
  else None.
(** lib.rs 92-106, compressor.rs 175-178; the wrapper of the digest crate keeps the last [k] bytes
    ([TruncSide::Right], line 75) *)
Definition jh_finalize (k : nat) (m : mode) (s : jh_st) (buffer : bytes) : option (bytes * jh_st) :=
  let '(state, block_len) := s in
  let bit_len := wmul 64 (wadd 64 (wmul 64 block_len 64) (N.of_nat (length buffer))) 8 in
  let state :=
    if (length buffer =? 0)%nat then fold_left f8_impl (len64_padding_be 64 bit_len buffer) state
    else
      let state := fold_left f8_impl (pad_blocks 64 0x80 [] buffer) state in
      fold_left f8_impl (pad_blocks 64 0 (be_bytes 8 bit_len) []) state in
  let out := skipn 64 (words_to_le 16 state) in
  Some (skipn (64 - k) out, (state, block_len)).
(** lib.rs 41-48 *)
Definition jh_core (h0 : list N) (k : nat) : core :=
  mkCore jh_st 64 Eager (h0, 0) [] jh_update (jh_finalize k) (fun _ => ((h0, 0), [])) None.
Definition Jh224 := jh_core JH224_H0 28.
Definition Jh256 := jh_core JH256_H0 32.
Definition Jh384 := jh_core JH384_H0 48.
Definition Jh512 := jh_core JH512_H0 64.
