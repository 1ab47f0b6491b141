(** Model of the whirlpool crate (whirlpool/src/compress.rs, whirlpool/src/lib.rs). *)
From Verif Require Import Base.Words Base.Bytes Base.Codec Base.BlockBuffer Base.Digest Model.WhirlpoolTables.

(** [T[x as usize]] *)
Definition look (T : list N) (x : N) : N := get T (N.to_nat x).
(** compress.rs 22-29 and 34-41: the table look-ups for row [i] *)
Definition row (k : list N) (i : nat) : N :=
  N.lxor (N.lxor (N.lxor (N.lxor (N.lxor (N.lxor (N.lxor
    (look C0 (N.land (get k (i mod 8)) 0xff))
    (look C1 (N.land (N.shiftr (get k ((7 + i) mod 8)) 8) 0xff)))
    (look C2 (N.land (N.shiftr (get k ((6 + i) mod 8)) 16) 0xff)))
    (look C3 (N.land (N.shiftr (get k ((5 + i) mod 8)) 24) 0xff)))
    (look C4 (N.land (N.shiftr (get k ((4 + i) mod 8)) 32) 0xff)))
    (look C5 (N.land (N.shiftr (get k ((3 + i) mod 8)) 40) 0xff)))
    (look C6 (N.land (N.shiftr (get k ((2 + i) mod 8)) 48) 0xff)))
    (look C7 (N.land (N.shiftr (get k ((1 + i) mod 8)) 56) 0xff)).
(** compress.rs 20-45: one iteration of the loop over [r], on ([k], [s]) *)
Definition round (ks : list N * list N) (r : nat) : list N * list N :=
  let k := map (fun i => N.lxor (row (fst ks) i) (if (i =? 0)%nat then get RC r else 0)) (seq 0 8) in
  (k, map (fun i => N.lxor (row (snd ks) i) (get k i)) (seq 0 8)).
(** compress.rs 3-49 *)
Definition compress_block (state : list N) (b : bytes) : list N :=
  let block := words_of_le 8 b in
  let k := state in
  let s := map (fun i => N.lxor (get block i) (get k i)) (seq 0 8) in
  let '(_, s) := fold_left round (seq 0 10) (k, s) in
  map (fun i => N.lxor (get state i) (N.lxor (get s i) (get block i))) (seq 0 8).
(** compress.rs 51-55 *)
Definition compress (state : list N) (blocks : list bytes) : list N := fold_left compress_block blocks state.

(** lib.rs 95-99: [adc], in [u128] arithmetic; the new value and the new carry *)
Definition adc (a b carry : N) : N * N :=
  let ret := a + b + carry in (ret mod 2 ^ 64, N.shiftr ret 64).
(** lib.rs 93-106 *)
Definition update_len (bit_len : list N) (len : N) : list N :=
  let '(b3, carry) := adc (get bit_len 3) len 0 in
  let '(b2, carry) := adc (get bit_len 2) 0 carry in
  let '(b1, carry) := adc (get bit_len 1) 0 carry in
  let '(b0, _) := adc (get bit_len 0) 0 carry in
  [b0; b1; b2; b3].

(** ** [WhirlpoolCore] (lib.rs 36-41) as (state, bit_len) *)
Definition wp_st := (list N * list N)%type.
(** lib.rs 61-66 *)
Definition wp_update (m : mode) (s : wp_st) (blocks : list bytes) : option wp_st :=
  let* len := cmul m 64 (8 * 64) (N.of_nat (length blocks)) in
  Some (compress (fst s) blocks, update_len (snd s) len).
(** lib.rs 71-88; the padding is compressed into a copy of the state *)
Definition wp_finalize (m : mode) (s : wp_st) (buffer : bytes) : option (bytes * wp_st) :=
  let* len := cmul m 64 8 (N.of_nat (length buffer)) in
  let bit_len := update_len (snd s) len in
  let buf := words_to_be 8 bit_len in
  let state := compress (fst s) (pad_blocks 64 0x80 buf buffer) in
  Some (words_to_le 8 state, (fst s, bit_len)).
(** lib.rs 149-189: 8 state words, then 4 length words, little-endian *)
Definition wp_codec : codec wp_st :=
  mkCodec 96 (fun s => words_to_le 8 (fst s) ++ words_to_le 8 (snd s))
    (fun b => Some (words_of_le 8 (firstn 64 b), words_of_le 8 (skipn 64 b))).
(** lib.rs 44, 108-127 *)
Definition Whirlpool : core :=
  let init := (repeat 0 8, repeat 0 4) in
  mkCore wp_st 64 Eager init [] wp_update wp_finalize (fun _ => (init, [])) (Some wp_codec).
