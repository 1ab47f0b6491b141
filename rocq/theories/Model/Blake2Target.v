(** The blake2 crate on every target: byte order and vector code paths, which
    Model/Blake2.v leaves out; and the Tiger tables. *)
From Verif Require Import Base.Words Base.Bytes Base.BlockBuffer Base.Digest Spec.Target Model.Blake2.

Definition v4_of_list (l : list N) : v4 := (get l 0, get l 1, get l 2, get l 3).
Definition v4map (f : N -> N) (a : v4) : v4 := let '(a0, a1, a2, a3) := a in (f a0, f a1, f a2, f a3).

(** simd/simdint.rs 16-20 (platform intrinsics): lane [i] of the result is lane [idx i] of
    the two operands in a row.  All uses pass the same vector twice, and indices below its length. *)
Definition simd_shuffle (v : list N) (idx : list nat) : list N := map (get (v ++ v)) idx.
(** [transmute] of a vector of [k]-byte lanes into one of [j]-byte lanes: the same memory. *)
Definition transmute (e : endian) (k j : nat) (v : list N) : list N :=
  map (ne_val e) (chunks j (concat (map (ne_bytes e k) v))).
(** simd/simd_opt.rs 8-23 *)
Definition transmute_shuffle (e : endian) (k j : nat) (idx : list nat) (v : v4) : v4 :=
  v4_of_list (transmute e j k (simd_shuffle (transmute e k j (v4_list v)) idx)).

(** simd/simdop.rs 55-96 with feature simd: shifts by fewer bits than the lanes have *)
Definition vshl (w : N) (a : v4) (n : N) : v4 := v4map (fun x => wshl w x n) a.
Definition vshr (a : v4) (n : N) : v4 := v4map (fun x => N.shiftr x n) a.
(** simd_opt/u32x4.rs 26-32, simd_opt/u64x4.rs 27-33 *)
Definition rotate_right_any (w : N) (vec : v4) (n : N) : v4 := vxor (vshr vec n) (vshl w vec (w - n)).

(** simd_opt/u32x4.rs 34-52 *)
Definition rotate_right_16_32 (t : target) (vec : v4) : v4 :=
  if ssse3 t then transmute_shuffle (order t) 4 1 [2; 3; 0; 1; 6; 7; 4; 5; 10; 11; 8; 9; 14; 15; 12; 13]%nat vec
  else if sse2 t || neon t then transmute_shuffle (order t) 4 2 [1; 0; 3; 2; 5; 4; 7; 6]%nat vec
  else rotate_right_any 32 vec 16.
(** simd_opt/u32x4.rs 54-69 *)
Definition rotate_right_8_32 (t : target) (vec : v4) : v4 :=
  if ssse3 t then transmute_shuffle (order t) 4 1 [1; 2; 3; 0; 5; 6; 7; 4; 9; 10; 11; 8; 13; 14; 15; 12]%nat vec
  else rotate_right_any 32 vec 8.
(** simd_opt/u32x4.rs 10-24 *)
Definition rotate_right_const_32 (t : target) (vec : v4) (n : N) : v4 :=
  if simd_opt t then
    if n =? 16 then rotate_right_16_32 t vec else if n =? 8 then rotate_right_8_32 t vec else rotate_right_any 32 vec n
  else rotate_right_any 32 vec n.

(** simd_opt/u64x4.rs 35-44 *)
Definition rotate_right_32_64 (t : target) (vec : v4) : v4 :=
  if sse2 t || neon t then transmute_shuffle (order t) 8 4 [1; 0; 3; 2; 5; 4; 7; 6]%nat vec
  else rotate_right_any 64 vec 32.
(** simd_opt/u64x4.rs 110-134: [vext.8 d, d, d, #b] (Arm ARM, VEXT) on each 64-bit register:
    bytes b, b+1, ... of the operand twice in a row, byte 0 being the least significant one. *)
Definition vext (b : nat) (x : N) : N := le_val (skipn b (le_bytes 8 x) ++ firstn b (le_bytes 8 x)).
Definition rotate_right_vext (vec : v4) (b : nat) : v4 := v4map (vext b) vec.
(** simd_opt/u64x4.rs 46-72 *)
Definition rotate_right_24_64 (t : target) (vec : v4) : v4 :=
  if simd_asm t && neon t && arm t then rotate_right_vext vec 3
  else if ssse3 t then transmute_shuffle (order t) 8 1
    [3; 4; 5; 6; 7; 0; 1; 2; 11; 12; 13; 14; 15; 8; 9; 10; 19; 20; 21; 22; 23; 16; 17; 18; 27; 28; 29; 30; 31; 24; 25; 26]%nat vec
  else rotate_right_any 64 vec 24.
(** simd_opt/u64x4.rs 74-108 *)
Definition rotate_right_16_64 (t : target) (vec : v4) : v4 :=
  if simd_asm t && neon t && arm t then rotate_right_vext vec 2
  else if ssse3 t then transmute_shuffle (order t) 8 1
    [2; 3; 4; 5; 6; 7; 0; 1; 10; 11; 12; 13; 14; 15; 8; 9; 18; 19; 20; 21; 22; 23; 16; 17; 26; 27; 28; 29; 30; 31; 24; 25]%nat vec
  else if sse2 t then transmute_shuffle (order t) 8 2 [1; 2; 3; 0; 5; 6; 7; 4; 9; 10; 11; 8; 13; 14; 15; 12]%nat vec
  else rotate_right_any 64 vec 16.
(** simd_opt/u64x4.rs 10-25 *)
Definition rotate_right_const_64 (t : target) (vec : v4) (n : N) : v4 :=
  if simd_opt t then
    if n =? 32 then rotate_right_32_64 t vec else if n =? 24 then rotate_right_24_64 t vec
    else if n =? 16 then rotate_right_16_64 t vec else rotate_right_any 64 vec n
  else rotate_right_any 64 vec n.
(** simd_opt.rs 25-52: with and without feature simd *)
Definition rotate_right_const (t : target) (P : b2p) (n : N) (vec : v4) : v4 :=
  if simd t then if (wb P =? 4)%nat then rotate_right_const_32 t vec n else rotate_right_const_64 t vec n
  else vrotr (wbits P) n vec.

(** simd.rs 96-134: with and without feature simd *)
Definition shuffle_left (t : target) (idx : list nat) (plain : v4 -> v4) (vec : v4) : v4 :=
  if simd t then v4_of_list (simd_shuffle (v4_list vec) idx) else plain vec.
Definition shuffle_left_1_t (t : target) : v4 -> v4 := shuffle_left t [1; 2; 3; 0]%nat shuffle_left_1.
Definition shuffle_left_2_t (t : target) : v4 -> v4 := shuffle_left t [2; 3; 0; 1]%nat shuffle_left_2.
Definition shuffle_left_3_t (t : target) : v4 -> v4 := shuffle_left t [3; 0; 1; 2]%nat shuffle_left_3.
(** simd.rs 52-85 *)
Definition vfrom_le (t : target) (P : b2p) : v4 -> v4 := v4map (from_le (order t) (wb P)).
Definition vto_le (t : target) (P : b2p) : v4 -> v4 := v4map (from_le (order t) (wb P)).

(** macros.rs 108-115 *)
Definition quarter_round_t (t : target) (P : b2p) (v : v4 * v4 * v4 * v4) (rd rb : N) (m : v4) : v4 * v4 * v4 * v4 :=
  let '(a, b, c, d) := v in
  let a := vadd (wbits P) (vadd (wbits P) a b) (vfrom_le t P m) in
  let d := rotate_right_const t P rd (vxor d a) in
  let c := vadd (wbits P) c d in
  let b := rotate_right_const t P rb (vxor b c) in
  (a, b, c, d).
(** macros.rs 117-122 *)
Definition shuffle_t (t : target) (v : v4 * v4 * v4 * v4) : v4 * v4 * v4 * v4 :=
  let '(a, b, c, d) := v in (a, shuffle_left_1_t t b, shuffle_left_2_t t c, shuffle_left_3_t t d).
(** macros.rs 124-129, simd.rs 30-41 *)
Definition unshuffle_t (t : target) (v : v4 * v4 * v4 * v4) : v4 * v4 * v4 * v4 :=
  let '(a, b, c, d) := v in (a, shuffle_left_3_t t b, shuffle_left_2_t t c, shuffle_left_1_t t d).
(** macros.rs 131-140 *)
Definition round_t (t : target) (P : b2p) (m : list N) (v : v4 * v4 * v4 * v4) (s : list nat) : v4 * v4 * v4 * v4 :=
  let i j := nth j s 0%nat in
  let v := quarter_round_t t P v (ROT1 P) (ROT2 P) (gather m (i 0) (i 2) (i 4) (i 6))%nat in
  let v := quarter_round_t t P v (ROT3 P) (ROT4 P) (gather m (i 1) (i 3) (i 5) (i 7))%nat in
  let v := shuffle_t t v in
  let v := quarter_round_t t P v (ROT1 P) (ROT2 P) (gather m (i 8) (i 10) (i 12) (i 14))%nat in
  let v := quarter_round_t t P v (ROT3 P) (ROT4 P) (gather m (i 9) (i 11) (i 13) (i 15))%nat in
  unshuffle_t t v.
(** macros.rs 105-179; 142-145 is [from_ne_bytes] *)
Definition compress_t (tg : target) (P : b2p) (h : v4 * v4) (t : N) (block : bytes) (f0 f1 : N) : v4 * v4 :=
  let m := map (ne_val (order tg)) (chunks (wb P) block) in
  let t0 := t mod 2 ^ wbits P in
  let t1 := if (BYTES P =? 64)%nat then 0 else N.shiftr t 32 mod 2 ^ wbits P in
  let v := (fst h, snd h, iv0 P, vxor (iv1 P) (t0, t1, f0, f1)) in
  let rows := [0; 1; 2; 3; 4; 5; 6; 7; 8; 9]%nat ++ (if (BYTES P =? 64)%nat then [0; 1]%nat else []) in
  let '(a, b, c, d) := fold_left (round_t tg P m) (map (fun i => nth i SIGMA []) rows) v in
  (vxor (fst h) (vxor a c), vxor (snd h) (vxor b d)).
(** macros.rs 192-200 *)
Fixpoint update_blocks_t (tg : target) (P : b2p) (m : mode) (s : b2_st) (blocks : list bytes) : option b2_st :=
  match blocks with
  | [] => Some s
  | block :: rest =>
      let* t := cadd m 64 (b_t s) (N.of_nat (length block)) in
      update_blocks_t tg P m (mkB2 (compress_t tg P (b_h s) t block 0 0) t (b_h0 s)) rest
  end.
(** macros.rs 94-103, 218-227, as_bytes.rs 18-23: the memory of the two vectors *)
Definition finalize_variable_core_t (tg : target) (P : b2p) (m : mode) (s : b2_st) (buffer : bytes) : option (bytes * b2_st) :=
  let* t := cadd m 64 (b_t s) (N.of_nat (length buffer)) in
  let h := compress_t tg P (b_h s) t (pad_with_zeros (BLOCK P) buffer) (N.ones (wbits P)) 0 in
  let buf := v4_list (vto_le tg P (fst h)) ++ v4_list (vto_le tg P (snd h)) in
  Some (concat (map (ne_bytes (order tg) (wb P)) buf), mkB2 h t (b_h0 s)).
(** As [blake2_core] of Model/Blake2.v *)
Definition blake2_core_t (tg : target) (P : b2p) (ini : b2_st) (ibuf : bytes) (nn : nat) : core :=
  mkCore b2_st (BLOCK P) Lazy ini ibuf (update_blocks_t tg P)
    (fun m s buf => let* (out, s') := finalize_variable_core_t tg P m s buf in Some (firstn nn out, s'))
    (fun s => (core_reset s, ibuf)) None.

(** tiger/src/tables.rs 3-19: the tables from the bytes of tables.bin *)
Definition tiger_tables (e : endian) (file : bytes) : list (list N) :=
  let tables := chunks 256 (map (ne_val e) (chunks 8 file)) in
  match e with Little => tables | Big => map (map (swap_bytes 8)) tables end.
