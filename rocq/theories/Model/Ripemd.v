(** Model of the ripemd crate: ripemd/src/c128.rs, c160.rs, c256.rs, c320.rs and
    the hasher macro of ripemd/src/lib.rs.  Generated by tools/gen_ripemd.py.
    Each macro line [roundN: h_ordering ..; data_index d; roll_shift s] is a data
    record, and each [$( round!(..); )*] repetition a fold over the records. *)
From Verif Require Import Base.Words Base.Bytes Base.Codec Base.BlockBuffer Base.Digest.

(** The third to last macro argument: Boolean functions of three registers, as
    they occur in c128.rs 51-92, c160.rs 52-110, c256.rs 60-108, c320.rs 64-127. *)
Definition bf1 (x y z : N) : N := N.lxor (N.lxor x y) z.
Definition bf2 (x y z : N) : N := N.lor (N.land x y) (N.land (not32 x) z).
Definition bf3 (x y z : N) : N := N.lxor (N.lor x (not32 y)) z.
Definition bf4 (x y z : N) : N := N.lor (N.land x z) (N.land y (not32 z)).
Definition bf5 (x y z : N) : N := N.lxor x (N.lor y (not32 z)).

(** A macro line: h_ordering, data_index, roll_shift *)
Definition line := (list nat * nat * N)%type.
Definition ord (o : list nat) (i : nat) : nat := nth i o 0%nat.
(** c128.rs 10-16 and c256.rs 20-26 *)
Definition round4 (w : list N) (f : N -> N -> N -> N) (add : N) (bb : list N) (l : line) : list N :=
  let '(o, d, s) := l in
  let r := f (get bb (ord o 1)) (get bb (ord o 2)) (get bb (ord o 3)) in
  let bb := upd bb (ord o 0) (add32 (add32 (add32 (get bb (ord o 0)) r) (get w d)) add) in
  upd bb (ord o 0) (rotl32 (get bb (ord o 0)) s).
(** c160.rs 16-23 and c320.rs 22-29 *)
Definition round5 (w : list N) (f : N -> N -> N -> N) (add : N) (bb : list N) (l : line) : list N :=
  let '(o, d, s) := l in
  let r := f (get bb (ord o 1)) (get bb (ord o 2)) (get bb (ord o 3)) in
  let bb := upd bb (ord o 0) (add32 (add32 (add32 (get bb (ord o 0)) r) (get w d)) add) in
  let bb := upd bb (ord o 0) (add32 (rotl32 (get bb (ord o 0)) s) (get bb (ord o 4))) in
  upd bb (ord o 2) (rotl32 (get bb (ord o 2)) 10).
(** c256.rs 28-31, c320.rs 31-34 [swap_idx] *)
Definition swap_idx (bb bbb : list N) (i : nat) : list N * list N :=
  (upd bb i (get bbb i), upd bbb i (get bb i)).

(** ** c128.rs *)
(** c128.rs 8: [H0] *)
Definition H0_128 : list N := [0x67452301; 0xefcdab89; 0x98badcfe; 0x10325476].
(** c128.rs 101-116 *)
Definition l1_128 : list line :=
  [([0; 1; 2; 3]%nat, 0%nat, 11);
   ([3; 0; 1; 2]%nat, 1%nat, 14);
   ([2; 3; 0; 1]%nat, 2%nat, 15);
   ([1; 2; 3; 0]%nat, 3%nat, 12);
   ([0; 1; 2; 3]%nat, 4%nat, 5);
   ([3; 0; 1; 2]%nat, 5%nat, 8);
   ([2; 3; 0; 1]%nat, 6%nat, 7);
   ([1; 2; 3; 0]%nat, 7%nat, 9);
   ([0; 1; 2; 3]%nat, 8%nat, 11);
   ([3; 0; 1; 2]%nat, 9%nat, 13);
   ([2; 3; 0; 1]%nat, 10%nat, 14);
   ([1; 2; 3; 0]%nat, 11%nat, 15);
   ([0; 1; 2; 3]%nat, 12%nat, 6);
   ([3; 0; 1; 2]%nat, 13%nat, 7);
   ([2; 3; 0; 1]%nat, 14%nat, 9);
   ([1; 2; 3; 0]%nat, 15%nat, 8)].
(** c128.rs 119-134 *)
Definition l2_128 : list line :=
  [([0; 1; 2; 3]%nat, 7%nat, 7);
   ([3; 0; 1; 2]%nat, 4%nat, 6);
   ([2; 3; 0; 1]%nat, 13%nat, 8);
   ([1; 2; 3; 0]%nat, 1%nat, 13);
   ([0; 1; 2; 3]%nat, 10%nat, 11);
   ([3; 0; 1; 2]%nat, 6%nat, 9);
   ([2; 3; 0; 1]%nat, 15%nat, 7);
   ([1; 2; 3; 0]%nat, 3%nat, 15);
   ([0; 1; 2; 3]%nat, 12%nat, 7);
   ([3; 0; 1; 2]%nat, 0%nat, 12);
   ([2; 3; 0; 1]%nat, 9%nat, 15);
   ([1; 2; 3; 0]%nat, 5%nat, 9);
   ([0; 1; 2; 3]%nat, 2%nat, 11);
   ([3; 0; 1; 2]%nat, 14%nat, 7);
   ([2; 3; 0; 1]%nat, 11%nat, 13);
   ([1; 2; 3; 0]%nat, 8%nat, 12)].
(** c128.rs 137-152 *)
Definition l3_128 : list line :=
  [([0; 1; 2; 3]%nat, 3%nat, 11);
   ([3; 0; 1; 2]%nat, 10%nat, 13);
   ([2; 3; 0; 1]%nat, 14%nat, 6);
   ([1; 2; 3; 0]%nat, 4%nat, 7);
   ([0; 1; 2; 3]%nat, 9%nat, 14);
   ([3; 0; 1; 2]%nat, 15%nat, 9);
   ([2; 3; 0; 1]%nat, 8%nat, 13);
   ([1; 2; 3; 0]%nat, 1%nat, 15);
   ([0; 1; 2; 3]%nat, 2%nat, 14);
   ([3; 0; 1; 2]%nat, 7%nat, 8);
   ([2; 3; 0; 1]%nat, 0%nat, 13);
   ([1; 2; 3; 0]%nat, 6%nat, 6);
   ([0; 1; 2; 3]%nat, 13%nat, 5);
   ([3; 0; 1; 2]%nat, 11%nat, 12);
   ([2; 3; 0; 1]%nat, 5%nat, 7);
   ([1; 2; 3; 0]%nat, 12%nat, 5)].
(** c128.rs 155-170 *)
Definition l4_128 : list line :=
  [([0; 1; 2; 3]%nat, 1%nat, 11);
   ([3; 0; 1; 2]%nat, 9%nat, 12);
   ([2; 3; 0; 1]%nat, 11%nat, 14);
   ([1; 2; 3; 0]%nat, 10%nat, 15);
   ([0; 1; 2; 3]%nat, 0%nat, 14);
   ([3; 0; 1; 2]%nat, 8%nat, 15);
   ([2; 3; 0; 1]%nat, 12%nat, 9);
   ([1; 2; 3; 0]%nat, 4%nat, 8);
   ([0; 1; 2; 3]%nat, 13%nat, 9);
   ([3; 0; 1; 2]%nat, 3%nat, 14);
   ([2; 3; 0; 1]%nat, 7%nat, 5);
   ([1; 2; 3; 0]%nat, 15%nat, 6);
   ([0; 1; 2; 3]%nat, 14%nat, 8);
   ([3; 0; 1; 2]%nat, 5%nat, 6);
   ([2; 3; 0; 1]%nat, 6%nat, 5);
   ([1; 2; 3; 0]%nat, 2%nat, 12)].
(** c128.rs 173-188 *)
Definition r1_128 : list line :=
  [([0; 1; 2; 3]%nat, 5%nat, 8);
   ([3; 0; 1; 2]%nat, 14%nat, 9);
   ([2; 3; 0; 1]%nat, 7%nat, 9);
   ([1; 2; 3; 0]%nat, 0%nat, 11);
   ([0; 1; 2; 3]%nat, 9%nat, 13);
   ([3; 0; 1; 2]%nat, 2%nat, 15);
   ([2; 3; 0; 1]%nat, 11%nat, 15);
   ([1; 2; 3; 0]%nat, 4%nat, 5);
   ([0; 1; 2; 3]%nat, 13%nat, 7);
   ([3; 0; 1; 2]%nat, 6%nat, 7);
   ([2; 3; 0; 1]%nat, 15%nat, 8);
   ([1; 2; 3; 0]%nat, 8%nat, 11);
   ([0; 1; 2; 3]%nat, 1%nat, 14);
   ([3; 0; 1; 2]%nat, 10%nat, 14);
   ([2; 3; 0; 1]%nat, 3%nat, 12);
   ([1; 2; 3; 0]%nat, 12%nat, 6)].
(** c128.rs 191-206 *)
Definition r2_128 : list line :=
  [([0; 1; 2; 3]%nat, 6%nat, 9);
   ([3; 0; 1; 2]%nat, 11%nat, 13);
   ([2; 3; 0; 1]%nat, 3%nat, 15);
   ([1; 2; 3; 0]%nat, 7%nat, 7);
   ([0; 1; 2; 3]%nat, 0%nat, 12);
   ([3; 0; 1; 2]%nat, 13%nat, 8);
   ([2; 3; 0; 1]%nat, 5%nat, 9);
   ([1; 2; 3; 0]%nat, 10%nat, 11);
   ([0; 1; 2; 3]%nat, 14%nat, 7);
   ([3; 0; 1; 2]%nat, 15%nat, 7);
   ([2; 3; 0; 1]%nat, 8%nat, 12);
   ([1; 2; 3; 0]%nat, 12%nat, 7);
   ([0; 1; 2; 3]%nat, 4%nat, 6);
   ([3; 0; 1; 2]%nat, 9%nat, 15);
   ([2; 3; 0; 1]%nat, 1%nat, 13);
   ([1; 2; 3; 0]%nat, 2%nat, 11)].
(** c128.rs 209-224 *)
Definition r3_128 : list line :=
  [([0; 1; 2; 3]%nat, 15%nat, 9);
   ([3; 0; 1; 2]%nat, 5%nat, 7);
   ([2; 3; 0; 1]%nat, 1%nat, 15);
   ([1; 2; 3; 0]%nat, 3%nat, 11);
   ([0; 1; 2; 3]%nat, 7%nat, 8);
   ([3; 0; 1; 2]%nat, 14%nat, 6);
   ([2; 3; 0; 1]%nat, 6%nat, 6);
   ([1; 2; 3; 0]%nat, 9%nat, 14);
   ([0; 1; 2; 3]%nat, 11%nat, 12);
   ([3; 0; 1; 2]%nat, 8%nat, 13);
   ([2; 3; 0; 1]%nat, 12%nat, 5);
   ([1; 2; 3; 0]%nat, 2%nat, 14);
   ([0; 1; 2; 3]%nat, 10%nat, 13);
   ([3; 0; 1; 2]%nat, 0%nat, 13);
   ([2; 3; 0; 1]%nat, 4%nat, 7);
   ([1; 2; 3; 0]%nat, 13%nat, 5)].
(** c128.rs 227-242 *)
Definition r4_128 : list line :=
  [([0; 1; 2; 3]%nat, 8%nat, 15);
   ([3; 0; 1; 2]%nat, 6%nat, 5);
   ([2; 3; 0; 1]%nat, 4%nat, 8);
   ([1; 2; 3; 0]%nat, 1%nat, 11);
   ([0; 1; 2; 3]%nat, 3%nat, 14);
   ([3; 0; 1; 2]%nat, 11%nat, 14);
   ([2; 3; 0; 1]%nat, 15%nat, 6);
   ([1; 2; 3; 0]%nat, 0%nat, 14);
   ([0; 1; 2; 3]%nat, 5%nat, 6);
   ([3; 0; 1; 2]%nat, 12%nat, 9);
   ([2; 3; 0; 1]%nat, 2%nat, 12);
   ([1; 2; 3; 0]%nat, 13%nat, 9);
   ([0; 1; 2; 3]%nat, 9%nat, 12);
   ([3; 0; 1; 2]%nat, 7%nat, 5);
   ([2; 3; 0; 1]%nat, 10%nat, 15);
   ([1; 2; 3; 0]%nat, 14%nat, 8)].
(** c128.rs 36-91: body of [process_block]; 94-98: loading the words *)
Definition process_128 (h w : list N) : list N :=
  assign bb := h in
  assign bbb := h in
  assign bb := fold_left (round4 w bf1 0x00000000) l1_128 bb in
  assign bb := fold_left (round4 w bf2 0x5a827999) l2_128 bb in
  assign bb := fold_left (round4 w bf3 0x6ed9eba1) l3_128 bb in
  assign bb := fold_left (round4 w bf4 0x8f1bbcdc) l4_128 bb in
  assign bbb := fold_left (round4 w bf4 0x50a28be6) r1_128 bbb in
  assign bbb := fold_left (round4 w bf3 0x5c4dd124) r2_128 bbb in
  assign bbb := fold_left (round4 w bf2 0x6d703ef3) r3_128 bbb in
  assign bbb := fold_left (round4 w bf1 0x00000000) r4_128 bbb in
  let bbb := upd bbb 3 (add32 (add32 (get bbb 3) (get h 1)) (get bb 2)) in
  [get bbb 3; add32 (add32 (get h 2) (get bb 3)) (get bbb 0);
   add32 (add32 (get h 3) (get bb 0)) (get bbb 1); add32 (add32 (get h 0) (get bb 1)) (get bbb 2)].
(** c128.rs 94 ff. *)
Definition compress_128 (h : list N) (data : bytes) : list N := process_128 h (words_of_le 4 data).
(** ** c160.rs *)
(** c160.rs 8: [H0] *)
Definition H0_160 : list N := [0x67452301; 0xefcdab89; 0x98badcfe; 0x10325476; 0xc3d2e1f0].
(** c160.rs 123-138 *)
Definition l1_160 : list line :=
  [([0; 1; 2; 3; 4]%nat, 0%nat, 11);
   ([4; 0; 1; 2; 3]%nat, 1%nat, 14);
   ([3; 4; 0; 1; 2]%nat, 2%nat, 15);
   ([2; 3; 4; 0; 1]%nat, 3%nat, 12);
   ([1; 2; 3; 4; 0]%nat, 4%nat, 5);
   ([0; 1; 2; 3; 4]%nat, 5%nat, 8);
   ([4; 0; 1; 2; 3]%nat, 6%nat, 7);
   ([3; 4; 0; 1; 2]%nat, 7%nat, 9);
   ([2; 3; 4; 0; 1]%nat, 8%nat, 11);
   ([1; 2; 3; 4; 0]%nat, 9%nat, 13);
   ([0; 1; 2; 3; 4]%nat, 10%nat, 14);
   ([4; 0; 1; 2; 3]%nat, 11%nat, 15);
   ([3; 4; 0; 1; 2]%nat, 12%nat, 6);
   ([2; 3; 4; 0; 1]%nat, 13%nat, 7);
   ([1; 2; 3; 4; 0]%nat, 14%nat, 9);
   ([0; 1; 2; 3; 4]%nat, 15%nat, 8)].
(** c160.rs 141-156 *)
Definition l2_160 : list line :=
  [([4; 0; 1; 2; 3]%nat, 7%nat, 7);
   ([3; 4; 0; 1; 2]%nat, 4%nat, 6);
   ([2; 3; 4; 0; 1]%nat, 13%nat, 8);
   ([1; 2; 3; 4; 0]%nat, 1%nat, 13);
   ([0; 1; 2; 3; 4]%nat, 10%nat, 11);
   ([4; 0; 1; 2; 3]%nat, 6%nat, 9);
   ([3; 4; 0; 1; 2]%nat, 15%nat, 7);
   ([2; 3; 4; 0; 1]%nat, 3%nat, 15);
   ([1; 2; 3; 4; 0]%nat, 12%nat, 7);
   ([0; 1; 2; 3; 4]%nat, 0%nat, 12);
   ([4; 0; 1; 2; 3]%nat, 9%nat, 15);
   ([3; 4; 0; 1; 2]%nat, 5%nat, 9);
   ([2; 3; 4; 0; 1]%nat, 2%nat, 11);
   ([1; 2; 3; 4; 0]%nat, 14%nat, 7);
   ([0; 1; 2; 3; 4]%nat, 11%nat, 13);
   ([4; 0; 1; 2; 3]%nat, 8%nat, 12)].
(** c160.rs 159-174 *)
Definition l3_160 : list line :=
  [([3; 4; 0; 1; 2]%nat, 3%nat, 11);
   ([2; 3; 4; 0; 1]%nat, 10%nat, 13);
   ([1; 2; 3; 4; 0]%nat, 14%nat, 6);
   ([0; 1; 2; 3; 4]%nat, 4%nat, 7);
   ([4; 0; 1; 2; 3]%nat, 9%nat, 14);
   ([3; 4; 0; 1; 2]%nat, 15%nat, 9);
   ([2; 3; 4; 0; 1]%nat, 8%nat, 13);
   ([1; 2; 3; 4; 0]%nat, 1%nat, 15);
   ([0; 1; 2; 3; 4]%nat, 2%nat, 14);
   ([4; 0; 1; 2; 3]%nat, 7%nat, 8);
   ([3; 4; 0; 1; 2]%nat, 0%nat, 13);
   ([2; 3; 4; 0; 1]%nat, 6%nat, 6);
   ([1; 2; 3; 4; 0]%nat, 13%nat, 5);
   ([0; 1; 2; 3; 4]%nat, 11%nat, 12);
   ([4; 0; 1; 2; 3]%nat, 5%nat, 7);
   ([3; 4; 0; 1; 2]%nat, 12%nat, 5)].
(** c160.rs 177-192 *)
Definition l4_160 : list line :=
  [([2; 3; 4; 0; 1]%nat, 1%nat, 11);
   ([1; 2; 3; 4; 0]%nat, 9%nat, 12);
   ([0; 1; 2; 3; 4]%nat, 11%nat, 14);
   ([4; 0; 1; 2; 3]%nat, 10%nat, 15);
   ([3; 4; 0; 1; 2]%nat, 0%nat, 14);
   ([2; 3; 4; 0; 1]%nat, 8%nat, 15);
   ([1; 2; 3; 4; 0]%nat, 12%nat, 9);
   ([0; 1; 2; 3; 4]%nat, 4%nat, 8);
   ([4; 0; 1; 2; 3]%nat, 13%nat, 9);
   ([3; 4; 0; 1; 2]%nat, 3%nat, 14);
   ([2; 3; 4; 0; 1]%nat, 7%nat, 5);
   ([1; 2; 3; 4; 0]%nat, 15%nat, 6);
   ([0; 1; 2; 3; 4]%nat, 14%nat, 8);
   ([4; 0; 1; 2; 3]%nat, 5%nat, 6);
   ([3; 4; 0; 1; 2]%nat, 6%nat, 5);
   ([2; 3; 4; 0; 1]%nat, 2%nat, 12)].
(** c160.rs 195-210 *)
Definition l5_160 : list line :=
  [([1; 2; 3; 4; 0]%nat, 4%nat, 9);
   ([0; 1; 2; 3; 4]%nat, 0%nat, 15);
   ([4; 0; 1; 2; 3]%nat, 5%nat, 5);
   ([3; 4; 0; 1; 2]%nat, 9%nat, 11);
   ([2; 3; 4; 0; 1]%nat, 7%nat, 6);
   ([1; 2; 3; 4; 0]%nat, 12%nat, 8);
   ([0; 1; 2; 3; 4]%nat, 2%nat, 13);
   ([4; 0; 1; 2; 3]%nat, 10%nat, 12);
   ([3; 4; 0; 1; 2]%nat, 14%nat, 5);
   ([2; 3; 4; 0; 1]%nat, 1%nat, 12);
   ([1; 2; 3; 4; 0]%nat, 3%nat, 13);
   ([0; 1; 2; 3; 4]%nat, 8%nat, 14);
   ([4; 0; 1; 2; 3]%nat, 11%nat, 11);
   ([3; 4; 0; 1; 2]%nat, 6%nat, 8);
   ([2; 3; 4; 0; 1]%nat, 15%nat, 5);
   ([1; 2; 3; 4; 0]%nat, 13%nat, 6)].
(** c160.rs 213-228 *)
Definition r1_160 : list line :=
  [([0; 1; 2; 3; 4]%nat, 5%nat, 8);
   ([4; 0; 1; 2; 3]%nat, 14%nat, 9);
   ([3; 4; 0; 1; 2]%nat, 7%nat, 9);
   ([2; 3; 4; 0; 1]%nat, 0%nat, 11);
   ([1; 2; 3; 4; 0]%nat, 9%nat, 13);
   ([0; 1; 2; 3; 4]%nat, 2%nat, 15);
   ([4; 0; 1; 2; 3]%nat, 11%nat, 15);
   ([3; 4; 0; 1; 2]%nat, 4%nat, 5);
   ([2; 3; 4; 0; 1]%nat, 13%nat, 7);
   ([1; 2; 3; 4; 0]%nat, 6%nat, 7);
   ([0; 1; 2; 3; 4]%nat, 15%nat, 8);
   ([4; 0; 1; 2; 3]%nat, 8%nat, 11);
   ([3; 4; 0; 1; 2]%nat, 1%nat, 14);
   ([2; 3; 4; 0; 1]%nat, 10%nat, 14);
   ([1; 2; 3; 4; 0]%nat, 3%nat, 12);
   ([0; 1; 2; 3; 4]%nat, 12%nat, 6)].
(** c160.rs 231-246 *)
Definition r2_160 : list line :=
  [([4; 0; 1; 2; 3]%nat, 6%nat, 9);
   ([3; 4; 0; 1; 2]%nat, 11%nat, 13);
   ([2; 3; 4; 0; 1]%nat, 3%nat, 15);
   ([1; 2; 3; 4; 0]%nat, 7%nat, 7);
   ([0; 1; 2; 3; 4]%nat, 0%nat, 12);
   ([4; 0; 1; 2; 3]%nat, 13%nat, 8);
   ([3; 4; 0; 1; 2]%nat, 5%nat, 9);
   ([2; 3; 4; 0; 1]%nat, 10%nat, 11);
   ([1; 2; 3; 4; 0]%nat, 14%nat, 7);
   ([0; 1; 2; 3; 4]%nat, 15%nat, 7);
   ([4; 0; 1; 2; 3]%nat, 8%nat, 12);
   ([3; 4; 0; 1; 2]%nat, 12%nat, 7);
   ([2; 3; 4; 0; 1]%nat, 4%nat, 6);
   ([1; 2; 3; 4; 0]%nat, 9%nat, 15);
   ([0; 1; 2; 3; 4]%nat, 1%nat, 13);
   ([4; 0; 1; 2; 3]%nat, 2%nat, 11)].
(** c160.rs 249-264 *)
Definition r3_160 : list line :=
  [([3; 4; 0; 1; 2]%nat, 15%nat, 9);
   ([2; 3; 4; 0; 1]%nat, 5%nat, 7);
   ([1; 2; 3; 4; 0]%nat, 1%nat, 15);
   ([0; 1; 2; 3; 4]%nat, 3%nat, 11);
   ([4; 0; 1; 2; 3]%nat, 7%nat, 8);
   ([3; 4; 0; 1; 2]%nat, 14%nat, 6);
   ([2; 3; 4; 0; 1]%nat, 6%nat, 6);
   ([1; 2; 3; 4; 0]%nat, 9%nat, 14);
   ([0; 1; 2; 3; 4]%nat, 11%nat, 12);
   ([4; 0; 1; 2; 3]%nat, 8%nat, 13);
   ([3; 4; 0; 1; 2]%nat, 12%nat, 5);
   ([2; 3; 4; 0; 1]%nat, 2%nat, 14);
   ([1; 2; 3; 4; 0]%nat, 10%nat, 13);
   ([0; 1; 2; 3; 4]%nat, 0%nat, 13);
   ([4; 0; 1; 2; 3]%nat, 4%nat, 7);
   ([3; 4; 0; 1; 2]%nat, 13%nat, 5)].
(** c160.rs 267-282 *)
Definition r4_160 : list line :=
  [([2; 3; 4; 0; 1]%nat, 8%nat, 15);
   ([1; 2; 3; 4; 0]%nat, 6%nat, 5);
   ([0; 1; 2; 3; 4]%nat, 4%nat, 8);
   ([4; 0; 1; 2; 3]%nat, 1%nat, 11);
   ([3; 4; 0; 1; 2]%nat, 3%nat, 14);
   ([2; 3; 4; 0; 1]%nat, 11%nat, 14);
   ([1; 2; 3; 4; 0]%nat, 15%nat, 6);
   ([0; 1; 2; 3; 4]%nat, 0%nat, 14);
   ([4; 0; 1; 2; 3]%nat, 5%nat, 6);
   ([3; 4; 0; 1; 2]%nat, 12%nat, 9);
   ([2; 3; 4; 0; 1]%nat, 2%nat, 12);
   ([1; 2; 3; 4; 0]%nat, 13%nat, 9);
   ([0; 1; 2; 3; 4]%nat, 9%nat, 12);
   ([4; 0; 1; 2; 3]%nat, 7%nat, 5);
   ([3; 4; 0; 1; 2]%nat, 10%nat, 15);
   ([2; 3; 4; 0; 1]%nat, 14%nat, 8)].
(** c160.rs 285-300 *)
Definition r5_160 : list line :=
  [([1; 2; 3; 4; 0]%nat, 12%nat, 8);
   ([0; 1; 2; 3; 4]%nat, 15%nat, 5);
   ([4; 0; 1; 2; 3]%nat, 10%nat, 12);
   ([3; 4; 0; 1; 2]%nat, 4%nat, 9);
   ([2; 3; 4; 0; 1]%nat, 1%nat, 12);
   ([1; 2; 3; 4; 0]%nat, 5%nat, 5);
   ([0; 1; 2; 3; 4]%nat, 8%nat, 14);
   ([4; 0; 1; 2; 3]%nat, 7%nat, 6);
   ([3; 4; 0; 1; 2]%nat, 6%nat, 8);
   ([2; 3; 4; 0; 1]%nat, 2%nat, 13);
   ([1; 2; 3; 4; 0]%nat, 13%nat, 6);
   ([0; 1; 2; 3; 4]%nat, 14%nat, 5);
   ([4; 0; 1; 2; 3]%nat, 0%nat, 15);
   ([3; 4; 0; 1; 2]%nat, 3%nat, 13);
   ([2; 3; 4; 0; 1]%nat, 9%nat, 11);
   ([1; 2; 3; 4; 0]%nat, 11%nat, 11)].
(** c160.rs 47-113: body of [process_block]; 116-120: loading the words *)
Definition process_160 (h w : list N) : list N :=
  assign bb := h in
  assign bbb := h in
  assign bb := fold_left (round5 w bf1 0x00000000) l1_160 bb in
  assign bb := fold_left (round5 w bf2 0x5a827999) l2_160 bb in
  assign bb := fold_left (round5 w bf3 0x6ed9eba1) l3_160 bb in
  assign bb := fold_left (round5 w bf4 0x8f1bbcdc) l4_160 bb in
  assign bb := fold_left (round5 w bf5 0xa953fd4e) l5_160 bb in
  assign bbb := fold_left (round5 w bf5 0x50a28be6) r1_160 bbb in
  assign bbb := fold_left (round5 w bf4 0x5c4dd124) r2_160 bbb in
  assign bbb := fold_left (round5 w bf3 0x6d703ef3) r3_160 bbb in
  assign bbb := fold_left (round5 w bf2 0x7a6d76e9) r4_160 bbb in
  assign bbb := fold_left (round5 w bf1 0x00000000) r5_160 bbb in
  let bbb := upd bbb 3 (add32 (add32 (get bbb 3) (get h 1)) (get bb 2)) in
  [get bbb 3; add32 (add32 (get h 2) (get bb 3)) (get bbb 4);
   add32 (add32 (get h 3) (get bb 4)) (get bbb 0); add32 (add32 (get h 4) (get bb 0)) (get bbb 1);
   add32 (add32 (get h 0) (get bb 1)) (get bbb 2)].
(** c160.rs 116 ff. *)
Definition compress_160 (h : list N) (data : bytes) : list N := process_160 h (words_of_le 4 data).
(** ** c256.rs *)
(** c256.rs 9: [H0] *)
Definition H0_256 : list N := [0x67452301; 0xefcdab89; 0x98badcfe; 0x10325476; 0x76543210; 0xfedcba98; 0x89abcdef; 0x01234567].
(** c256.rs 132-147 *)
Definition l1_256 : list line :=
  [([0; 1; 2; 3]%nat, 0%nat, 11);
   ([3; 0; 1; 2]%nat, 1%nat, 14);
   ([2; 3; 0; 1]%nat, 2%nat, 15);
   ([1; 2; 3; 0]%nat, 3%nat, 12);
   ([0; 1; 2; 3]%nat, 4%nat, 5);
   ([3; 0; 1; 2]%nat, 5%nat, 8);
   ([2; 3; 0; 1]%nat, 6%nat, 7);
   ([1; 2; 3; 0]%nat, 7%nat, 9);
   ([0; 1; 2; 3]%nat, 8%nat, 11);
   ([3; 0; 1; 2]%nat, 9%nat, 13);
   ([2; 3; 0; 1]%nat, 10%nat, 14);
   ([1; 2; 3; 0]%nat, 11%nat, 15);
   ([0; 1; 2; 3]%nat, 12%nat, 6);
   ([3; 0; 1; 2]%nat, 13%nat, 7);
   ([2; 3; 0; 1]%nat, 14%nat, 9);
   ([1; 2; 3; 0]%nat, 15%nat, 8)].
(** c256.rs 150-165 *)
Definition l2_256 : list line :=
  [([0; 1; 2; 3]%nat, 7%nat, 7);
   ([3; 0; 1; 2]%nat, 4%nat, 6);
   ([2; 3; 0; 1]%nat, 13%nat, 8);
   ([1; 2; 3; 0]%nat, 1%nat, 13);
   ([0; 1; 2; 3]%nat, 10%nat, 11);
   ([3; 0; 1; 2]%nat, 6%nat, 9);
   ([2; 3; 0; 1]%nat, 15%nat, 7);
   ([1; 2; 3; 0]%nat, 3%nat, 15);
   ([0; 1; 2; 3]%nat, 12%nat, 7);
   ([3; 0; 1; 2]%nat, 0%nat, 12);
   ([2; 3; 0; 1]%nat, 9%nat, 15);
   ([1; 2; 3; 0]%nat, 5%nat, 9);
   ([0; 1; 2; 3]%nat, 2%nat, 11);
   ([3; 0; 1; 2]%nat, 14%nat, 7);
   ([2; 3; 0; 1]%nat, 11%nat, 13);
   ([1; 2; 3; 0]%nat, 8%nat, 12)].
(** c256.rs 168-183 *)
Definition l3_256 : list line :=
  [([0; 1; 2; 3]%nat, 3%nat, 11);
   ([3; 0; 1; 2]%nat, 10%nat, 13);
   ([2; 3; 0; 1]%nat, 14%nat, 6);
   ([1; 2; 3; 0]%nat, 4%nat, 7);
   ([0; 1; 2; 3]%nat, 9%nat, 14);
   ([3; 0; 1; 2]%nat, 15%nat, 9);
   ([2; 3; 0; 1]%nat, 8%nat, 13);
   ([1; 2; 3; 0]%nat, 1%nat, 15);
   ([0; 1; 2; 3]%nat, 2%nat, 14);
   ([3; 0; 1; 2]%nat, 7%nat, 8);
   ([2; 3; 0; 1]%nat, 0%nat, 13);
   ([1; 2; 3; 0]%nat, 6%nat, 6);
   ([0; 1; 2; 3]%nat, 13%nat, 5);
   ([3; 0; 1; 2]%nat, 11%nat, 12);
   ([2; 3; 0; 1]%nat, 5%nat, 7);
   ([1; 2; 3; 0]%nat, 12%nat, 5)].
(** c256.rs 186-201 *)
Definition l4_256 : list line :=
  [([0; 1; 2; 3]%nat, 1%nat, 11);
   ([3; 0; 1; 2]%nat, 9%nat, 12);
   ([2; 3; 0; 1]%nat, 11%nat, 14);
   ([1; 2; 3; 0]%nat, 10%nat, 15);
   ([0; 1; 2; 3]%nat, 0%nat, 14);
   ([3; 0; 1; 2]%nat, 8%nat, 15);
   ([2; 3; 0; 1]%nat, 12%nat, 9);
   ([1; 2; 3; 0]%nat, 4%nat, 8);
   ([0; 1; 2; 3]%nat, 13%nat, 9);
   ([3; 0; 1; 2]%nat, 3%nat, 14);
   ([2; 3; 0; 1]%nat, 7%nat, 5);
   ([1; 2; 3; 0]%nat, 15%nat, 6);
   ([0; 1; 2; 3]%nat, 14%nat, 8);
   ([3; 0; 1; 2]%nat, 5%nat, 6);
   ([2; 3; 0; 1]%nat, 6%nat, 5);
   ([1; 2; 3; 0]%nat, 2%nat, 12)].
(** c256.rs 204-219 *)
Definition r1_256 : list line :=
  [([0; 1; 2; 3]%nat, 5%nat, 8);
   ([3; 0; 1; 2]%nat, 14%nat, 9);
   ([2; 3; 0; 1]%nat, 7%nat, 9);
   ([1; 2; 3; 0]%nat, 0%nat, 11);
   ([0; 1; 2; 3]%nat, 9%nat, 13);
   ([3; 0; 1; 2]%nat, 2%nat, 15);
   ([2; 3; 0; 1]%nat, 11%nat, 15);
   ([1; 2; 3; 0]%nat, 4%nat, 5);
   ([0; 1; 2; 3]%nat, 13%nat, 7);
   ([3; 0; 1; 2]%nat, 6%nat, 7);
   ([2; 3; 0; 1]%nat, 15%nat, 8);
   ([1; 2; 3; 0]%nat, 8%nat, 11);
   ([0; 1; 2; 3]%nat, 1%nat, 14);
   ([3; 0; 1; 2]%nat, 10%nat, 14);
   ([2; 3; 0; 1]%nat, 3%nat, 12);
   ([1; 2; 3; 0]%nat, 12%nat, 6)].
(** c256.rs 222-237 *)
Definition r2_256 : list line :=
  [([0; 1; 2; 3]%nat, 6%nat, 9);
   ([3; 0; 1; 2]%nat, 11%nat, 13);
   ([2; 3; 0; 1]%nat, 3%nat, 15);
   ([1; 2; 3; 0]%nat, 7%nat, 7);
   ([0; 1; 2; 3]%nat, 0%nat, 12);
   ([3; 0; 1; 2]%nat, 13%nat, 8);
   ([2; 3; 0; 1]%nat, 5%nat, 9);
   ([1; 2; 3; 0]%nat, 10%nat, 11);
   ([0; 1; 2; 3]%nat, 14%nat, 7);
   ([3; 0; 1; 2]%nat, 15%nat, 7);
   ([2; 3; 0; 1]%nat, 8%nat, 12);
   ([1; 2; 3; 0]%nat, 12%nat, 7);
   ([0; 1; 2; 3]%nat, 4%nat, 6);
   ([3; 0; 1; 2]%nat, 9%nat, 15);
   ([2; 3; 0; 1]%nat, 1%nat, 13);
   ([1; 2; 3; 0]%nat, 2%nat, 11)].
(** c256.rs 240-255 *)
Definition r3_256 : list line :=
  [([0; 1; 2; 3]%nat, 15%nat, 9);
   ([3; 0; 1; 2]%nat, 5%nat, 7);
   ([2; 3; 0; 1]%nat, 1%nat, 15);
   ([1; 2; 3; 0]%nat, 3%nat, 11);
   ([0; 1; 2; 3]%nat, 7%nat, 8);
   ([3; 0; 1; 2]%nat, 14%nat, 6);
   ([2; 3; 0; 1]%nat, 6%nat, 6);
   ([1; 2; 3; 0]%nat, 9%nat, 14);
   ([0; 1; 2; 3]%nat, 11%nat, 12);
   ([3; 0; 1; 2]%nat, 8%nat, 13);
   ([2; 3; 0; 1]%nat, 12%nat, 5);
   ([1; 2; 3; 0]%nat, 2%nat, 14);
   ([0; 1; 2; 3]%nat, 10%nat, 13);
   ([3; 0; 1; 2]%nat, 0%nat, 13);
   ([2; 3; 0; 1]%nat, 4%nat, 7);
   ([1; 2; 3; 0]%nat, 13%nat, 5)].
(** c256.rs 258-273 *)
Definition r4_256 : list line :=
  [([0; 1; 2; 3]%nat, 8%nat, 15);
   ([3; 0; 1; 2]%nat, 6%nat, 5);
   ([2; 3; 0; 1]%nat, 4%nat, 8);
   ([1; 2; 3; 0]%nat, 1%nat, 11);
   ([0; 1; 2; 3]%nat, 3%nat, 14);
   ([3; 0; 1; 2]%nat, 11%nat, 14);
   ([2; 3; 0; 1]%nat, 15%nat, 6);
   ([1; 2; 3; 0]%nat, 0%nat, 14);
   ([0; 1; 2; 3]%nat, 5%nat, 6);
   ([3; 0; 1; 2]%nat, 12%nat, 9);
   ([2; 3; 0; 1]%nat, 2%nat, 12);
   ([1; 2; 3; 0]%nat, 13%nat, 9);
   ([0; 1; 2; 3]%nat, 9%nat, 12);
   ([3; 0; 1; 2]%nat, 7%nat, 5);
   ([2; 3; 0; 1]%nat, 10%nat, 15);
   ([1; 2; 3; 0]%nat, 14%nat, 8)].
(** c256.rs 51-120: body of [process_block]; 123-127: loading the words *)
Definition process_256 (h w : list N) : list N :=
  assign bb := firstn 4 h in
  assign bbb := skipn 4 h in
  assign bb := fold_left (round4 w bf1 0x00000000) l1_256 bb in
  assign bbb := fold_left (round4 w bf4 0x50a28be6) r1_256 bbb in
  assign '(bb, bbb) := swap_idx bb bbb 0 in
  assign bb := fold_left (round4 w bf2 0x5a827999) l2_256 bb in
  assign bbb := fold_left (round4 w bf3 0x5c4dd124) r2_256 bbb in
  assign '(bb, bbb) := swap_idx bb bbb 1 in
  assign bb := fold_left (round4 w bf3 0x6ed9eba1) l3_256 bb in
  assign bbb := fold_left (round4 w bf2 0x6d703ef3) r3_256 bbb in
  assign '(bb, bbb) := swap_idx bb bbb 2 in
  assign bb := fold_left (round4 w bf4 0x8f1bbcdc) l4_256 bb in
  assign bbb := fold_left (round4 w bf1 0x00000000) r4_256 bbb in
  assign '(bb, bbb) := swap_idx bb bbb 3 in
  [add32 (get h 0) (get bb 0); add32 (get h 1) (get bb 1); add32 (get h 2) (get bb 2); add32 (get h 3) (get bb 3); add32 (get h 4) (get bbb 0); add32 (get h 5) (get bbb 1); add32 (get h 6) (get bbb 2); add32 (get h 7) (get bbb 3)].
(** c256.rs 123 ff. *)
Definition compress_256 (h : list N) (data : bytes) : list N := process_256 h (words_of_le 4 data).
(** ** c320.rs *)
(** c320.rs 9: [H0] *)
Definition H0_320 : list N := [0x67452301; 0xefcdab89; 0x98badcfe; 0x10325476; 0xc3d2e1f0; 0x76543210; 0xfedcba98; 0x89abcdef; 0x01234567; 0x3c2d1e0f].
(** c320.rs 154-169 *)
Definition l1_320 : list line :=
  [([0; 1; 2; 3; 4]%nat, 0%nat, 11);
   ([4; 0; 1; 2; 3]%nat, 1%nat, 14);
   ([3; 4; 0; 1; 2]%nat, 2%nat, 15);
   ([2; 3; 4; 0; 1]%nat, 3%nat, 12);
   ([1; 2; 3; 4; 0]%nat, 4%nat, 5);
   ([0; 1; 2; 3; 4]%nat, 5%nat, 8);
   ([4; 0; 1; 2; 3]%nat, 6%nat, 7);
   ([3; 4; 0; 1; 2]%nat, 7%nat, 9);
   ([2; 3; 4; 0; 1]%nat, 8%nat, 11);
   ([1; 2; 3; 4; 0]%nat, 9%nat, 13);
   ([0; 1; 2; 3; 4]%nat, 10%nat, 14);
   ([4; 0; 1; 2; 3]%nat, 11%nat, 15);
   ([3; 4; 0; 1; 2]%nat, 12%nat, 6);
   ([2; 3; 4; 0; 1]%nat, 13%nat, 7);
   ([1; 2; 3; 4; 0]%nat, 14%nat, 9);
   ([0; 1; 2; 3; 4]%nat, 15%nat, 8)].
(** c320.rs 172-187 *)
Definition l2_320 : list line :=
  [([4; 0; 1; 2; 3]%nat, 7%nat, 7);
   ([3; 4; 0; 1; 2]%nat, 4%nat, 6);
   ([2; 3; 4; 0; 1]%nat, 13%nat, 8);
   ([1; 2; 3; 4; 0]%nat, 1%nat, 13);
   ([0; 1; 2; 3; 4]%nat, 10%nat, 11);
   ([4; 0; 1; 2; 3]%nat, 6%nat, 9);
   ([3; 4; 0; 1; 2]%nat, 15%nat, 7);
   ([2; 3; 4; 0; 1]%nat, 3%nat, 15);
   ([1; 2; 3; 4; 0]%nat, 12%nat, 7);
   ([0; 1; 2; 3; 4]%nat, 0%nat, 12);
   ([4; 0; 1; 2; 3]%nat, 9%nat, 15);
   ([3; 4; 0; 1; 2]%nat, 5%nat, 9);
   ([2; 3; 4; 0; 1]%nat, 2%nat, 11);
   ([1; 2; 3; 4; 0]%nat, 14%nat, 7);
   ([0; 1; 2; 3; 4]%nat, 11%nat, 13);
   ([4; 0; 1; 2; 3]%nat, 8%nat, 12)].
(** c320.rs 190-205 *)
Definition l3_320 : list line :=
  [([3; 4; 0; 1; 2]%nat, 3%nat, 11);
   ([2; 3; 4; 0; 1]%nat, 10%nat, 13);
   ([1; 2; 3; 4; 0]%nat, 14%nat, 6);
   ([0; 1; 2; 3; 4]%nat, 4%nat, 7);
   ([4; 0; 1; 2; 3]%nat, 9%nat, 14);
   ([3; 4; 0; 1; 2]%nat, 15%nat, 9);
   ([2; 3; 4; 0; 1]%nat, 8%nat, 13);
   ([1; 2; 3; 4; 0]%nat, 1%nat, 15);
   ([0; 1; 2; 3; 4]%nat, 2%nat, 14);
   ([4; 0; 1; 2; 3]%nat, 7%nat, 8);
   ([3; 4; 0; 1; 2]%nat, 0%nat, 13);
   ([2; 3; 4; 0; 1]%nat, 6%nat, 6);
   ([1; 2; 3; 4; 0]%nat, 13%nat, 5);
   ([0; 1; 2; 3; 4]%nat, 11%nat, 12);
   ([4; 0; 1; 2; 3]%nat, 5%nat, 7);
   ([3; 4; 0; 1; 2]%nat, 12%nat, 5)].
(** c320.rs 208-223 *)
Definition l4_320 : list line :=
  [([2; 3; 4; 0; 1]%nat, 1%nat, 11);
   ([1; 2; 3; 4; 0]%nat, 9%nat, 12);
   ([0; 1; 2; 3; 4]%nat, 11%nat, 14);
   ([4; 0; 1; 2; 3]%nat, 10%nat, 15);
   ([3; 4; 0; 1; 2]%nat, 0%nat, 14);
   ([2; 3; 4; 0; 1]%nat, 8%nat, 15);
   ([1; 2; 3; 4; 0]%nat, 12%nat, 9);
   ([0; 1; 2; 3; 4]%nat, 4%nat, 8);
   ([4; 0; 1; 2; 3]%nat, 13%nat, 9);
   ([3; 4; 0; 1; 2]%nat, 3%nat, 14);
   ([2; 3; 4; 0; 1]%nat, 7%nat, 5);
   ([1; 2; 3; 4; 0]%nat, 15%nat, 6);
   ([0; 1; 2; 3; 4]%nat, 14%nat, 8);
   ([4; 0; 1; 2; 3]%nat, 5%nat, 6);
   ([3; 4; 0; 1; 2]%nat, 6%nat, 5);
   ([2; 3; 4; 0; 1]%nat, 2%nat, 12)].
(** c320.rs 226-241 *)
Definition l5_320 : list line :=
  [([1; 2; 3; 4; 0]%nat, 4%nat, 9);
   ([0; 1; 2; 3; 4]%nat, 0%nat, 15);
   ([4; 0; 1; 2; 3]%nat, 5%nat, 5);
   ([3; 4; 0; 1; 2]%nat, 9%nat, 11);
   ([2; 3; 4; 0; 1]%nat, 7%nat, 6);
   ([1; 2; 3; 4; 0]%nat, 12%nat, 8);
   ([0; 1; 2; 3; 4]%nat, 2%nat, 13);
   ([4; 0; 1; 2; 3]%nat, 10%nat, 12);
   ([3; 4; 0; 1; 2]%nat, 14%nat, 5);
   ([2; 3; 4; 0; 1]%nat, 1%nat, 12);
   ([1; 2; 3; 4; 0]%nat, 3%nat, 13);
   ([0; 1; 2; 3; 4]%nat, 8%nat, 14);
   ([4; 0; 1; 2; 3]%nat, 11%nat, 11);
   ([3; 4; 0; 1; 2]%nat, 6%nat, 8);
   ([2; 3; 4; 0; 1]%nat, 15%nat, 5);
   ([1; 2; 3; 4; 0]%nat, 13%nat, 6)].
(** c320.rs 244-259 *)
Definition r1_320 : list line :=
  [([0; 1; 2; 3; 4]%nat, 5%nat, 8);
   ([4; 0; 1; 2; 3]%nat, 14%nat, 9);
   ([3; 4; 0; 1; 2]%nat, 7%nat, 9);
   ([2; 3; 4; 0; 1]%nat, 0%nat, 11);
   ([1; 2; 3; 4; 0]%nat, 9%nat, 13);
   ([0; 1; 2; 3; 4]%nat, 2%nat, 15);
   ([4; 0; 1; 2; 3]%nat, 11%nat, 15);
   ([3; 4; 0; 1; 2]%nat, 4%nat, 5);
   ([2; 3; 4; 0; 1]%nat, 13%nat, 7);
   ([1; 2; 3; 4; 0]%nat, 6%nat, 7);
   ([0; 1; 2; 3; 4]%nat, 15%nat, 8);
   ([4; 0; 1; 2; 3]%nat, 8%nat, 11);
   ([3; 4; 0; 1; 2]%nat, 1%nat, 14);
   ([2; 3; 4; 0; 1]%nat, 10%nat, 14);
   ([1; 2; 3; 4; 0]%nat, 3%nat, 12);
   ([0; 1; 2; 3; 4]%nat, 12%nat, 6)].
(** c320.rs 262-277 *)
Definition r2_320 : list line :=
  [([4; 0; 1; 2; 3]%nat, 6%nat, 9);
   ([3; 4; 0; 1; 2]%nat, 11%nat, 13);
   ([2; 3; 4; 0; 1]%nat, 3%nat, 15);
   ([1; 2; 3; 4; 0]%nat, 7%nat, 7);
   ([0; 1; 2; 3; 4]%nat, 0%nat, 12);
   ([4; 0; 1; 2; 3]%nat, 13%nat, 8);
   ([3; 4; 0; 1; 2]%nat, 5%nat, 9);
   ([2; 3; 4; 0; 1]%nat, 10%nat, 11);
   ([1; 2; 3; 4; 0]%nat, 14%nat, 7);
   ([0; 1; 2; 3; 4]%nat, 15%nat, 7);
   ([4; 0; 1; 2; 3]%nat, 8%nat, 12);
   ([3; 4; 0; 1; 2]%nat, 12%nat, 7);
   ([2; 3; 4; 0; 1]%nat, 4%nat, 6);
   ([1; 2; 3; 4; 0]%nat, 9%nat, 15);
   ([0; 1; 2; 3; 4]%nat, 1%nat, 13);
   ([4; 0; 1; 2; 3]%nat, 2%nat, 11)].
(** c320.rs 280-295 *)
Definition r3_320 : list line :=
  [([3; 4; 0; 1; 2]%nat, 15%nat, 9);
   ([2; 3; 4; 0; 1]%nat, 5%nat, 7);
   ([1; 2; 3; 4; 0]%nat, 1%nat, 15);
   ([0; 1; 2; 3; 4]%nat, 3%nat, 11);
   ([4; 0; 1; 2; 3]%nat, 7%nat, 8);
   ([3; 4; 0; 1; 2]%nat, 14%nat, 6);
   ([2; 3; 4; 0; 1]%nat, 6%nat, 6);
   ([1; 2; 3; 4; 0]%nat, 9%nat, 14);
   ([0; 1; 2; 3; 4]%nat, 11%nat, 12);
   ([4; 0; 1; 2; 3]%nat, 8%nat, 13);
   ([3; 4; 0; 1; 2]%nat, 12%nat, 5);
   ([2; 3; 4; 0; 1]%nat, 2%nat, 14);
   ([1; 2; 3; 4; 0]%nat, 10%nat, 13);
   ([0; 1; 2; 3; 4]%nat, 0%nat, 13);
   ([4; 0; 1; 2; 3]%nat, 4%nat, 7);
   ([3; 4; 0; 1; 2]%nat, 13%nat, 5)].
(** c320.rs 298-313 *)
Definition r4_320 : list line :=
  [([2; 3; 4; 0; 1]%nat, 8%nat, 15);
   ([1; 2; 3; 4; 0]%nat, 6%nat, 5);
   ([0; 1; 2; 3; 4]%nat, 4%nat, 8);
   ([4; 0; 1; 2; 3]%nat, 1%nat, 11);
   ([3; 4; 0; 1; 2]%nat, 3%nat, 14);
   ([2; 3; 4; 0; 1]%nat, 11%nat, 14);
   ([1; 2; 3; 4; 0]%nat, 15%nat, 6);
   ([0; 1; 2; 3; 4]%nat, 0%nat, 14);
   ([4; 0; 1; 2; 3]%nat, 5%nat, 6);
   ([3; 4; 0; 1; 2]%nat, 12%nat, 9);
   ([2; 3; 4; 0; 1]%nat, 2%nat, 12);
   ([1; 2; 3; 4; 0]%nat, 13%nat, 9);
   ([0; 1; 2; 3; 4]%nat, 9%nat, 12);
   ([4; 0; 1; 2; 3]%nat, 7%nat, 5);
   ([3; 4; 0; 1; 2]%nat, 10%nat, 15);
   ([2; 3; 4; 0; 1]%nat, 14%nat, 8)].
(** c320.rs 316-331 *)
Definition r5_320 : list line :=
  [([1; 2; 3; 4; 0]%nat, 12%nat, 8);
   ([0; 1; 2; 3; 4]%nat, 15%nat, 5);
   ([4; 0; 1; 2; 3]%nat, 10%nat, 12);
   ([3; 4; 0; 1; 2]%nat, 4%nat, 9);
   ([2; 3; 4; 0; 1]%nat, 1%nat, 12);
   ([1; 2; 3; 4; 0]%nat, 5%nat, 5);
   ([0; 1; 2; 3; 4]%nat, 8%nat, 14);
   ([4; 0; 1; 2; 3]%nat, 7%nat, 6);
   ([3; 4; 0; 1; 2]%nat, 6%nat, 8);
   ([2; 3; 4; 0; 1]%nat, 2%nat, 13);
   ([1; 2; 3; 4; 0]%nat, 13%nat, 6);
   ([0; 1; 2; 3; 4]%nat, 14%nat, 5);
   ([4; 0; 1; 2; 3]%nat, 0%nat, 15);
   ([3; 4; 0; 1; 2]%nat, 3%nat, 13);
   ([2; 3; 4; 0; 1]%nat, 9%nat, 11);
   ([1; 2; 3; 4; 0]%nat, 11%nat, 11)].
(** c320.rs 58-143: body of [process_block]; 146-150: loading the words *)
Definition process_320 (h w : list N) : list N :=
  assign bb := firstn 5 h in
  assign bbb := skipn 5 h in
  assign bb := fold_left (round5 w bf1 0x00000000) l1_320 bb in
  assign bbb := fold_left (round5 w bf5 0x50a28be6) r1_320 bbb in
  assign '(bb, bbb) := swap_idx bb bbb 0 in
  assign bb := fold_left (round5 w bf2 0x5a827999) l2_320 bb in
  assign bbb := fold_left (round5 w bf4 0x5c4dd124) r2_320 bbb in
  assign '(bb, bbb) := swap_idx bb bbb 1 in
  assign bb := fold_left (round5 w bf3 0x6ed9eba1) l3_320 bb in
  assign bbb := fold_left (round5 w bf3 0x6d703ef3) r3_320 bbb in
  assign '(bb, bbb) := swap_idx bb bbb 2 in
  assign bb := fold_left (round5 w bf4 0x8f1bbcdc) l4_320 bb in
  assign bbb := fold_left (round5 w bf2 0x7a6d76e9) r4_320 bbb in
  assign '(bb, bbb) := swap_idx bb bbb 3 in
  assign bb := fold_left (round5 w bf5 0xa953fd4e) l5_320 bb in
  assign bbb := fold_left (round5 w bf1 0x00000000) r5_320 bbb in
  assign '(bb, bbb) := swap_idx bb bbb 4 in
  [add32 (get h 0) (get bb 0); add32 (get h 1) (get bb 1); add32 (get h 2) (get bb 2); add32 (get h 3) (get bb 3); add32 (get h 4) (get bb 4); add32 (get h 5) (get bbb 0); add32 (get h 6) (get bbb 1); add32 (get h 7) (get bbb 2); add32 (get h 8) (get bbb 3); add32 (get h 9) (get bbb 4)].
(** c320.rs 146 ff. *)
Definition compress_320 (h : list N) (data : bytes) : list N := process_320 h (words_of_le 4 data).

(** ** The hasher macro (lib.rs 35-168): state (h, block_len) *)
Definition rmd_st := (list N * N)%type.
(** lib.rs 66-76: plain [+=] on the counter *)
Definition rmd_update (compress : list N -> bytes -> list N) (m : mode) (s : rmd_st) (blocks : list bytes) : option rmd_st :=
  let* block_len := cadd m 64 (snd s) (N.of_nat (length blocks)) in
  Some (fold_left compress blocks (fst s), block_len).
(** lib.rs 78-91: [8 * (pos + bs * block_len)] with plain operators *)
Definition rmd_finalize (compress : list N -> bytes -> list N) (m : mode) (s : rmd_st) (buffer : bytes) : option (bytes * rmd_st) :=
  let* t := cmul m 64 64 (snd s) in
  let* t := cadd m 64 (N.of_nat (length buffer)) t in
  let* bit_len := cmul m 64 8 t in
  let h := fold_left compress (len64_padding_le 64 bit_len buffer) (fst s) in
  Some (words_to_le 4 h, s).
(** lib.rs 135-166: [n] words then the counter *)
Definition rmd_codec (n : nat) : codec rmd_st := mkCodec (4 * n + 8) (ser_counted 4 8) (deser_counted 4 n).
(** lib.rs 43-64, 93-108 *)
Definition rmd_core (n : nat) (h0 : list N) (compress : list N -> bytes -> list N) : core :=
  mkCore rmd_st 64 Eager (h0, 0) [] (rmd_update compress) (rmd_finalize compress)
    (fun _ => ((h0, 0), [])) (Some (rmd_codec n)).
(** lib.rs 170-173 *)
Definition Ripemd128 : core := rmd_core 4 H0_128 compress_128.
Definition Ripemd160 : core := rmd_core 5 H0_160 compress_160.
Definition Ripemd256 : core := rmd_core 8 H0_256 compress_256.
Definition Ripemd320 : core := rmd_core 10 H0_320 compress_320.
