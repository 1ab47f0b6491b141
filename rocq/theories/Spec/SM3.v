(** GB/T 32905-2016 (GM/T 0004-2012): SM3. *)
From Verif Require Import Base.Words Base.Bytes Spec.MD.

Definition xor3 (a b c : N) : N := N.lxor (N.lxor a b) c.
Definition T (j : nat) : N := if (j <? 16)%nat then 0x79cc4519 else 0x7a879d8a.
Definition FF (j : nat) (x y z : N) : N :=
  if (j <? 16)%nat then xor3 x y z else N.lor (N.lor (N.land x y) (N.land x z)) (N.land y z).
Definition GG (j : nat) (x y z : N) : N :=
  if (j <? 16)%nat then xor3 x y z else N.lor (N.land x y) (N.land (not32 x) z).
Definition P0 (x : N) : N := xor3 x (rotl32 x 9) (rotl32 x 17).
Definition P1 (x : N) : N := xor3 x (rotl32 x 15) (rotl32 x 23).

(** Message expansion: W_0 .. W_67 and W'_j = W_j xor W_{j+4} *)
Definition next_w (W : list N) : N :=
  let j := length W in
  N.lxor (N.lxor (P1 (xor3 (get W (j - 16)) (get W (j - 9)) (rotl32 (get W (j - 3)) 15)))
                 (rotl32 (get W (j - 13)) 7)) (get W (j - 6)).
Fixpoint extend (n : nat) (W : list N) : list N :=
  match n with O => W | S k => extend k (W ++ [next_w W]) end.
Definition expand (M : list N) : list N := extend 52 M.

Definition vars := (N * N * N * N * N * N * N * N)%type.
Definition round (W : list N) (v : vars) (j : nat) : vars :=
  let '(A, B, C, D, E, F, G, H) := v in
  let SS1 := rotl32 (add32 (add32 (rotl32 A 12) E) (rotl32 (T j) (N.of_nat (j mod 32)))) 7 in
  let SS2 := N.lxor SS1 (rotl32 A 12) in
  let TT1 := add32 (add32 (add32 (FF j A B C) D) SS2) (N.lxor (get W j) (get W (j + 4))) in
  let TT2 := add32 (add32 (add32 (GG j E F G) H) SS1) (get W j) in
  (TT1, A, rotl32 B 9, C, P0 TT2, E, rotl32 F 19, G).
Definition compress (V : vars) (block : bytes) : vars :=
  let W := expand (map be_val (chunks 4 block)) in
  let '(a0, b0, c0, d0, e0, f0, g0, h0) := V in
  let '(a, b, c, d, e, f, g, h) := fold_left (round W) (seq 0 64) V in
  (N.lxor a a0, N.lxor b b0, N.lxor c c0, N.lxor d d0, N.lxor e e0, N.lxor f f0, N.lxor g g0, N.lxor h h0).

Definition iv : vars :=
  (0x7380166f, 0x4914b2b9, 0x172442d7, 0xda8a0600, 0xa96f30bc, 0x163138aa, 0xe38dee4d, 0xb0fb0e4e).
Definition pad (msg : bytes) : bytes := md_pad 64 0x80 (be_bytes 8 (8 * blen msg)) msg.
Definition output (v : vars) : bytes :=
  let '(a, b, c, d, e, f, g, h) := v in concat (map (be_bytes 4) [a; b; c; d; e; f; g; h]).
Definition SM3 (msg : bytes) : bytes := output (md_iterate compress 64 iv (pad msg)).
