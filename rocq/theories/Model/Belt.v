(** Model of the belt-hash crate (belt-hash/src/lib.rs). *)
From Verif Require Import Base.Words Base.Bytes Base.Codec Base.BlockBuffer Base.Digest.
From Verif Require Spec.Belt.

(** lib.rs 30 *)
Definition U32_MASK : N := 2 ^ 32 - 1.
(** lib.rs 31-33 *)
Definition H0 : list N :=
  [0xC8BA94B1; 0x3BF5080A; 0x8E006D36; 0xE45D4A58; 0x9DFA0485; 0xACC7B61B; 0xC2722E25; 0x0DCEFD02].

(** lib.rs 188-190 *)
Definition xor (a b : list N) : list N :=
  [N.lxor (get a 0) (get b 0); N.lxor (get a 1) (get b 1); N.lxor (get a 2) (get b 2); N.lxor (get a 3) (get b 3)].
(** lib.rs 193-195 *)
Definition cat (a b : list N) : list N := [get a 0; get a 1; get a 2; get a 3; get b 0; get b 1; get b 2; get b 3].
(** lib.rs 198-200 *)
Definition get_u32 (block : bytes) (i : nat) : N := le_val (firstn 4 (skipn (4 * i) block)).
(** lib.rs 203-210 *)
Definition encode_r (r : N) : list N :=
  [N.land r U32_MASK; N.land (N.shiftr r 32) U32_MASK; N.land (N.shiftr r 64) U32_MASK; N.land (N.shiftr r 96) U32_MASK].

(** [belt_block_raw] of the external crate belt-block is the parameter [E] (block, key). *)
Section Belt.
  Context (E : list N -> list N -> list N).
  (** lib.rs 168-185 *)
  Definition belt_compress (x1 x2 x34 : list N) : list N * list N :=
    let x3 := [get x34 0; get x34 1; get x34 2; get x34 3] in
    let x4 := [get x34 4; get x34 5; get x34 6; get x34 7] in
    let t1 := E (xor x3 x4) (cat x1 x2) in
    let s := xor (xor t1 x3) x4 in
    let t2 := E x1 (cat s x4) in
    let y1 := xor t2 x1 in
    let t3 := E x2 (cat (map (wnot 32) s) x3) in
    let y2 := xor t3 x2 in
    (s, cat y1 y2).
  (** lib.rs 37-41: (r, s, h) *)
  Definition belt_st := (N * list N * list N)%type.
  (** lib.rs 47-63 *)
  Definition compress_block (st : belt_st) (block : bytes) : belt_st :=
    let '(r, s, h) := st in
    let x1 := [get_u32 block 0; get_u32 block 1; get_u32 block 2; get_u32 block 3] in
    let x2 := [get_u32 block 4; get_u32 block 5; get_u32 block 6; get_u32 block 7] in
    let '(t, h) := belt_compress x1 x2 h in
    (r, xor s t, h).
  (** lib.rs 82-87 *)
  Definition update_blocks (st : belt_st) (blocks : list bytes) : belt_st :=
    let '(r, s, h) := st in
    fold_left compress_block blocks (wadd 128 r (N.of_nat (length blocks)), s, h).
  (** lib.rs 92-104 *)
  Definition finalize (m : mode) (st : belt_st) (buf : bytes) : option (bytes * belt_st) :=
    let pos := length buf in
    let st := if negb (pos =? 0)%nat then compress_block st (pad_with_zeros 32 buf) else st in
    let '(r, s, h) := st in
    let* t := cmul m 128 32 r in
    let* t := cadd m 128 t (N.of_nat pos) in
    let* bits := cmul m 128 8 t in
    let '(_, y) := belt_compress (encode_r bits) s h in
    Some (words_to_le 4 y, st).
  (** lib.rs 107-123 *)
  Definition init : belt_st := (0, zeros 4, H0).
  Definition belt_core : core :=
    mkCore belt_st 32 Eager init [] (fun _ st bl => Some (update_blocks st bl)) finalize (fun _ => (init, [])) None.
End Belt.
(** With the cipher of STB 34.101.31 (trusted contract of belt-block) *)
Definition BeltHash : core := belt_core Spec.Belt.block.
