(** Model of the x86 and AArch64 back ends of the sha1 crate: x86 =
    sha1/src/compress/x86.rs, arm = sha1/src/compress/aarch64.rs.  The vector
    instructions are in Model/Simd.v; the tests for CPU features (x86 93-105, arm
    176-185) choose between these and the portable code and are not modelled. *)
From Verif Require Import Base.Words Base.Bytes Base.Codec Model.Simd.
From Verif Require Model.Sha1.

(** x86 10-14 *)
Definition ni1_rounds4 (h0 h1 wk : v4) (i : nat) : v4 := sha1rnds4 h0 (sha1nexte h1 wk) i.
(** x86 16-20 *)
Definition ni1_schedule (v0 v1 v2 v3 : v4) : v4 := sha1msg2 (xor4 (sha1msg1 v0 v1) v2) v3.
(** x86 22-31; returns the assigned [h1] and [w4] *)
Definition ni1_schedule_rounds4 (h0 h1 w0 w1 w2 w3 : v4) (i : nat) : v4 * v4 :=
  let w4 := ni1_schedule w0 w1 w2 w3 in
  (ni1_rounds4 h0 h1 w4 i, w4).
(** x86 37 *)
Definition ni1_mask : bytes := set_epi64x 0x0001020304050607 0x08090A0B0C0D0E0F.
Definition ni1_load (i : nat) (block : bytes) : v4 := shuffle_epi8_4 (v4_of_bytes (mem16 i block)) ni1_mask.
(** x86 43-86 *)
Definition ni1_block (st : v4 * v4) (block : bytes) : v4 * v4 :=
  let '(state_abcd, state_e) := st in
  let w0 := ni1_load 0 block in
  let w1 := ni1_load 1 block in
  let w2 := ni1_load 2 block in
  let w3 := ni1_load 3 block in
  let h0 := state_abcd in
  let h1 := add4 state_e w0 in
  let h1 := sha1rnds4 h0 h1 0 in
  let h0 := ni1_rounds4 h1 h0 w1 0 in
  let h1 := ni1_rounds4 h0 h1 w2 0 in
  let h0 := ni1_rounds4 h1 h0 w3 0 in
  let '(h1, w4) := ni1_schedule_rounds4 h0 h1 w0 w1 w2 w3 0 in
  let '(h0, w0) := ni1_schedule_rounds4 h1 h0 w1 w2 w3 w4 1 in
  let '(h1, w1) := ni1_schedule_rounds4 h0 h1 w2 w3 w4 w0 1 in
  let '(h0, w2) := ni1_schedule_rounds4 h1 h0 w3 w4 w0 w1 1 in
  let '(h1, w3) := ni1_schedule_rounds4 h0 h1 w4 w0 w1 w2 1 in
  let '(h0, w4) := ni1_schedule_rounds4 h1 h0 w0 w1 w2 w3 1 in
  let '(h1, w0) := ni1_schedule_rounds4 h0 h1 w1 w2 w3 w4 2 in
  let '(h0, w1) := ni1_schedule_rounds4 h1 h0 w2 w3 w4 w0 2 in
  let '(h1, w2) := ni1_schedule_rounds4 h0 h1 w3 w4 w0 w1 2 in
  let '(h0, w3) := ni1_schedule_rounds4 h1 h0 w4 w0 w1 w2 2 in
  let '(h1, w4) := ni1_schedule_rounds4 h0 h1 w0 w1 w2 w3 2 in
  let '(h0, w0) := ni1_schedule_rounds4 h1 h0 w1 w2 w3 w4 3 in
  let '(h1, w1) := ni1_schedule_rounds4 h0 h1 w2 w3 w4 w0 3 in
  let '(h0, w2) := ni1_schedule_rounds4 h1 h0 w3 w4 w0 w1 3 in
  let '(h1, w3) := ni1_schedule_rounds4 h0 h1 w4 w0 w1 w2 3 in
  let '(h0, w4) := ni1_schedule_rounds4 h1 h0 w0 w1 w2 w3 3 in
  (add4 state_abcd h0, sha1nexte h1 state_e).
(** x86 35-91 *)
Definition sha1_shani (state : list N) (blocks : list bytes) : list N :=
  let state_abcd := shuffle_epi32 (v4_of_list (firstn 4 state)) 27 in
  let state_e := set_epi32 (get state 4) 0 0 0 in
  let '(state_abcd, state_e) := fold_left ni1_block blocks (state_abcd, state_e) in
  let state_abcd := shuffle_epi32 state_abcd 27 in
  let '(_, _, _, e) := state_e in
  list_of_v4 state_abcd ++ [e].

(** arm 20 [vdupq_n_u32(K[i])] *)
Definition dup4 (x : N) : v4 := (x, x, x, x).
Definition arm1_k (i : nat) : v4 := dup4 (get Model.Sha1.K i).
(** [vgetq_lane_u32(v, 0)] *)
Definition lane0 (v : v4) : N := let '(x, _, _, _) := v in x.
(** arm 28-31 *)
Definition arm1_load (i : nat) (block : bytes) : v4 := v4_of_bytes (vrev32 (mem16 i block)).
(** arm 33-164: the assignments in source order *)
Definition arm1_rounds (abcd : v4) (e0 : N) (msg0 msg1 msg2 msg3 : v4) : v4 * N :=
  let k0 := arm1_k 0 in
  let k1 := arm1_k 1 in
  let k2 := arm1_k 2 in
  let k3 := arm1_k 3 in
  let tmp0 := add4 msg0 k0 in
  let tmp1 := add4 msg1 k0 in
  (* Rounds 0-3 *)
  let e1 := vsha1h (lane0 abcd) in
  let abcd := vsha1c abcd e0 tmp0 in
  let tmp0 := add4 msg2 k0 in
  let msg0 := vsha1su0 msg0 msg1 msg2 in
  (* Rounds 4-7 *)
  let e0 := vsha1h (lane0 abcd) in
  let abcd := vsha1c abcd e1 tmp1 in
  let tmp1 := add4 msg3 k0 in
  let msg0 := vsha1su1 msg0 msg3 in
  let msg1 := vsha1su0 msg1 msg2 msg3 in
  (* Rounds 8-11 *)
  let e1 := vsha1h (lane0 abcd) in
  let abcd := vsha1c abcd e0 tmp0 in
  let tmp0 := add4 msg0 k0 in
  let msg1 := vsha1su1 msg1 msg0 in
  let msg2 := vsha1su0 msg2 msg3 msg0 in
  (* Rounds 12-15 *)
  let e0 := vsha1h (lane0 abcd) in
  let abcd := vsha1c abcd e1 tmp1 in
  let tmp1 := add4 msg1 k1 in
  let msg2 := vsha1su1 msg2 msg1 in
  let msg3 := vsha1su0 msg3 msg0 msg1 in
  (* Rounds 16-19 *)
  let e1 := vsha1h (lane0 abcd) in
  let abcd := vsha1c abcd e0 tmp0 in
  let tmp0 := add4 msg2 k1 in
  let msg3 := vsha1su1 msg3 msg2 in
  let msg0 := vsha1su0 msg0 msg1 msg2 in
  (* Rounds 20-23 *)
  let e0 := vsha1h (lane0 abcd) in
  let abcd := vsha1p abcd e1 tmp1 in
  let tmp1 := add4 msg3 k1 in
  let msg0 := vsha1su1 msg0 msg3 in
  let msg1 := vsha1su0 msg1 msg2 msg3 in
  (* Rounds 24-27 *)
  let e1 := vsha1h (lane0 abcd) in
  let abcd := vsha1p abcd e0 tmp0 in
  let tmp0 := add4 msg0 k1 in
  let msg1 := vsha1su1 msg1 msg0 in
  let msg2 := vsha1su0 msg2 msg3 msg0 in
  (* Rounds 28-31 *)
  let e0 := vsha1h (lane0 abcd) in
  let abcd := vsha1p abcd e1 tmp1 in
  let tmp1 := add4 msg1 k1 in
  let msg2 := vsha1su1 msg2 msg1 in
  let msg3 := vsha1su0 msg3 msg0 msg1 in
  (* Rounds 32-35 *)
  let e1 := vsha1h (lane0 abcd) in
  let abcd := vsha1p abcd e0 tmp0 in
  let tmp0 := add4 msg2 k2 in
  let msg3 := vsha1su1 msg3 msg2 in
  let msg0 := vsha1su0 msg0 msg1 msg2 in
  (* Rounds 36-39 *)
  let e0 := vsha1h (lane0 abcd) in
  let abcd := vsha1p abcd e1 tmp1 in
  let tmp1 := add4 msg3 k2 in
  let msg0 := vsha1su1 msg0 msg3 in
  let msg1 := vsha1su0 msg1 msg2 msg3 in
  (* Rounds 40-43 *)
  let e1 := vsha1h (lane0 abcd) in
  let abcd := vsha1m abcd e0 tmp0 in
  let tmp0 := add4 msg0 k2 in
  let msg1 := vsha1su1 msg1 msg0 in
  let msg2 := vsha1su0 msg2 msg3 msg0 in
  (* Rounds 44-47 *)
  let e0 := vsha1h (lane0 abcd) in
  let abcd := vsha1m abcd e1 tmp1 in
  let tmp1 := add4 msg1 k2 in
  let msg2 := vsha1su1 msg2 msg1 in
  let msg3 := vsha1su0 msg3 msg0 msg1 in
  (* Rounds 48-51 *)
  let e1 := vsha1h (lane0 abcd) in
  let abcd := vsha1m abcd e0 tmp0 in
  let tmp0 := add4 msg2 k2 in
  let msg3 := vsha1su1 msg3 msg2 in
  let msg0 := vsha1su0 msg0 msg1 msg2 in
  (* Rounds 52-55 *)
  let e0 := vsha1h (lane0 abcd) in
  let abcd := vsha1m abcd e1 tmp1 in
  let tmp1 := add4 msg3 k3 in
  let msg0 := vsha1su1 msg0 msg3 in
  let msg1 := vsha1su0 msg1 msg2 msg3 in
  (* Rounds 56-59 *)
  let e1 := vsha1h (lane0 abcd) in
  let abcd := vsha1m abcd e0 tmp0 in
  let tmp0 := add4 msg0 k3 in
  let msg1 := vsha1su1 msg1 msg0 in
  let msg2 := vsha1su0 msg2 msg3 msg0 in
  (* Rounds 60-63 *)
  let e0 := vsha1h (lane0 abcd) in
  let abcd := vsha1p abcd e1 tmp1 in
  let tmp1 := add4 msg1 k3 in
  let msg2 := vsha1su1 msg2 msg1 in
  let msg3 := vsha1su0 msg3 msg0 msg1 in
  (* Rounds 64-67 *)
  let e1 := vsha1h (lane0 abcd) in
  let abcd := vsha1p abcd e0 tmp0 in
  let tmp0 := add4 msg2 k3 in
  let msg3 := vsha1su1 msg3 msg2 in
  (* Rounds 68-71 *)
  let e0 := vsha1h (lane0 abcd) in
  let abcd := vsha1p abcd e1 tmp1 in
  let tmp1 := add4 msg3 k3 in
  (* Rounds 72-75 *)
  let e1 := vsha1h (lane0 abcd) in
  let abcd := vsha1p abcd e0 tmp0 in
  (* Rounds 76-79 *)
  let e0 := vsha1h (lane0 abcd) in
  let abcd := vsha1p abcd e1 tmp1 in
  (abcd, e0).
(** arm 23-169 *)
Definition arm1_block (st : v4 * N) (block : bytes) : v4 * N :=
  let '(abcd_cpy, e0_cpy) := st in
  let '(abcd, e0) := arm1_rounds abcd_cpy e0_cpy (arm1_load 0 block) (arm1_load 1 block) (arm1_load 2 block) (arm1_load 3 block) in
  (add4 abcd_cpy abcd, add32 e0 e0_cpy).
(** arm 15-174 *)
Definition sha1_arm (state : list N) (blocks : list bytes) : list N :=
  let '(abcd, e0) := fold_left arm1_block blocks (v4_of_list (firstn 4 state), get state 4) in
  list_of_v4 abcd ++ [e0].
