(** FIPS 180-4: SHA-1. *)
From Verif Require Import Base.Words Base.Bytes Spec.MD Spec.Roots.

Definition Ch (x y z : N) : N := N.lxor (N.land x y) (N.land (not32 x) z).
Definition Parity (x y z : N) : N := N.lxor (N.lxor x y) z.
Definition Maj (x y z : N) : N := N.lxor (N.lxor (N.land x y) (N.land x z)) (N.land y z).
(** Section 4.1.1 *)
Definition f (t : nat) : N -> N -> N -> N :=
  if (t <? 20)%nat then Ch else if (t <? 40)%nat then Parity else if (t <? 60)%nat then Maj else Parity.
(** Section 4.2.1: floor(2^30 sqrt n) for n = 2, 3, 5, 10 *)
Definition K (t : nat) : N :=
  if (t <? 20)%nat then sqrt_bits 30 2 else if (t <? 40)%nat then sqrt_bits 30 3
  else if (t <? 60)%nat then sqrt_bits 30 5 else sqrt_bits 30 10.

(** Section 6.1.2: message schedule *)
Definition next_w (W : list N) : N :=
  let t := length W in
  rotl32 (N.lxor (N.lxor (N.lxor (get W (t - 3)) (get W (t - 8))) (get W (t - 14))) (get W (t - 16))) 1.
Fixpoint extend (n : nat) (W : list N) : list N :=
  match n with O => W | S k => extend k (W ++ [next_w W]) end.
Definition schedule (M : list N) : list N := extend 64 M.

Definition vars := (N * N * N * N * N)%type.
Definition round (v : vars) (ft : N -> N -> N -> N) (k w : N) : vars :=
  let '(a, b, c, d, e) := v in
  let T := add32 (add32 (add32 (add32 (rotl32 a 5) (ft b c d)) e) k) w in
  (T, a, rotl32 b 30, c, d).
Definition rounds (W : list N) (v : vars) : vars :=
  fold_left (fun v t => round v (f t) (K t) (get W t)) (seq 0 80) v.

Definition compress (H : vars) (block : bytes) : vars :=
  let M := map be_val (chunks 4 block) in
  let '(a0, b0, c0, d0, e0) := H in
  let '(a, b, c, d, e) := rounds (schedule M) H in
  (add32 a a0, add32 b b0, add32 c c0, add32 d d0, add32 e e0).

(** Section 5.3.1 *)
Definition iv : vars := (0x67452301, 0xefcdab89, 0x98badcfe, 0x10325476, 0xc3d2e1f0).
Definition pad (msg : bytes) : bytes := md_pad 64 0x80 (be_bytes 8 (8 * blen msg)) msg.
Definition output (v : vars) : bytes :=
  let '(a, b, c, d, e) := v in concat (map (be_bytes 4) [a; b; c; d; e]).
Definition SHA1 (msg : bytes) : bytes := output (md_iterate compress 64 iv (pad msg)).
