(** RFC 1320: MD4. *)
From Verif Require Import Base.Words Base.Bytes Spec.MD Spec.Roots.

Definition F (x y z : N) : N := N.lor (N.land x y) (N.land (not32 x) z).
Definition G (x y z : N) : N := N.lor (N.lor (N.land x y) (N.land x z)) (N.land y z).
Definition H (x y z : N) : N := N.lxor (N.lxor x y) z.

(** Step [i] (0..47): auxiliary function, added constant, word index, shift. *)
Definition aux (i : nat) : N -> N -> N -> N := nth (i / 16) [F; G; H] F.
Definition const (i : nat) : N := nth (i / 16) [0; sqrt_bits 30 2; sqrt_bits 30 3] 0.
Definition widx (i : nat) : nat :=
  nth (i mod 16) (nth (i / 16)
    [ [0; 1; 2; 3; 4; 5; 6; 7; 8; 9; 10; 11; 12; 13; 14; 15];
      [0; 4; 8; 12; 1; 5; 9; 13; 2; 6; 10; 14; 3; 7; 11; 15];
      [0; 8; 4; 12; 2; 10; 6; 14; 1; 9; 5; 13; 3; 11; 7; 15] ] [])%nat 0%nat.
Definition shift (i : nat) : N :=
  nth (i mod 4) (nth (i / 16) [[3; 7; 11; 19]; [3; 5; 9; 13]; [3; 9; 11; 15]] []) 0.

(** "a = (a + F(b,c,d) + X[k] + const) <<< s", then the roles rotate. *)
Definition vars := (N * N * N * N)%type.
Definition step (X : list N) (v : vars) (i : nat) : vars :=
  let '(a, b, c, d) := v in
  (d, rotl32 (add32 (add32 (add32 a (aux i b c d)) (get X (widx i))) (const i)) (shift i), b, c).
Definition compress (v : vars) (block : bytes) : vars :=
  let X := map le_val (chunks 4 block) in
  let '(a0, b0, c0, d0) := v in
  let '(a, b, c, d) := fold_left (step X) (seq 0 48) v in
  (add32 a a0, add32 b b0, add32 c c0, add32 d d0).

Definition iv : vars :=
  (le_val [0x01; 0x23; 0x45; 0x67], le_val [0x89; 0xab; 0xcd; 0xef],
   le_val [0xfe; 0xdc; 0xba; 0x98], le_val [0x76; 0x54; 0x32; 0x10]).
Definition pad (msg : bytes) : bytes := md_pad 64 0x80 (le_bytes 8 (8 * blen msg)) msg.
Definition output (v : vars) : bytes :=
  let '(a, b, c, d) := v in concat (map (le_bytes 4) [a; b; c; d]).
Definition MD4 (msg : bytes) : bytes := output (md_iterate compress 64 iv (pad msg)).
