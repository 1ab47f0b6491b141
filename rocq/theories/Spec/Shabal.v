(** Shabal (Bresson et al., submission to the SHA-3 competition, 2008), section 2: the mode of
    operation with its message rounds, three final rounds and the initial values computed from the
    digest length, and the keyed permutation with (p, r) = (3, 12). *)
From Verif Require Import Base.Words Base.Bytes Base.Codec Spec.MD.

(** The keyed permutation P on (A, B), keyed by M and C *)
Definition U (x : N) : N := mul32 3 x.
Definition V (x : N) : N := mul32 5 x.
(** The step [n = 16 j + i] of the double loop over [j] and [i] *)
Definition step (M C : list N) (AB : list N * list N) (n : nat) : list N * list N :=
  let '(A, B) := AB in
  let i := (n mod 16)%nat in
  let u := (n mod 12)%nat in
  let v := ((n + 11) mod 12)%nat in
  let a := N.lxor (N.lxor (N.lxor
      (U (N.lxor (N.lxor (get A u) (V (rotl32 (get A v) 15))) (get C ((24 - i) mod 16))))
      (get B ((i + 13) mod 16)))
      (N.land (get B ((i + 9) mod 16)) (not32 (get B ((i + 6) mod 16)))))
      (get M i) in
  (upd A u a, upd B i (N.lxor (rotl32 (get B i) 1) (not32 a))).
Definition P (M A B C : list N) : list N * list N :=
  let B := map (fun b => rotl32 b 17) B in
  let '(A, B) := fold_left (step M C) (seq 0 48) (A, B) in
  (fold_left (fun A j => upd A (j mod 12) (add32 (get A (j mod 12)) (get C ((j + 3) mod 16)))) (seq 0 36) A, B).

(** A round with counter [w] *)
Definition map2 (f : N -> N -> N) (x y : list N) : list N := map (fun p => f (fst p) (snd p)) (combine x y).
Definition state := (list N * list N * list N)%type.
Definition round (S : state) (w : N) (M : list N) : state :=
  let '(A, B, C) := S in
  let B := map2 add32 B M in
  let A := map2 N.lxor A ([w mod 2 ^ 32; w / 2 ^ 32] ++ repeat 0 10) in
  let '(A, B) := P M A B C in
  let C := map2 sub32 C M in
  (A, C, B).
(** Rounds over successive blocks; the counter is a 64-bit number. *)
Fixpoint rounds (S : state) (w : N) (Ms : list (list N)) {struct Ms} : state :=
  match Ms with
  | [] => S
  | M :: Ms => rounds (round S w M) ((w + 1) mod 2 ^ 64) Ms
  end.
(** The initial value for digests of [lh] bits: two blocks with the counters -1 and 0 *)
Definition iv (lh : nat) : state :=
  rounds (repeat 0 12, repeat 0 16, repeat 0 16) (2 ^ 64 - 1)
    [map N.of_nat (seq lh 16); map N.of_nat (seq (lh + 16) 16)].
(** The digest of [n] bytes: [k] message rounds with the counters 1, ..., k (as 64-bit numbers),
    three final rounds with the last block and counter, and the last words of C. *)
Definition Shabal (n : nat) (msg : bytes) : bytes :=
  let Ms := map (words_of_le 4) (chunks 64 (md_pad 64 0x80 [] msg)) in
  let k := length Ms in
  let S := rounds (iv (8 * n)) 1 Ms in
  let wk := N.of_nat k mod 2 ^ 64 in
  let last := nth (k - 1) Ms [] in
  let '(_, _, C) := round (round (round S wk last) wk last) wk last in
  skipn (64 - n) (words_to_le 4 C).
