(** Arithmetic in GF(2^8) and matrices over it, for the AES-like hash functions. *)
From Verif Require Import Base.Words Base.Bytes.

Definition xors (l : list N) : N := fold_right N.lxor 0 l.
(** Multiplication by x modulo the polynomial [poly] (9 bits). *)
Definition xtime (poly x : N) : N := let y := 2 * x in if y <? 256 then y else N.lxor y poly.
(** The product: the sum of a x^i over the bits i of b. *)
Definition gmul (poly a b : N) : N :=
  xors (map (fun i => if N.testbit b (N.of_nat i) then Nat.iter i (xtime poly) a else 0) (seq 0 8)).
Definition dot (poly : N) (r v : list N) : N := xors (map (fun k => gmul poly (get r k) (get v k)) (seq 0 8)).
(** Matrix (a list of 8 rows) times column vector. *)
Definition mat_vec (poly : N) (M : list (list N)) (v : list N) : list N := map (fun r => dot poly r v) M.
(** Each row is the row above rotated to the right by one place. *)
Definition circulant (l : list N) : list (list N) :=
  map (fun i => map (fun j => get l ((j + length l - i) mod length l)) (seq 0 (length l))) (seq 0 (length l)).
Definition transpose (M : list (list N)) : list (list N) :=
  map (fun j => map (fun r => get r j) M) (seq 0 (length M)).
