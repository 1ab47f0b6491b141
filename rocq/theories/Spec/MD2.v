(** RFC 1319: MD2. *)
From Verif Require Import Base.Words Base.Bytes.

(** The S-table: "a random permutation of 0 to 255 constructed from the digits
    of pi".  The construction: a Fisher-Yates shuffle of the identity, driven by
    the decimal digits of pi (3, 1, 4, 1, 5, ...); a number below [n] is drawn
    from one, two or three digits by rejection. *)
(** Decimal digits of pi by Machin's formula, pi = 16 atan(1/5) - 4 atan(1/239). *)
Fixpoint atan_inv_aux (fuel : nat) (x2 k p : Z) (sgn : bool) (acc : Z) : Z :=
  match fuel with
  | O => acc
  | S n => atan_inv_aux n x2 (k + 2)%Z (p / x2)%Z (negb sgn) (if sgn then acc - p / k else acc + p / k)%Z
  end.
Definition atan_inv (one x : Z) (terms : nat) : Z := atan_inv_aux terms (x * x)%Z 1 (one / x)%Z false 0.
Definition pi_scaled : Z := (* floor-ish of pi * 10^740 *)
  let one := (10 ^ 750)%Z in
  ((16 * atan_inv one 5 560 - 4 * atan_inv one 239 180) / 10 ^ 10)%Z.
Fixpoint digits_aux (n : nat) (z : Z) (acc : list N) : list N :=
  match n with O => acc | S k => digits_aux k (z / 10)%Z (Z.to_N (z mod 10) :: acc) end.
Definition pi_digits : list N := digits_aux 741 pi_scaled [].

Fixpoint draw (fuel : nat) (n : N) (ds : list N) : N * list N :=
  match fuel with
  | O => (0, ds)
  | S k =>
      let '(x, y, r) :=
        match ds with
        | a :: r1 => if n <=? 10 then (a, 10, r1) else
            match r1 with
            | b :: r2 => if n <=? 100 then (10 * a + b, 100, r2) else
                match r2 with
                | c :: r3 => (100 * a + 10 * b + c, 1000, r3)
                | [] => (0, 1, []) end
            | [] => (0, 1, []) end
        | [] => (0, 1, []) end in
      if x <? n * (y / n) then (x mod n, r) else draw k n r
  end.
Fixpoint shuffle (steps : nat) (i : nat) (S : list N) (ds : list N) : list N :=
  match steps with
  | O => S
  | Datatypes.S k =>
      let '(j, r) := draw 100 (N.of_nat i) ds in
      let jn := N.to_nat j in
      let a := get S jn in let b := get S (i - 1) in
      shuffle k (i + 1) (upd (upd S jn b) (i - 1) a) r
  end.
Definition S_table : list N := shuffle 255 2 (map N.of_nat (seq 0 256)) pi_digits.

(** Step 1: pad with i bytes of value i, 1 <= i <= 16. *)
Definition pad (msg : bytes) : bytes :=
  let i := (16 - length msg mod 16)%nat in msg ++ repeat (N.of_nat i) i.

(** Step 2: the 16-byte checksum C, updated byte by byte with carry L. *)
Definition checksum_byte (st : bytes * N) (jc : nat * N) : bytes * N :=
  let '(C, L) := st in
  let '(j, c) := jc in
  let C' := upd C j (N.lxor (get C j) (get S_table (N.to_nat (N.lxor c L)))) in
  (C', get C' j).
Definition checksum_block (st : bytes * N) (block : bytes) : bytes * N :=
  fold_left checksum_byte (combine (seq 0 16) block) st.
Definition checksum (blocks : list bytes) : bytes :=
  fst (fold_left checksum_block blocks (zeros 16, 0)).

(** Step 4: process one 16-byte block with the 48-byte buffer X. *)
Definition mix_byte (st : bytes * N) (k : nat) : bytes * N :=
  let '(X, t) := st in
  let t' := N.lxor (get X k) (get S_table (N.to_nat t)) in
  (upd X k t', t').
Definition mix_round (st : bytes * N) (j : nat) : bytes * N :=
  let '(X, t) := fold_left mix_byte (seq 0 48) st in (X, (t + N.of_nat j) mod 256).
Definition process (X block : bytes) : bytes :=
  let h := firstn 16 X in
  fst (fold_left mix_round (seq 0 18) (h ++ block ++ xor_bytes block h, 0)).

Definition MD2 (msg : bytes) : bytes :=
  let blocks := chunks 16 (pad msg) in
  firstn 16 (fold_left process (blocks ++ [checksum blocks]) (zeros 48)).
