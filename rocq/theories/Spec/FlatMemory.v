(** A flat byte-addressed memory: an address (below 2^64) to the byte there. *)
From Verif Require Import Base.Words Base.Bytes.

(** The bytes [l] lie at address [a]. *)
Definition holds (mem : N -> N) (a : N) (l : bytes) : Prop :=
  forall i, (i < length l)%nat -> mem (a + N.of_nat i) = nth i l 0.
(** Two ranges (start, length) do not overlap. *)
Definition apart (r s : N * N) : Prop := fst r + snd r <= fst s \/ fst s + snd s <= fst r.
(** [x] is not an address of the range. *)
Definition outside (r : N * N) (x : N) : Prop := x < fst r \/ fst r + snd r <= x.
(** The range lies within the address space. *)
Definition fits (r : N * N) : Prop := fst r + snd r <= 2 ^ 64.
(** The bytes of a memory are bytes. *)
Definition bytes_mem (mem : N -> N) : Prop := forall x, mem x < 256.
(** [mem'] is [mem] except within the ranges [rs]. *)
Definition unchanged_but (rs : list (N * N)) (mem mem' : N -> N) : Prop :=
  forall x, Forall (fun r => outside r x) rs -> mem' x = mem x.
