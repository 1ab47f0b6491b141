(** Shared vocabulary of Merkle-Damgard style specifications: padding and
    iteration of a compression function. *)
From Verif Require Import Base.Words Base.Bytes.

(** The least number of zero bytes [k] such that [len] message bytes, one
    delimiter byte, [k] zero bytes and a suffix of [sl] bytes fill whole blocks of
    [bs] bytes ("the smallest non-negative solution of l + 1 + k = 448 mod 512"). *)
Definition zpad (bs sl len : nat) : nat := ((bs - (len + 1 + sl) mod bs) mod bs)%nat.

(** message || delimiter || 0...0 || suffix *)
Definition md_pad (bs : nat) (delim : N) (suffix msg : bytes) : bytes :=
  msg ++ [delim] ++ zeros (zpad bs (length suffix) (length msg)) ++ suffix.

(** Length of a message in bytes / bits, as an unbounded number. *)
Definition blen (msg : bytes) : N := N.of_nat (length msg).

(** Iterate a compression function over the blocks of the padded message. *)
Definition md_iterate {S} (compress : S -> bytes -> S) (bs : nat) (iv : S) (padded : bytes) : S :=
  fold_left compress (chunks bs padded) iv.
