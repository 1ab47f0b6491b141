(** How a message block lies in the memory of a machine that only reads aligned
    [k]-byte words.  [pre] are the bytes of the first word before the block,
    [post] the bytes of the last word after it; a block at an aligned address
    has no [pre] and nothing is said about what follows it. *)
From Verif Require Import Base.Words Base.Bytes.

Definition surrounds (k : nat) (pre block post mem : bytes) : Prop :=
  mem = pre ++ block ++ post /\ (length pre < k)%nat /\
  (length pre = 0%nat \/ length post = (k - length pre)%nat).
(** [b] = (address modulo [k], memory) holds [block]. *)
Definition in_memory (k : nat) (b : nat * bytes) (block : bytes) : Prop :=
  exists pre post, fst b = length pre /\ surrounds k pre block post (snd b) /\ bytes_ok (snd b).
(** A list of whole blocks of [n] bytes. *)
Definition whole (n : nat) (blocks : list bytes) : Prop := Forall (fun b => length b = n /\ bytes_ok b) blocks.
