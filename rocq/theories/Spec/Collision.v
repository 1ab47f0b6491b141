(** What it means to extract a collision of a compression function from two hash computations. *)
From Verif Require Import Base.Words Base.Bytes Base.Digest Spec.MD.

(** The chain over [blocks] feeds chaining value [h] and block [b] to [f]. *)
Definition feeds {S} (f : S -> bytes -> S) (iv : S) (blocks : list bytes) (h : S) (b : bytes) : Prop :=
  exists pre post, blocks = pre ++ b :: post /\ h = fold_left f pre iv.
(** The two chains feed [f] different inputs on which it gives the same output. *)
Definition collision_in {S} (f : S -> bytes -> S) (iv : S) (blocks blocks' : list bytes) : Prop :=
  exists h b h' b', feeds f iv blocks h b /\ feeds f iv blocks' h' b' /\ (h, b) <> (h', b') /\ f h b = f h' b'.

(** What a hasher outputs for [msg], in some build mode and with the message cut in some way. *)
Definition outputs (C : core) (msg : bytes) (d : option bytes) : Prop :=
  exists m cs, Forall bytes_ok cs /\ concat cs = msg /\ h_digest C m cs = d.
(** Equal outputs of different messages give such a collision. *)
Definition collisions_reduce {S} (C : core) (within : bytes -> Prop)
    (f : S -> bytes -> S) (iv : S) (bs : nat) (pad : bytes -> bytes) : Prop :=
  forall msg msg' d, bytes_ok msg -> bytes_ok msg' -> within msg -> within msg' -> msg <> msg' ->
  outputs C msg d -> outputs C msg' d -> collision_in f iv (chunks bs (pad msg)) (chunks bs (pad msg')).
Definition bits_below (k : N) (msg : bytes) : Prop := 8 * N.of_nat (length msg) < 2 ^ k.

(** The hasher's digest is [run] applied to the blocks of the padded message. *)
Definition hashes_blocks (C : core) (within : bytes -> Prop) (bs : nat) (pad : bytes -> bytes) (run : list bytes -> bytes) : Prop :=
  forall m cs, Forall bytes_ok cs -> within (concat cs) ->
  h_digest C m cs = Some (run (chunks bs (pad (concat cs)))).
(** Different messages have different blocks, and no byte of the padded message is left out of them. *)
Definition blocks_differ (bs : nat) (pad : bytes -> bytes) : Prop :=
  forall msg, concat (chunks bs (pad msg)) = pad msg /\
  forall msg', msg <> msg' -> chunks bs (pad msg) <> chunks bs (pad msg').
