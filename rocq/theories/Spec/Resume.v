(** Continuing from a digest: whoever knows the digest of a message and its length, but not the message, can write down a
    saved state and go on from there ("length extension"). *)
From Verif Require Import Base.Words Base.Bytes Base.Digest.

(** Each group of [k] bytes reversed. *)
Definition swap_words (k : nat) (d : bytes) : bytes := concat (map (@rev N) (chunks k d)).

(** [saved d n] is the saved state made from the digest [d] of a message whose padded form [pad msg] has [n] blocks.  Restoring
    it succeeds, and the restored hasher behaves as one that has been fed [pad msg]. *)
Definition continues (C : core) (pad : bytes -> bytes) (w : N) (saved : bytes -> N -> bytes) : Prop :=
  forall cd m msg d, c_codec C = Some cd -> bytes_ok msg -> 8 * N.of_nat (length (pad msg)) < 2 ^ w ->
  h_digest C m [msg] = Some d ->
  exists h, h_deserialize C cd (saved d (N.of_nat (length (pad msg) / c_bs C))) = Some h /\
  forall cs, Forall bytes_ok cs -> 8 * N.of_nat (length (pad msg ++ concat cs)) < 2 ^ w ->
  obind (h_updates C m h cs) (h_finalize C m) = h_digest C m [pad msg ++ concat cs].
