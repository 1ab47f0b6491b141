(** C04: what a serialized state that is accepted looks like. The position is in range and the bytes that count are
    those of the serialization of the state it denotes. The bytes after the position are not checked, so the
    serialized state as a whole is not canonical, and a position beyond the block makes the restoring call panic. *)
From Verif Require Import Base.Words Base.Bytes Base.BlockBuffer Base.Digest Model.Hashers Proof.Hashers.

(** Not shown because it is false: [h_serialize C cd h = b]. *)
Theorem C04_canonical_partial : forall m a C cd b h, hasher m a = Some C -> c_codec C = Some cd ->
  bytes_ok b -> length b = state_len C cd -> h_deserialize C cd b = Some h ->
  h_serialize C cd h = firstn (cd_len cd + 1 + length (snd h)) b ++ zeros (c_bs C - length (snd h)).
Proof. exact alg_decode. Qed.
Print Assumptions C04_canonical_partial.
Theorem C04_in_range : forall C cd b h, h_deserialize C cd b = Some h ->
  match c_kind C with Eager => (length (snd h) < c_bs C)%nat | Lazy => (length (snd h) <= c_bs C)%nat end.
Proof. exact alg_position. Qed.
Print Assumptions C04_in_range.
(** Not shown because it is false: [b = b']. *)
Theorem C04_injective_partial : forall m a C cd b b' h, hasher m a = Some C -> c_codec C = Some cd ->
  bytes_ok b -> bytes_ok b' -> length b = state_len C cd -> length b' = state_len C cd ->
  h_deserialize C cd b = Some h -> h_deserialize C cd b' = Some h ->
  firstn (cd_len cd + 1 + length (snd h)) b = firstn (cd_len cd + 1 + length (snd h)) b'.
Proof. exact alg_decode_inj. Qed.
Print Assumptions C04_injective_partial.
(** For every hasher with a serialization, two strings denote the initial state. *)
Theorem C04_injective_refuted : forall m a C cd, params_ok a -> hasher m a = Some C -> c_codec C = Some cd ->
  exists b b', length b = state_len C cd /\ length b' = state_len C cd /\ b <> b' /\
    h_deserialize C cd b = Some (h_new C) /\ h_deserialize C cd b' = Some (h_new C).
Proof. exact alg_not_injective. Qed.
Print Assumptions C04_injective_refuted.
(** Exactly when restoring panics instead of returning a result, and that every hasher can be made to. *)
Theorem C04_panics : forall C cd b, length b = state_len C cd ->
  h_restore C cd b = None <-> is_some (cd_deser cd (firstn (cd_len cd) b)) /\ N.of_nat (c_bs C) < nth (cd_len cd) b 0.
Proof. exact alg_restore_panics. Qed.
Print Assumptions C04_panics.
Theorem C04_total_refuted : forall m a C cd, params_ok a -> hasher m a = Some C -> c_codec C = Some cd ->
  exists b, length b = state_len C cd /\ h_restore C cd b = None.
Proof. exact alg_can_panic. Qed.
Print Assumptions C04_total_refuted.

(** An accepted string; a position that is not smaller than the block is refused or panics; SHA-256 refuses the size of SHA-224. *)
Example C04_hyps : exists C cd h, hasher Checked Sha1 = Some C /\ c_codec C = Some cd /\
  let b := repeat 3 28 ++ [2; 1; 255] ++ zeros 61 ++ [9] in
  bytes_ok b /\ length b = state_len C cd /\ h_deserialize C cd b = Some h.
Proof.
  eexists. eexists. eexists. split; [reflexivity|]. split; [reflexivity|]. split; [repeat constructor|].
  split; [reflexivity|]. vm_compute. reflexivity.
Qed.
Example C04_rejected : exists C cd, hasher Checked Sha1 = Some C /\ c_codec C = Some cd /\
  h_restore C cd (repeat 3 28 ++ [64] ++ zeros 64) = Some None /\ h_restore C cd (repeat 3 28 ++ [65] ++ zeros 64) = None.
Proof. eexists. eexists. split; [reflexivity|]. split; [reflexivity|]. split; vm_compute; reflexivity. Qed.
Example C04_size : exists C cd h, hasher Checked Sha256 = Some C /\ c_codec C = Some cd /\
  h_restore C cd (repeat 3 40 ++ [28; 0] ++ zeros 64) = Some None /\ h_restore C cd (repeat 3 40 ++ [32; 0] ++ zeros 64) = Some (Some h).
Proof. eexists. eexists. eexists. split; [reflexivity|]. split; [reflexivity|]. split; vm_compute; reflexivity. Qed.
