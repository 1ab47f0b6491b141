(** C23: what the BLAKE2 MAC constructors do with every key, salt and persona. *)
From Verif Require Import Base.Words Base.Bytes Model.Blake2 Proof.Blake2.
From Verif Require Spec.BLAKE2.

(** The exact behaviour of [new_with_salt_and_personal]: an error for an empty
    key, a key longer than a block, and a salt or persona longer than a quarter
    of a block; a panic for everything else the algorithm does not support. *)
Theorem C23_blake2b_salt_personal : forall nn key salt persona, (nn <= 64)%nat ->
  (new_with_salt_and_personal Blake2b nn key salt persona = Err <->
     match key with None => False | Some k => length k = 0 \/ 128 < length k end \/ 32 < length salt \/ 32 < length persona)%nat /\
  (new_with_salt_and_personal Blake2b nn key salt persona = Panic <->
     ~ (match key with None => False | Some k => length k = 0 \/ 128 < length k end \/ 32 < length salt \/ 32 < length persona)%nat /\
     ~ (nn <= 64 /\ match key with None => True | Some k => 0 < length k <= 64 end /\ length salt <= 16 /\ length persona <= 16)%nat).
Proof. exact (fun nn key salt persona => wsp_outcome Blake2b _ nn key salt persona same_b). Qed.
Print Assumptions C23_blake2b_salt_personal.

Theorem C23_blake2s_salt_personal : forall nn key salt persona, (nn <= 32)%nat ->
  (new_with_salt_and_personal Blake2s nn key salt persona = Err <->
     match key with None => False | Some k => length k = 0 \/ 64 < length k end \/ 16 < length salt \/ 16 < length persona)%nat /\
  (new_with_salt_and_personal Blake2s nn key salt persona = Panic <->
     ~ (match key with None => False | Some k => length k = 0 \/ 64 < length k end \/ 16 < length salt \/ 16 < length persona)%nat /\
     ~ (nn <= 32 /\ match key with None => True | Some k => 0 < length k <= 32 end /\ length salt <= 8 /\ length persona <= 8)%nat).
Proof. exact (fun nn key salt persona => wsp_outcome Blake2s _ nn key salt persona same_s). Qed.
Print Assumptions C23_blake2s_salt_personal.

(** [new_from_slice] rejects exactly the keys that are too long and never panics. *)
Theorem C23_blake2b_slice : forall nn key, (nn <= 64)%nat ->
  (new_from_slice Blake2b nn key = Err <-> (64 < length key)%nat) /\ new_from_slice Blake2b nn key <> Panic.
Proof. exact (fun nn key => nfs_outcome Blake2b _ nn key same_b). Qed.
Print Assumptions C23_blake2b_slice.

Theorem C23_blake2s_slice : forall nn key, (nn <= 32)%nat ->
  (new_from_slice Blake2s nn key = Err <-> (32 < length key)%nat) /\ new_from_slice Blake2s nn key <> Panic.
Proof. exact (fun nn key => nfs_outcome Blake2s _ nn key same_s). Qed.
Print Assumptions C23_blake2s_slice.

(** "Never panics" is false: lengths the documentation of the constructor says
    give an error hit the assertions in [new_with_params]. *)
Theorem C23_no_panic_refuted :
  new_with_salt_and_personal Blake2b 64 (Some (repeat 0 65)) [] [] = Panic /\
  new_with_salt_and_personal Blake2b 64 (Some [1]) (repeat 0 17) [] = Panic /\
  new_with_salt_and_personal Blake2s 32 None [] (repeat 0 9) = Panic.
Proof. exact wsp_panics. Qed.
Print Assumptions C23_no_panic_refuted.

(** "An empty key is rejected" is false for [new_from_slice]: the empty key is
    accepted and the tag of M is the unkeyed hash of a zero block followed by M. *)
Theorem C23_empty_key_refuted : forall nn m cs, (nn <= 64)%nat -> Forall bytes_ok cs ->
  N.of_nat (128 + length (concat cs)) < 2 ^ 64 ->
  exists s, new_from_slice Blake2b nn [] = Ok s /\
  mac_tag Blake2b nn m s cs = Some (Spec.BLAKE2.BLAKE2 Spec.BLAKE2.BLAKE2b [] [] [] nn (zeros 128 ++ concat cs)).
Proof. exact (fun nn m cs => nfs_empty Blake2b _ nn m cs same_b). Qed.
Print Assumptions C23_empty_key_refuted.

(** Non-vacuity: all three outcomes occur. *)
Example C23_outcomes : (exists s, new_with_salt_and_personal Blake2b 64 (Some [1]) [2] [3] = Ok s) /\
  new_with_salt_and_personal Blake2b 64 (Some []) [] [] = Err /\
  new_with_salt_and_personal Blake2b 64 (Some (repeat 0 129)) [] [] = Err /\
  new_from_slice Blake2b 64 (repeat 0 65) = Err.
Proof. repeat split; try (eexists; vm_compute; reflexivity); vm_compute; reflexivity. Qed.
