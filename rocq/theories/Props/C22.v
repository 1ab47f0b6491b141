(** C22: the tag computed by a BLAKE2 MAC is keyed BLAKE2 with the given salt and
    personalization (Spec/BLAKE2.v), for every parameter choice the constructors
    accept and every message cut in any way. *)
From Verif Require Import Base.Words Base.Bytes Model.Blake2 Proof.Blake2.
From Verif Require Spec.BLAKE2.

Theorem C22_blake2b : forall nn m key salt persona s cs, (nn <= 64)%nat -> bytes_ok (key_of key) ->
  new_with_salt_and_personal Blake2b nn key salt persona = Ok s ->
  Forall bytes_ok cs -> N.of_nat (128 + length (concat cs)) < 2 ^ 64 ->
  mac_tag Blake2b nn m s cs
  = Some (Spec.BLAKE2.BLAKE2 Spec.BLAKE2.BLAKE2b salt persona (key_of key) nn (concat cs)).
Proof. exact (fun nn m key salt persona s cs => wsp_tag Blake2b _ nn m key salt persona s cs same_b). Qed.
Print Assumptions C22_blake2b.

Theorem C22_blake2s : forall nn m key salt persona s cs, (nn <= 32)%nat -> bytes_ok (key_of key) ->
  new_with_salt_and_personal Blake2s nn key salt persona = Ok s ->
  Forall bytes_ok cs -> N.of_nat (64 + length (concat cs)) < 2 ^ 64 ->
  mac_tag Blake2s nn m s cs
  = Some (Spec.BLAKE2.BLAKE2 Spec.BLAKE2.BLAKE2s salt persona (key_of key) nn (concat cs)).
Proof. exact (fun nn m key salt persona s cs => wsp_tag Blake2s _ nn m key salt persona s cs same_s). Qed.
Print Assumptions C22_blake2s.

Theorem C22_blake2b_slice : forall nn m key s cs, (nn <= 64)%nat -> bytes_ok key -> key <> [] ->
  new_from_slice Blake2b nn key = Ok s ->
  Forall bytes_ok cs -> N.of_nat (128 + length (concat cs)) < 2 ^ 64 ->
  mac_tag Blake2b nn m s cs = Some (Spec.BLAKE2.BLAKE2 Spec.BLAKE2.BLAKE2b [] [] key nn (concat cs)).
Proof. exact (fun nn m key s cs => nfs_tag Blake2b _ nn m key s cs same_b). Qed.
Print Assumptions C22_blake2b_slice.

Theorem C22_blake2s_slice : forall nn m key s cs, (nn <= 32)%nat -> bytes_ok key -> key <> [] ->
  new_from_slice Blake2s nn key = Ok s ->
  Forall bytes_ok cs -> N.of_nat (64 + length (concat cs)) < 2 ^ 64 ->
  mac_tag Blake2s nn m s cs = Some (Spec.BLAKE2.BLAKE2 Spec.BLAKE2.BLAKE2s [] [] key nn (concat cs)).
Proof. exact (fun nn m key s cs => nfs_tag Blake2s _ nn m key s cs same_s). Qed.
Print Assumptions C22_blake2s_slice.

(** Non-vacuity. *)
Example C22_hyps : (exists s, new_with_salt_and_personal Blake2b 64 (Some [1; 2; 3]) [4] (repeat 5 16) = Ok s) /\
  (exists s, new_with_salt_and_personal Blake2s 20 None [4] [] = Ok s) /\ (exists s, new_from_slice Blake2b 32 (repeat 7 64) = Ok s) /\
  Forall bytes_ok [[97; 98]; []; [99]] /\ N.of_nat (128 + length (concat [[97; 98]; []; [99]])) < 2 ^ 64.
Proof. repeat split; try (eexists; vm_compute; reflexivity). repeat constructor. Qed.
(** blake2s with key 00..1f, empty message (the BLAKE2 reference vectors). *)
Example C22_kat : option_map be_val (match new_from_slice Blake2s 32 (map N.of_nat (seq 0 32)) with
    Ok s => mac_tag Blake2s 32 Checked s [] | _ => None end)
  = Some 0x48a8997da407876b3d79c0d92325ad3b89cbb754d86ab71aee047ad345fd2c49.
Proof. vm_compute. reflexivity. Qed.
