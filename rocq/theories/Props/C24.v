(** C24: after any history of updates, resets and finalizations, resetting a
    BLAKE2 MAC (directly or through [finalize_reset]) gives exactly the state the
    constructor made: the key is absorbed again. *)
From Verif Require Import Base.Words Base.Bytes Model.Blake2 Proof.Blake2.

Theorem C24_blake2b : forall nn m key salt persona s0 s, (nn <= 64)%nat ->
  new_with_salt_and_personal Blake2b nn key salt persona = Ok s0 \/
    (exists k, key = Some k /\ new_from_slice Blake2b nn k = Ok s0) ->
  mac_history Blake2b nn m s0 s ->
  mac_reset Blake2b s = Some s0 /\ forall out s', mac_finalize_reset Blake2b nn m s = Some (out, s') -> s' = s0.
Proof. exact (fun nn m key salt persona s0 s => mac_reset_fresh Blake2b _ nn m key salt persona s0 s same_b). Qed.
Print Assumptions C24_blake2b.

Theorem C24_blake2s : forall nn m key salt persona s0 s, (nn <= 32)%nat ->
  new_with_salt_and_personal Blake2s nn key salt persona = Ok s0 \/
    (exists k, key = Some k /\ new_from_slice Blake2s nn k = Ok s0) ->
  mac_history Blake2s nn m s0 s ->
  mac_reset Blake2s s = Some s0 /\ forall out s', mac_finalize_reset Blake2s nn m s = Some (out, s') -> s' = s0.
Proof. exact (fun nn m key salt persona s0 s => mac_reset_fresh Blake2s _ nn m key salt persona s0 s same_s). Qed.
Print Assumptions C24_blake2s.

(** Non-vacuity: a keyed MAC, updated past a block, finalized with reset. *)
Example C24_hyps : exists s0 s1 out s2, new_from_slice Blake2s 32 [1; 2; 3] = Ok s0 /\
  mac_history Blake2s 32 Checked s0 s1 /\ m_buf s1 <> m_buf s0 /\ mac_finalize_reset Blake2s 32 Checked s1 = Some (out, s2).
Proof.
  assert (E0 : exists s0, new_from_slice Blake2s 32 [1; 2; 3] = Ok s0) by (eexists; reflexivity). destruct E0 as [s0 E0].
  assert (E1 : exists s1, mac_update Blake2s Checked s0 [7; 8] = Some s1 /\ m_buf s1 <> m_buf s0 /\
     is_some (mac_finalize_reset Blake2s 32 Checked s1)).
  { injection E0 as <-. eexists. split; [vm_compute; reflexivity|]. split; [discriminate|eexists; vm_compute; reflexivity]. }
  destruct E1 as (s1 & E1 & D1 & [[out s2] F]). exists s0, s1, out, s2. repeat split; try assumption.
  exact (mh_update _ _ _ _ _ _ _ (mh_new _ _ _ _) E1).
Qed.
