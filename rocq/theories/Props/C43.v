(** C43: after [reset] or [finalize_reset] a sha1-checked hasher behaves like a
    newly built one with the same configuration, whatever it hashed before
    (collisions included). *)
From Verif Require Import Base.Words Base.Bytes Base.Digest Base.DigestFacts Base.ResetFacts
  Model.Sha1CheckedTables Model.Sha1Checked Proof.Sha1Checked.
From Verif Require Proof.Sha1CheckedProps.

(** All histories of [update], [reset], [finalize_reset], [clone]... on any
    number of hashers: every output is what a new hasher of the same
    configuration gives on the bytes fed since the last reset. *)
Theorem C43_histories : forall b, exists H : bytes -> bytes,
  (forall m msg, bytes_ok msg -> 8 * N.of_nat (length msg) < 2 ^ 64 ->
     h_digest (Sha1Checked b) m [msg] = Some (H msg)) /\
  (forall m ops, ops_ok ops -> 8 * N.of_nat (fed ops) < 2 ^ 64 ->
     run_history (Sha1Checked b) m ops = Some (spec_history false H ops)).
Proof. exact Proof.Sha1CheckedProps.histories. Qed.
Print Assumptions C43_histories.

(** [reset] gives exactly the new hasher, with no limit on what was fed. *)
Theorem C43_reset : forall b m cs h,
  Forall bytes_ok cs -> h_updates (Sha1Checked b) m (h_new (Sha1Checked b)) cs = Some h ->
  h_reset (Sha1Checked b) h = h_new (Sha1Checked b).
Proof. exact (fun b => reset_spec _ _ _ _ (Sha1Checked_ok b)). Qed.
Print Assumptions C43_reset.

(** A hasher that has just reported a collision, reset and used again. *)
Definition reduced_collision : bytes := be_bytes 128
  0xbc7e393a0470f684e0a484dea556875acddff9c82d02016b860ee7f911e1841871bfbff1067095c9ed44afee78122409a3b2eb2e16c0cfc206c5202810383c2b73e6e2c8437fb13e4e4d5db6e383e01d7bea242c2bb630546845b1430c2194abfb5236be2bc91e191d11bf8f665ef9ab9f8fe36a402cbf39d77c1fb43cb00872.
Example C43_after_collision :
  let b := mkBuilder true true true true in
  (let* h := h_updates (Sha1Checked b) Checked (h_new (Sha1Checked b)) [reduced_collision; []] in
   let* r := try_finalize Checked (fst h) (snd h) in
   let* (d, h) := h_finalize_reset (Sha1Checked b) Checked h in
   let* h := h_update (Sha1Checked b) Checked h [97; 98; 99] in
   let* r' := try_finalize Checked (fst h) (snd h) in
   Some (has_collision r, has_collision r', be_val (r_hash r')))
  = Some (true, false, 0xa9993e364706816aba3e25717850c26c9cd0d89d).
Proof. vm_compute. reflexivity. Qed.
Example C43_hyps : ops_ok [New; Update 0 [97]; Reset 0; Update 0 [98]; FinalizeReset 0]
  /\ 8 * N.of_nat (fed [New; Update 0 [97]; Reset 0; Update 0 [98]; FinalizeReset 0]) < 2 ^ 64.
Proof. split; [repeat constructor|reflexivity]. Qed.
