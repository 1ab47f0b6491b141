(** C41: the collision-detecting SHA-1 hasher computes SHA-1 unless it reports a
    collision and replaces the hash (safe hash); what it reports is exactly
    whether some block of the padded message meets the detector's condition
    (Spec/SHA1C.v), for every message, every cutting into [update] calls and
    every configuration.

    [unavoidable b] is the pre-filter of the crate (ubc_check.rs) when
    [use_ubc] is on; that real attacks always pass it is not claimed. *)
From Verif Require Import Base.Words Base.Bytes Base.Digest Base.DigestFacts
  Model.Sha1CheckedTables Model.Sha1Checked Proof.Sha1Checked.
From Verif Require Spec.SHA1 Spec.SHA1C Proof.Sha1CheckedProps.
Import Proof.Sha1CheckedProps (unavoidable).
From Verif Require Import Spec.Options Model.Sha1CheckedBuilder.
From Verif Require Proof.Sha1CheckedBuilder.

Theorem C41_outcome : forall b m cs,
  Forall bytes_ok cs -> 8 * N.of_nat (length (concat cs)) < 2 ^ 64 ->
  let msg := concat cs in
  let reported := Spec.SHA1C.reported (Spec.SHA1C.hit (unavoidable b) (b_reduced b)) msg in
  exists r, try_digest b m cs = Some r /\ h_digest (Sha1Checked b) m cs = Some (r_hash r) /\
  match r with
  | ROk d => d = Spec.SHA1.SHA1 msg /\ (b_detect b = true -> ~ reported)
  | RCollision d => d = Spec.SHA1.SHA1 msg /\ b_detect b = true /\ b_safe b = false /\ reported
  | RMitigated d => b_detect b = true /\ b_safe b = true /\ reported /\
      exists v, Spec.SHA1C.safe_chain (Spec.SHA1C.hit (unavoidable b) (b_reduced b)) Spec.SHA1.iv
                  (chunks 64 (Spec.SHA1.pad msg)) v /\ d = Spec.SHA1.output v
  end.
Proof. exact Proof.Sha1CheckedProps.outcome. Qed.
Print Assumptions C41_outcome.

(** Without detection, or without safe hash, the digest is SHA-1 whatever the message. *)
Theorem C41_plain : forall b m cs,
  Forall bytes_ok cs -> 8 * N.of_nat (length (concat cs)) < 2 ^ 64 ->
  b_detect b = false \/ b_safe b = false ->
  h_digest (Sha1Checked b) m cs = Some (Spec.SHA1.SHA1 (concat cs)).
Proof. exact Proof.Sha1CheckedProps.plain. Qed.
Print Assumptions C41_plain.

(** The same for a hasher configured by any chain of builder calls, in terms of the option values the
    documentation promises (Spec/Options.v): the last value set, or the default.  With no calls it is the default hasher. *)
Theorem C41_configured : forall l m cs,
  Forall bytes_ok cs -> 8 * N.of_nat (length (concat cs)) < 2 ^ 64 ->
  let msg := concat cs in
  let filter W i := if in_force l UseUbc then N.testbit (ubc_check W) (N.of_nat i) else true in
  let hit := Spec.SHA1C.hit filter (in_force l ReducedRoundCollision) in
  let detected := in_force l DetectCollision = true /\ Spec.SHA1C.reported hit msg in
  exists r, try_digest (configure l) m cs = Some r /\ h_digest (Sha1Checked (configure l)) m cs = Some (r_hash r) /\
  match r with
  | ROk d => ~ detected /\ d = Spec.SHA1.SHA1 msg
  | RCollision d => detected /\ in_force l SafeHash = false /\ d = Spec.SHA1.SHA1 msg
  | RMitigated d => detected /\ in_force l SafeHash = true /\
      exists v, Spec.SHA1C.safe_chain hit Spec.SHA1.iv (chunks 64 (Spec.SHA1.pad msg)) v /\ d = Spec.SHA1.output v
  end.
Proof. exact Proof.Sha1CheckedBuilder.outcome. Qed.
Print Assumptions C41_configured.

(** The hypotheses are met by ordinary inputs; known answers: "abc", and the
    colliding message of the crate's tests (tests/data/sha1_reducedsha_coll.bin). *)
Example C41_hyps : Forall bytes_ok [[97; 98]; []; [99]] /\
  8 * N.of_nat (length (concat [[97; 98]; []; [99]])) < 2 ^ 64.
Proof. split; [repeat constructor|reflexivity]. Qed.
Example C41_kat_abc : option_map (fun r => (has_collision r, be_val (r_hash r))) (try_digest builder Checked [[97; 98]; []; [99]])
  = Some (false, 0xa9993e364706816aba3e25717850c26c9cd0d89d).
Proof. vm_compute. reflexivity. Qed.
Definition reduced_collision : bytes := be_bytes 128
  0xbc7e393a0470f684e0a484dea556875acddff9c82d02016b860ee7f911e1841871bfbff1067095c9ed44afee78122409a3b2eb2e16c0cfc206c5202810383c2b73e6e2c8437fb13e4e4d5db6e383e01d7bea242c2bb630546845b1430c2194abfb5236be2bc91e191d11bf8f665ef9ab9f8fe36a402cbf39d77c1fb43cb00872.
Example C41_kat_plain : option_map (fun r => (has_collision r, be_val (r_hash r)))
  (try_digest (detect_collision builder false) Checked [reduced_collision])
  = Some (false, 0xa56374e1cf4c3746499bc7c0acb39498ad2ee185).
Proof. vm_compute. reflexivity. Qed.
Example C41_kat_collision :
  try_digest (mkBuilder true false true true) Checked [reduced_collision]
  = Some (RCollision (be_bytes 20 0xa56374e1cf4c3746499bc7c0acb39498ad2ee185)).
Proof. vm_compute. reflexivity. Qed.
Example C41_kat_mitigated :
  try_digest (mkBuilder true true true true) Checked [reduced_collision]
  = Some (RMitigated (be_bytes 20 0xdd39885a2a5d8f59030b451e00cb45da9f9d3828)).
Proof. vm_compute. reflexivity. Qed.
Example C41_settings : let l := [(SafeHash, false); (UseUbc, false); (SafeHash, true); (DetectCollision, true)] in
  in_force l SafeHash = true /\ in_force l UseUbc = false /\ configure l = mkBuilder true true false false /\ configure [] = builder.
Proof. repeat split. Qed.
