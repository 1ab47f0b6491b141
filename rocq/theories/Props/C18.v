(** C18: TurboSHAKE128 and TurboSHAKE256 compute their specified functions
    (Spec/Keccak.v) for every message, every sequence of reads and every domain
    byte that the constructor accepts; it accepts exactly 0x01..=0x7F. *)
From Verif Require Import Base.Words Base.Bytes Base.Digest Base.DigestFacts Base.Xof Model.Sha3 Proof.Sha3.
From Verif Require Spec.Keccak.

Theorem C18_turboshake128 : forall ds ns m cs, is_some (turbo_new ds) -> Forall bytes_ok cs ->
  h_digest (xof_core (TurboShake128 ds) ns) m cs = Some (Spec.Keccak.TurboSHAKE128 ds (concat cs) (total ns)).
Proof. exact (fun ds ns m cs D B => digest_spec _ _ _ _ (TurboShake128_ok ds ns D) m cs B I). Qed.
Print Assumptions C18_turboshake128.

Theorem C18_turboshake256 : forall ds ns m cs, is_some (turbo_new ds) -> Forall bytes_ok cs ->
  h_digest (xof_core (TurboShake256 ds) ns) m cs = Some (Spec.Keccak.TurboSHAKE256 ds (concat cs) (total ns)).
Proof. exact (fun ds ns m cs D B => digest_spec _ _ _ _ (TurboShake256_ok ds ns D) m cs B I). Qed.
Print Assumptions C18_turboshake256.

Theorem C18_domain_bytes : forall ds, is_some (turbo_new ds) <-> 0x01 <= ds <= 0x7F.
Proof. exact turbo_new_some. Qed.
Print Assumptions C18_domain_bytes.

(** Non-vacuity: RFC 9861, TurboSHAKE128 of the empty message, D = 0x1F. *)
Example C18_hyps : is_some (turbo_new 0x1F) /\ Forall bytes_ok [[97; 98]; []; [99]].
Proof. split; [eexists; vm_compute; reflexivity|repeat constructor]. Qed.
Example C18_kat : option_map be_val (h_digest (xof_core (TurboShake128 0x1F) [5; 27]%nat) Checked [])
  = Some 0x1E415F1C5983AFF2169217277D17BB538CD945A397DDEC541F1CE41AF2C1B74C.
Proof. vm_compute. reflexivity. Qed.
