(** C19: cSHAKE128 and cSHAKE256 against SP 800-185 (Spec/Keccak.v).

    The property as stated is false of the code: when the encoded prefix
    left_encode(rate) || encode_string(N) || encode_string(S) fills its last
    block exactly, [new_with_function_name] absorbs one more block of zeros
    (sha3/src/macros.rs 519).  Proved: the code computes SP 800-185 for every
    message, name, customization and sequence of reads in all other cases
    ([C19_cshake128_partial], [C19_cshake256_partial]), and the two refutations. *)
From Verif Require Import Base.Words Base.Bytes Base.Digest Base.DigestFacts Base.Xof Model.Sha3 Proof.Sha3.
From Verif Require Spec.Keccak.
Import Spec.Keccak (left_encode, encode_string).

Theorem C19_cshake128_partial : forall m fn cust, bytes_ok fn -> bytes_ok cust ->
  8 * N.of_nat (length fn) < 2 ^ 64 -> 8 * N.of_nat (length cust) < 2 ^ 64 ->
  (fn = [] /\ cust = [] \/
   (length (left_encode 168 ++ encode_string fn ++ encode_string cust) mod 168 <> 0)%nat) ->
  exists ini, cshake_new m 168 fn cust = Some ini /\
  forall ns cs, Forall bytes_ok cs ->
    h_digest (xof_core (CShake128 ini) ns) m cs = Some (Spec.Keccak.cSHAKE128 fn cust (concat cs) (total ns)).
Proof. exact (fun m fn cust => cshake_standard m 168 21 fn cust eq_refl ltac:(lia)). Qed.
Print Assumptions C19_cshake128_partial.

Theorem C19_cshake256_partial : forall m fn cust, bytes_ok fn -> bytes_ok cust ->
  8 * N.of_nat (length fn) < 2 ^ 64 -> 8 * N.of_nat (length cust) < 2 ^ 64 ->
  (fn = [] /\ cust = [] \/
   (length (left_encode 136 ++ encode_string fn ++ encode_string cust) mod 136 <> 0)%nat) ->
  exists ini, cshake_new m 136 fn cust = Some ini /\
  forall ns cs, Forall bytes_ok cs ->
    h_digest (xof_core (CShake256 ini) ns) m cs = Some (Spec.Keccak.cSHAKE256 fn cust (concat cs) (total ns)).
Proof. exact (fun m fn cust => cshake_standard m 136 17 fn cust eq_refl ltac:(lia)). Qed.
Print Assumptions C19_cshake256_partial.

(** [new_customized] sets the customization and leaves the function name empty. *)
Theorem C19_customized_partial : forall m cust, bytes_ok cust -> 8 * N.of_nat (length cust) < 2 ^ 64 ->
  (cust = [] \/ (length (left_encode 168 ++ encode_string [] ++ encode_string cust) mod 168 <> 0)%nat ->
   exists ini, cshake_new_customized m 168 cust = Some ini /\
   forall ns cs, Forall bytes_ok cs ->
     h_digest (xof_core (CShake128 ini) ns) m cs = Some (Spec.Keccak.cSHAKE128 [] cust (concat cs) (total ns))) /\
  (cust = [] \/ (length (left_encode 136 ++ encode_string [] ++ encode_string cust) mod 136 <> 0)%nat ->
   exists ini, cshake_new_customized m 136 cust = Some ini /\
   forall ns cs, Forall bytes_ok cs ->
     h_digest (xof_core (CShake256 ini) ns) m cs = Some (Spec.Keccak.cSHAKE256 [] cust (concat cs) (total ns))).
Proof. exact cshake_customized. Qed.
Print Assumptions C19_customized_partial.

(** With empty name and customization the output is SHAKE's. *)
Theorem C19_empty_is_shake : forall m,
  exists i1 i2, cshake_new m 168 [] [] = Some i1 /\ cshake_new m 136 [] [] = Some i2 /\
  forall ns cs, Forall bytes_ok cs ->
    h_digest (xof_core (CShake128 i1) ns) m cs = Some (Spec.Keccak.SHAKE128 (concat cs) (total ns)) /\
    h_digest (xof_core (CShake256 i2) ns) m cs = Some (Spec.Keccak.SHAKE256 (concat cs) (total ns)).
Proof. exact cshake_empty. Qed.
Print Assumptions C19_empty_is_shake.

(** What the code computes in every case: one padding byte at least. *)
Theorem C19_code_behaviour : forall r, r = 168%nat \/ r = 136%nat -> forall m fn cust, bytes_ok fn -> bytes_ok cust ->
  8 * N.of_nat (length fn) < 2 ^ 64 -> 8 * N.of_nat (length cust) < 2 ^ 64 -> fn <> [] \/ cust <> [] ->
  exists ini, cshake_new m r fn cust = Some ini /\
  forall ns cs, Forall bytes_ok cs ->
    h_digest (xof_core (cshake_xof r ini) ns) m cs =
    Some (let z := left_encode (N.of_nat r) ++ encode_string fn ++ encode_string cust in
          Spec.Keccak.keccak_c r Spec.Keccak.sfx_cshake (z ++ zeros (r - length z mod r) ++ concat cs) (total ns)).
Proof. exact cshake_always. Qed.
Print Assumptions C19_code_behaviour.

(** The code disagrees with SP 800-185 already on the empty message and the
    first output byte. *)
Theorem C19_cshake128_refuted : exists cust, bytes_ok cust /\ length cust = 161%nat /\
  forall m, exists ini, cshake_new m 168 [] cust = Some ini /\
    h_digest (xof_core (CShake128 ini) [1%nat]) m [] <> Some (Spec.Keccak.cSHAKE128 [] cust [] 1).
Proof. exact cshake128_wrong. Qed.
Print Assumptions C19_cshake128_refuted.

Theorem C19_cshake256_refuted : exists cust, bytes_ok cust /\ length cust = 129%nat /\
  forall m, exists ini, cshake_new m 136 [] cust = Some ini /\
    h_digest (xof_core (CShake256 ini) [1%nat]) m [] <> Some (Spec.Keccak.cSHAKE256 [] cust [] 1).
Proof. exact cshake256_wrong. Qed.
Print Assumptions C19_cshake256_refuted.

(** Non-vacuity: the hypotheses hold for the NIST sample (S = "Email Signature"),
    whose output is checked. *)
Definition email := [69; 109; 97; 105; 108; 32; 83; 105; 103; 110; 97; 116; 117; 114; 101].
Example C19_hyps : bytes_ok email /\ 8 * N.of_nat (length email) < 2 ^ 64 /\
  (length (left_encode 168 ++ encode_string [] ++ encode_string email) mod 168 <> 0)%nat.
Proof. split; [repeat constructor|]. split; [reflexivity|]. vm_compute. discriminate. Qed.
Example C19_kat : obind (cshake_new Checked 168 [] email)
    (fun ini => option_map be_val (h_digest (xof_core (CShake128 ini) [32%nat]) Checked [[0; 1]; [2; 3]]))
  = Some 0xC1C36925B6409A04F1B504FCBCA9D82B4017277CB5ED2B2065FC1D3814D5AAF5.
Proof. vm_compute. reflexivity. Qed.
