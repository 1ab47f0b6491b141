(** C46: domain separation between variants sharing a permutation or compression function. *)
From Verif Require Import Base.Words Base.Bytes Base.Digest Base.Xof Spec.Blocks Spec.Domains.
From Verif Require Spec.Keccak Spec.BLAKE2 Model.Sha3 Model.Blake2 Proof.Blake2 Proof.PaddedHashers Proof.Domains.
Import Spec.Keccak (turbo_pad).

(** Which blocks the hashers absorb: those of the message padded with the family's domain byte. *)
Theorem C46_domain_bytes :
  sponge_hasher Model.Sha3.Keccak224 24 144 28 (domain_byte FKeccak) /\ sponge_hasher Model.Sha3.Sha3_224 24 144 28 (domain_byte FSha3) /\
  sponge_hasher Model.Sha3.Keccak256 24 136 32 (domain_byte FKeccak) /\ sponge_hasher Model.Sha3.Sha3_256 24 136 32 (domain_byte FSha3) /\
  sponge_hasher Model.Sha3.Keccak384 24 104 48 (domain_byte FKeccak) /\ sponge_hasher Model.Sha3.Sha3_384 24 104 48 (domain_byte FSha3) /\
  sponge_hasher Model.Sha3.Keccak512 24 72 64 (domain_byte FKeccak) /\ sponge_hasher Model.Sha3.Sha3_512 24 72 64 (domain_byte FSha3) /\
  forall ns, sponge_hasher (xof_core Model.Sha3.Shake128 ns) 24 168 (total ns) (domain_byte FShake) /\
    sponge_hasher (xof_core Model.Sha3.Shake256 ns) 24 136 (total ns) (domain_byte FShake).
Proof.
  exact (conj Proof.PaddedHashers.keccak224 (conj Proof.PaddedHashers.sha3_224 (conj Proof.PaddedHashers.keccak256 (conj Proof.PaddedHashers.sha3_256
    (conj Proof.PaddedHashers.keccak384 (conj Proof.PaddedHashers.sha3_384 (conj Proof.PaddedHashers.keccak512 (conj Proof.PaddedHashers.sha3_512
      (fun ns => conj (Proof.PaddedHashers.shake128 ns) (Proof.PaddedHashers.shake256 ns)))))))))).
Qed.
Print Assumptions C46_domain_bytes.
(** With a function name or a customization string, cSHAKE absorbs [cshake_blocks], whose domain byte is 4. *)
Theorem C46_cshake_absorbs : forall r, r = 168%nat \/ r = 136%nat -> forall m fn cust, bytes_ok fn -> bytes_ok cust ->
  8 * N.of_nat (length fn) < 2 ^ 64 -> 8 * N.of_nat (length cust) < 2 ^ 64 -> fn <> [] \/ cust <> [] ->
  exists ini, Model.Sha3.cshake_new m r fn cust = Some ini /\
  forall ns cs, Forall bytes_ok cs ->
    h_digest (xof_core (Model.Sha3.cshake_xof r ini) ns) m cs = Some (sponge_run 24 r (total ns) (cshake_blocks r fn cust (concat cs))).
Proof. exact Proof.Domains.cshake_absorbs. Qed.
Print Assumptions C46_cshake_absorbs.

(** Different families never absorb the same blocks, whatever the messages. *)
Theorem C46_families : forall r f f' M M', (0 < r)%nat -> f <> f' ->
  chunks r (turbo_pad r (domain_byte f) M) <> chunks r (turbo_pad r (domain_byte f') M').
Proof. exact Proof.Domains.families_apart. Qed.
Print Assumptions C46_families.
(** TurboSHAKE with different domain bytes neither. *)
Theorem C46_turboshake : forall D D', 0x01 <= D <= 0x7F -> 0x01 <= D' <= 0x7F -> D <> D' ->
  (forall ns, sponge_hasher (xof_core (Model.Sha3.TurboShake128 D) ns) 12 168 (total ns) D) /\
  (forall ns, sponge_hasher (xof_core (Model.Sha3.TurboShake256 D) ns) 12 136 (total ns) D) /\
  forall r M M', (0 < r)%nat -> chunks r (turbo_pad r D M) <> chunks r (turbo_pad r D' M').
Proof.
  exact (fun D D' H H' N => conj (fun ns => Proof.PaddedHashers.turboshake128 D ns H) (conj (fun ns => Proof.PaddedHashers.turboshake256 D ns H)
    (fun r M M' R => Proof.Domains.domains_apart r D D' M M' R H H' N))).
Qed.
Print Assumptions C46_turboshake.
(** cSHAKE with different names, customization strings or messages neither. *)
Theorem C46_cshake_names : forall r fn cust fn' cust' M M', (0 < r)%nat ->
  Forall (fun x => 8 * N.of_nat (length x) < 2 ^ 64) [fn; cust; fn'; cust'] ->
  cshake_blocks r fn cust M = cshake_blocks r fn' cust' M' -> fn = fn' /\ cust = cust' /\ M = M'.
Proof. exact Proof.Domains.cshake_apart. Qed.
Print Assumptions C46_cshake_names.

(** BLAKE2 instances start from the same chaining value exactly when output length, key length and the
    zero-padded salt and personalization agree. *)
Theorem C46_blake2b : forall salt persona kk nn salt' persona' kk' nn' s s',
  bytes_ok salt -> bytes_ok persona -> bytes_ok salt' -> bytes_ok persona' ->
  Model.Blake2.new_with_params Model.Blake2.Blake2b salt persona kk nn = Some s ->
  Model.Blake2.new_with_params Model.Blake2.Blake2b salt' persona' kk' nn' = Some s' ->
  (Model.Blake2.b_h s = Model.Blake2.b_h s' <->
   nn = nn' /\ kk = kk' /\ Spec.BLAKE2.zpad 16 salt = Spec.BLAKE2.zpad 16 salt' /\ Spec.BLAKE2.zpad 16 persona = Spec.BLAKE2.zpad 16 persona').
Proof. exact (fun a b c d e f g h s s' => Proof.Domains.blake2_apart _ _ a b c d e f g h s s' Proof.Blake2.same_b). Qed.
Print Assumptions C46_blake2b.
Theorem C46_blake2s : forall salt persona kk nn salt' persona' kk' nn' s s',
  bytes_ok salt -> bytes_ok persona -> bytes_ok salt' -> bytes_ok persona' ->
  Model.Blake2.new_with_params Model.Blake2.Blake2s salt persona kk nn = Some s ->
  Model.Blake2.new_with_params Model.Blake2.Blake2s salt' persona' kk' nn' = Some s' ->
  (Model.Blake2.b_h s = Model.Blake2.b_h s' <->
   nn = nn' /\ kk = kk' /\ Spec.BLAKE2.zpad 8 salt = Spec.BLAKE2.zpad 8 salt' /\ Spec.BLAKE2.zpad 8 persona = Spec.BLAKE2.zpad 8 persona').
Proof. exact (fun a b c d e f g h s s' => Proof.Domains.blake2_apart _ _ a b c d e f g h s s' Proof.Blake2.same_s). Qed.
Print Assumptions C46_blake2s.

(** Non-vacuity: parameters that are accepted; salts differing by a trailing zero are not told apart. *)
Example C46_hyps : bytes_ok [1; 2] /\ (exists s, Model.Blake2.new_with_params Model.Blake2.Blake2b [1; 2] [] 0 64 = Some s) /\
  (exists s, Model.Blake2.new_with_params Model.Blake2.Blake2s [1; 2] [3] 32 16 = Some s) /\
  Spec.BLAKE2.zpad 16 [1; 2] = Spec.BLAKE2.zpad 16 [1; 2; 0] /\ Spec.BLAKE2.zpad 16 [1; 2] <> Spec.BLAKE2.zpad 16 [1; 3].
Proof. repeat split; try (eexists; vm_compute; reflexivity); (repeat constructor) || discriminate. Qed.
Example C46_hyps2 : (0 < 136)%nat /\ FKeccak <> FSha3 /\ 0x01 <= 0x07 <= 0x7F /\ 0x01 <= 0x0B <= 0x7F /\
  Forall (fun x : bytes => 8 * N.of_nat (length x) < 2 ^ 64) [[75; 77; 65; 67]; []; []; [1]].
Proof. repeat split; try lia; try discriminate. repeat constructor. Qed.
