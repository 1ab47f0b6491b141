(** The blocks each hasher processes are those of the injectively padded message. *)
From Verif Require Import Base.Words Base.Bytes Base.Codec Base.Digest Base.DigestFacts Base.Xof Spec.MD Spec.Collision Spec.Blocks Proof.Collision Proof.Padding.
From Verif Require Spec.Keccak Spec.MD2 Spec.JH Spec.Ascon Spec.SHA2 Spec.Groestl Spec.Kupyna Spec.Shabal Spec.FSB Spec.Whirlpool.
From Verif Require Model.Sha3 Model.Md2 Model.Jh Model.Ascon Model.Sha2 Model.Groestl Model.Kupyna Model.Shabal Model.Fsb.
From Verif Require Proof.Sha3 Proof.Md2 Proof.Jh Proof.Ascon Proof.Sha2 Proof.Groestl Proof.Kupyna Proof.Shabal Proof.Fsb.
Import Spec.Keccak (turbo_pad, pad, absorb, squeeze, sponge, keccak_bytes, keccak_c).

Lemma of_ok C inv H within (lim : bytes -> Prop) bs (pad : bytes -> bytes) run : core_ok C inv H within -> (forall msg, lim msg -> within (length msg)) ->
  (forall msg, bytes_ok msg -> H msg = run (chunks bs (pad msg))) -> hashes_blocks C lim bs pad run.
Proof.
  intros OK W E m cs B L. rewrite (digest_spec _ _ _ _ OK m cs B (W _ L)), E; [reflexivity|].
  clear -B. induction B; [constructor|]. cbn [concat]. apply bytes_ok_app. now split.
Qed.
Lemma sponge_turbo r sfx d D msg : (0 < r)%nat -> Proof.Sha3.sfx_ok sfx -> Proof.Sha3.sfx_byte sfx = D -> bytes_ok msg ->
  keccak_c r sfx msg d = sponge_run 24 r d (chunks r (turbo_pad r D msg)).
Proof. intros R S <- B. unfold keccak_c, sponge. now rewrite Proof.Sha3.pad_turbo by assumption. Qed.
Lemma sponge_intro C nr r d D : (0 < r)%nat -> 0 < D < 128 -> hashes_blocks C any r (turbo_pad r D) (sponge_run nr r d) -> sponge_hasher C nr r d D.
Proof. intros. split; [assumption|now apply differ_turbo]. Qed.
Ltac sh ok := apply sponge_intro; [lia|lia|]; eapply of_ok; [exact ok|exact (fun _ _ => I)|];
  intros; apply sponge_turbo; [lia|unfold Proof.Sha3.sfx_ok; cbn [In]; auto|reflexivity|assumption].
Lemma keccak224 : sponge_hasher Model.Sha3.Keccak224 24 144 28 0x01. Proof. sh Proof.Sha3.Keccak224_ok. Qed.
Lemma keccak256 : sponge_hasher Model.Sha3.Keccak256 24 136 32 0x01. Proof. sh Proof.Sha3.Keccak256_ok. Qed.
Lemma keccak384 : sponge_hasher Model.Sha3.Keccak384 24 104 48 0x01. Proof. sh Proof.Sha3.Keccak384_ok. Qed.
Lemma keccak512 : sponge_hasher Model.Sha3.Keccak512 24 72 64 0x01. Proof. sh Proof.Sha3.Keccak512_ok. Qed.
Lemma sha3_224 : sponge_hasher Model.Sha3.Sha3_224 24 144 28 0x06. Proof. sh Proof.Sha3.Sha3_224_ok. Qed.
Lemma sha3_256 : sponge_hasher Model.Sha3.Sha3_256 24 136 32 0x06. Proof. sh Proof.Sha3.Sha3_256_ok. Qed.
Lemma sha3_384 : sponge_hasher Model.Sha3.Sha3_384 24 104 48 0x06. Proof. sh Proof.Sha3.Sha3_384_ok. Qed.
Lemma sha3_512 : sponge_hasher Model.Sha3.Sha3_512 24 72 64 0x06. Proof. sh Proof.Sha3.Sha3_512_ok. Qed.
Lemma shake128 ns : sponge_hasher (xof_core Model.Sha3.Shake128 ns) 24 168 (total ns) 0x1F. Proof. sh (Proof.Sha3.Shake128_ok ns). Qed.
Lemma shake256 ns : sponge_hasher (xof_core Model.Sha3.Shake256 ns) 24 136 (total ns) 0x1F. Proof. sh (Proof.Sha3.Shake256_ok ns). Qed.
Lemma turboshake128 ds ns : 0x01 <= ds <= 0x7F -> sponge_hasher (xof_core (Model.Sha3.TurboShake128 ds) ns) 12 168 (total ns) ds.
Proof.
  intros D. apply sponge_intro; [lia|lia|]. eapply of_ok; [apply Proof.Sha3.TurboShake128_ok; now apply Proof.Sha3.turbo_new_some|exact (fun _ _ => I)|reflexivity].
Qed.
Lemma turboshake256 ds ns : 0x01 <= ds <= 0x7F -> sponge_hasher (xof_core (Model.Sha3.TurboShake256 ds) ns) 12 136 (total ns) ds.
Proof.
  intros D. apply sponge_intro; [lia|lia|]. eapply of_ok; [apply Proof.Sha3.TurboShake256_ok; now apply Proof.Sha3.turbo_new_some|exact (fun _ _ => I)|reflexivity].
Qed.

Lemma md2 : hashes_blocks Model.Md2.Md2 any 16 Spec.MD2.pad md2_run /\ blocks_differ 16 Spec.MD2.pad.
Proof. split; [|exact differ_md2]. eapply of_ok; [exact Proof.Md2.Md2_ok|exact (fun _ _ => I)|reflexivity]. Qed.
Lemma jh224 : jh_hasher Model.Jh.Jh224 28.
Proof. split; [|exact differ_jh]. eapply of_ok; [exact Proof.Jh.Jh224_ok|exact (fun _ W => W)|reflexivity]. Qed.
Lemma jh256 : jh_hasher Model.Jh.Jh256 32.
Proof. split; [|exact differ_jh]. eapply of_ok; [exact Proof.Jh.Jh256_ok|exact (fun _ W => W)|reflexivity]. Qed.
Lemma jh384 : jh_hasher Model.Jh.Jh384 48.
Proof. split; [|exact differ_jh]. eapply of_ok; [exact Proof.Jh.Jh384_ok|exact (fun _ W => W)|reflexivity]. Qed.
Lemma jh512 : jh_hasher Model.Jh.Jh512 64.
Proof. split; [|exact differ_jh]. eapply of_ok; [exact Proof.Jh.Jh512_ok|exact (fun _ W => W)|reflexivity]. Qed.
Lemma ascon_hash : hashes_blocks Model.Ascon.AsconHash256 any 8 Spec.Ascon.pad (ascon_run 0x0000080100cc0002 32) /\ blocks_differ 8 Spec.Ascon.pad.
Proof. split; [|exact differ_ascon]. eapply of_ok; [exact Proof.Ascon.AsconHash256_ok|exact (fun _ _ => I)|reflexivity]. Qed.
Lemma ascon_xof ns : hashes_blocks (xof_core Model.Ascon.AsconXof128 ns) any 8 Spec.Ascon.pad (ascon_run 0x0000080000cc0003 (total ns)) /\ blocks_differ 8 Spec.Ascon.pad.
Proof. split; [|exact differ_ascon]. eapply of_ok; [exact (Proof.Ascon.AsconXof128_ok ns)|exact (fun _ _ => I)|reflexivity]. Qed.

(** Truncated SHA-2 *)
Lemma differ256 : blocks_differ 64 Spec.SHA2.pad256.
Proof. apply (differ_md 64 0x80 (fun msg => be_bytes 8 (8 * blen msg)) 8); [lia|discriminate|intros; apply be_bytes_length]. Qed.
Lemma differ512 : blocks_differ 128 Spec.SHA2.pad512.
Proof. apply (differ_md 128 0x80 (fun msg => be_bytes 16 (8 * blen msg)) 16); [lia|discriminate|intros; apply be_bytes_length]. Qed.
Lemma sha224 : hashes_blocks Model.Sha2.Sha224 (bits_below 64) 64 Spec.SHA2.pad256 (run256 Spec.SHA2.iv224 28).
Proof. eapply of_ok; [exact Proof.Sha2.Sha224_ok|exact (fun _ W => W)|reflexivity]. Qed.
Lemma sha384 : hashes_blocks Model.Sha2.Sha384 (bits_below 128) 128 Spec.SHA2.pad512 (run512 Spec.SHA2.iv384 48).
Proof. eapply of_ok; [exact Proof.Sha2.Sha384_ok|exact (fun _ W => W)|reflexivity]. Qed.
Lemma sha512_224 : hashes_blocks Model.Sha2.Sha512_224 (bits_below 128) 128 Spec.SHA2.pad512 (run512 (Spec.SHA2.iv512t Spec.SHA2.name512_224) 28).
Proof. eapply of_ok; [exact Proof.Sha2.Sha512_224_ok|exact (fun _ W => W)|reflexivity]. Qed.
Lemma sha512_256 : hashes_blocks Model.Sha2.Sha512_256 (bits_below 128) 128 Spec.SHA2.pad512 (run512 (Spec.SHA2.iv512t Spec.SHA2.name512_256) 32).
Proof. eapply of_ok; [exact Proof.Sha2.Sha512_256_ok|exact (fun _ W => W)|reflexivity]. Qed.

(** Groestl *)
Lemma groestl_short k : (k <= 32)%nat -> groestl_hasher (Model.Groestl.GroestlShort k) Spec.Groestl.short k.
Proof.
  intros K. split; [eapply of_ok; [exact (Proof.Groestl.GroestlShort_ok k K)|exact (fun _ W => W)|reflexivity]|].
  apply (differ_md _ _ (fun msg => be_bytes 8 (Spec.Groestl.padded_blocks Spec.Groestl.short (length msg))) 8); [cbn; lia|discriminate|intros; apply be_bytes_length].
Qed.
Lemma groestl_long k : (k <= 64)%nat -> groestl_hasher (Model.Groestl.GroestlLong k) Spec.Groestl.long k.
Proof.
  intros K. split; [eapply of_ok; [exact (Proof.Groestl.GroestlLong_ok k K)|exact (fun _ W => W)|reflexivity]|].
  apply (differ_md _ _ (fun msg => be_bytes 8 (Spec.Groestl.padded_blocks Spec.Groestl.long (length msg))) 8); [cbn; lia|discriminate|intros; apply be_bytes_length].
Qed.
(** Kupyna *)
Lemma kupyna_short k : (k <= 32)%nat -> kupyna_hasher (Model.Kupyna.KupynaShort k) Spec.Kupyna.short k.
Proof.
  intros K. split; [exact (fun m cs B W => Proof.Kupyna.Kupyna_short_digest k m cs K B W)|].
  apply (differ_md _ _ (fun msg => le_bytes 12 (8 * blen msg)) 12); [cbn; lia|discriminate|intros; apply le_bytes_length].
Qed.
Lemma kupyna_long k : (k <= 64)%nat -> kupyna_hasher (Model.Kupyna.KupynaLong k) Spec.Kupyna.long k.
Proof.
  intros K. split; [exact (fun m cs B W => Proof.Kupyna.Kupyna_long_digest k m cs K B W)|].
  apply (differ_md _ _ (fun msg => le_bytes 12 (8 * blen msg)) 12); [cbn; lia|discriminate|intros; apply le_bytes_length].
Qed.
(** Shabal *)
Lemma shabal_intro C P n : core_ok C P (Spec.Shabal.Shabal n) (fun _ => True) -> shabal_hasher C n.
Proof.
  intros OK. split; [eapply of_ok; [exact OK|exact (fun _ _ => I)|reflexivity]|].
  apply (differ_md 64 0x80 (fun _ => []) 0); [lia|discriminate|reflexivity].
Qed.
Lemma shabal : shabal_hasher Model.Shabal.Shabal192 24 /\ shabal_hasher Model.Shabal.Shabal224 28 /\ shabal_hasher Model.Shabal.Shabal256 32 /\
  shabal_hasher Model.Shabal.Shabal384 48 /\ shabal_hasher Model.Shabal.Shabal512 64.
Proof.
  exact (conj (shabal_intro _ _ _ Proof.Shabal.Shabal192_ok) (conj (shabal_intro _ _ _ Proof.Shabal.Shabal224_ok)
    (conj (shabal_intro _ _ _ Proof.Shabal.Shabal256_ok) (conj (shabal_intro _ _ _ Proof.Shabal.Shabal384_ok) (shabal_intro _ _ _ Proof.Shabal.Shabal512_ok))))).
Qed.
