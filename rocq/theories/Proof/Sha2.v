(** The SHA-2 hashers compute FIPS 180-4. *)
From Verif Require Import Base.Words Base.Bytes Base.Codec Base.BlockBuffer Base.BlockBufferFacts Base.Digest
  Base.DigestFacts Base.MDFacts Model.Sha2Consts Model.Sha2 Proof.Sha2Spec.
From Verif Require Spec.SHA2 Model.Sha256Soft Model.Sha512Soft Proof.Sha256Soft Proof.Sha512Soft.
Import Spec.SHA2 (vars_of_list, list_of_vars, sha256_params, sha512_params).

Definition state_ok (w : N) (s : list N) : Prop := length s = 8%nat /\ words_ok w s.

Lemma list_of_vars_length v : length (list_of_vars v) = 8%nat.
Proof. now destruct v as (((((((a, b), c), d), e), f), g), h). Qed.

(** ** 32-bit family *)
Definition within256 (len : nat) : Prop := 8 * N.of_nat len < 2 ^ 64.
Definition within512 (len : nat) : Prop := 8 * N.of_nat len < 2 ^ 128.

Lemma step256 s v b : s = list_of_vars v /\ vars_ok sha256_params v -> length b = 64%nat ->
  Sha256Soft.compress_block s b = list_of_vars (Spec.SHA2.compress sha256_params v b) /\
  vars_ok sha256_params (Spec.SHA2.compress sha256_params v b).
Proof.
  intros [-> V] L. split; [|exact (compress_ok _ v b V)].
  rewrite Proof.Sha256Soft.compress_block_spec; [|apply list_of_vars_length| |exact L].
  - now rewrite vars_of_list_of.
  - exact (list_of_vars_ok sha256_params v V).
Qed.
Lemma state_vars256 s : state_ok 32 s -> s = list_of_vars (vars_of_list s) /\ vars_ok sha256_params (vars_of_list s).
Proof.
  intros [L W]. split; [now rewrite list_of_vars_of_list|]. exact (vars_of_list_ok sha256_params s L W).
Qed.
Lemma vars_state256 v : vars_ok sha256_params v -> state_ok 32 (list_of_vars v).
Proof. intros V. split; [apply list_of_vars_length|]. exact (list_of_vars_ok sha256_params v V). Qed.

Lemma fold256 bl s : state_ok 32 s -> Forall (fun b => length b = 64%nat) bl ->
  fold_left Sha256Soft.compress_block bl s
  = list_of_vars (fold_left (Spec.SHA2.compress sha256_params) bl (vars_of_list s)) /\
  state_ok 32 (fold_left Sha256Soft.compress_block bl s).
Proof.
  intros Hs F.
  pose proof (fold_sim (fun s v => s = list_of_vars v /\ vars_ok sha256_params v) _ _ _ step256 bl _ _ F (state_vars256 s Hs))
    as [E V].
  split; [exact E|]. rewrite E. exact (vars_state256 _ V).
Qed.
Lemma compress_state256 s b : state_ok 32 s -> length b = 64%nat -> state_ok 32 (Sha256Soft.compress_block s b).
Proof.
  intros Hs L. destruct (step256 s _ b (state_vars256 s Hs) L) as [-> V]. exact (vars_state256 _ V).
Qed.

Lemma sha256_core_ok iv n : state_ok 32 iv ->
  core_ok (sha256_var_core iv n) (fun st => state_ok 32 (fst st) /\ snd st < 2 ^ 64)
    (Spec.SHA2.hash256 (vars_of_list iv) n) within256.
Proof.
  intros Hiv. apply (counted_core_ok 64 64 Sha256Soft.compress_block iv (state_ok 32)).
  - lia.
  - exact Hiv.
  - intros s b Hs Lb _. now apply compress_state256.
  - unfold within256. intros. lia.
  - intros len W. now apply (count_lt 64 8).
  - reflexivity.
  - reflexivity.
  - intros m msg W B. unfold sha256_finalize. cbn [fst snd].
    rewrite remainder_length by lia. rewrite (bit_len_ok m 64 64 (length msg)); [|lia|reflexivity|exact W].
    cbn [obind]. eexists. split; [|reflexivity]. f_equal. f_equal.
    unfold Spec.SHA2.hash256, Spec.SHA2.output, MD.md_iterate, Spec.SHA2.pad256, words_to_be, md_pad.
    rewrite (chunks_padded 64 0x80) by (rewrite ?be_bytes_length; lia).
    rewrite fold_left_app. unfold Sha256Soft.compress, len64_padding_be.
    destruct (fold256 (chunks 64 msg) iv Hiv ltac:(apply chunks_block_length; lia)) as [E1 E2].
    destruct (fold256 (pad_blocks 64 128 (be_bytes 8 (8 * N.of_nat (length msg))) (remainder 64 msg)) _ E2) as [E3 _].
    { apply pad_blocks_length.
      - rewrite remainder_length by lia. apply Nat.mod_upper_bound. lia.
      - rewrite be_bytes_length. lia. }
    rewrite E3, E1, vars_of_list_of. reflexivity.
  - intros cd st [= <-] [L Wd] C. apply sized_roundtrip. cbn [cd_len cd_ser cd_deser sha256_codec].
    exact (counted_roundtrip 4 8 8 st ltac:(lia) L Wd C).
Qed.

Lemma step512 s v b : s = list_of_vars v /\ vars_ok sha512_params v -> length b = 128%nat ->
  Sha512Soft.compress_block s b = list_of_vars (Spec.SHA2.compress sha512_params v b) /\
  vars_ok sha512_params (Spec.SHA2.compress sha512_params v b).
Proof.
  intros [-> V] L. split; [|exact (compress_ok _ v b V)].
  rewrite Proof.Sha512Soft.compress_block_spec; [|apply list_of_vars_length| |exact L].
  - now rewrite vars_of_list_of.
  - exact (list_of_vars_ok sha512_params v V).
Qed.
Lemma state_vars512 s : state_ok 64 s -> s = list_of_vars (vars_of_list s) /\ vars_ok sha512_params (vars_of_list s).
Proof.
  intros [L W]. split; [now rewrite list_of_vars_of_list|]. exact (vars_of_list_ok sha512_params s L W).
Qed.
Lemma vars_state512 v : vars_ok sha512_params v -> state_ok 64 (list_of_vars v).
Proof. intros V. split; [apply list_of_vars_length|]. exact (list_of_vars_ok sha512_params v V). Qed.

Lemma fold512 bl s : state_ok 64 s -> Forall (fun b => length b = 128%nat) bl ->
  fold_left Sha512Soft.compress_block bl s
  = list_of_vars (fold_left (Spec.SHA2.compress sha512_params) bl (vars_of_list s)) /\
  state_ok 64 (fold_left Sha512Soft.compress_block bl s).
Proof.
  intros Hs F.
  pose proof (fold_sim (fun s v => s = list_of_vars v /\ vars_ok sha512_params v) _ _ _ step512 bl _ _ F (state_vars512 s Hs))
    as [E V].
  split; [exact E|]. rewrite E. exact (vars_state512 _ V).
Qed.
Lemma compress_state512 s b : state_ok 64 s -> length b = 128%nat -> state_ok 64 (Sha512Soft.compress_block s b).
Proof.
  intros Hs L. destruct (step512 s _ b (state_vars512 s Hs) L) as [-> V]. exact (vars_state512 _ V).
Qed.

Lemma sha512_core_ok iv n : state_ok 64 iv ->
  core_ok (sha512_var_core iv n) (fun st => state_ok 64 (fst st) /\ snd st < 2 ^ 128)
    (Spec.SHA2.hash512 (vars_of_list iv) n) within512.
Proof.
  intros Hiv. apply (counted_core_ok 128 128 Sha512Soft.compress_block iv (state_ok 64)).
  - lia.
  - exact Hiv.
  - intros s b Hs Lb _. now apply compress_state512.
  - unfold within512. intros. lia.
  - intros len W. now apply (count_lt 128 8).
  - reflexivity.
  - reflexivity.
  - intros m msg W B. unfold sha512_finalize. cbn [fst snd].
    rewrite remainder_length by lia. rewrite (bit_len_ok m 128 128 (length msg)); [|lia|reflexivity|exact W].
    cbn [obind]. eexists. split; [|reflexivity]. f_equal. f_equal.
    unfold Spec.SHA2.hash512, Spec.SHA2.output, MD.md_iterate, Spec.SHA2.pad512, words_to_be, md_pad.
    rewrite (chunks_padded 128 0x80) by (rewrite ?be_bytes_length; lia).
    rewrite fold_left_app. unfold Sha512Soft.compress, len128_padding_be.
    destruct (fold512 (chunks 128 msg) iv Hiv ltac:(apply chunks_block_length; lia)) as [E1 E2].
    destruct (fold512 (pad_blocks 128 128 (be_bytes 16 (8 * N.of_nat (length msg))) (remainder 128 msg)) _ E2) as [E3 _].
    { apply pad_blocks_length.
      - rewrite remainder_length by lia. apply Nat.mod_upper_bound. lia.
      - rewrite be_bytes_length. lia. }
    rewrite E3, E1, vars_of_list_of. reflexivity.
  - intros cd st [= <-] [L Wd] C. apply sized_roundtrip. cbn [cd_len cd_ser cd_deser sha512_codec].
    exact (counted_roundtrip 8 8 16 st ltac:(lia) L Wd C).
Qed.

(** ** The constants are those of the standard *)
Lemma iv224_ok : Spec.SHA2.iv224 = vars_of_list H256_224.
Proof. vm_compute. reflexivity. Qed.
Lemma iv256_ok : Spec.SHA2.iv256 = vars_of_list H256_256.
Proof. vm_compute. reflexivity. Qed.
Lemma iv384_ok : Spec.SHA2.iv384 = vars_of_list H512_384.
Proof. vm_compute. reflexivity. Qed.
Lemma iv512_ok : Spec.SHA2.iv512 = vars_of_list H512_512.
Proof. vm_compute. reflexivity. Qed.
Lemma iv512_224_ok : Spec.SHA2.iv512t Spec.SHA2.name512_224 = vars_of_list H512_224.
Proof. vm_compute. reflexivity. Qed.
Lemma iv512_256_ok : Spec.SHA2.iv512t Spec.SHA2.name512_256 = vars_of_list H512_256.
Proof. vm_compute. reflexivity. Qed.

Ltac const_ok := split; [reflexivity|unfold words_ok; repeat constructor; vm_compute; reflexivity].
Definition inv256 (st : list N * N) : Prop := state_ok 32 (fst st) /\ snd st < 2 ^ 64.
Definition inv512 (st : list N * N) : Prop := state_ok 64 (fst st) /\ snd st < 2 ^ 128.

Lemma Sha224_ok : core_ok Sha224 inv256 Spec.SHA2.SHA224 within256.
Proof. unfold Spec.SHA2.SHA224. rewrite iv224_ok. apply sha256_core_ok. const_ok. Qed.
Lemma Sha256_ok : core_ok Sha256 inv256 Spec.SHA2.SHA256 within256.
Proof. unfold Spec.SHA2.SHA256. rewrite iv256_ok. apply sha256_core_ok. const_ok. Qed.
Lemma Sha384_ok : core_ok Sha384 inv512 Spec.SHA2.SHA384 within512.
Proof. unfold Spec.SHA2.SHA384. rewrite iv384_ok. apply sha512_core_ok. const_ok. Qed.
Lemma Sha512_ok : core_ok Sha512 inv512 Spec.SHA2.SHA512 within512.
Proof. unfold Spec.SHA2.SHA512. rewrite iv512_ok. apply sha512_core_ok. const_ok. Qed.
Lemma Sha512_224_ok : core_ok Sha512_224 inv512 Spec.SHA2.SHA512_224 within512.
Proof. unfold Spec.SHA2.SHA512_224. rewrite iv512_224_ok. apply sha512_core_ok. const_ok. Qed.
Lemma Sha512_256_ok : core_ok Sha512_256 inv512 Spec.SHA2.SHA512_256 within512.
Proof. unfold Spec.SHA2.SHA512_256. rewrite iv512_256_ok. apply sha512_core_ok. const_ok. Qed.
