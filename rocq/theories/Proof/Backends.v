(** Every back end computes the standards' compression functions. *)
From Verif Require Import Base.Words Base.Bytes Spec.Memory Model.Backends.
From Verif Require Spec.SHA1 Spec.SHA2 Model.Sha1 Model.Sha256Soft Model.Sha512Soft.
From Verif Require Proof.Sha1 Proof.Sha2Spec Proof.Sha256Soft Proof.Sha512Soft Proof.Sha1Loong.
From Verif Require Proof.Sha2Riscv Proof.Sha2Loong Proof.Sha256Simd Proof.Sha256Simd2 Proof.Sha512Simd Proof.Sha512Arm.
From Verif Require Proof.Sha1Simd Spec.MD5 Model.Md5 Proof.Md5 Proof.Md5Loong.
Import Spec.SHA2 (vars_of_list, list_of_vars, sha256_params, sha512_params).

Lemma whole_length n blocks : whole n blocks -> Forall (fun b => length b = n) blocks.
Proof. intros H. eapply Forall_impl; [|exact H]. now intros b []. Qed.

Lemma soft_fold P (soft : list N -> bytes -> list N) n :
  (forall st block, length st = 8%nat -> words_ok (Spec.SHA2.p_w P) st -> length block = n ->
    soft st block = list_of_vars (Spec.SHA2.compress P (vars_of_list st) block)) ->
  forall blocks st, length st = 8%nat -> words_ok (Spec.SHA2.p_w P) st -> whole n blocks ->
  fold_left soft blocks st = list_of_vars (fold_left (Spec.SHA2.compress P) blocks (vars_of_list st)).
Proof.
  intros E. induction blocks as [|b blocks IH]; intros st L W H; cbn [fold_left].
  - now rewrite Proof.Sha2Spec.list_of_vars_of_list.
  - inversion_clear H as [|? ? [Lb _] HB]. rewrite E by assumption.
    pose proof (Proof.Sha2Spec.compress_ok P (vars_of_list st) b (Proof.Sha2Spec.vars_of_list_ok P st L W)) as V.
    rewrite IH; [now rewrite Proof.Sha2Spec.vars_of_list_of| |now apply Proof.Sha2Spec.list_of_vars_ok|exact HB].
    now destruct (Spec.SHA2.compress P (vars_of_list st) b) as (((((((?, ?), ?), ?), ?), ?), ?), ?).
Qed.
Lemma backend256 t st blocks : length st = 8%nat -> words_ok 32 st -> whole 64 blocks -> sees256 t blocks ->
  compress256 t st blocks = Sha256Soft.compress st blocks.
Proof.
  intros L W B S. pose proof (whole_length _ _ B) as B'.
  destruct t as [|[]|r p|r p|[]|regs stk|]; try reflexivity; unfold compress256.
  - now apply Proof.Sha256Simd.shani.
  - now apply Proof.Sha2Riscv.zknh256.
  - now apply Proof.Sha2Riscv.zknh256_compact.
  - now apply Proof.Sha256Simd2.arm256.
  - destruct S. now apply Proof.Sha2Loong.loong256.
  - now apply Proof.Sha256Simd2.wasm256.
Qed.
Lemma backend512 t st blocks : length st = 8%nat -> words_ok 64 st -> whole 128 blocks -> sees512 t blocks ->
  compress512 t st blocks = Sha512Soft.compress st blocks.
Proof.
  intros L W B S. pose proof (whole_length _ _ B) as B'.
  destruct t as [|[]|[] p|[] p|[]|regs stk|]; try reflexivity; unfold compress512.
  - now apply Proof.Sha512Simd.avx2_512.
  - now apply Proof.Sha2Riscv.zknh512_rv64.
  - now apply Proof.Sha2Riscv.zknh512_rv32.
  - now apply Proof.Sha2Riscv.zknh512_compact_rv64.
  - now apply Proof.Sha2Riscv.zknh512_compact_rv32.
  - now apply Proof.Sha512Arm.arm512.
  - destruct S. now apply Proof.Sha2Loong.loong512.
  - now apply Proof.Sha512Simd.wasm512.
Qed.
Lemma fips256 t st blocks : length st = 8%nat -> words_ok 32 st -> whole 64 blocks -> sees256 t blocks ->
  compress256 t st blocks = list_of_vars (fold_left (Spec.SHA2.compress sha256_params) blocks (vars_of_list st)).
Proof.
  intros L W B S. rewrite backend256 by assumption.
  exact (soft_fold sha256_params _ 64 Proof.Sha256Soft.compress_block_spec blocks st L W B).
Qed.
Lemma fips512 t st blocks : length st = 8%nat -> words_ok 64 st -> whole 128 blocks -> sees512 t blocks ->
  compress512 t st blocks = list_of_vars (fold_left (Spec.SHA2.compress sha512_params) blocks (vars_of_list st)).
Proof.
  intros L W B S. rewrite backend512 by assumption.
  exact (soft_fold sha512_params _ 128 Proof.Sha512Soft.compress_block_spec blocks st L W B).
Qed.
Lemma agree256 t u st blocks : length st = 8%nat -> words_ok 32 st -> whole 64 blocks ->
  sees256 t blocks -> sees256 u blocks -> compress256 t st blocks = compress256 u st blocks.
Proof. intros. now rewrite !backend256. Qed.
Lemma agree512 t u st blocks : length st = 8%nat -> words_ok 64 st -> whole 128 blocks ->
  sees512 t blocks -> sees512 u blocks -> compress512 t st blocks = compress512 u st blocks.
Proof. intros. now rewrite !backend512. Qed.

Lemma backend1 t st blocks : length st = 5%nat -> words_ok 32 st -> whole 64 blocks -> sees1 t ->
  compress1 t st blocks = Sha1.compress st blocks.
Proof.
  intros L W B S. destruct t as [|[]|[]|regs stk]; try reflexivity; unfold compress1.
  - now apply Proof.Sha1Simd.shani1.
  - now apply Proof.Sha1Simd.arm1.
  - destruct S. now apply Proof.Sha1Loong.loong1.
Qed.
Definition list1 (v : Spec.SHA1.vars) : list N := let '(a, b, c, d, e) := v in [a; b; c; d; e].
Lemma fips1 t v blocks : words_ok 32 (list1 v) -> whole 64 blocks -> sees1 t ->
  compress1 t (list1 v) blocks = list1 (fold_left Spec.SHA1.compress blocks v).
Proof.
  intros W B S. rewrite backend1; [|now destruct v as ((((?, ?), ?), ?), ?)|exact W|exact B|exact S].
  unfold Sha1.compress. assert (V : Proof.Sha1.vok v).
  { destruct v as ((((a, b), c), d), e). repeat (apply Forall_cons_iff in W as [? W]). repeat split; assumption. }
  pose proof Proof.Sha1.compress_block_spec as CB. clear W S t.
  change list1 with Proof.Sha1.list_of_vars. revert CB. generalize Sha1.compress_block Spec.SHA1.compress.
  intros soft spec CB. revert v V. induction blocks as [|b blocks IH]; intros v V; cbn [fold_left]; [reflexivity|].
  inversion_clear B as [|? ? [Lb _] HB]. destruct (CB v b V Lb) as [E V']. rewrite E. now apply IH.
Qed.
Lemma agree1 t u st blocks : length st = 5%nat -> words_ok 32 st -> whole 64 blocks ->
  sees1 t -> sees1 u -> compress1 t st blocks = compress1 u st blocks.
Proof. intros. now rewrite !backend1. Qed.

Lemma backend5 t st blocks : length st = 4%nat -> words_ok 32 st -> sees5 t ->
  compress5 t st blocks = Md5.compress st blocks.
Proof. intros L W S. destruct t as [|regs]; [reflexivity|]. now apply Proof.Md5Loong.loong5. Qed.
Lemma agree5 t u st blocks : length st = 4%nat -> words_ok 32 st -> sees5 t -> sees5 u ->
  compress5 t st blocks = compress5 u st blocks.
Proof. intros. now rewrite !backend5. Qed.
Lemma rfc5 t v blocks : words_ok 32 (Proof.Md5.list_of_vars v) -> sees5 t ->
  compress5 t (Proof.Md5.list_of_vars v) blocks = Proof.Md5.list_of_vars (fold_left Spec.MD5.compress blocks v).
Proof.
  intros W S. rewrite backend5; [|now destruct v as (((?, ?), ?), ?)|exact W|exact S]. unfold Md5.compress.
  pose proof Proof.Md5.compress_block_spec as CB. clear W S t. revert CB. generalize Md5.compress_block Spec.MD5.compress.
  intros soft spec CB. revert v. induction blocks as [|b blocks IH]; intros v; cbn [fold_left]; [reflexivity|].
  destruct (CB v b) as [-> _]. apply IH.
Qed.
