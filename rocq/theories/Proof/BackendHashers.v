(** The SHA-1, SHA-2 and MD5 hashers on every back end. *)
From Coq Require Import Lia.
From Verif Require Import Base.Words Base.Bytes Base.BlockBuffer Base.BlockBufferFacts Base.Digest Base.DigestFacts Base.MDFacts Base.Agree.
From Verif Require Import Spec.Memory Model.Backends Model.Sha2 Model.BackendHashers Proof.Backends.
From Verif Require Spec.SHA2 Spec.SHA1 Spec.MD5 Proof.Sha2 Proof.Sha1 Proof.Md5 Model.Sha256Soft Model.Sha512Soft.

Lemma whole_of n bl : Forall (fun b => length b = n) bl -> Forall bytes_ok bl -> whole n bl.
Proof. intros L B. unfold whole. rewrite Forall_forall in *. auto. Qed.
Lemma pad_whole bs suffix b : (length b < bs)%nat -> (length suffix <= bs)%nat -> bytes_ok suffix -> bytes_ok b ->
  whole bs (pad_blocks bs 0x80 suffix b).
Proof.
  intros L S BS B. apply whole_of; [now apply pad_blocks_length|]. now apply pad_blocks_ok.
Qed.
(** Block by block with changing environments. *)
Lemma fold_back n (P : list N -> Prop) (soft : list N -> bytes -> list N) (back : list N -> bytes -> list N) bl :
  (forall st b, P st -> length b = n -> P (soft st b)) ->
  (forall st b, P st -> whole n [b] -> back st b = soft st b) ->
  whole n bl -> forall st, P st -> fold_left back bl st = fold_left soft bl st.
Proof.
  intros K E. induction 1 as [|b bl [L B] _ IH]; intros st I; cbn [fold_left]; [reflexivity|].
  rewrite E; [|exact I|now repeat constructor]. apply IH. now apply K.
Qed.

Lemma eager_lt n k : pos_ok Eager n k = true -> (k < n)%nat.
Proof. apply Nat.ltb_lt. Qed.

Lemma sha256_agree e iv n H w : sound256 e ->
  core_ok (sha256_var_core iv n) Proof.Sha2.inv256 H w ->
  agree (sha256_var_core iv n) Proof.Sha2.inv256 (sha256_update_on e)
    (fun m s buf => let* (full, s') := sha256_finalize_on e m s buf in Some (firstn n full, s')).
Proof.
  intros S OK. apply (agree_of_ok _ _ H w _ _ OK); [reflexivity| |];
    cbn [sha256_var_core cst c_bs c_kind c_update c_final].
  - intros m s bl [[I1 I2] _] L B. unfold sha256_update_on, sha256_update.
    rewrite backend256; [reflexivity|exact I1|exact I2|now apply whole_of|now apply S, whole_of].
  - intros m s b [I _] B PO. apply eager_lt in PO. unfold sha256_finalize_on, sha256_finalize. cbv zeta.
    destruct (cmul m 64 64 (snd s)) as [t|]; [|reflexivity]. cbn [obind].
    destruct (cadd m 64 _ t) as [t'|]; [|reflexivity]. cbn [obind].
    destruct (cmul m 64 8 t') as [bl|]; [|reflexivity]. cbn [obind]. unfold Sha256Soft.compress.
    rewrite (fold_back 64 (Proof.Sha2.state_ok 32) Sha256Soft.compress_block); [reflexivity| | | |exact I].
    + intros st x. apply Proof.Sha2.compress_state256.
    + intros st x [L W] X. rewrite backend256; [reflexivity|exact L|exact W|exact X|now apply S].
    + apply pad_whole; [exact PO|rewrite be_bytes_length; lia|apply be_bytes_ok|exact B].
Qed.
Lemma sha512_agree e iv n H w : sound512 e ->
  core_ok (sha512_var_core iv n) Proof.Sha2.inv512 H w ->
  agree (sha512_var_core iv n) Proof.Sha2.inv512 (sha512_update_on e)
    (fun m s buf => let* (full, s') := sha512_finalize_on e m s buf in Some (firstn n full, s')).
Proof.
  intros S OK. apply (agree_of_ok _ _ H w _ _ OK); [reflexivity| |];
    cbn [sha512_var_core cst c_bs c_kind c_update c_final].
  - intros m s bl [[I1 I2] _] L B. unfold sha512_update_on, sha512_update.
    rewrite backend512; [reflexivity|exact I1|exact I2|now apply whole_of|now apply S, whole_of].
  - intros m s b [I _] B PO. apply eager_lt in PO. unfold sha512_finalize_on, sha512_finalize. cbv zeta.
    destruct (cmul m 128 128 (snd s)) as [t|]; [|reflexivity]. cbn [obind].
    destruct (cadd m 128 _ t) as [t'|]; [|reflexivity]. cbn [obind].
    destruct (cmul m 128 8 t') as [bl|]; [|reflexivity]. cbn [obind]. unfold Sha512Soft.compress.
    rewrite (fold_back 128 (Proof.Sha2.state_ok 64) Sha512Soft.compress_block); [reflexivity| | | |exact I].
    + intros st x. apply Proof.Sha2.compress_state512.
    + intros st x [L W] X. rewrite backend512; [reflexivity|exact L|exact W|exact X|now apply S].
    + apply pad_whole; [exact PO|rewrite be_bytes_length; lia|apply be_bytes_ok|exact B].
Qed.
Lemma P1_step st b : Proof.Sha1.P st -> length b = 64%nat -> Proof.Sha1.P (Sha1.compress_block st b).
Proof.
  intros (v & V & ->) L. destruct (Proof.Sha1.compress_block_spec v b V L) as [E K]. eexists. split; [exact K|exact E].
Qed.
Lemma sha1_agree e : sound1 e -> agree Sha1.Sha1 Proof.Sha1.inv (sha1_update_on e) (sha1_finalize_on e).
Proof.
  intros S. apply (agree_of_ok _ _ _ _ _ _ Proof.Sha1.Sha1_ok); [reflexivity| |];
    cbn [Sha1.Sha1 cst c_bs c_kind c_update c_final].
  - intros m s bl [I _] L B. unfold sha1_update_on, Sha1.sha1_update. apply Proof.Sha1.P_state in I as [I1 I2].
    rewrite backend1; [reflexivity|exact I1|exact I2|now apply whole_of|apply S].
  - intros m s b [I _] B PO. apply eager_lt in PO. unfold sha1_finalize_on, Sha1.sha1_finalize. cbv zeta.
    destruct (cmul m 64 64 (snd s)) as [t|]; [|reflexivity]. cbn [obind].
    destruct (cadd m 64 _ t) as [t'|]; [|reflexivity]. cbn [obind].
    destruct (cmul m 64 8 t') as [bl|]; [|reflexivity]. cbn [obind]. unfold Sha1.compress.
    rewrite (fold_back 64 Proof.Sha1.P Sha1.compress_block); [reflexivity| | | |exact I].
    + intros st x. apply P1_step.
    + intros st x I' X. apply Proof.Sha1.P_state in I' as [L W]. rewrite backend1; [reflexivity|exact L|exact W|exact X|apply S].
    + apply pad_whole; [exact PO|rewrite be_bytes_length; lia|apply be_bytes_ok|exact B].
Qed.
Lemma P5_step st b : Proof.Md5.P st -> length b = 64%nat -> Proof.Md5.P (Md5.compress_block st b).
Proof.
  intros (v & V & ->) L. destruct (Proof.Md5.compress_block_spec v b) as [E K]. eexists. split; [exact K|exact E].
Qed.
Lemma md5_agree e : sound5 e -> agree Md5.Md5 Proof.Md5.inv (md5_update_on e) (md5_finalize_on e).
Proof.
  intros S. apply (agree_of_ok _ _ _ _ _ _ Proof.Md5.Md5_ok); [reflexivity| |];
    cbn [Md5.Md5 cst c_bs c_kind c_update c_final].
  - intros m s bl [I _] L B. unfold md5_update_on, Md5.md5_update. apply Proof.Md5.P_state in I as [I1 I2].
    rewrite backend5; [reflexivity|exact I1|exact I2|apply S].
  - intros m s b [I _] B PO. apply eager_lt in PO. unfold md5_finalize_on, Md5.md5_finalize. cbv zeta. unfold Md5.compress.
    rewrite (fold_back 64 Proof.Md5.P Md5.compress_block); [reflexivity| | | |exact I].
    + intros st x. apply P5_step.
    + intros st x I' X. apply Proof.Md5.P_state in I' as [L W]. rewrite backend5; [reflexivity|exact L|exact W|apply S].
    + apply pad_whole; [exact PO|rewrite le_bytes_length; lia|apply le_bytes_ok|exact B].
Qed.

(** ** Histories and digests *)
Section Results.
  Variables (e : env2) (e1 : env1) (e5 : env5) (m : mode).
  Hypothesis S256 : sound256 e.
  Hypothesis S512 : sound512 e.
  Hypothesis S1 : sound1 e1.
  Hypothesis S5 : sound5 e5.
  Definition a224 := sha256_agree e _ _ _ _ S256 Proof.Sha2.Sha224_ok.
  Definition a256 := sha256_agree e _ _ _ _ S256 Proof.Sha2.Sha256_ok.
  Definition a384 := sha512_agree e _ _ _ _ S512 Proof.Sha2.Sha384_ok.
  Definition a512 := sha512_agree e _ _ _ _ S512 Proof.Sha2.Sha512_ok.
  Definition a512_224 := sha512_agree e _ _ _ _ S512 Proof.Sha2.Sha512_224_ok.
  Definition a512_256 := sha512_agree e _ _ _ _ S512 Proof.Sha2.Sha512_256_ok.
End Results.
Lemma on_histories e e1 e5 m ops : sound256 e -> sound512 e -> sound1 e1 -> sound5 e5 -> ops_ok ops ->
  run_history (Sha224_on e) m ops = run_history Sha224 m ops /\
  run_history (Sha256_on e) m ops = run_history Sha256 m ops /\
  run_history (Sha384_on e) m ops = run_history Sha384 m ops /\
  run_history (Sha512_on e) m ops = run_history Sha512 m ops /\
  run_history (Sha512_224_on e) m ops = run_history Sha512_224 m ops /\
  run_history (Sha512_256_on e) m ops = run_history Sha512_256 m ops /\
  run_history (Sha1_on e1) m ops = run_history Sha1.Sha1 m ops /\
  run_history (Md5_on e5) m ops = run_history Md5.Md5 m ops.
Proof.
  intros S256 S512 S1 S5 O.
  exact (conj (agree_history _ _ _ _ (a224 e S256) m ops O) (conj (agree_history _ _ _ _ (a256 e S256) m ops O)
    (conj (agree_history _ _ _ _ (a384 e S512) m ops O) (conj (agree_history _ _ _ _ (a512 e S512) m ops O)
    (conj (agree_history _ _ _ _ (a512_224 e S512) m ops O) (conj (agree_history _ _ _ _ (a512_256 e S512) m ops O)
    (conj (agree_history _ _ _ _ (sha1_agree e1 S1) m ops O) (agree_history _ _ _ _ (md5_agree e5 S5) m ops O)))))))).
Qed.
Lemma on_sha256 e m cs : sound256 e -> Forall bytes_ok cs -> 8 * N.of_nat (length (concat cs)) < 2 ^ 64 ->
  h_digest (Sha224_on e) m cs = Some (Spec.SHA2.SHA224 (concat cs)) /\
  h_digest (Sha256_on e) m cs = Some (Spec.SHA2.SHA256 (concat cs)).
Proof.
  intros S B W. split.
  - transitivity (h_digest Sha224 m cs); [exact (agree_digest _ _ _ _ (a224 e S) m cs B)|exact (digest_spec _ _ _ _ Proof.Sha2.Sha224_ok m cs B W)].
  - transitivity (h_digest Sha256 m cs); [exact (agree_digest _ _ _ _ (a256 e S) m cs B)|exact (digest_spec _ _ _ _ Proof.Sha2.Sha256_ok m cs B W)].
Qed.
Lemma on_sha512 e m cs : sound512 e -> Forall bytes_ok cs -> 8 * N.of_nat (length (concat cs)) < 2 ^ 128 ->
  h_digest (Sha384_on e) m cs = Some (Spec.SHA2.SHA384 (concat cs)) /\
  h_digest (Sha512_on e) m cs = Some (Spec.SHA2.SHA512 (concat cs)) /\
  h_digest (Sha512_224_on e) m cs = Some (Spec.SHA2.SHA512_224 (concat cs)) /\
  h_digest (Sha512_256_on e) m cs = Some (Spec.SHA2.SHA512_256 (concat cs)).
Proof.
  intros S B W. repeat apply conj.
  - transitivity (h_digest Sha384 m cs); [exact (agree_digest _ _ _ _ (a384 e S) m cs B)|exact (digest_spec _ _ _ _ Proof.Sha2.Sha384_ok m cs B W)].
  - transitivity (h_digest Sha512 m cs); [exact (agree_digest _ _ _ _ (a512 e S) m cs B)|exact (digest_spec _ _ _ _ Proof.Sha2.Sha512_ok m cs B W)].
  - transitivity (h_digest Sha512_224 m cs); [exact (agree_digest _ _ _ _ (a512_224 e S) m cs B)|exact (digest_spec _ _ _ _ Proof.Sha2.Sha512_224_ok m cs B W)].
  - transitivity (h_digest Sha512_256 m cs); [exact (agree_digest _ _ _ _ (a512_256 e S) m cs B)|exact (digest_spec _ _ _ _ Proof.Sha2.Sha512_256_ok m cs B W)].
Qed.
Lemma on_sha1 e m cs : sound1 e -> Forall bytes_ok cs -> 8 * N.of_nat (length (concat cs)) < 2 ^ 64 ->
  h_digest (Sha1_on e) m cs = Some (Spec.SHA1.SHA1 (concat cs)).
Proof.
  intros S B W. transitivity (h_digest Sha1.Sha1 m cs); [exact (agree_digest _ _ _ _ (sha1_agree e S) m cs B)|].
  exact (digest_spec _ _ _ _ Proof.Sha1.Sha1_ok m cs B W).
Qed.
Lemma on_md5 e m cs : sound5 e -> Forall bytes_ok cs -> h_digest (Md5_on e) m cs = Some (Spec.MD5.MD5 (concat cs)).
Proof.
  intros S B. transitivity (h_digest Md5.Md5 m cs); [exact (agree_digest _ _ _ _ (md5_agree e S) m cs B)|].
  exact (digest_spec _ _ _ _ Proof.Md5.Md5_ok m cs B I).
Qed.
