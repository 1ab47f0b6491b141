(** The md5 crate computes RFC 1321 MD5. *)
From Verif Require Import Base.Words Base.Bytes Base.Codec Base.BlockBuffer Base.BlockBufferFacts Base.Digest
  Base.DigestFacts Base.MDFacts Base.Unroll Model.Md5.
From Verif Require Spec.MD5.
Import Spec.MD5 (vars, step, widx, shift).

Lemma T_ok : Spec.MD5.T_table = RC.
Proof. vm_compute. reflexivity. Qed.

Ltac op_eq := intros Hi ->; unfold step; rewrite T_ok.
Lemma sum_eq x w m c s : add32 (rotl32 (add32 (add32 (add32 x w) m) c) s) = add32 (rotl32 (add32 (add32 (add32 w x) m) c) s).
Proof. unfold add32. now rewrite (wadd_comm 32 x w). Qed.
Lemma step_op X i a b c d r aux : Spec.MD5.aux i = aux ->
  r = add32 (rotl32 (add32 (add32 (add32 (aux b c d) a) (get X (widx i))) (get RC i)) (shift i)) b ->
  step X (a, b, c, d) i = (d, r, b, c).
Proof.
  intros <- ->. unfold step. rewrite T_ok. tuple_eq; try reflexivity.
  unfold add32. now rewrite (wadd_comm 32 (Spec.MD5.aux i b c d) a), (wadd_comm 32 b).
Qed.
Ltac md5_step i :=
  let r := fresh "r" in let E := fresh "E" in
  open_let r E; rewrite fold_seq_S;
  match type of E with
  | _ = op_f ?a ?b ?c ?d _ _ _ => rewrite (step_op _ i a b c d r Spec.MD5.F eq_refl E)
  | _ = op_g ?a ?b ?c ?d _ _ _ => rewrite (step_op _ i a b c d r Spec.MD5.G eq_refl E)
  | _ = op_h ?a ?b ?c ?d _ _ _ => rewrite (step_op _ i a b c d r Spec.MD5.H eq_refl E)
  | _ = op_i ?a ?b ?c ?d _ _ _ => rewrite (step_op _ i a b c d r Spec.MD5.I eq_refl E)
  end; clear E.
Ltac md5_steps i n :=
  lazymatch n with
  | O => idtac
  | S ?m => md5_step i; let j := eval compute in (S i) in md5_steps j m
  end.

Lemma rounds_spec X a b c d : rounds X a b c d = fold_left (step X) (seq 0 64) (a, b, c, d).
Proof.
  unfold rounds. md5_steps 0%nat 64%nat. now rewrite fold_seq_0.
Qed.

Definition vok (v : vars) : Prop :=
  let '(a, b, c, d) := v in a < 2 ^ 32 /\ b < 2 ^ 32 /\ c < 2 ^ 32 /\ d < 2 ^ 32.
Definition list_of_vars (v : vars) : list N := let '(a, b, c, d) := v in [a; b; c; d].

Lemma compress_block_spec v block :
  compress_block (list_of_vars v) block = list_of_vars (Spec.MD5.compress v block) /\ vok (Spec.MD5.compress v block).
Proof.
  destruct v as (((a0, b0), c0), d0). unfold compress_block, Spec.MD5.compress. cbn [list_of_vars].
  change (get [a0; b0; c0; d0] 0) with a0. change (get [a0; b0; c0; d0] 1) with b0.
  change (get [a0; b0; c0; d0] 2) with c0. change (get [a0; b0; c0; d0] 3) with d0. cbv zeta.
  rewrite rounds_spec. unfold words_of_le.
  destruct (fold_left _ _ _) as (((a, b), c), d). split.
  - unfold list_of_vars, add32.
    now rewrite (wadd_comm 32 a0), (wadd_comm 32 b0), (wadd_comm 32 c0), (wadd_comm 32 d0).
  - unfold vok, add32. auto with words.
Qed.

Definition within (_ : nat) : Prop := True.
Definition P (s : list N) : Prop := exists v, vok v /\ s = list_of_vars v.
Definition inv (st : list N * N) : Prop := P (fst st) /\ snd st < 2 ^ 64.
Lemma P_state s : P s -> length s = 4%nat /\ words_ok 32 s.
Proof.
  intros (v & V & ->). destruct v as (((a, b), c), d). destruct V as (?&?&?&?).
  split; [reflexivity|]. repeat constructor; assumption.
Qed.
Lemma iv_ok : vok Spec.MD5.iv.
Proof. unfold vok, Spec.MD5.iv. repeat split; reflexivity. Qed.

Lemma Md5_ok : core_ok Md5 inv Spec.MD5.MD5 within.
Proof.
  apply (wcounted_core_ok 64 64 compress_block STATE_INIT P).
  - lia.
  - exists Spec.MD5.iv. split; [exact iv_ok|reflexivity].
  - intros s b (v & V & ->) _ _. destruct (compress_block_spec v b) as [-> V'].
    eexists. split; [exact V'|reflexivity].
  - trivial.
  - reflexivity.
  - reflexivity.
  - intros m msg W B. unfold md5_finalize. cbn [fst snd].
    rewrite remainder_length by lia. rewrite (wbit_len 64 (length msg) 64) by (try lia; reflexivity). cbv zeta.
    eexists. split; [|reflexivity]. f_equal. f_equal. unfold Spec.MD5.MD5, Spec.MD5.pad, compress, len64_padding_le.
    rewrite (le_bytes_mod 8).
    pose proof (md_sim (fun s v => vok v /\ s = list_of_vars v) compress_block Spec.MD5.compress 64 STATE_INIT Spec.MD5.iv
      0x80 (le_bytes 8 (8 * blen msg)) msg) as S.
    destruct S as [_ S].
    + lia.
    + rewrite le_bytes_length. lia.
    + reflexivity.
    + apply le_bytes_ok.
    + exact B.
    + intros s v x [V ->] L _. destruct (compress_block_spec v x) as [-> V']. split; [exact V'|reflexivity].
    + split; [exact iv_ok|reflexivity].
    + unfold blen in S. rewrite S. unfold words_to_le, Spec.MD5.output, list_of_vars, blen.
      now destruct (md_iterate _ _ _ _) as (((a, b), c), d).
  - intros cd st [= <-] PP C. apply P_state in PP as [L Wd]. cbn [cd_len cd_ser cd_deser md5_codec].
    exact (counted_roundtrip 4 4 8 st ltac:(lia) L Wd C).
Qed.
