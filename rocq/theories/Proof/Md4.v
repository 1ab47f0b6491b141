(** The md4 crate computes RFC 1320 MD4. *)
From Verif Require Import Base.Words Base.Bytes Base.Codec Base.BlockBuffer Base.BlockBufferFacts Base.Digest
  Base.DigestFacts Base.MDFacts Base.Unroll Model.Md4.
From Verif Require Spec.MD4.
Import Spec.MD4 (vars, step, widx, shift).

Definition vok (v : vars) : Prop :=
  let '(a, b, c, d) := v in a < 2 ^ 32 /\ b < 2 ^ 32 /\ c < 2 ^ 32 /\ d < 2 ^ 32.

Lemma f_ok x y z : z < 2 ^ 32 -> f x y z = Spec.MD4.F x y z.
Proof.
  intros Hz. unfold f, Spec.MD4.F, not32. apply N.bits_inj; intros i.
  rewrite ?N.lxor_spec, ?N.lor_spec, ?N.land_spec, ?N.lxor_spec, ?testbit_wnot.
  destruct (i <? 32) eqn:Hi.
  - now destruct (N.testbit x i), (N.testbit y i), (N.testbit z i).
  - apply N.ltb_ge in Hi. rewrite (proj1 (lt_pow2_bits z 32) Hz i Hi).
    now destruct (N.testbit x i), (N.testbit y i).
Qed.
Lemma K_ok : Spec.MD4.const 16 = K1 /\ Spec.MD4.const 32 = K2.
Proof. split; vm_compute; reflexivity. Qed.

Lemma step_ok X v i : vok v -> vok (step X v i).
Proof.
  destruct v as (((a, b), c), d). intros (?&?&?&?). unfold vok, step, rotl32, add32. auto with words.
Qed.
(** One operation of each round. *)
Lemma op1 X i a b c d j s : (i < 16)%nat -> d < 2 ^ 32 -> j = widx i -> s = shift i ->
  step X (a, b, c, d) i = (d, op f a b c d (get X j) s, b, c).
Proof.
  intros Hi Hd -> ->. unfold step, op. rewrite f_ok by exact Hd.
  unfold Spec.MD4.aux, Spec.MD4.const. rewrite (Nat.div_small i 16) by exact Hi. cbn [nth].
  unfold add32. now rewrite wadd_0_r by apply wadd_lt.
Qed.
Lemma op2 X i a b c d j s : (16 <= i < 32)%nat -> j = widx i -> s = shift i ->
  step X (a, b, c, d) i = (d, op g a b c d (add32 (get X j) K1) s, b, c).
Proof.
  intros Hi -> ->. unfold step, op.
  assert (E : (i / 16 = 1)%nat).
  { symmetry. apply (Nat.div_unique i 16 1 (i - 16)); lia. }
  unfold Spec.MD4.aux, Spec.MD4.const. rewrite E. cbn [nth].
  change (Roots.sqrt_bits 30 2) with (Spec.MD4.const 16). rewrite (proj1 K_ok).
  unfold add32. now rewrite (wadd_assoc 32 (wadd 32 a _)).
Qed.
Lemma op3 X i a b c d j s : (32 <= i < 48)%nat -> j = widx i -> s = shift i ->
  step X (a, b, c, d) i = (d, op h a b c d (add32 (get X j) K2) s, b, c).
Proof.
  intros Hi -> ->. unfold step, op.
  assert (E : (i / 16 = 2)%nat).
  { symmetry. apply (Nat.div_unique i 16 2 (i - 32)); lia. }
  unfold Spec.MD4.aux, Spec.MD4.const. rewrite E. cbn [nth].
  change (Roots.sqrt_bits 30 3) with (Spec.MD4.const 32). rewrite (proj2 K_ok).
  unfold add32. now rewrite (wadd_assoc 32 (wadd 32 a _)).
Qed.

Definition run (X : list N) (s n : nat) (v : vars) : vars := fold_left (step X) (seq s n) v.
Lemma run_ok X n s v : vok v -> vok (run X s n v).
Proof.
  unfold run. revert s v; induction n as [|n IH]; intros s v H; cbn [seq fold_left]; [exact H|].
  apply IH. now apply step_ok.
Qed.
Lemma run4 X s v : run X s 4 v = step X (step X (step X (step X v s) (S s)) (S (S s))) (S (S (S s))).
Proof. reflexivity. Qed.
Lemma run_add X s a b v : run X s (a + b) v = run X (s + a) b (run X s a v).
Proof. unfold run. now rewrite seq_app, fold_left_app. Qed.

Ltac bound := unfold op, rotl32, add32; auto with words.
Lemma round1_spec X v k : (k < 4)%nat -> vok v -> round1 X v (4 * k) = run X (4 * k) 4 v.
Proof.
  intros Hk. destruct v as (((a, b), c), d). intros (Ha & Hb & Hc & Hd). rewrite run4.
  assert (E : forall j, (j < 4)%nat -> (4 * k + j)%nat = widx (4 * k + j) /\ nth j [3; 7; 11; 19] 0 = shift (4 * k + j)).
  { intros j Hj. do 4 (destruct k as [|k]; [do 4 (destruct j as [|j]; [split; reflexivity|]); lia|]). lia. }
  replace (S (S (S (4 * k)))) with (4 * k + 3)%nat by lia. replace (S (S (4 * k))) with (4 * k + 2)%nat by lia.
  replace (S (4 * k)) with (4 * k + 1)%nat by lia.
  destruct (E 0%nat ltac:(lia)) as [E0 F0]. rewrite Nat.add_0_r in E0, F0.
  destruct (E 1%nat ltac:(lia)) as [E1 F1]. destruct (E 2%nat ltac:(lia)) as [E2 F2].
  destruct (E 3%nat ltac:(lia)) as [E3 F3].
  rewrite (op1 X (4 * k) a b c d _ _ ltac:(lia) Hd E0 F0).
  rewrite (op1 X (4 * k + 1) d _ b c _ _ ltac:(lia) Hc E1 F1).
  rewrite (op1 X (4 * k + 2) c _ _ b _ _ ltac:(lia) Hb E2 F2).
  rewrite (op1 X (4 * k + 3) b _ _ _ (4 * k + 3) 19); [|lia|bound|exact E3|exact F3].
  reflexivity.
Qed.
Lemma round2_spec X v k : (k < 4)%nat -> round2 X v k = run X (16 + 4 * k) 4 v.
Proof.
  intros Hk. destruct v as (((a, b), c), d). rewrite run4.
  assert (E : forall j, (j < 4)%nat -> (k + 4 * j)%nat = widx (16 + 4 * k + j) /\ nth j [3; 5; 9; 13] 0 = shift (16 + 4 * k + j)).
  { intros j Hj. do 4 (destruct k as [|k]; [do 4 (destruct j as [|j]; [split; reflexivity|]); lia|]). lia. }
  replace (S (S (S (16 + 4 * k)))) with (16 + 4 * k + 3)%nat by lia.
  replace (S (S (16 + 4 * k))) with (16 + 4 * k + 2)%nat by lia.
  replace (S (16 + 4 * k)) with (16 + 4 * k + 1)%nat by lia.
  destruct (E 0%nat ltac:(lia)) as [E0 F0]. rewrite (Nat.add_0_r (16 + 4 * k)) in E0, F0.
  replace (k + 4 * 0)%nat with k in E0 by lia.
  destruct (E 1%nat ltac:(lia)) as [E1 F1]. destruct (E 2%nat ltac:(lia)) as [E2 F2].
  destruct (E 3%nat ltac:(lia)) as [E3 F3].
  rewrite (op2 X (16 + 4 * k) a b c d _ _ ltac:(lia) E0 F0).
  rewrite (op2 X (16 + 4 * k + 1) d _ b c _ _ ltac:(lia) E1 F1).
  rewrite (op2 X (16 + 4 * k + 2) c _ _ b _ _ ltac:(lia) E2 F2).
  rewrite (op2 X (16 + 4 * k + 3) b _ _ _ _ _ ltac:(lia) E3 F3).
  reflexivity.
Qed.
Lemma round3_spec X v i k : (k < 4)%nat -> i = nth k [0; 2; 1; 3]%nat 0%nat -> round3 X v i = run X (32 + 4 * k) 4 v.
Proof.
  intros Hk ->. destruct v as (((a, b), c), d). rewrite run4. set (i := nth k _ _).
  assert (E : forall j, (j < 4)%nat -> (i + nth j [0; 8; 4; 12] 0)%nat = widx (32 + 4 * k + j) /\
    nth j [3; 9; 11; 15] 0 = shift (32 + 4 * k + j)).
  { intros j Hj. unfold i. do 4 (destruct k as [|k]; [do 4 (destruct j as [|j]; [split; reflexivity|]); lia|]). lia. }
  replace (S (S (S (32 + 4 * k)))) with (32 + 4 * k + 3)%nat by lia.
  replace (S (S (32 + 4 * k))) with (32 + 4 * k + 2)%nat by lia.
  replace (S (32 + 4 * k)) with (32 + 4 * k + 1)%nat by lia.
  destruct (E 0%nat ltac:(lia)) as [E0 F0]. cbn [nth] in E0, F0. rewrite (Nat.add_0_r (32 + 4 * k)) in E0, F0. rewrite (Nat.add_0_r i) in E0.
  destruct (E 1%nat ltac:(lia)) as [E1 F1]. destruct (E 2%nat ltac:(lia)) as [E2 F2].
  destruct (E 3%nat ltac:(lia)) as [E3 F3]. cbn [nth] in E1, E2, E3, F1, F2, F3. clearbody i.
  rewrite (op3 X (32 + 4 * k) a b c d _ _ ltac:(lia) E0 F0).
  rewrite (op3 X (32 + 4 * k + 1) d _ b c _ _ ltac:(lia) E1 F1).
  rewrite (op3 X (32 + 4 * k + 2) c _ _ b _ _ ltac:(lia) E2 F2).
  rewrite (op3 X (32 + 4 * k + 3) b _ _ _ _ _ ltac:(lia) E3 F3).
  reflexivity.
Qed.

Lemma fold4 {A} (F : A -> nat -> A) a b c d v : fold_left F [a; b; c; d] v = F (F (F (F v a) b) c) d.
Proof. reflexivity. Qed.
Lemma run_next X n m v : m = (n + 4)%nat -> run X n 4 (run X 0 n v) = run X 0 m v.
Proof. intros ->. now rewrite run_add. Qed.
Lemma rounds_spec X v : vok v ->
  fold_left (round3 X) [0; 2; 1; 3]%nat (fold_left (round2 X) [0; 1; 2; 3]%nat (fold_left (round1 X) [0; 4; 8; 12]%nat v))
  = run X 0 48 v.
Proof.
  intros V. rewrite !fold4.
  assert (Hok : forall n, vok (run X 0 n v)) by (intros; now apply run_ok).
  rewrite (round1_spec X v 0 ltac:(lia) V : round1 X v 0 = run X 0 4 v).
  rewrite (round1_spec X _ 1 ltac:(lia) (Hok 4%nat) : round1 X (run X 0 4 v) 4 = run X 4 4 (run X 0 4 v)), (run_next X 4 8 v eq_refl).
  rewrite (round1_spec X _ 2 ltac:(lia) (Hok 8%nat) : round1 X (run X 0 8 v) 8 = run X 8 4 (run X 0 8 v)), (run_next X 8 12 v eq_refl).
  rewrite (round1_spec X _ 3 ltac:(lia) (Hok 12%nat) : round1 X (run X 0 12 v) 12 = run X 12 4 (run X 0 12 v)), (run_next X 12 16 v eq_refl).
  rewrite (round2_spec X _ 0 ltac:(lia) : round2 X (run X 0 16 v) 0 = run X 16 4 (run X 0 16 v)), (run_next X 16 20 v eq_refl).
  rewrite (round2_spec X _ 1 ltac:(lia) : round2 X (run X 0 20 v) 1 = run X 20 4 (run X 0 20 v)), (run_next X 20 24 v eq_refl).
  rewrite (round2_spec X _ 2 ltac:(lia) : round2 X (run X 0 24 v) 2 = run X 24 4 (run X 0 24 v)), (run_next X 24 28 v eq_refl).
  rewrite (round2_spec X _ 3 ltac:(lia) : round2 X (run X 0 28 v) 3 = run X 28 4 (run X 0 28 v)), (run_next X 28 32 v eq_refl).
  rewrite (round3_spec X _ 0 0 ltac:(lia) eq_refl : round3 X (run X 0 32 v) 0 = run X 32 4 (run X 0 32 v)), (run_next X 32 36 v eq_refl).
  rewrite (round3_spec X _ 2 1 ltac:(lia) eq_refl : round3 X (run X 0 36 v) 2 = run X 36 4 (run X 0 36 v)), (run_next X 36 40 v eq_refl).
  rewrite (round3_spec X _ 1 2 ltac:(lia) eq_refl : round3 X (run X 0 40 v) 1 = run X 40 4 (run X 0 40 v)), (run_next X 40 44 v eq_refl).
  rewrite (round3_spec X _ 3 3 ltac:(lia) eq_refl : round3 X (run X 0 44 v) 3 = run X 44 4 (run X 0 44 v)), (run_next X 44 48 v eq_refl).
  reflexivity.
Qed.

Definition list_of_vars (v : vars) : list N := let '(a, b, c, d) := v in [a; b; c; d].

Lemma compress_block_spec v block : vok v ->
  compress_block (list_of_vars v) block = list_of_vars (Spec.MD4.compress v block) /\ vok (Spec.MD4.compress v block).
Proof.
  intros V. unfold compress_block, Spec.MD4.compress. cbv zeta.
  replace (get (list_of_vars v) 0, get (list_of_vars v) 1, get (list_of_vars v) 2, get (list_of_vars v) 3) with v
    by now destruct v as (((a0, b0), c0), d0).
  rewrite rounds_spec by exact V. unfold words_of_le.
  replace (fold_left (step (map le_val (chunks 4 block))) (seq 0 48) v)
    with (run (map le_val (chunks 4 block)) 0 48 v) by reflexivity.
  destruct v as (((a0, b0), c0), d0).
  destruct (run _ _ _ _) as (((a, b), c), d). split.
  - unfold list_of_vars, add32. cbv [get nth].
    now rewrite (wadd_comm 32 a0), (wadd_comm 32 b0), (wadd_comm 32 c0), (wadd_comm 32 d0).
  - unfold vok, add32. auto with words.
Qed.

Definition within (_ : nat) : Prop := True.
Definition P (s : list N) : Prop := exists v, vok v /\ s = list_of_vars v.
Definition inv (st : list N * N) : Prop := P (fst st) /\ snd st < 2 ^ 64.
Lemma P_state s : P s -> length s = 4%nat /\ words_ok 32 s.
Proof.
  intros (v & V & ->). destruct v as (((a, b), c), d). destruct V as (?&?&?&?).
  split; [reflexivity|]. repeat constructor; assumption.
Qed.
Lemma iv_ok : vok Spec.MD4.iv.
Proof. unfold vok, Spec.MD4.iv. repeat split; reflexivity. Qed.

Lemma Md4_ok : core_ok Md4 inv Spec.MD4.MD4 within.
Proof.
  apply (wcounted_core_ok 64 64 compress_block S0 P).
  - lia.
  - exists Spec.MD4.iv. split; [exact iv_ok|reflexivity].
  - intros s b (v & V & ->) _ _. destruct (compress_block_spec v b V) as [-> V'].
    eexists. split; [exact V'|reflexivity].
  - trivial.
  - reflexivity.
  - reflexivity.
  - intros m msg W B. unfold md4_finalize. cbn [fst snd].
    rewrite remainder_length by lia. rewrite (wbit_len' 64 (length msg) 64) by (try lia; reflexivity). cbv zeta.
    eexists. split; [|reflexivity]. f_equal. f_equal. unfold Spec.MD4.MD4, Spec.MD4.pad, len64_padding_le.
    rewrite (le_bytes_mod 8).
    pose proof (md_sim (fun s v => vok v /\ s = list_of_vars v) compress_block Spec.MD4.compress 64 S0 Spec.MD4.iv
      0x80 (le_bytes 8 (8 * blen msg)) msg) as S.
    destruct S as [_ S].
    + lia.
    + rewrite le_bytes_length. lia.
    + reflexivity.
    + apply le_bytes_ok.
    + exact B.
    + intros s v x [V ->] L _. destruct (compress_block_spec v x V) as [-> V']. split; [exact V'|reflexivity].
    + split; [exact iv_ok|reflexivity].
    + unfold blen in S. rewrite S. unfold words_to_le, Spec.MD4.output, list_of_vars, blen.
      now destruct (md_iterate _ _ _ _) as (((a, b), c), d).
  - intros cd st [= <-] PP C. apply P_state in PP as [L Wd]. cbn [cd_len cd_ser cd_deser md4_codec].
    exact (counted_roundtrip 4 4 8 st ltac:(lia) L Wd C).
Qed.
