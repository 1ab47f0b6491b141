(** The accesses of Model/Pointers.v stay within the operands and read what the other model files compute with. *)
From Verif Require Import Base.Words Base.Bytes Base.Codec Spec.FlatMemory Spec.Memory.
From Verif Require Import Model.Sha2Consts Model.Simd Model.Sha2Simd Model.Sha1Simd Model.Pointers.
From Verif Require Model.LoongCpu Model.Sha256Soft Model.Sha512Soft Model.Sha2Riscv Model.Jh.
From Verif Require Proof.LoongCpu Proof.SimdFacts Proof.Loads Proof.LoongProgs.
Import Model.LoongCpu (bytes_at, write, allowed).

Lemma traverse_map {A B} (f : A -> option B) g l : (forall x, In x l -> f x = Some (g x)) -> traverse f l = Some (map g l).
Proof.
  induction l as [|x l IH]; intros H; [reflexivity|]. cbn [traverse map]. rewrite H by now left. cbn [obind].
  rewrite IH by (intros y Hy; apply H; now right). reflexivity.
Qed.
Lemma loop_fold {S A} (f : S -> A -> option S) g l : (forall s x, In x l -> f s x = Some (g s x)) -> forall s, loop f l s = Some (fold_left g l s).
Proof.
  unfold loop. induction l as [|x l IH]; intros H s; [reflexivity|]. cbn [fold_left obind]. rewrite H by now left.
  apply IH. intros. apply H. now right.
Qed.
Lemma fold_nth {S A} (h : S -> A -> S) d l s : fold_left (fun s i => h s (nth i l d)) (seq 0 (length l)) s = fold_left h l s.
Proof.
  revert s. induction l as [|x l IH]; intros s; [reflexivity|]. cbn [length seq fold_left nth].
  rewrite <- seq_shift. rewrite <- IH.
  generalize (h s x). generalize (seq 0 (length l)). clear. induction l0 as [|i l0 IH]; intros s; [reflexivity|]. cbn [map fold_left nth]. apply IH.
Qed.

Lemma skipn_le k t ws : skipn (k * t) (words_to_le k ws) = words_to_le k (skipn t ws).
Proof.
  revert t. induction ws as [|w ws IH]; intros [|t]; try (now rewrite ?Nat.mul_0_r, ?skipn_nil).
  rewrite Nat.mul_succ_r, Nat.add_comm. unfold words_to_le in *. cbn [map concat skipn].
  rewrite <- Proof.Loads.skipn_skipn', skipn_app_exact by apply le_bytes_length. apply IH.
Qed.
Lemma firstn_le k t ws : firstn (k * t) (words_to_le k ws) = words_to_le k (firstn t ws).
Proof.
  revert t. induction ws as [|w ws IH]; intros [|t]; try (now rewrite ?Nat.mul_0_r, ?firstn_nil).
  rewrite Nat.mul_succ_r, Nat.add_comm. unfold words_to_le in *. cbn [map concat firstn].
  rewrite firstn_app, le_bytes_length, firstn_all2 by (rewrite le_bytes_length; lia). f_equal.
  replace (k + k * t - k)%nat with (k * t)%nat by lia. apply IH.
Qed.
Lemma words_ok_skipn w n l : words_ok w l -> words_ok w (skipn n l).
Proof. revert l. induction n as [|n IH]; intros [|x l] H; auto. inversion_clear H. now apply IH. Qed.
Lemma words_ok_firstn w n l : words_ok w l -> words_ok w (firstn n l).
Proof. revert l. induction n as [|n IH]; intros [|x l] H; try constructor; inversion_clear H; auto. now apply IH. Qed.
Lemma firstn_skipn_le k n t ws : (0 < k)%nat -> words_ok (8 * N.of_nat k) ws ->
  words_of_le k (firstn (k * n) (skipn (k * t) (words_to_le k ws))) = firstn n (skipn t ws).
Proof. intros Hk H. rewrite skipn_le, firstn_le. apply words_le_roundtrip; [exact Hk|]. now apply words_ok_firstn, words_ok_skipn. Qed.

Lemma K32_words : words_ok 32 K32.
Proof. apply Proof.LoongProgs.forallb_words. vm_compute. reflexivity. Qed.
Lemma K64_words : words_ok 64 K64.
Proof. apply Proof.LoongProgs.forallb_words. vm_compute. reflexivity. Qed.

Lemma holds_slice m a l i k : holds m a l -> (i + k <= length l)%nat -> bytes_at m (a + N.of_nat i) k = firstn k (skipn i l).
Proof.
  intros H L. rewrite <- (firstn_skipn i l) in H. apply Proof.LoongCpu.holds_app in H. destruct H as [_ H].
  rewrite firstn_length_le in H by lia. rewrite <- (firstn_skipn k (skipn i l)) in H. apply Proof.LoongCpu.holds_app in H. destruct H as [H _].
  apply Proof.LoongCpu.bytes_at_holds in H. rewrite firstn_length_le in H by (rewrite skipn_length; lia). exact H.
Qed.

(** [n] bytes at [a] may be read. *)
Definition readable (rd : list (N * N)) (a n : N) : Prop := exists R, In R rd /\ fst R <= a /\ a + n <= fst R + snd R.
Lemma readable_sub rd a n b k : readable rd a n -> a <= b -> b + k <= a + n -> readable rd b k.
Proof. intros (R & I & H1 & H2) ? ?. exists R. split; [exact I|lia]. Qed.
Lemma readable_allowed rd a n : readable rd a n -> allowed rd a n = true.
Proof.
  intros (R & H & H1 & H2). apply existsb_exists. exists R. split; [exact H|]. apply andb_true_intro. split; now apply N.leb_le.
Qed.

Lemma mem16_0 i b : (16 * i + 16 <= length b)%nat -> mem16 0 (mem16 i b) = mem16 i b.
Proof. intros H. unfold mem16 at 1. rewrite Nat.mul_0_r. cbn [skipn]. apply firstn_all2. rewrite Proof.SimdFacts.mem16_length by exact H. lia. Qed.
Lemma word_at k ws t : (0 < k)%nat -> words_ok (8 * N.of_nat k) ws -> (t < length ws)%nat ->
  le_val (firstn k (skipn (k * t) (words_to_le k ws))) = get ws t.
Proof.
  intros Hk H L. rewrite skipn_le. unfold get. rewrite <- (firstn_skipn t ws) at 2. rewrite app_nth2 by (rewrite firstn_length; lia).
  rewrite firstn_length_le, Nat.sub_diag by lia. apply (words_ok_skipn _ t) in H. pose proof (skipn_length t ws) as E.
  destruct (skipn t ws) as [|w r]; [cbn [length] in E; lia|]. inversion_clear H as [|? ? Hw _]. unfold words_to_le. cbn [map concat nth].
  rewrite firstn_app_exact by apply le_bytes_length. rewrite le_val_bytes.
  apply N.mod_small. change 256 with (2 ^ 8). now rewrite <- N.pow_mul_r.
Qed.

Section Reads.
  Variables (rd : list (N * N)) (m : N -> N).
  Lemma ld_at a k : readable rd a (N.of_nat k) -> ld rd m a k = Some (bytes_at m a k).
  Proof. intros H. unfold ld. now rewrite readable_allowed. Qed.
  (** [l] lies at [a] and may be read. *)
  Definition there (a : N) (l : bytes) : Prop := holds m a l /\ readable rd a (N.of_nat (length l)).
  Lemma ld_slice a l i k : there a l -> (i + k <= length l)%nat -> ld rd m (a + N.of_nat i) k = Some (firstn k (skipn i l)).
  Proof.
    intros [H R] L. rewrite ld_at by (eapply readable_sub; [exact R|lia|lia]). now rewrite (holds_slice m a l) by assumption.
  Qed.
  Lemma vectors_at p b n : there p b -> length b = (16 * n)%nat -> vectors rd m p n = Some (map (fun i => mem16 i b) (seq 0 n)).
  Proof.
    intros T L. apply traverse_map. intros i Hi. apply in_seq in Hi.
    replace (p + 16 * N.of_nat i) with (p + N.of_nat (16 * i)) by lia. apply ld_slice; [exact T|lia].
  Qed.
  Lemma concat_mem16 b n : length b = (16 * n)%nat -> concat (map (fun i => mem16 i b) (seq 0 n)) = b.
  Proof.
    intros L. pose proof (Proof.Loads.chunks_slices 16 n b ltac:(lia) L) as E.
    change (map (fun i => mem16 i b) (seq 0 n)) with (map (fun i => Proof.Loads.slice 16 (16 * i) b) (seq 0 n)). rewrite <- E.
    pose proof (concat_chunks_rem 16 b ltac:(lia)) as C. replace (remainder 16 b) with (@nil N) in C.
    - now rewrite app_nil_r in C.
    - symmetry. apply length_zero_iff_nil. rewrite remainder_length by lia. rewrite L, Nat.mul_comm. apply Nat.mod_mul. lia.
  Qed.
  Lemma vectors_concat p b n : there p b -> length b = (16 * n)%nat ->
    exists bs, vectors rd m p n = Some bs /\ concat bs = b.
  Proof. intros T L. exists (map (fun i => mem16 i b) (seq 0 n)). split; [apply vectors_at; assumption|apply concat_mem16; assumption]. Qed.

  Lemma ni_at p b s : there p b -> length b = 64%nat -> ni_block_p rd m s p = Some (ni_block (fst s) (snd s) b).
  Proof. intros T L. destruct (vectors_concat p b 4 T L) as (bs & E & C). unfold ni_block_p. rewrite E. cbn [obind]. now rewrite C. Qed.
  Lemma ni1_at p b s : there p b -> length b = 64%nat -> ni1_block_p rd m s p = Some (ni1_block s b).
  Proof. intros T L. destruct (vectors_concat p b 4 T L) as (bs & E & C). unfold ni1_block_p. rewrite E. cbn [obind]. now rewrite C. Qed.
  Lemma arm1_at p b s : there p b -> length b = 64%nat -> arm1_block_p rd m s p = Some (arm1_block s b).
  Proof. intros T L. destruct (vectors_concat p b 4 T L) as (bs & E & C). unfold arm1_block_p. rewrite E. cbn [obind]. now rewrite C. Qed.
  Lemma f8_at p b s : there p b -> length b = 64%nat -> f8_p rd m s p = Some (Model.Jh.f8_impl s b).
  Proof. intros T L. destruct (vectors_concat p b 4 T L) as (bs & E & C). unfold f8_p. rewrite E. cbn [obind]. now rewrite C. Qed.

  Variable pk : N.
  Section K32.
    Hypothesis HK : there pk (words_to_le 4 K32).
    Lemma k32_at t : (t + 4 <= 64)%nat -> k32 rd m pk t = Some (ld_k32 t).
    Proof.
      intros H. unfold k32. replace (pk + 4 * N.of_nat t) with (pk + N.of_nat (4 * t)) by lia.
      rewrite (ld_slice pk (words_to_le 4 K32)) by (try exact HK; rewrite words_to_le_length; change (length K32) with 64%nat; lia).
      cbn [obind]. unfold v4_of_bytes, ld_k32. change 16%nat with (4 * 4)%nat. rewrite firstn_skipn_le by (exact K32_words || lia). reflexivity.
    Qed.
    Lemma arm_rounds4_at a e s t : (t + 4 <= 64)%nat -> arm_rounds4_p rd m pk a e s t = Some (arm_rounds4 a e s t).
    Proof. intros H. unfold arm_rounds4_p. rewrite k32_at by exact H. reflexivity. Qed.
    Ltac arm4 := rewrite arm_rounds4_at by lia; cbn [obind]; destruct (arm_rounds4 _ _ _ _).
    Lemma arm_loop_at st t : (t + 16 <= 64)%nat -> arm_loop_p rd m pk st t = Some (arm_loop st t).
    Proof.
      intros H. destruct st as (((((a, e), s0), s1), s2), s3). unfold arm_loop_p, arm_loop. cbv zeta.
      do 4 arm4. reflexivity.
    Qed.
    Lemma arm256_at p b st : there p b -> length b = 64%nat -> arm256_block_p rd m pk st p = Some (arm256_block st b).
    Proof.
      intros T L. destruct st as (abcd, efgh). unfold arm256_block_p, arm256_block. rewrite (vectors_at p b 4 T L). cbn [obind].
      cbv zeta. cbn [seq map nth]. unfold arm_load32. rewrite !mem16_0 by lia.
      do 4 arm4. rewrite (loop_fold _ arm_loop).
      - cbn [obind]. destruct (fold_left arm_loop _ _) as (((((a', e'), x0), x1), x2), x3). reflexivity.
      - intros s t [<-|[<-|[<-|[]]]]; apply arm_loop_at; lia.
    Qed.
    Lemma wasm256_load_at p b : there p b -> length b = 64%nat ->
      exists xs, wasm256_load_p rd m pk p = Some xs /\ (map fst xs, map snd xs) = wasm256_load b.
    Proof.
      intros T L. eexists. split.
      - apply (traverse_map _ (fun i => let x := v4_of_bytes (i8x16_shuffle [3;2;1;0;7;6;5;4;11;10;9;8;15;14;13;12]%nat (mem16 i b) (mem16 i b)) in (x, add4 x (ld_k32 (4 * i))))).
        intros i Hi. apply in_seq in Hi. replace (p + 16 * N.of_nat i) with (p + N.of_nat (16 * i)) by lia.
        rewrite (ld_slice p b) by (try exact T; lia). cbn [obind]. rewrite k32_at by lia. reflexivity.
      - reflexivity.
    Qed.
    Lemma wasm256_at p b st : there p b -> length b = 64%nat -> wasm256_block_p rd m pk st p = Some (wasm256_block st b).
    Proof.
      intros T L. unfold wasm256_block_p, wasm256_block. destruct (wasm256_load_at p b T L) as (xs & -> & <-). cbn [obind].
      rewrite (loop_fold _ wasm256_step).
      - cbn [obind]. destruct (fold_left wasm256_step _ _) as ((s, x), ms). reflexivity.
      - intros [[s x] ms] n Hn. apply in_seq in Hn. unfold wasm256_step_p, wasm256_step. rewrite k32_at by lia. cbn [obind].
        now destruct (sha256_update_x _ _).
    Qed.

    Hypothesis AK : pk mod 4 = 0.
    Lemma rk32_at i j : (4 * i + j < 64)%nat -> rk32_p rd m pk i j = Some (Model.Sha256Soft.rk i j).
    Proof.
      intros H. unfold rk32_p, ld_aligned. set (t := (4 * i + j)%nat) in *.
      replace (pk + 4 * N.of_nat t) with (pk + N.of_nat (4 * t)) by lia.
      change (N.of_nat 4) with 4. replace ((pk + N.of_nat (4 * t)) mod 4) with 0.
      2:{ rewrite Nat2N.inj_mul. change (N.of_nat 4) with 4. rewrite N.mul_comm, N.mod_add by lia. now symmetry. }
      cbn [N.eqb]. rewrite (ld_slice pk (words_to_le 4 K32)) by (try exact HK; rewrite words_to_le_length; change (length K32) with 64%nat; lia).
      cbn [obind]. unfold Model.Sha256Soft.rk. f_equal. fold t. apply (word_at 4); [lia|exact K32_words|exact H].
    Qed.
    Lemma rounds4_at a c w i : (i < 16)%nat -> rounds4_p rd m pk a c w i = Some (Model.Sha256Soft.rounds4 a c w i).
    Proof.
      intros H. unfold rounds4_p, add_round_const_p. destruct w as (((w0, w1), w2), w3).
      rewrite !rk32_at by lia. reflexivity.
    Qed.
    Lemma schedule_rounds4_at a c w0 w1 w2 w3 i : (i < 16)%nat ->
      schedule_rounds4_p rd m pk a c w0 w1 w2 w3 i = Some (Model.Sha256Soft.schedule_rounds4 a c w0 w1 w2 w3 i).
    Proof.
      intros H. unfold schedule_rounds4_p, Model.Sha256Soft.schedule_rounds4. rewrite rounds4_at by exact H. cbn [obind].
      now destruct (Model.Sha256Soft.rounds4 _ _ _ _).
    Qed.
    Lemma soft256_at p b st : there p b -> length b = 64%nat -> soft256_block_p rd m pk st p = Some (Model.Sha256Soft.compress_block st b).
    Proof.
      intros T L. unfold soft256_block_p, Model.Sha256Soft.compress_block.
      replace (ld rd m p 64) with (Some b).
      2:{ symmetry. rewrite <- (N.add_0_r p). change 0 with (N.of_nat 0). rewrite (ld_slice p b) by (try exact T; lia).
          cbn [skipn]. now rewrite firstn_all2 by lia. }
      cbn [obind]. generalize (Model.Sha256Soft.to_u32s b). clear - HK AK. intros ws.
      unfold digest_block_u32_p, Model.Sha256Soft.sha256_digest_block_u32. cbv zeta.
      do 4 (rewrite rounds4_at by lia; cbn [obind]; destruct (Model.Sha256Soft.rounds4 _ _ _ _)).
      do 12 (rewrite schedule_rounds4_at by lia; cbn [obind]; destruct (Model.Sha256Soft.schedule_rounds4 _ _ _ _ _ _ _) as [[? ?] ?]).
      repeat match goal with v : Model.Sha256Soft.v4 |- _ => destruct v as [[[? ?] ?] ?] end. reflexivity.
    Qed.
  End K32.

  Section K64.
    Hypothesis HK : there pk (words_to_le 8 K64).
    Lemma k64_at t : (t + 2 <= 80)%nat -> k64 rd m pk t = Some (ld_k64 t).
    Proof.
      intros H. unfold k64. replace (pk + 8 * N.of_nat t) with (pk + N.of_nat (8 * t)) by lia.
      rewrite (ld_slice pk (words_to_le 8 K64)) by (try exact HK; rewrite words_to_le_length; change (length K64) with 80%nat; lia).
      cbn [obind]. unfold v2_of_bytes, ld_k64. change 16%nat with (8 * 2)%nat. rewrite firstn_skipn_le by (exact K64_words || lia). reflexivity.
    Qed.

    Section Single.
      Variable load : nat -> bytes -> v2.
      Variable update_x : list v2 -> v2 -> list v2 * v2.
      Hypothesis Hload : forall i b, (16 * i + 16 <= length b)%nat -> load 0%nat (mem16 i b) = load i b.
      Lemma load_data_at p b : there p b -> length b = 128%nat ->
        exists xs, load_data_p rd m pk load p = Some xs /\ (map fst xs, map snd xs) = load_data load b.
      Proof.
        intros T L. eexists. split.
        - apply (traverse_map _ (fun i => (load i b, add2 (load i b) (ld_k64 (2 * i))))).
          intros i Hi. apply in_seq in Hi. replace (p + 16 * N.of_nat i) with (p + N.of_nat (16 * i)) by lia.
          rewrite (ld_slice p b) by (try exact T; lia). cbn [obind]. rewrite k64_at by lia. cbn [obind].
          change (firstn 16 (skipn (16 * i) b)) with (mem16 i b). now rewrite Hload by lia.
        - reflexivity.
      Qed.
      Lemma block512_at p b st : there p b -> length b = 128%nat -> block512_p rd m pk load update_x st p = Some (block512 load update_x st b).
      Proof.
        intros T L. unfold block512_p, block512. destruct (load_data_at p b T L) as (xs & -> & <-). cbn [obind].
        rewrite (loop_fold _ (step512 update_x)).
        - cbn [obind]. destruct (fold_left (step512 update_x) _ _) as ((s, x), ms). reflexivity.
        - intros [[s x] ms] n Hn. apply in_seq in Hn. unfold step512_p, step512. rewrite k64_at by lia. cbn [obind].
          now destruct (update_x _ _).
      Qed.
    End Single.
    Lemma wasm_load_0 i b : (16 * i + 16 <= length b)%nat -> wasm_load64 0 (mem16 i b) = wasm_load64 i b.
    Proof. intros H. unfold wasm_load64. now rewrite mem16_0 by exact H. Qed.
    Lemma avx_load_0 i b : (16 * i + 16 <= length b)%nat -> avx_load64 0 (mem16 i b) = avx_load64 i b.
    Proof. intros H. unfold avx_load64. now rewrite mem16_0 by exact H. Qed.
    Lemma arm_load_0 i b : (16 * i + 16 <= length b)%nat -> arm_load64 0 (mem16 i b) = arm_load64 i b.
    Proof. intros H. unfold arm_load64. now rewrite mem16_0 by exact H. Qed.

    Lemma load_avx2_at p d : there p d -> length d = 256%nat ->
      exists xs, load_data_avx2_p rd m pk p = Some xs /\ (map fst xs, map fst (map snd xs), map snd (map snd xs)) = load_data_avx2 d.
    Proof.
      intros T L. eexists. split.
      - apply (traverse_map _ (fun i => (avx2_load64 i d, both add2 (avx2_load64 i d) (ld_k64 (i * 2), ld_k64 (i * 2))))).
        intros i Hi. apply in_seq in Hi. replace (p + 16 * N.of_nat (8 + i)) with (p + N.of_nat (16 * (8 + i))) by lia.
        rewrite (ld_slice p d) by (try exact T; lia). cbn [obind].
        replace (p + 16 * N.of_nat i) with (p + N.of_nat (16 * i)) by lia.
        rewrite (ld_slice p d) by (try exact T; lia). cbn [obind]. rewrite k64_at by lia. reflexivity.
      - reflexivity.
    Qed.
    Lemma avx2_pair_at p d st : there p d -> length d = 256%nat -> avx2_pair_p rd m pk st p = Some (avx2_pair st d).
    Proof.
      intros T L. unfold avx2_pair_p, avx2_pair. destruct (load_avx2_at p d T L) as (xs & -> & <-). cbn [obind]. cbv zeta.
      rewrite (loop_fold _ step_avx2).
      - cbn [obind]. destruct (fold_left step_avx2 _ _) as (((s, x), ms), t2). reflexivity.
      - intros [[[s x] ms] t2] n Hn. apply in_seq in Hn. unfold step_avx2_p, step_avx2. rewrite k64_at by lia. cbn [obind].
        now destruct (avx2_update_x _ _).
    Qed.

    Lemma arm_rounds2_at a c e g s t : (t + 2 <= 80)%nat -> arm_rounds2_p rd m pk a c e g s t = Some (arm_rounds2 a c e g s t).
    Proof. intros H. unfold arm_rounds2_p. rewrite k64_at by exact H. reflexivity. Qed.
    Ltac arm2 := rewrite arm_rounds2_at by lia; cbn [obind]; destruct (arm_rounds2 _ _ _ _ _ _).
    Lemma arm_first8_at st ms : arm_first8_p rd m pk st ms = Some (arm_first8 st ms).
    Proof. destruct st as (((a, c), e), g). unfold arm_first8_p, arm_first8. do 8 arm2. reflexivity. Qed.
    Lemma arm_pass_at st t : (t + 16 <= 80)%nat -> arm_pass_p rd m pk st t = Some (arm_pass st t).
    Proof. intros H. destruct st as ((((a, c), e), g), ms). unfold arm_pass_p, arm_pass. cbv zeta. do 8 arm2. reflexivity. Qed.
    Lemma arm512_at p b st : there p b -> length b = 128%nat -> arm512_block_p rd m pk st p = Some (arm512_block st b).
    Proof.
      intros T L. unfold arm512_block_p, arm512_block. rewrite (vectors_at p b 8 T L). cbn [obind]. cbv zeta.
      replace (map (arm_load64 0) (map (fun i => mem16 i b) (seq 0 8))) with (map (fun i => arm_load64 i b) (seq 0 8)).
      2:{ rewrite map_map. apply map_ext_in. intros i Hi. apply in_seq in Hi. now rewrite arm_load_0 by lia. }
      rewrite arm_first8_at. cbn [obind]. destruct (arm_first8 _ _) as (((a, c), e), g).
      rewrite (loop_fold _ arm_pass).
      - cbn [obind]. destruct (fold_left arm_pass _ _) as ((((a', c'), e'), g'), ms'). destruct st as (((?, ?), ?), ?). reflexivity.
      - intros s t [<-|[<-|[<-|[<-|[]]]]]; apply arm_pass_at; lia.
    Qed.

    Hypothesis AK : pk mod 8 = 0.
    Lemma rk64_at i j : (2 * i + j < 80)%nat -> rk64_p rd m pk i j = Some (Model.Sha512Soft.rk i j).
    Proof.
      intros H. unfold rk64_p, ld_aligned. set (t := (2 * i + j)%nat) in *.
      replace (pk + 8 * N.of_nat t) with (pk + N.of_nat (8 * t)) by lia.
      change (N.of_nat 8) with 8. replace ((pk + N.of_nat (8 * t)) mod 8) with 0.
      2:{ rewrite Nat2N.inj_mul. change (N.of_nat 8) with 8. rewrite N.mul_comm, N.mod_add by lia. now symmetry. }
      cbn [N.eqb]. rewrite (ld_slice pk (words_to_le 8 K64)) by (try exact HK; rewrite words_to_le_length; change (length K64) with 80%nat; lia).
      cbn [obind]. unfold Model.Sha512Soft.rk. f_equal. fold t. apply (word_at 8); [lia|exact K64_words|exact H].
    Qed.
    Lemma rounds4_512_at a b c d w0 w1 i : (i + 1 < 40)%nat ->
      rounds4_512_p rd m pk a b c d w0 w1 i = Some (Model.Sha512Soft.rounds4 a b c d (Model.Sha512Soft.add_rk w0 i) (Model.Sha512Soft.add_rk w1 (i + 1))).
    Proof. intros H. unfold rounds4_512_p, add_rk_p. rewrite !rk64_at by lia. reflexivity. Qed.
    Lemma schedule2_at a b c d m0 m1 m2 m3 m4 m5 m6 i : (i + 1 < 40)%nat ->
      schedule2_rounds4_p rd m pk a b c d m0 m1 m2 m3 m4 m5 m6 i = Some (Model.Sha512Soft.schedule2_rounds4 a b c d m0 m1 m2 m3 m4 m5 m6 i).
    Proof.
      intros H. unfold schedule2_rounds4_p, Model.Sha512Soft.schedule2_rounds4. cbv zeta. rewrite rounds4_512_at by exact H. cbn [obind].
      now destruct (Model.Sha512Soft.rounds4 _ _ _ _ _ _) as [[[? ?] ?] ?].
    Qed.
    Lemma soft512_at p b st : there p b -> length b = 128%nat -> soft512_block_p rd m pk st p = Some (Model.Sha512Soft.compress_block st b).
    Proof.
      intros T L. unfold soft512_block_p, Model.Sha512Soft.compress_block.
      replace (ld rd m p 128) with (Some b).
      2:{ symmetry. rewrite <- (N.add_0_r p). change 0 with (N.of_nat 0). rewrite (ld_slice p b) by (try exact T; lia).
          cbn [skipn]. now rewrite firstn_all2 by lia. }
      cbn [obind]. generalize (Model.Sha512Soft.to_u64s b). clear - HK AK. intros ws.
      unfold digest_block_u64_p, Model.Sha512Soft.sha512_digest_block_u64. cbv zeta.
      do 4 (rewrite rounds4_512_at by lia; cbn [obind Nat.add]; destruct (Model.Sha512Soft.rounds4 _ _ _ _ _ _) as [[[? ?] ?] ?]).
      do 16 (rewrite schedule2_at by lia; cbn [obind];
        destruct (Model.Sha512Soft.schedule2_rounds4 _ _ _ _ _ _ _ _ _ _ _ _) as [[[[[? ?] ?] ?] ?] ?]).
      repeat match goal with v : Model.Sha512Soft.v2 |- _ => destruct v as [? ?] end. reflexivity.
    Qed.
  End K64.
End Reads.
