(** The RISC-V part of Model/Pointers.v. *)
From Verif Require Import Base.Words Base.Bytes Base.Codec Spec.FlatMemory Spec.Memory.
From Verif Require Import Model.Sha2Consts Model.Sha2Riscv Model.Pointers Proof.Pointers.
From Verif Require Model.LoongCpu Proof.LoongCpu Proof.Loads.
Import Model.LoongCpu (bytes_at, write, allowed).

Lemma bytes_at_concat m a k n : concat (map (fun i => bytes_at m (a + N.of_nat (k * i)) k) (seq 0 n)) = bytes_at m a (k * n).
Proof.
  induction n as [|n IH]; [now rewrite Nat.mul_0_r|]. rewrite seq_S, map_app, concat_app, IH. cbn [map concat Nat.add].
  rewrite app_nil_r, Nat.mul_succ_r, Proof.LoongCpu.bytes_at_app. reflexivity.
Qed.
Lemma bytes_at_len m a k : length (bytes_at m a k) = k.
Proof. unfold bytes_at. now rewrite map_length, seq_length. Qed.
Lemma bytes_at_ok m a k : bytes_mem m -> bytes_ok (bytes_at m a k).
Proof. intros H. apply Forall_forall. intros x Hx. apply in_map_iff in Hx. destruct Hx as (j & <- & _). apply H. Qed.

Section Riscv.
  Variables (rd : list (N * N)) (m : N -> N).
  Hypothesis BM : bytes_mem m.
  (** A block at [p] as the array machine of Model/Sha2Riscv.v has it *)
  Definition placed_at (k n : nat) (p : N) : nat * bytes :=
    let o := p mod N.of_nat k in
    if o =? 0 then (0%nat, bytes_at m p (k * n)) else (N.to_nat o, bytes_at m (p - o) (k * (n + 1))).

  Lemma placed_in k n p b : (0 < k)%nat -> there rd m p b -> length b = (k * n)%nat -> in_memory k (placed_at k n p) b.
  Proof using BM.
    intros Hk [H _] L. assert (Ho : p mod N.of_nat k < N.of_nat k) by (apply N.mod_lt; lia).
    assert (Hp : p mod N.of_nat k <= p) by (apply N.mod_le; lia).
    assert (E : bytes_at m p (k * n) = b) by (rewrite <- L; now apply Proof.LoongCpu.bytes_at_holds).
    unfold placed_at. destruct (N.eqb_spec (p mod N.of_nat k) 0) as [Z|Z].
    - exists [], []. cbn [fst snd length app]. split; [reflexivity|]. split; [|now apply bytes_at_ok].
      split; [now rewrite app_nil_r|]. split; [exact Hk|now left].
    - set (o := p mod N.of_nat k) in *. exists (bytes_at m (p - o) (N.to_nat o)), (bytes_at m (p + N.of_nat (k * n)) (k - N.to_nat o)).
      cbn [fst snd]. rewrite bytes_at_len. split; [reflexivity|]. split; [|now apply bytes_at_ok].
      split; [|rewrite !bytes_at_len; split; [lia|now right]].
      replace (k * (n + 1))%nat with (N.to_nat o + (k * n + (k - N.to_nat o)))%nat by nia.
      rewrite !Proof.LoongCpu.bytes_at_app. f_equal. rewrite N2Nat.id. replace (p - o + o) with p by lia. now rewrite E.
  Qed.

  Lemma aligned_at a k : readable rd a (N.of_nat k) -> a mod N.of_nat k = 0 -> ld_aligned rd m a k = Some (bytes_at m a k).
  Proof. intros R Z. unfold ld_aligned. rewrite Z. cbn [N.eqb]. now apply ld_at. Qed.
  Lemma mod_plus a k i : (0 < k)%nat -> a mod N.of_nat k = 0 -> (a + N.of_nat (k * i)) mod N.of_nat k = 0.
  Proof. intros Hk Z. rewrite Nat2N.inj_mul, N.mul_comm, N.mod_add by lia. exact Z. Qed.

  Lemma block_words_at k n p b : (0 < k)%nat -> (0 < n)%nat -> there rd m p b -> length b = (k * n)%nat ->
    block_words_p rd m k n p = Some (block_words k n (fst (placed_at k n p)) (snd (placed_at k n p))).
  Proof using Type.
    intros Hk Hn [H R] L. assert (Ho : p mod N.of_nat k < N.of_nat k) by (apply N.mod_lt; lia).
    assert (Hp : p mod N.of_nat k <= p) by (apply N.mod_le; lia). rewrite L in R.
    unfold block_words_p, placed_at. destruct (N.eqb_spec (p mod N.of_nat k) 0) as [Z|Z].
    - rewrite (traverse_map _ (fun i => bytes_at m (p + N.of_nat (k * i)) k)).
      + cbn [obind fst snd]. now rewrite bytes_at_concat.
      + intros i Hi. apply in_seq in Hi. apply aligned_at; [|now apply mod_plus].
        eapply readable_sub; [exact R|lia|nia].
    - set (o := p mod N.of_nat k) in *. cbn [fst snd]. unfold block_words.
      replace (N.to_nat o =? 0)%nat with false by (symmetry; apply Nat.eqb_neq; lia).
      assert (Zb : (p - o) mod N.of_nat k = 0).
      { unfold o. rewrite (N.div_mod p (N.of_nat k)) at 1 by lia. rewrite N.add_sub, N.mul_comm. apply N.mod_mul. lia. }
      destruct R as (Rg & I & R1 & R2).
      assert (W : forall a, a mod N.of_nat k = 0 -> a < p + N.of_nat (k * n) -> p < a + N.of_nat k -> ld_word rd m a k = Some (bytes_at m a k)).
      { intros a Za A1 A2. unfold ld_word. rewrite Za. cbn [N.eqb andb].
        replace (existsb _ rd) with true; [reflexivity|]. symmetry. apply existsb_exists. exists Rg. split; [exact I|].
        apply andb_true_intro. split; apply N.ltb_lt; lia. }
      rewrite W by (try exact Zb; nia). cbn [obind].
      rewrite (traverse_map _ (fun i => bytes_at m (p - o + N.of_nat k + N.of_nat (k * i)) k)).
      + cbn [obind]. rewrite W by (try (now apply mod_plus); nia). cbn [obind]. rewrite bytes_at_concat.
        do 2 f_equal. replace (k * (n + 1))%nat with (k + (k * (n - 1) + k))%nat by nia.
        rewrite !Proof.LoongCpu.bytes_at_app. do 2 f_equal. f_equal. nia.
      + intros i Hi. apply in_seq in Hi. rewrite aligned_at.
        * f_equal. f_equal. nia.
        * exists Rg. split; [exact I|]. nia.
        * now apply mod_plus.
  Qed.
  Lemma load256_at p b : there rd m p b -> length b = 64%nat ->
    load_block256_p rd m p = Some (load_block256 (fst (placed_at 4 16 p)) (snd (placed_at 4 16 p))).
  Proof using Type. intros T L. unfold load_block256_p. rewrite (block_words_at 4 16 p b) by (assumption || lia). reflexivity. Qed.
  Lemma rv64_load512_at p b : there rd m p b -> length b = 128%nat ->
    rv64_load_block512_p rd m p = Some (rv64_load_block512 (fst (placed_at 8 16 p)) (snd (placed_at 8 16 p))).
  Proof using Type. intros T L. unfold rv64_load_block512_p. rewrite (block_words_at 8 16 p b) by (assumption || lia). reflexivity. Qed.
  Lemma rv32_load512_at p b : there rd m p b -> length b = 128%nat ->
    rv32_load_block512_p rd m p = Some (rv32_load_block512 (fst (placed_at 4 32 p)) (snd (placed_at 4 32 p))).
  Proof using Type. intros T L. unfold rv32_load_block512_p. rewrite (block_words_at 4 32 p b) by (assumption || lia). reflexivity. Qed.

  Variable pk : N.
  Section Rounds.
    Variables (w : N) (k : nat) (sum0 sum1 sig0 sig1 : N -> N) (K : list N) (passes : nat).
    Hypothesis Hk : (0 < k)%nat.
    Hypothesis HK : there rd m pk (words_to_le k K).
    Hypothesis WK : words_ok (8 * N.of_nat k) K.
    Hypothesis AK : pk mod N.of_nat k = 0.
    Hypothesis LK : length K = (16 * passes + 16)%nat.
    Lemma opaque_at i R : (i <= passes)%nat -> (R < 16)%nat ->
      opaque_load rd m k (pk + N.of_nat (k * (16 * i))) (length K - 16 * i) R = Some (get (skipn (16 * i) K) R).
    Proof using Hk HK WK AK LK.
      clear - Hk HK WK AK LK. intros Hi HR. unfold opaque_load. replace (R <? length K - 16 * i)%nat with true by (symmetry; apply Nat.ltb_lt; nia).
      replace (pk + N.of_nat (k * (16 * i)) + N.of_nat (k * R)) with (pk + N.of_nat (k * (16 * i + R))) by nia.
      unfold ld_aligned. rewrite mod_plus by assumption. cbn [N.eqb].
      rewrite (ld_slice rd m pk (words_to_le k K)) by (try exact HK; rewrite words_to_le_length; nia). cbn [obind].
      rewrite word_at by (assumption || nia). f_equal. unfold get. rewrite <- (firstn_skipn (16 * i) K) at 1.
      rewrite app_nth2 by (rewrite firstn_length; lia). rewrite firstn_length_le by nia. f_equal. lia.
    Qed.
    Lemma round_u_at i R s b : (i <= passes)%nat -> (R < 16)%nat ->
      round_u_p rd m pk w k sum0 sum1 K i R s b = Some (round_u w sum0 sum1 K R (skipn (16 * i) K) s b).
    Proof using Hk HK WK AK LK. intros Hi HR. unfold round_u_p. now rewrite opaque_at. Qed.
    Lemma compress_u_at s b : compress_block_u_p rd m pk w k sum0 sum1 sig0 sig1 K passes s b = Some (compress_block_u w sum0 sum1 sig0 sig1 K passes s b).
    Proof using Hk HK WK AK LK.
      unfold compress_block_u_p, compress_block_u.
      rewrite (loop_fold _ (fun sb i => fold_left (fun sb R => round_schedule_u w sum0 sum1 sig0 sig1 K R (skipn (16 * i) K) sb) (seq 0 16) sb)).
      - cbn [obind]. destruct (fold_left _ (seq 0 passes) (s, b)) as [s' b'].
        rewrite (loop_fold _ (fun s R => round_u w sum0 sum1 K R (skipn (16 * passes) K) s b')); [reflexivity|].
        intros s0 R HR. apply in_seq in HR. apply round_u_at; lia.
      - intros sb i Hi. apply in_seq in Hi. apply loop_fold. intros [s0 b0] R HR. apply in_seq in HR.
        unfold round_schedule_u_p, round_schedule_u. cbn [fst snd]. rewrite round_u_at by lia. reflexivity.
    Qed.
  End Rounds.
End Riscv.
