(** The RISC-V block loads give the big-endian words of the block for every
    alignment and whatever lies around it. *)
From Verif Require Import Base.Words Base.Bytes Base.Codec Spec.Memory Model.Sha2Riscv.

Lemma le_val_app a b : le_val (a ++ b) = le_val a + 256 ^ N.of_nat (length a) * le_val b.
Proof.
  induction a as [|x a IH]; cbn [app le_val length]; [cbn; lia|].
  rewrite IH, Nat2N.inj_succ, N.pow_succ_r'. lia.
Qed.
Lemma lor_disjoint a b n : a < 2 ^ n -> N.lor a (2 ^ n * b) = a + 2 ^ n * b.
Proof.
  intros H. rewrite N.mul_comm, <- N.shiftl_mul_pow2.
  assert (D : N.land a (N.shiftl b n) = 0).
  { apply N.bits_inj. intros i. rewrite N.land_spec, N.bits_0.
    destruct (N.ltb_spec i n) as [L|L].
    - rewrite N.shiftl_spec_low by exact L. now rewrite andb_false_r.
    - now rewrite (proj1 (lt_pow2_bits a n) H i L). }
  rewrite N.add_nocarry_lxor by exact D. rewrite N.lxor_lor by exact D. reflexivity.
Qed.

Lemma skipn_skipn' {A} a b (l : list A) : skipn a (skipn b l) = skipn (b + a) l.
Proof.
  revert l; induction b as [|b IH]; intros l; [reflexivity|].
  destruct l; cbn [Nat.add skipn]; [now rewrite skipn_nil|apply IH].
Qed.

(** One output word from two neighbouring aligned words. *)
Lemma straddle k off A B : length A = k -> length B = k -> bytes_ok A -> bytes_ok B ->
  (0 < off < k)%nat ->
  N.lor (N.shiftr (le_val A) (N.of_nat (8 * off)))
    (wshl (N.of_nat (8 * k)) (le_val B) (N.of_nat (8 * k) - N.of_nat (8 * off)))
  = le_val (skipn off A ++ firstn off B).
Proof.
  intros LA LB HA HB Ho.
  pose proof (le_val_lt _ (bytes_ok_firstn off A HA)) as F1. rewrite firstn_length_le in F1 by lia.
  pose proof (le_val_lt _ (bytes_ok_skipn off A HA)) as F2. rewrite skipn_length in F2.
  pose proof (le_val_lt _ (bytes_ok_firstn off B HB)) as F3. rewrite firstn_length_le in F3 by lia.
  rewrite pow256 in F1, F2, F3. rewrite LA in F2.
  assert (EA : le_val A = le_val (firstn off A) + 2 ^ (8 * N.of_nat off) * le_val (skipn off A)).
  { rewrite <- (firstn_skipn off A) at 1. rewrite le_val_app, firstn_length_le by lia. now rewrite pow256. }
  assert (EB : le_val B = le_val (firstn off B) + 2 ^ (8 * N.of_nat off) * le_val (skipn off B)).
  { rewrite <- (firstn_skipn off B) at 1. rewrite le_val_app, firstn_length_le by lia. now rewrite pow256. }
  rewrite le_val_app, skipn_length, LA, pow256.
  replace (N.of_nat (8 * off)) with (8 * N.of_nat off) by lia.
  replace (N.of_nat (8 * k)) with (8 * N.of_nat k) by lia.
  replace (8 * N.of_nat k - 8 * N.of_nat off) with (8 * N.of_nat (k - off)) by lia.
  rewrite N.shiftr_div_pow2.
  assert (E1 : le_val A / 2 ^ (8 * N.of_nat off) = le_val (skipn off A)).
  { rewrite EA. symmetry. apply (N.div_unique _ _ _ (le_val (firstn off A))); lia. }
  rewrite E1.
  assert (E2 : wshl (8 * N.of_nat k) (le_val B) (8 * N.of_nat (k - off))
               = 2 ^ (8 * N.of_nat (k - off)) * le_val (firstn off B)).
  { unfold wshl. rewrite N.shiftl_mul_pow2, EB.
    assert (Ep : 2 ^ (8 * N.of_nat k) = 2 ^ (8 * N.of_nat off) * 2 ^ (8 * N.of_nat (k - off)))
      by (rewrite <- N.pow_add_r; f_equal; lia).
    rewrite Ep. symmetry.
    apply (N.mod_unique _ _ (le_val (skipn off B))).
    - rewrite (N.mul_comm (2 ^ (8 * N.of_nat off))). apply N.mul_lt_mono_pos_l; [apply pow2_pos|exact F3].
    - ring. }
  rewrite E2. now apply lor_disjoint.
Qed.

Definition slice (k s : nat) (mem : bytes) : bytes := firstn k (skipn s mem).
Lemma slice_straddle k s off mem : (off < k)%nat -> (s + 2 * k <= length mem)%nat ->
  skipn off (slice k s mem) ++ firstn off (slice k (s + k) mem) = slice k (s + off) mem.
Proof.
  intros Ho Hl. unfold slice.
  set (m := skipn s mem). assert (Lm : (2 * k <= length m)%nat) by (unfold m; rewrite skipn_length; lia).
  rewrite <- (skipn_skipn' k s mem), <- (skipn_skipn' off s mem). fold m.
  rewrite skipn_firstn_comm, firstn_firstn. replace (Nat.min off k) with off by lia.
  rewrite <- (firstn_skipn (k - off) (skipn off m)) at 2.
  rewrite firstn_app, firstn_firstn. replace (Nat.min k (k - off)) with (k - off)%nat by lia.
  f_equal. rewrite firstn_length_le by (rewrite skipn_length; lia).
  rewrite skipn_skipn'. do 2 f_equal; lia.
Qed.
Lemma slice_length k s mem : (s + k <= length mem)%nat -> length (slice k s mem) = k.
Proof. intros H. unfold slice. rewrite firstn_length_le; [reflexivity|rewrite skipn_length; lia]. Qed.
Lemma slice_ok k s mem : bytes_ok mem -> bytes_ok (slice k s mem).
Proof. intros H. now apply bytes_ok_firstn, bytes_ok_skipn. Qed.

Lemma chunks_slices k n (l : bytes) : (0 < k)%nat -> length l = (k * n)%nat ->
  chunks k l = map (fun i => slice k (k * i) l) (seq 0 n).
Proof.
  intros Hk. revert l; induction n as [|n IH]; intros l Hl.
  { rewrite chunks_short by lia. reflexivity. }
  rewrite chunks_step by exact Hk. replace (k <=? length l)%nat with true by (symmetry; apply Nat.leb_le; lia).
  rewrite IH by (rewrite skipn_length; lia). cbn [seq map].
  replace (k * 0)%nat with 0%nat by lia. unfold slice at 2. cbn [skipn]. f_equal.
  rewrite <- seq_shift, map_map. apply map_ext. intros i. unfold slice.
  rewrite skipn_skipn'. do 2 f_equal; lia.
Qed.

Section Load.
  Variables (k n off : nat) (mem : bytes).
  Hypothesis Hk : (0 < k)%nat.
  Hypothesis Hn : (0 < n)%nat.
  Hypothesis Hmem : bytes_ok mem.

  Lemma aligned_spec : (k * n <= length mem)%nat ->
    aligned_words k n mem = map le_val (chunks k (firstn (k * n) mem)).
  Proof using Hk.
    clear Hmem Hn.
    intros L. rewrite (chunks_slices k n) by (try rewrite firstn_length_le; lia).
    rewrite map_map. apply map_ext_in. intros i Hi. apply in_seq in Hi. unfold word, slice.
    rewrite skipn_firstn_comm, firstn_firstn. do 2 f_equal. nia.
  Qed.

  Hypothesis Ho : (0 < off < k)%nat.
  Hypothesis Lmem : length mem = (k * n + k)%nat.
  Lemma unaligned_fold m : (m < n)%nat ->
    let w := N.of_nat (8 * k) in let o := N.of_nat (8 * off) in
    fold_left (fun '(res, lft) i =>
      let right := word k mem (1 + i) in
      (res ++ [N.lor lft (wshl w right (w - o))], N.shiftr right o))
      (seq 0 m) ([], N.shiftr (word k mem 0) o)
    = (map (fun i => le_val (slice k (k * i + off) mem)) (seq 0 m), N.shiftr (word k mem m) o).
  Proof using Hmem Ho Lmem.
    clear Hk Hn. cbv zeta. induction m as [|m IH]; intros Hm; [reflexivity|].
    rewrite !seq_S, fold_left_app, IH by lia. cbn [fold_left Nat.add]. rewrite map_app. cbn [map].
    f_equal. f_equal. f_equal. unfold word.
    change (firstn k (skipn ?s mem)) with (slice k s mem).
    rewrite straddle; try (apply slice_ok; assumption); try exact Ho; try (apply slice_length; nia).
    replace (k * S m)%nat with (k * m + k)%nat by lia.
    now rewrite slice_straddle by nia.
  Qed.
  Lemma unaligned_spec : unaligned_words k n off mem = map le_val (chunks k (firstn (k * n) (skipn off mem))).
  Proof using Hk Hn Hmem Ho Lmem.
    unfold unaligned_words.
    rewrite (N.mod_small (N.of_nat (8 * off))) by lia.
    rewrite (N.mod_small (_ - _)) by lia.
    pose proof (unaligned_fold (n - 1) ltac:(lia)) as F. cbv zeta in F |- *. rewrite F. clear F.
    rewrite (chunks_slices k n) by (try rewrite firstn_length_le; try rewrite skipn_length; lia).
    destruct n as [|n']; [lia|]. replace (S n' - 1)%nat with n' by lia.
    rewrite seq_S, map_app, map_app. cbn [map Nat.add]. f_equal.
    - rewrite map_map. apply map_ext_in. intros i Hi. apply in_seq in Hi. unfold slice.
      rewrite skipn_firstn_comm, firstn_firstn, skipn_skipn'. do 2 f_equal; [nia|]. f_equal; lia.
    - f_equal. unfold word. change (firstn k (skipn ?s mem)) with (slice k s mem).
      rewrite straddle; try (apply slice_ok; assumption); try exact Ho; try (apply slice_length; nia).
      replace (k * S n')%nat with (k * n' + k)%nat by lia.
      rewrite slice_straddle by nia. unfold slice.
      rewrite skipn_firstn_comm, firstn_firstn, skipn_skipn'. do 2 f_equal; [nia|]. f_equal; lia.
  Qed.
End Load.

Lemma block_words_spec k n pre block post mem : (0 < k)%nat -> (0 < n)%nat ->
  surrounds k pre block post mem -> bytes_ok mem -> length block = (k * n)%nat ->
  block_words k n (length pre) mem = map le_val (chunks k block).
Proof.
  intros Hk Hn (-> & Lp & Lo) Hm Lb. unfold block_words.
  destruct (Nat.eqb_spec (length pre) 0) as [E|E].
  - destruct pre; [|discriminate]. cbn [app]. rewrite aligned_spec by (try rewrite app_length; lia).
    now rewrite firstn_app_exact by lia.
  - destruct Lo as [Lo|Lo]; [contradiction|].
    rewrite unaligned_spec; try assumption; try lia.
    + rewrite skipn_app_exact, firstn_app_exact by lia. reflexivity.
    + rewrite !app_length. lia.
Qed.

Lemma to_be_val k b : bytes_ok b -> length b = k -> to_be k (le_val b) = be_val b.
Proof. intros H <-. unfold to_be. now rewrite le_bytes_val. Qed.
Lemma map_to_be k l : (0 < k)%nat -> bytes_ok l ->
  map (to_be k) (map le_val (chunks k l)) = map be_val (chunks k l).
Proof.
  intros Hk H. rewrite map_map. apply map_ext_in. intros b Hb.
  apply to_be_val.
  - pose proof (chunks_ok k l Hk H) as F. rewrite Forall_forall in F. now apply F.
  - pose proof (chunks_block_length k l Hk) as F. rewrite Forall_forall in F. now apply F.
Qed.
Lemma surrounds_ok k pre block post mem : surrounds k pre block post mem -> bytes_ok mem -> bytes_ok block.
Proof.
  intros (-> & _) H. apply bytes_ok_app in H. destruct H as [_ H]. apply bytes_ok_app in H. tauto.
Qed.

Lemma load256_spec pre block post mem : surrounds 4 pre block post mem -> bytes_ok mem ->
  length block = 64%nat -> load_block256 (length pre) mem = map be_val (chunks 4 block).
Proof.
  intros Hs Hm Hb. unfold load_block256. rewrite (block_words_spec 4 16 pre block post) by (assumption || lia).
  apply map_to_be; [lia|]. now apply (surrounds_ok 4 pre block post mem).
Qed.
Lemma rv64_load512_spec pre block post mem : surrounds 8 pre block post mem -> bytes_ok mem ->
  length block = 128%nat -> rv64_load_block512 (length pre) mem = map be_val (chunks 8 block).
Proof.
  intros Hs Hm Hb. unfold rv64_load_block512. rewrite (block_words_spec 8 16 pre block post) by (assumption || lia).
  apply map_to_be; [lia|]. now apply (surrounds_ok 8 pre block post mem).
Qed.

Lemma be_val_app a b : be_val (a ++ b) = be_val b + 256 ^ N.of_nat (length b) * be_val a.
Proof. unfold be_val. now rewrite rev_app_distr, le_val_app, rev_length. Qed.
Lemma join_be a b : bytes_ok a -> bytes_ok b -> length a = 4%nat -> length b = 4%nat ->
  join (be_val a) (be_val b) = be_val (a ++ b).
Proof.
  intros Ha Hb La Lb. pose proof (be_val_lt a Ha) as Ba. pose proof (be_val_lt b Hb) as Bb.
  rewrite La in Ba. rewrite Lb in Bb. change (256 ^ N.of_nat 4) with (2 ^ 32) in Ba, Bb.
  unfold join, wshl. rewrite N.mod_small.
  2:{ rewrite N.shiftl_mul_pow2. change (2 ^ 64) with (2 ^ 32 * 2 ^ 32). apply N.mul_lt_mono_pos_r; [lia|exact Ba]. }
  rewrite N.lor_comm, N.shiftl_mul_pow2, N.mul_comm, lor_disjoint by exact Bb.
  rewrite be_val_app, Lb. reflexivity.
Qed.
Lemma get_chunks k n l i : (0 < k)%nat -> length l = (k * n)%nat -> (i < n)%nat ->
  get (map le_val (chunks k l)) i = le_val (slice k (k * i) l).
Proof.
  intros Hk Hl Hi. rewrite (chunks_slices k n) by assumption. unfold get.
  rewrite map_map. rewrite (nth_indep _ oob (le_val (slice k (k * 0) l))) by (rewrite map_length, seq_length; exact Hi).
  rewrite (map_nth (fun i => le_val (slice k (k * i) l))), seq_nth by exact Hi. reflexivity.
Qed.
Lemma rv32_load512_spec pre block post mem : surrounds 4 pre block post mem -> bytes_ok mem ->
  length block = 128%nat -> rv32_load_block512 (length pre) mem = map be_val (chunks 8 block).
Proof.
  intros Hs Hm Hb. unfold rv32_load_block512. rewrite (block_words_spec 4 32 pre block post) by (assumption || lia).
  pose proof (surrounds_ok _ _ _ _ _ Hs Hm) as Hbo.
  rewrite (chunks_slices 8 16) by lia. rewrite map_map. cbv zeta. apply map_ext_in. intros i Hi.
  apply in_seq in Hi.
  rewrite !(get_chunks 4 32) by lia.
  rewrite !to_be_val by (try apply slice_ok; try apply slice_length; lia || assumption).
  rewrite join_be by (try apply slice_ok; try apply slice_length; lia || assumption).
  f_equal. unfold slice.
  replace (4 * (2 * i))%nat with (8 * i)%nat by lia. replace (4 * (2 * i + 1))%nat with (8 * i + 4)%nat by lia.
  rewrite <- (skipn_skipn' 4 (8 * i)). set (m := skipn (8 * i) block).
  rewrite <- (firstn_skipn 4 m) at 3. rewrite firstn_app, firstn_firstn.
  f_equal. f_equal. rewrite firstn_length_le; [reflexivity|]. unfold m. rewrite skipn_length. lia.
Qed.
