(** The k12 crate computes KT128 (Spec/K12.v). *)
From Verif Require Import Base.Words Base.Bytes Base.Codec Base.BlockBuffer Base.BlockBufferFacts
  Base.Digest Base.DigestFacts Base.MDFacts Base.Xof Base.XofFacts Proof.Sha3 Model.K12.
From Verif Require Spec.Keccak Spec.K12 Model.Sha3.
Import Spec.K12 (cut, marker, CV, KT128, nbytes).

Lemma CHUNK_eq : CHUNK_SIZE = (64 * 128)%nat.
Proof. reflexivity. Qed.
Lemma chunk_eq : Spec.K12.chunk_size = CHUNK_SIZE.
Proof. reflexivity. Qed.
Global Opaque CHUNK_SIZE.
Lemma CHUNK_pos : (0 < CHUNK_SIZE)%nat.
Proof. rewrite CHUNK_eq. lia. Qed.

(** ** TurboSHAKE hashers, by what they have been fed *)
Definition tst (ds : N) (x : bytes) : tshk ds :=
  ((fold_left (Sha3.absorb_block 12) (chunks 168 x) Sha3.st_default, ds), remainder 168 x).
Lemma t_update_spec ds m x y : t_update ds m (tst ds x) y = Some (tst ds (x ++ y)).
Proof.
  unfold t_update, h_update, tst. cbn [xof_core c_update c_kind c_bs fst snd Sha3.TurboShake128 Sha3.turbo_xof x_update x_kind x_bs].
  pose proof (kblocks_continue (fun (st : list N * N) bl => Some (Sha3.update_blocks 12 (fst st) bl, snd st))
    (fun _ => True) Eager 168 ltac:(lia)) as K.
  assert (K1 : forall s : list N * N, True -> Some (Sha3.update_blocks 12 (fst s) [], snd s) = Some s) by now intros [].
  assert (K2 : forall (s : list N * N) a b, True -> Some (Sha3.update_blocks 12 (fst s) (a ++ b), snd s)
    = obind (Some (Sha3.update_blocks 12 (fst s) a, snd s)) (fun s' => Some (Sha3.update_blocks 12 (fst s') b, snd s'))).
  { intros s a b _. cbn [obind fst snd]. unfold Sha3.update_blocks. now rewrite fold_left_app. }
  specialize (K K1 K2 (fun _ _ _ _ _ => I) (Sha3.st_default, ds) x y I). cbn [obind fst snd] in K.
  rewrite !kblocks_eager, !krem_eager in K by lia. exact K.
Qed.
Lemma tst_nil ds : tst ds [] = ((Sha3.st_default, ds), []).
Proof. reflexivity. Qed.
Lemma rate168 : rate_ok 168.
Proof. exact (rate_eq 168 21 eq_refl ltac:(lia)). Qed.
Lemma t_final_spec ds m x : ds < 128 -> bytes_ok x -> exists st,
  t_finalize_reset ds m (tst ds x) = Some (rd_new st, tst ds []) /\ Pst st /\
  Spec.Keccak.absorb 12 168 (zeros 200) (Spec.Keccak.turbo_pad 168 ds x) = words_to_le 8 st.
Proof.
  intros D B. unfold t_finalize_reset, tst. cbn [fst snd Sha3.TurboShake128 Sha3.turbo_xof x_final x_reset]. cbv zeta. cbn [obind snd].
  eexists. split; [reflexivity|].
  destruct (absorb_final 12 168 ds x Sha3.st_default rate168 D B default_P) as [E P]. split; [exact P|].
  rewrite default_bytes. exact E.
Qed.
Lemma rd_one {R} (rb : R -> bytes * R) bs s n : concat (fst (rd_reads rb bs s [n])) = fst (rd_read rb bs s n).
Proof. cbn [rd_reads]. destruct (rd_read rb bs s n) as [o s1]. cbn. apply app_nil_r. Qed.
Lemma t_read_spec st n : Pst st ->
  fst (t_read (rd_new st) n) = firstn n (Spec.Keccak.squeeze 12 168 n (words_to_le 8 st)).
Proof.
  intros P. unfold t_read. rewrite <- rd_one. change Sha3.TURBO_SHAKE_ROUND_COUNT with 12%nat.
  rewrite (reads_sponge 12 168 st [n] rate168 P). cbn [total fold_right]. now rewrite Nat.add_0_r.
Qed.
Lemma t_cv m x : bytes_ok x -> exists rd,
  t_finalize_reset 0x0B m (tst 0x0B x) = Some (rd, tst 0x0B []) /\ fst (t_read rd 32) = CV x.
Proof.
  intros B. destruct (t_final_spec 0x0B m x) as (st & E & P & A); [lia|exact B|].
  exists (rd_new st). split; [exact E|]. rewrite t_read_spec by exact P. unfold CV, Spec.Keccak.TurboSHAKE128, Spec.Keccak.TurboSHAKE, Spec.Keccak.sponge.
  now rewrite A.
Qed.

Lemma squeeze_bytes nr r n : forall st, Pst st -> bytes_ok (Spec.Keccak.squeeze nr r n (words_to_le 8 st)).
Proof.
  induction n as [|n IH]; intros st P; cbn [Spec.Keccak.squeeze]; [constructor|].
  apply bytes_ok_app. split; [apply bytes_ok_firstn, words_to_le_ok|].
  rewrite keccak_bytes_lanes by exact P. apply IH. now apply keccak_P.
Qed.
Lemma bytes_ok_CV c : bytes_ok c -> bytes_ok (CV c).
Proof.
  intros B. destruct (t_final_spec 0x0B Checked c) as (st & _ & P & A); [lia|exact B|].
  unfold CV, Spec.Keccak.TurboSHAKE128, Spec.Keccak.TurboSHAKE, Spec.Keccak.sponge. rewrite A.
  now apply bytes_ok_firstn, squeeze_bytes.
Qed.
Global Opaque CV.
(** ** What the final TurboSHAKE instance has been fed after whole chunks [cs] *)
Definition fin_input (cs : list bytes) : bytes :=
  match cs with
  | [] => []
  | c :: [] => c
  | c :: cs => c ++ marker ++ concat (map CV cs)
  end.
Lemma fin_snoc cs c : cs <> [] -> fin_input (cs ++ [c])
  = (if (length cs =? 1)%nat then fin_input cs ++ marker else fin_input cs) ++ CV c.
Proof.
  intros H. destruct cs as [|c0 [|c1 cs]]; [contradiction|..].
  - cbn. now rewrite app_nil_r, <- !app_assoc.
  - cbn [length Nat.eqb fin_input app]. change (c1 :: cs ++ [c]) with ((c1 :: cs) ++ [c]).
    rewrite map_app, concat_app, <- !app_assoc. cbn [map concat]. now rewrite app_nil_r.
Qed.

(** State after the bytes [l]: whole chunks are kept back until more data comes. *)
Record R (C l : bytes) (s : k12_st) : Prop := {
  r_cust : customization s = C;
  r_pos : bufpos s = length (krem Lazy CHUNK_SIZE l);
  r_len : length (buffer s) = CHUNK_SIZE;
  r_buf : firstn (bufpos s) (buffer s) = krem Lazy CHUNK_SIZE l;
  r_fin : final_tshk s = tst 0x06 (fin_input (kblocks Lazy CHUNK_SIZE l));
  r_chain : chain_tshk s = tst 0x0B [];
  r_num : chain_length s = N.of_nat (length (kblocks Lazy CHUNK_SIZE l))
}.
Lemma zeros_CHUNK : length (zeros CHUNK_SIZE) = CHUNK_SIZE.
Proof. apply zeros_length. Qed.
Lemma kblocks_nil k bs : (0 < bs)%nat -> kblocks k bs [] = [] /\ krem k bs [] = [].
Proof.
  intros H. apply (split_unique k bs [] []); [exact H|constructor|].
  destruct k; cbn; [lia|]. split; [lia|]. intros N. now contradiction N.
Qed.
Lemma R_new C : R C [] (k12_new C).
Proof.
  destruct (kblocks_nil Lazy CHUNK_SIZE CHUNK_pos) as [E1 E2].
  constructor; rewrite ?E1, ?E2; reflexivity.
Qed.
Lemma krem_pos_lazy l : (length (krem Lazy CHUNK_SIZE l) <= CHUNK_SIZE)%nat.
Proof. pose proof (krem_pos Lazy CHUNK_SIZE l CHUNK_pos) as P. cbn in P. now apply Nat.leb_le in P. Qed.

(** Adding data that fits beside what is kept. *)
Lemma lazy_fits l b : (length (krem Lazy CHUNK_SIZE l) + length b <= CHUNK_SIZE)%nat ->
  kblocks Lazy CHUNK_SIZE (l ++ b) = kblocks Lazy CHUNK_SIZE l /\
  krem Lazy CHUNK_SIZE (l ++ b) = krem Lazy CHUNK_SIZE l ++ b.
Proof.
  intros H. rewrite <- (kblocks_krem Lazy CHUNK_SIZE l CHUNK_pos) at 1 3. rewrite <- app_assoc.
  apply split_unique; [exact CHUNK_pos|apply kblocks_length, CHUNK_pos|].
  pose proof (krem_tail_ok Lazy CHUNK_SIZE l CHUNK_pos) as [T1 T2]. split; [rewrite app_length; lia|].
  intros N E. apply app_eq_nil in E. now apply T2.
Qed.
Lemma lazy_full l b : length (krem Lazy CHUNK_SIZE l) = CHUNK_SIZE -> b <> [] -> (length b <= CHUNK_SIZE)%nat ->
  kblocks Lazy CHUNK_SIZE (l ++ b) = kblocks Lazy CHUNK_SIZE l ++ [krem Lazy CHUNK_SIZE l] /\
  krem Lazy CHUNK_SIZE (l ++ b) = b.
Proof.
  intros H N L. rewrite <- (kblocks_krem Lazy CHUNK_SIZE l CHUNK_pos) at 1 4.
  replace (concat (kblocks Lazy CHUNK_SIZE l) ++ krem Lazy CHUNK_SIZE l)
    with (concat (kblocks Lazy CHUNK_SIZE l ++ [krem Lazy CHUNK_SIZE l]))
    by (rewrite concat_app; cbn [concat]; now rewrite app_nil_r).
  apply split_unique; [exact CHUNK_pos| |].
  - apply Forall_app. split; [apply kblocks_length, CHUNK_pos|]. constructor; [exact H|constructor].
  - split; [exact L|]. intros _. exact N.
Qed.
Lemma splice_spec (buf : bytes) pos src : (pos + length src <= length buf)%nat ->
  exists b, splice buf pos src = Some b /\ length b = length buf /\
    firstn (pos + length src) b = firstn pos buf ++ src.
Proof.
  intros H. unfold splice. destruct (Nat.leb_spec (pos + length src) (length buf)) as [_|N]; [|lia].
  eexists. split; [reflexivity|]. split.
  - rewrite !app_length, firstn_length, skipn_length. lia.
  - rewrite app_assoc. apply firstn_app_exact. rewrite app_length, firstn_length. lia.
Qed.

(** ** Chunks *)
Lemma chaining_spec m s l C : R C l s -> bytes_ok l -> krem Lazy CHUNK_SIZE l <> [] ->
  kblocks Lazy CHUNK_SIZE l <> [] ->
  process_chaining_chunk m s
  = Some (mkK12 C (buffer s) (bufpos s) (tst 0x06 (fin_input (kblocks Lazy CHUNK_SIZE l ++ [krem Lazy CHUNK_SIZE l])))
            (tst 0x0B []) (chain_length s)).
Proof.
  intros [R1 R2 R3 R4 R5 R6 R7] B N0 N1. unfold process_chaining_chunk.
  assert (Z : negb (bufpos s =? 0)%nat = true).
  { rewrite R2. destruct (krem Lazy CHUNK_SIZE l); [contradiction|reflexivity]. }
  rewrite Z. replace (dassert m true) with (Some tt) by now destruct m. cbn [obind].
  rewrite R4, R6, t_update_spec. cbn [app].
  destruct (t_cv m (krem Lazy CHUNK_SIZE l)) as (rd & E & V); [now apply krem_ok|].
  change CHAINING_VALUE_SIZE with 32%nat.
  rewrite fin_snoc by exact N1. rewrite R7, R5.
  assert (EQ : (N.of_nat (length (kblocks Lazy CHUNK_SIZE l)) =? 1) = (length (kblocks Lazy CHUNK_SIZE l) =? 1)%nat).
  { destruct (Nat.eqb_spec (length (kblocks Lazy CHUNK_SIZE l)) 1) as [-> |N]; [reflexivity|]. apply N.eqb_neq. lia. }
  rewrite EQ. rewrite R1.
  destruct (length (kblocks Lazy CHUNK_SIZE l) =? 1)%nat.
  - rewrite t_update_spec. cbn [obind]. rewrite E. cbn [obind]. rewrite V, t_update_spec. reflexivity.
  - cbn [obind]. rewrite E. cbn [obind]. rewrite V, t_update_spec. reflexivity.
Qed.
(** After [process_chunk] the held chunk has become a whole chunk. *)
Definition Rfull (C : bytes) (cs : list bytes) (s : k12_st) : Prop :=
  customization s = C /\ bufpos s = 0%nat /\ length (buffer s) = CHUNK_SIZE /\
  final_tshk s = tst 0x06 (fin_input cs) /\ chain_tshk s = tst 0x0B [] /\ chain_length s = N.of_nat (length cs).
Lemma process_chunk_spec m s l C : R C l s -> bytes_ok l -> length (krem Lazy CHUNK_SIZE l) = CHUNK_SIZE ->
  N.of_nat (length (kblocks Lazy CHUNK_SIZE l)) + 1 < 2 ^ 64 ->
  exists s', process_chunk m s = Some s' /\
    Rfull C (kblocks Lazy CHUNK_SIZE l ++ [krem Lazy CHUNK_SIZE l]) s'.
Proof.
  intros HR B L W. pose proof HR as [R1 R2 R3 R4 R5 R6 R7]. unfold process_chunk.
  assert (Z : (bufpos s =? CHUNK_SIZE)%nat = true) by (apply Nat.eqb_eq; congruence).
  rewrite Z. replace (dassert m true) with (Some tt) by now destruct m. cbn [obind].
  destruct (N.eqb_spec (chain_length s) 0) as [E|E].
  - assert (K : kblocks Lazy CHUNK_SIZE l = []) by (apply length_zero_iff_nil; lia).
    rewrite R5, K. cbn [fin_input]. rewrite t_update_spec. cbn [obind app chain_length].
    unfold cadd. rewrite fit_small by lia. cbn [obind]. eexists. split; [reflexivity|].
    repeat split; cbn [customization bufpos buffer final_tshk chain_tshk chain_length].
    + exact R1.
    + cbn [fin_input]. rewrite <- R4, R2, L. now rewrite firstn_all2 by lia.
    + exact R6.
    + cbn [length]. lia.
  - assert (K : kblocks Lazy CHUNK_SIZE l <> []).
    { intros K. rewrite K in R7. cbn in R7. contradiction. }
    rewrite (chaining_spec m s l C HR B) by (try exact K; intros Z2; rewrite Z2 in L; cbn in L; pose proof CHUNK_pos; lia).
    cbn [obind chain_length final_tshk chain_tshk customization]. unfold cadd. rewrite fit_small by lia.
    cbn [obind]. eexists. split; [reflexivity|].
    repeat split; cbn [customization bufpos buffer final_tshk chain_tshk chain_length].
    + rewrite app_length. cbn [length]. lia.
Qed.
(** Putting [b] into the buffer. *)
Lemma put_spec m s l C b : R C l s -> bytes_ok l -> b <> [] -> (length b <= CHUNK_SIZE)%nat ->
  (length (krem Lazy CHUNK_SIZE l) = CHUNK_SIZE \/ length (krem Lazy CHUNK_SIZE l) + length b <= CHUNK_SIZE)%nat ->
  N.of_nat (length (kblocks Lazy CHUNK_SIZE l)) + 1 < 2 ^ 64 ->
  exists s1 bf, (if (bufpos s =? CHUNK_SIZE)%nat then process_chunk m s else Some s) = Some s1 /\
    splice (buffer s1) (bufpos s1) b = Some bf /\
    R C (l ++ b) (mkK12 (customization s1) bf (bufpos s1 + length b) (final_tshk s1) (chain_tshk s1) (chain_length s1)).
Proof.
  intros HR B N0 Lb H W. pose proof HR as [R1 R2 R3 R4 R5 R6 R7].
  destruct (Nat.eqb_spec (bufpos s) CHUNK_SIZE) as [E|E].
  - assert (L : length (krem Lazy CHUNK_SIZE l) = CHUNK_SIZE) by congruence.
    destruct (process_chunk_spec m s l C HR B L W) as (s1 & -> & (Q1 & Q2 & Q3 & Q4 & Q5 & Q6)).
    destruct (splice_spec (buffer s1) 0 b) as (bf & S1 & S2 & S3); [lia|].
    exists s1, bf. split; [reflexivity|]. rewrite Q2. split; [exact S1|].
    destruct (lazy_full l b L N0 Lb) as [K1 K2].
    constructor; cbn [customization bufpos buffer final_tshk chain_tshk chain_length]; rewrite ?K1, ?K2; try assumption.
    + reflexivity.
    + congruence.
  - exists s. rewrite R2 in E. destruct H as [H|H]; [congruence|].
    destruct (splice_spec (buffer s) (bufpos s) b) as (bf & S1 & S2 & S3); [lia|].
    exists bf. split; [reflexivity|]. split; [exact S1|].
    destruct (lazy_fits l b H) as [K1 K2].
    constructor; cbn [customization bufpos buffer final_tshk chain_tshk chain_length]; rewrite ?K1, ?K2; try assumption.
    + rewrite app_length. lia.
    + congruence.
    + now rewrite S3, R4.
Qed.

(** ** Blocks *)
Lemma kblocks_le l : (length (kblocks Lazy CHUNK_SIZE l) <= length l)%nat.
Proof.
  pose proof (kblocks_krem Lazy CHUNK_SIZE l CHUNK_pos) as E. apply (f_equal (@length N)) in E.
  rewrite app_length, (concat_length_blocks CHUNK_SIZE) in E by (apply kblocks_length, CHUNK_pos).
  pose proof CHUNK_pos. nia.
Qed.
Lemma krem_mult l : (length l mod 128 = 0)%nat -> (length (krem Lazy CHUNK_SIZE l) mod 128 = 0)%nat.
Proof.
  intros H. pose proof (kblocks_krem Lazy CHUNK_SIZE l CHUNK_pos) as E. apply (f_equal (@length N)) in E.
  rewrite app_length, (concat_length_blocks CHUNK_SIZE) in E by (apply kblocks_length, CHUNK_pos).
  rewrite CHUNK_eq in E at 1. rewrite <- E in H.
  replace (64 * 128 * length (kblocks Lazy CHUNK_SIZE l) + length (krem Lazy CHUNK_SIZE l))%nat
    with (length (krem Lazy CHUNK_SIZE l) + (64 * length (kblocks Lazy CHUNK_SIZE l)) * 128)%nat in H by lia.
  now rewrite Nat.mod_add in H by lia.
Qed.
Lemma mult_room n : (n mod 128 = 0)%nat -> (n <= CHUNK_SIZE)%nat -> (n = CHUNK_SIZE \/ n + 128 <= CHUNK_SIZE)%nat.
Proof.
  intros H L. rewrite CHUNK_eq in *. pose proof (Nat.div_mod n 128 ltac:(lia)) as E. lia.
Qed.
Lemma update_blocks_spec m C bl : forall l s, R C l s -> bytes_ok l -> (length l mod 128 = 0)%nat ->
  Forall (fun b => length b = 128%nat) bl -> Forall bytes_ok bl ->
  N.of_nat (length l + length (concat bl)) + 1 < 2 ^ 64 ->
  exists s', update_blocks m s bl = Some s' /\ R C (l ++ concat bl) s'.
Proof.
  induction bl as [|b bl IH]; intros l s HR B M FL FB W.
  - exists s. split; [reflexivity|]. cbn [concat]. now rewrite app_nil_r.
  - apply Forall_cons_iff in FL, FB. destruct FL as [Lb FL], FB as [Bb FB]. cbn [update_blocks concat] in *.
    rewrite app_length in W. unfold update_block.
    pose proof (kblocks_le l) as KL.
    destruct (put_spec m s l C b HR B) as (s1 & bf & E1 & E2 & HR').
    + intros Z. rewrite Z in Lb. discriminate.
    + rewrite CHUNK_eq. lia.
    + rewrite Lb. apply mult_room; [now apply krem_mult|apply krem_pos_lazy].
    + lia.
    + rewrite E1. cbn [obind]. rewrite E2. cbn [obind]. rewrite Lb in HR'.
      destruct (IH (l ++ b) _ HR') as (s' & E3 & HR3); try assumption.
      * apply bytes_ok_app. now split.
      * rewrite app_length, Lb. replace (length l + 128)%nat with (length l + 1 * 128)%nat by lia. now rewrite Nat.mod_add by lia.
      * rewrite app_length. lia.
      * exists s'. split; [exact E3|]. now rewrite app_assoc.
Qed.
Lemma update_app m bl1 : forall s bl2, update_blocks m s (bl1 ++ bl2)
  = obind (update_blocks m s bl1) (fun s' => update_blocks m s' bl2).
Proof.
  induction bl1 as [|b bl1 IH]; intros s bl2; [reflexivity|]. cbn [app update_blocks].
  destruct (update_block m s b) as [s1|]; [|reflexivity]. cbn [obind]. apply IH.
Qed.
Lemma chaining_cust m s s' : process_chaining_chunk m s = Some s' -> customization s' = customization s.
Proof.
  unfold process_chaining_chunk. destruct (dassert m _) as [[]|]; [|discriminate]. cbn [obind].
  destruct (if chain_length s =? 1 then _ else _) as [ft|]; [|discriminate]. cbn [obind].
  destruct (t_update _ _ (chain_tshk s) _) as [ct|]; [|discriminate]. cbn [obind].
  destruct (t_finalize_reset _ _ ct) as [[rd ct']|]; [|discriminate]. cbn [obind].
  destruct (t_update _ _ ft _) as [ft'|]; [|discriminate]. cbn [obind]. intros E. now injection E as <-.
Qed.
Lemma chunk_cust m s s' : process_chunk m s = Some s' -> customization s' = customization s.
Proof.
  unfold process_chunk. destruct (dassert m _) as [[]|]; [|discriminate]. cbn [obind].
  destruct (chain_length s =? 0).
  - destruct (t_update _ m (final_tshk s) (buffer s)) as [ft|]; [|discriminate]. cbn [obind chain_length].
    destruct (cadd m 64 _ 1); [|discriminate]. cbn [obind]. intros E. now injection E as <-.
  - destruct (process_chaining_chunk m s) as [s1|] eqn:E1; [|discriminate]. cbn [obind].
    destruct (cadd m 64 _ 1); [|discriminate]. cbn [obind]. intros E. injection E as <-. cbn. now apply chaining_cust in E1.
Qed.
Lemma update_cust m bl : forall s s', update_blocks m s bl = Some s' -> customization s' = customization s.
Proof.
  induction bl as [|b bl IH]; intros s s' E; cbn [update_blocks] in E; [now injection E as <-|].
  destruct (update_block m s b) as [s1|] eqn:E1; [|discriminate]. cbn [obind] in E. rewrite (IH _ _ E).
  unfold update_block in E1. destruct (bufpos s =? CHUNK_SIZE)%nat.
  - destruct (process_chunk m s) as [s2|] eqn:E2; [|discriminate]. cbn [obind] in E1.
    destruct (splice _ _ b); [|discriminate]. injection E1 as <-. cbn. now apply chunk_cust in E2.
  - cbn [obind] in E1. destruct (splice _ _ b); [|discriminate]. now injection E1 as <-.
Qed.

(** ** [length_encode] *)
Lemma le_digits_spec f n : forall x, (n <= f)%nat -> x < 256 ^ N.of_nat n ->
  (n = 0%nat \/ 256 ^ N.of_nat (n - 1) <= x) -> le_digits f x = Some (le_bytes n x).
Proof.
  revert n. induction f as [|f IH]; intros n x L B H.
  - replace n with 0%nat in * by lia. cbn in B. replace x with 0 by lia. reflexivity.
  - destruct n as [|n].
    + cbn in B. replace x with 0 by lia. reflexivity.
    + cbn [le_digits]. rewrite Nat.sub_succ, Nat.sub_0_r in H. destruct H as [H|H]; [discriminate|].
      assert (P : 0 < 256 ^ N.of_nat n) by (apply N.neq_0_lt_0, N.pow_nonzero; discriminate).
      destruct (N.eqb_spec x 0) as [Z|Z]; [lia|]. rewrite Nnat.Nat2N.inj_succ, N.pow_succ_r' in B.
      rewrite (IH n); [reflexivity|lia| |].
      * apply N.div_lt_upper_bound; [discriminate|exact B].
      * destruct n as [|n]; [now left|right]. rewrite Nat.sub_succ, Nat.sub_0_r.
        apply N.div_le_lower_bound; [discriminate|]. now rewrite Nnat.Nat2N.inj_succ, N.pow_succ_r' in H.
Qed.
Lemma nbytes_le x : x < 2 ^ 64 -> (nbytes x <= 8)%nat /\ x < 256 ^ N.of_nat (nbytes x)
  /\ (nbytes x = 0%nat \/ 256 ^ N.of_nat (nbytes x - 1) <= x).
Proof.
  intros H. unfold nbytes. destruct (N.eqb_spec x 0) as [->|Z]; [split; [cbn; lia|]; split; [reflexivity|now left]|].
  pose proof (enc_len_le x 8 H ltac:(lia)) as L. pose proof (enc_len_spec x ltac:(lia)) as [A B].
  unfold Spec.Keccak.enc_len in *. destruct (N.eqb_spec x 0); [contradiction|]. split; [lia|]. split; [exact B|now right].
Qed.
Lemma length_encode_spec x : x < 2 ^ 64 -> length_encode x = Some (Spec.K12.length_encode x).
Proof.
  intros H. destruct (nbytes_le x H) as (A & B & D). unfold length_encode.
  rewrite (le_digits_spec LENGTH_ENCODE_SIZE (nbytes x)); [|change LENGTH_ENCODE_SIZE with 255%nat; lia|exact B|exact D].
  cbn [obind]. rewrite le_bytes_length. change LENGTH_ENCODE_SIZE with 255%nat.
  destruct (Nat.ltb_spec (nbytes x) 255) as [_|N]; [|lia].
  unfold Spec.K12.length_encode, be_bytes. rewrite N.mod_small by lia. reflexivity.
Qed.
Lemma length_encode_ok x : x < 2 ^ 64 -> bytes_ok (Spec.K12.length_encode x) /\ Spec.K12.length_encode x <> []
  /\ (length (Spec.K12.length_encode x) <= 9)%nat.
Proof.
  intros H. destruct (nbytes_le x H) as (A & _). unfold Spec.K12.length_encode. repeat split.
  - apply bytes_ok_app. split; [apply be_bytes_ok|]. constructor; [lia|constructor].
  - intros E. apply app_eq_nil in E. now destruct E.
  - rewrite app_length, be_bytes_length. cbn. lia.
Qed.

(** ** Finalization *)
Lemma cut_lazy l : l <> [] -> cut CHUNK_SIZE l = kblocks Lazy CHUNK_SIZE l ++ [krem Lazy CHUNK_SIZE l].
Proof.
  intros N. pose proof (krem_tail_ok Lazy CHUNK_SIZE l CHUNK_pos) as [T1 T2].
  pose proof (kblocks_length Lazy CHUNK_SIZE l CHUNK_pos) as F.
  pose proof (kblocks_krem Lazy CHUNK_SIZE l CHUNK_pos) as E. pose proof CHUNK_pos as P.
  set (bl := kblocks Lazy CHUNK_SIZE l) in *. set (t := krem Lazy CHUNK_SIZE l) in *.
  assert (TN : t <> []).
  { intros Z. destruct bl; [|apply T2; [discriminate|exact Z]]. rewrite Z in E. cbn in E. congruence. }
  unfold cut. destruct (Nat.eq_dec (length t) CHUNK_SIZE) as [L|L].
  - destruct (chunks_rem_unique CHUNK_SIZE (bl ++ [t]) [] P) as [E1 E2].
    + apply Forall_app. split; [exact F|]. constructor; [exact L|constructor].
    + exact P.
    + rewrite concat_app in E1, E2. cbn [concat] in E1, E2. rewrite !app_nil_r, E in E1, E2. rewrite E1, E2.
      now rewrite app_nil_r.
  - destruct (chunks_rem_unique CHUNK_SIZE bl t P F) as [E1 E2]; [lia|]. rewrite E in E1, E2. rewrite E1, E2.
    destruct t; [contradiction|reflexivity].
Qed.
Lemma lazy_small l : (length l <= CHUNK_SIZE)%nat -> kblocks Lazy CHUNK_SIZE l = [] /\ krem Lazy CHUNK_SIZE l = l.
Proof.
  intros H. apply (split_unique Lazy CHUNK_SIZE [] l); [exact CHUNK_pos|constructor|]. split; [exact H|].
  intros Z. now contradiction Z.
Qed.
Lemma lazy_large l : (CHUNK_SIZE < length l)%nat ->
  kblocks Lazy CHUNK_SIZE l = firstn CHUNK_SIZE l :: kblocks Lazy CHUNK_SIZE (skipn CHUNK_SIZE l) /\
  krem Lazy CHUNK_SIZE l = krem Lazy CHUNK_SIZE (skipn CHUNK_SIZE l).
Proof.
  intros H. set (t := skipn CHUNK_SIZE l).
  assert (E : l = concat (firstn CHUNK_SIZE l :: kblocks Lazy CHUNK_SIZE t) ++ krem Lazy CHUNK_SIZE t).
  { cbn [concat]. rewrite <- app_assoc, kblocks_krem by exact CHUNK_pos. unfold t. now rewrite firstn_skipn. }
  rewrite E at 1 3. apply split_unique; [exact CHUNK_pos| |].
  - constructor; [rewrite firstn_length; lia|apply kblocks_length, CHUNK_pos].
  - pose proof (krem_tail_ok Lazy CHUNK_SIZE t CHUNK_pos) as [T1 T2]. split; [exact T1|]. intros _ Z.
    assert (t = []).
    { rewrite <- (kblocks_krem Lazy CHUNK_SIZE t CHUNK_pos), Z, app_nil_r.
      destruct (kblocks Lazy CHUNK_SIZE t) as [|c cs]; [reflexivity|]. exfalso. apply T2; [discriminate|exact Z]. }
    unfold t in *. assert (L : length (skipn CHUNK_SIZE l) = 0%nat) by now rewrite H0.
    rewrite skipn_length in L. lia.
Qed.

(** The reader of K12 passes TurboSHAKE's blocks through. *)
Lemma read_block_rdr st : Pst st -> read_block (rd_new st) =
  (fst (Sha3.read_block 12 168 st), rd_new (snd (Sha3.read_block 12 168 st))).
Proof.
  intros P. unfold read_block, t_read, rd_read, rd_new. cbn [length Nat.ltb Nat.leb Nat.sub].
  change (168 / 168)%nat with 1%nat. change (168 mod 168)%nat with 0%nat. cbn [gen_blocks Nat.eqb app].
  change Sha3.TURBO_SHAKE_ROUND_COUNT with 12%nat.
  destruct (Sha3.read_block 12 168 st) as [b r]. cbn. now rewrite app_nil_r.
Qed.
Definition Prd (r : rdr (R := list N)) : Prop := exists st, Pst st /\ r = rd_new st.
Lemma gen_same n : forall st, Pst st ->
  fst (gen_blocks read_block n (rd_new st)) = fst (gen_blocks (Sha3.read_block 12 168) n st).
Proof.
  induction n as [|n IH]; intros st P; [reflexivity|]. cbn [gen_blocks]. rewrite read_block_rdr by exact P.
  destruct (Sha3.read_block 12 168 st) as [b st1] eqn:E. cbn [fst snd].
  assert (P1 : Pst st1) by (injection E as <- <-; now apply keccak_P). specialize (IH st1 P1).
  destruct (gen_blocks read_block n (rd_new st1)), (gen_blocks (Sha3.read_block 12 168) n st1). cbn [fst] in *. now rewrite IH.
Qed.
Lemma k12_reads st ns : Pst st ->
  concat (fst (rd_reads read_block 168 (rd_new (rd_new st)) ns))
  = firstn (total ns) (Spec.Keccak.squeeze 12 168 (total ns) (words_to_le 8 st)).
Proof.
  intros P. rewrite (reads_stream read_block 168 ltac:(lia) Prd).
  - unfold stream. rewrite gen_same by exact P. now rewrite squeeze_lanes by (lia || exact P).
  - intros r (s & Ps & ->). rewrite read_block_rdr by exact Ps. cbn [fst]. apply read_block_length; [lia|exact Ps].
  - intros r (s & Ps & ->). rewrite read_block_rdr by exact Ps. cbn [snd]. eexists. split; [|reflexivity]. now apply keccak_P.
  - exists st. now split.
Qed.

(** The limit: message and customization together below 2^64 - 16 bytes. *)
Definition k12_within (C : bytes) (len : nat) : Prop := N.of_nat (len + length C) + 16 < 2 ^ 64.

Lemma fin_input_ok cs : Forall bytes_ok cs -> bytes_ok (fin_input cs).
Proof.
  intros F. destruct F as [|c cs B F]; [constructor|]. destruct F as [|c1 cs B1 F]; [exact B|].
  cbn [fin_input]. apply bytes_ok_app. split; [exact B|]. apply bytes_ok_app. split; [repeat constructor|].
  apply bytes_ok_concat. apply Forall_forall. intros x Hx. apply in_map_iff in Hx. destruct Hx as (y & <- & Hy).
  apply bytes_ok_CV. destruct Hy as [<-|Hy]; [exact B1|]. rewrite Forall_forall in F. now apply F.
Qed.

Lemma k12_final m C msg s ns : bytes_ok C -> bytes_ok msg -> k12_within C (length msg) ->
  update_blocks m (k12_new C) (chunks 128 msg) = Some s ->
  exists rd s', finalize_xof_core m s (remainder 128 msg) = Some (rd, s') /\ customization s' = C /\
    concat (fst (rd_reads read_block 168 (rd_new rd) ns)) = KT128 msg C (total ns).
Proof.
  intros BC BM W E0. unfold k12_within in W. unfold finalize_xof_core.
  pose proof (update_cust _ _ _ _ E0) as CU. cbn [k12_new customization] in CU. rewrite CU.
  pose proof (kblocks_continue (update_blocks m) (fun _ => True) Eager 128 ltac:(lia) (fun s _ => eq_refl)
     (fun s a b _ => update_app m a s b) (fun _ _ _ _ _ => I) (k12_new C)) as K.
  pose proof (K msg C I) as K1. pose proof (K (msg ++ C) (Spec.K12.length_encode (N.of_nat (length C))) I) as K2.
  rewrite !kblocks_eager, !krem_eager in K1, K2 by lia. rewrite E0 in K1. cbn [obind] in K1.
  set (le := Spec.K12.length_encode (N.of_nat (length C))) in *.
  destruct (length_encode_ok (N.of_nat (length C))) as (Ble & Nle & Lle); [lia|]. fold le in Ble, Nle, Lle.
  set (S := msg ++ C ++ le). rewrite <- app_assoc in K2. fold S in K2.
  assert (BS : bytes_ok S) by (apply bytes_ok_app; split; [exact BM|]; apply bytes_ok_app; now split).
  assert (LS : (length S <= length msg + length C + 9)%nat) by (unfold S; rewrite !app_length; lia).
  assert (US : forall l, bytes_ok l -> (length l <= length S)%nat -> exists s1,
            update_blocks m (k12_new C) (chunks 128 l) = Some s1 /\ R C (concat (chunks 128 l)) s1).
  { intros l Bl Ll. destruct (update_blocks_spec m C (chunks 128 l) [] _ (R_new C)) as (s1 & E1 & H1).
    - constructor.
    - reflexivity.
    - apply chunks_block_length. lia.
    - apply chunks_ok; [lia|exact Bl].
    - cbn [length Nat.add]. pose proof (concat_chunks_rem 128 l ltac:(lia)) as CC.
      apply (f_equal (@length N)) in CC. rewrite app_length in CC. lia.
    - exists s1. now split. }
  destruct (US (msg ++ C)) as (s1 & E1 & _).
  { apply bytes_ok_app. now split. }
  { unfold S. rewrite !app_length. lia. }
  rewrite E1 in K1, K2. cbn [obind] in K1, K2. rewrite K1. cbn [obind].
  pose proof (update_cust _ _ _ _ E1) as CU1. cbn [k12_new customization] in CU1. rewrite CU1.
  rewrite length_encode_spec by lia. fold le. cbn [obind]. rewrite K2.
  destruct (US S BS ltac:(lia)) as (s2 & E2 & HR2). rewrite E2. cbn [obind].
  clear K K1 K2 US E0 E1 CU CU1 s s1 E2.
  (* the leftover *)
  set (l := concat (chunks 128 S)) in *. set (r := remainder 128 S).
  assert (Sl : S = l ++ r) by (symmetry; apply concat_chunks_rem; lia).
  assert (Lr : (length r < 128)%nat).
  { unfold r. rewrite remainder_length by lia. apply Nat.mod_upper_bound. lia. }
  assert (Ml : (length l mod 128 = 0)%nat).
  { unfold l. rewrite (concat_length_blocks 128) by (apply chunks_block_length; lia).
    rewrite Nat.mul_comm. apply Nat.mod_mul. lia. }
  assert (Bl : bytes_ok l /\ bytes_ok r) by (rewrite Sl in BS; now apply bytes_ok_app in BS). destruct Bl as [Bl Br].
  pose proof (kblocks_le l) as KL.
  assert (Ll : (length l <= length S)%nat) by (rewrite Sl, app_length; lia).
  assert (PUT : exists s3 bf, (if (bufpos s2 =? CHUNK_SIZE)%nat && negb (length r =? 0)%nat then process_chunk m s2 else Some s2) = Some s3
     /\ splice (buffer s3) (bufpos s3) r = Some bf /\
     R C S (mkK12 (customization s3) bf (bufpos s3 + length r) (final_tshk s3) (chain_tshk s3) (chain_length s3))).
  { destruct r as [|r0 r'] eqn:Er.
    - rewrite andb_false_r. exists s2. rewrite app_nil_r in Sl. pose proof HR2 as [R1 R2 R3 R4 R5 R6 R7].
      destruct (splice_spec (buffer s2) (bufpos s2) []) as (bf & S1 & S2 & S3).
      { cbn [length]. rewrite R2. pose proof (krem_pos_lazy l). lia. }
      exists bf. split; [reflexivity|]. split; [exact S1|]. rewrite Sl.
      cbn [length] in *. rewrite !Nat.add_0_r in *. rewrite app_nil_r in S3.
      constructor; cbn [customization bufpos buffer final_tshk chain_tshk chain_length]; try assumption; congruence.
    - rewrite andb_true_r, <- Er. rewrite <- Er in *. rewrite Sl. apply (put_spec m s2 l C r HR2 Bl).
      + rewrite Er. discriminate.
      + rewrite CHUNK_eq. lia.
      + destruct (mult_room (length (krem Lazy CHUNK_SIZE l))) as [|]; [now apply krem_mult|apply krem_pos_lazy|now left|right; lia].
      + lia. }
  destruct PUT as (s3 & bf & E3 & E4 & HR). fold r. rewrite E3. cbn [obind]. rewrite E4. cbn [obind]. cbv zeta.
  set (s4 := mkK12 (customization s3) bf (bufpos s3 + length r) (final_tshk s3) (chain_tshk s3) (chain_length s3)) in *.
  pose proof HR as [R1 R2 R3 R4 R5 R6 R7].
  assert (SN : S <> []).
  { unfold S. intros Z. apply app_eq_nil in Z. destruct Z as [_ Z]. apply app_eq_nil in Z. now destruct Z. }
  unfold KT128. fold le. fold S. cbv zeta. rewrite chunk_eq.
  destruct (Nat.leb_spec (length S) CHUNK_SIZE) as [Small|Large].
  - destruct (lazy_small S Small) as [K1 K2]. rewrite R7, K1. cbn [length]. change (N.of_nat 0 =? 0) with true. cbn iota.
    change (t_new 0x07) with (Some (tst 0x07 [])). cbn [obind]. rewrite t_update_spec. cbn [obind app].
    rewrite R4, K2. destruct (t_final_spec 0x07 m S) as (st & E & P & A); [lia|exact BS|]. rewrite E. cbn [obind].
    exists (rd_new st), s4. split; [reflexivity|]. split; [exact R1|]. rewrite k12_reads by exact P.
    unfold Spec.Keccak.TurboSHAKE128, Spec.Keccak.TurboSHAKE, Spec.Keccak.sponge. now rewrite A.
  - destruct (lazy_large S Large) as [K1 K2].
    set (T := skipn CHUNK_SIZE S) in *.
    assert (TN : T <> []).
    { intros Z. apply (f_equal (@length N)) in Z. unfold T in Z. rewrite skipn_length in Z. cbn in Z. lia. }
    assert (KN : kblocks Lazy CHUNK_SIZE S <> []) by (rewrite K1; discriminate).
    assert (KR : krem Lazy CHUNK_SIZE S <> []).
    { pose proof (krem_tail_ok Lazy CHUNK_SIZE S CHUNK_pos) as [_ T2]. now apply T2. }
    pose proof (kblocks_le S) as KLS.
    assert (CE : (chain_length s4 =? 0) = false).
    { apply N.eqb_neq. rewrite R7, K1. cbn [length]. lia. }
    rewrite CE. rewrite (chaining_spec m s4 S C HR BS KR KN). cbn [obind chain_length final_tshk].
    rewrite R7, length_encode_spec by lia. cbn [obind]. rewrite t_update_spec. cbn [obind]. rewrite t_update_spec. cbn [obind].
    set (X := (fin_input (kblocks Lazy CHUNK_SIZE S ++ [krem Lazy CHUNK_SIZE S]) ++
      Spec.K12.length_encode (N.of_nat (length (kblocks Lazy CHUNK_SIZE S)))) ++ [255; 255]).
    assert (BX : bytes_ok X).
    { unfold X. apply bytes_ok_app. split; [apply bytes_ok_app; split|].
      - apply fin_input_ok. apply Forall_app. split; [apply kblocks_ok; [exact CHUNK_pos|exact BS]|].
        constructor; [now apply krem_ok|constructor].
      - apply length_encode_ok. lia.
      - repeat constructor. }
    destruct (t_final_spec 0x06 m X) as (st & E & P & A); [lia|exact BX|]. rewrite E. cbn [obind].
    eexists (rd_new st), _. split; [reflexivity|]. split; [reflexivity|]. rewrite k12_reads by exact P.
    unfold Spec.Keccak.TurboSHAKE128, Spec.Keccak.TurboSHAKE, Spec.Keccak.sponge. rewrite <- A.
    do 4 f_equal. unfold X. rewrite <- app_assoc. rewrite cut_lazy by exact TN.
    rewrite K1, K2. set (kt := kblocks Lazy CHUNK_SIZE T). set (tt := krem Lazy CHUNK_SIZE T).
    assert (F : fin_input ((firstn CHUNK_SIZE S :: kt) ++ [tt]) = firstn CHUNK_SIZE S ++ marker ++ concat (map CV (kt ++ [tt]))).
    { cbn [app fin_input]. destruct (kt ++ [tt]) eqn:Z; [|reflexivity]. apply app_eq_nil in Z. now destruct Z. }
    rewrite F, <- !app_assoc. do 4 f_equal. rewrite app_length. cbn [length]. f_equal. f_equal. lia.
Qed.

Definition inv (C : bytes) (s : k12_st) : Prop := customization s = C.
Lemma K12_ok C ns : bytes_ok C ->
  core_ok (xof_core (K12 C) ns) (inv C) (fun M => KT128 M C (total ns)) (k12_within C).
Proof.
  intros BC. constructor; cbn [xof_core K12 cst c_bs c_kind c_init c_ibuf c_update c_final c_reset c_codec
    xst x_bs x_kind x_init x_ibuf x_update x_final x_reset x_codec x_rbs x_read].
  - lia.
  - reflexivity.
  - unfold k12_within. intros a b L W. lia.
  - reflexivity.
  - intros m s bl s' Hs _ _ E. unfold inv in *. rewrite <- Hs. now apply update_cust in E.
  - reflexivity.
  - intros m s a b _. apply update_app.
  - intros m msg W B. cbn [app]. rewrite kblocks_eager, krem_eager by lia.
    destruct (update_blocks_spec m C (chunks 128 msg) [] _ (R_new C)) as (s & E & H).
    + constructor.
    + reflexivity.
    + apply chunks_block_length. lia.
    + apply chunks_ok; [lia|exact B].
    + cbn [length Nat.add]. pose proof (concat_chunks_rem 128 msg ltac:(lia)) as CC.
      apply (f_equal (@length N)) in CC. rewrite app_length in CC. unfold k12_within in W. lia.
    + destruct (k12_final m C msg s ns BC B W E) as (rd & s' & E1 & E2 & E3).
      exists s, s'. split; [exact E|]. rewrite E1. cbn [obind]. split; [now rewrite <- E3|]. now rewrite E2.
  - intros s Hs. now rewrite Hs.
  - constructor.
  - discriminate.
Qed.
