(** The sha1 crate computes FIPS 180-4 SHA-1. *)
From Verif Require Import Base.Words Base.Bytes Base.Codec Base.BlockBuffer Base.BlockBufferFacts Base.Digest
  Base.DigestFacts Base.MDFacts Base.Sched Model.Sha1.
From Verif Require Spec.SHA1.
Import Spec.SHA1 (vars, round).

(** ** The schedule *)
Section Schedule.
  Variable M : list N.
  Hypothesis LM : length M = 16%nat.
  Lemma extend_g n W : Spec.SHA1.extend n W = gextend Spec.SHA1.next_w n W.
  Proof using. revert W; induction n as [|n IH]; intros W; cbn; [reflexivity|apply IH]. Qed.
  Lemma sched_old t : (t < 16)%nat -> get (Spec.SHA1.schedule M) t = get M t.
  Proof using LM. intros H. unfold Spec.SHA1.schedule. rewrite extend_g. apply gextend_old. lia. Qed.
  Lemma sched_new t : (16 <= t < 80)%nat ->
    get (Spec.SHA1.schedule M) t =
    let W := Spec.SHA1.schedule M in
    rotl32 (N.lxor (N.lxor (N.lxor (get W (t - 3)) (get W (t - 8))) (get W (t - 14))) (get W (t - 16))) 1.
  Proof using LM.
    intros H. unfold Spec.SHA1.schedule. rewrite extend_g. rewrite gextend_new by lia.
    unfold Spec.SHA1.next_w at 1. rewrite firstn_length, gextend_length, LM.
    replace (Nat.min t (16 + 64)) with t by lia. now rewrite !get_firstn by lia.
  Qed.
End Schedule.

(** ** Four rounds *)
Definition abcd_of (v : vars) : v4 := let '(a, b, c, d, e) := v in (a, b, c, d).
Definition e_of (v : vars) : N := let '(a, b, c, d, e) := v in e.
Definition a_of (v : v4) : N := let '(a, b, c, d) := v in a.
Definition d_of (v : vars) : N := let '(a, b, c, d, e) := v in d.
Definition vok (v : vars) : Prop :=
  let '(a, b, c, d, e) := v in a < 2 ^ 32 /\ b < 2 ^ 32 /\ c < 2 ^ 32 /\ d < 2 ^ 32 /\ e < 2 ^ 32.
Lemma round_ok v f k w : vok v -> vok (round v f k w).
Proof.
  destruct v as ((((a, b), c), d), e). intros (?&?&?&?&?). unfold round, vok.
  repeat split; try assumption; unfold add32, rotl32; auto with words.
Qed.

Lemma rnds4_spec f g v k w0 w1 w2 w3 : (forall x y z, z < 2 ^ 32 -> f x y z = g x y z) -> vok v ->
  let v' := round (round (round (round v g k w0) g k w1) g k w2) g k w3 in
  sha1rnds4 f (abcd_of v) (add (sha1_first_add (e_of v) (w0, w1, w2, w3)) (k, k, k, k)) = abcd_of v' /\
  e_of v' = rotl32 (a_of (abcd_of v)) 30.
Proof.
  intros Hf V. destruct v as ((((a, b), c), d), e). destruct V as (Ha & Hb & Hc & Hd & He). cbv zeta.
  unfold sha1rnds4, abcd_of, e_of, a_of, sha1_first_add, add.
  rewrite !Hf by (unfold add32, rotl32; auto with words).
  unfold round.
  assert (A0 : forall x y z u t, add32 (add32 (add32 0 x) y) (add32 (add32 z t) u) = add32 (add32 (add32 (add32 x y) z) u) t)
    by (intros; wadd_ac).
  assert (A1 : forall x y z u t, add32 (add32 (add32 z x) y) (add32 t u) = add32 (add32 (add32 (add32 x y) z) u) t)
    by (intros; wadd_ac).
  rewrite A0, !A1. split; reflexivity.
Qed.

Definition fm (i : nat) : N -> N -> N -> N :=
  nth i [Spec.SHA1.Ch; Spec.SHA1.Parity; Spec.SHA1.Maj; Spec.SHA1.Parity] Spec.SHA1.Parity.
Lemma ch_ok x y z : z < 2 ^ 32 -> bool3ary_202 x y z = Spec.SHA1.Ch x y z.
Proof.
  intros Hz. unfold bool3ary_202, Spec.SHA1.Ch, not32. apply N.bits_inj; intros i.
  rewrite ?N.lxor_spec, ?N.land_spec, ?N.lxor_spec, ?testbit_wnot.
  destruct (i <? 32) eqn:Hi.
  - now destruct (N.testbit x i), (N.testbit y i), (N.testbit z i).
  - apply N.ltb_ge in Hi. rewrite (proj1 (lt_pow2_bits z 32) Hz i Hi).
    now destruct (N.testbit x i), (N.testbit y i).
Qed.

Lemma round_x4_spec v i w0 w1 w2 w3 : (i < 4)%nat -> vok v ->
  let k := get K i in
  let v' := round (round (round (round v (fm i) k w0) (fm i) k w1) (fm i) k w2) (fm i) k w3 in
  sha1_digest_round_x4 (abcd_of v) (sha1_first_add (e_of v) (w0, w1, w2, w3)) i = abcd_of v' /\
  e_of v' = rotl32 (a_of (abcd_of v)) 30.
Proof.
  intros Hi V. unfold sha1_digest_round_x4.
  assert (HK : forall x y z, z < 2 ^ 32 -> bool3ary_232 x y z = Spec.SHA1.Maj x y z) by reflexivity.
  assert (HP : forall x y z, z < 2 ^ 32 -> bool3ary_150 x y z = Spec.SHA1.Parity x y z) by reflexivity.
  destruct i as [|[|[|[|i]]]]; [| | | |lia]; cbv zeta.
  - exact (rnds4_spec _ _ v _ w0 w1 w2 w3 ch_ok V).
  - exact (rnds4_spec _ _ v _ w0 w1 w2 w3 HP V).
  - exact (rnds4_spec _ _ v _ w0 w1 w2 w3 HK V).
  - exact (rnds4_spec _ _ v _ w0 w1 w2 w3 HP V).
Qed.

(** The constants and functions by twenties of rounds. *)
Lemma K_ok : map Spec.SHA1.K (seq 0 80) = flat_map (fun k => repeat k 20) K.
Proof. vm_compute. reflexivity. Qed.
Lemma K_get t : (t < 80)%nat -> Spec.SHA1.K t = get K (t / 20).
Proof.
  intros H. assert (E : nth t (map Spec.SHA1.K (seq 0 80)) 0 = nth t (map (fun t => get K (t / 20)) (seq 0 80)) 0).
  { apply (f_equal (fun l => nth t l 0)). vm_compute. reflexivity. }
  rewrite (nth_indep _ 0 (Spec.SHA1.K 0)), map_nth, seq_nth in E by (rewrite ?map_length, ?seq_length; lia).
  rewrite (nth_indep _ 0 ((fun t => get K (t / 20)) 0%nat)), (map_nth (fun t => get K (t / 20))), seq_nth in E
    by (rewrite ?map_length, ?seq_length; lia).
  exact E.
Qed.
Lemma f_get i j : (i < 20)%nat -> (j < 4)%nat -> Spec.SHA1.f (4 * i + j) = fm (i / 5).
Proof.
  intros H Hj. do 20 (destruct i as [|i]; [do 4 (destruct j as [|j]; [reflexivity|]); lia|]). lia.
Qed.

Definition run (W : list N) (s n : nat) (v : vars) : vars :=
  fold_left (fun v t => round v (Spec.SHA1.f t) (Spec.SHA1.K t) (get W t)) (seq s n) v.
Lemma run_add W s a b v : run W s (a + b) v = run W (s + a) b (run W s a v).
Proof. unfold run. now rewrite seq_app, fold_left_app. Qed.
Lemma run_ok W n s v : vok v -> vok (run W s n v).
Proof.
  unfold run. revert s v; induction n as [|n IH]; intros s v H; cbn [seq fold_left]; [exact H|].
  apply IH. now apply round_ok.
Qed.
Lemma run_S W s n v : run W s (S n) v = run W (S s) n (round v (Spec.SHA1.f s) (Spec.SHA1.K s) (get W s)).
Proof. reflexivity. Qed.
Lemma run_0 W s v : run W s 0 v = v.
Proof. reflexivity. Qed.

Definition Wv (W : list N) (i : nat) : v4 :=
  (get W (4 * i), get W (4 * i + 1), get W (4 * i + 2), get W (4 * i + 3)).
Lemma group_spec W v i : (i < 20)%nat -> vok v ->
  sha1_digest_round_x4 (abcd_of v) (sha1_first_add (e_of v) (Wv W i)) (i / 5) = abcd_of (run W (4 * i) 4 v) /\
  e_of (run W (4 * i) 4 v) = rotl32 (a_of (abcd_of v)) 30.
Proof.
  intros Hi V. rewrite !run_S, run_0.
  replace (S (4 * i)) with (4 * i + 1)%nat by lia. replace (S (4 * i + 1)) with (4 * i + 2)%nat by lia.
  replace (S (4 * i + 2)) with (4 * i + 3)%nat by lia.
  pose proof (f_get i 0 Hi ltac:(lia)) as F0. rewrite Nat.add_0_r in F0.
  rewrite F0, (f_get i 1 Hi), (f_get i 2 Hi), (f_get i 3 Hi) by lia.
  rewrite !K_get by lia.
  assert (D : forall j, (j < 4)%nat -> ((4 * i + j) / 20 = i / 5)%nat).
  { intros j Hj. replace 20%nat with (4 * 5)%nat by lia. rewrite <- Nat.div_div by lia.
    replace (4 * i + j)%nat with (j + i * 4)%nat by lia. rewrite Nat.div_add, (Nat.div_small j 4) by lia. reflexivity. }
  pose proof (D 0%nat ltac:(lia)) as D0. rewrite Nat.add_0_r in D0.
  rewrite D0, !D by lia.
  apply round_x4_spec; [|exact V].
  apply Nat.div_lt_upper_bound; lia.
Qed.

Lemma schedule_pure w0 w1 w2 w3 w4 w5 w6 w7 w8 w9 w10 w11 w12 w13 w14 w15 w16 w17 w18 w19 :
  let next a b c d := rotl32 (N.lxor (N.lxor (N.lxor a b) c) d) 1 in
  w16 = next w13 w8 w2 w0 -> w17 = next w14 w9 w3 w1 ->
  w18 = next w15 w10 w4 w2 -> w19 = next w16 w11 w5 w3 ->
  schedule (w0, w1, w2, w3) (w4, w5, w6, w7) (w8, w9, w10, w11) (w12, w13, w14, w15) = (w16, w17, w18, w19).
Proof.
  cbv beta zeta. intros E16 E17 E18 E19.
  assert (A : forall a b c d, N.lxor (N.lxor (N.lxor a b) c) d = N.lxor (N.lxor (N.lxor d c) b) a) by (intros; bitblast).
  rewrite A in E16, E17, E18, E19.
  cbv beta iota zeta delta [schedule sha1msg1 sha1msg2 xor].
  now rewrite <- E16, <- E17, <- E18, <- E19.
Qed.

Section Block.
  Variable W : list N.
  Hypothesis HW : forall t, (16 <= t < 80)%nat -> get W t =
    rotl32 (N.lxor (N.lxor (N.lxor (get W (t - 3)) (get W (t - 8))) (get W (t - 14))) (get W (t - 16))) 1.
  Lemma schedule_spec i : (i + 4 < 20)%nat ->
    schedule (Wv W i) (Wv W (i + 1)) (Wv W (i + 2)) (Wv W (i + 3)) = Wv W (i + 4).
  Proof using HW.
    intros Hi. unfold Wv.
    apply schedule_pure; rewrite HW at 1 by lia; repeat (f_equal; try lia).
  Qed.
  (** [X i]: the variables before group [i]; the code keeps [abcd] of two groups. *)
  Variable v : vars.
  Hypothesis Hv : vok v.
  Definition X (i : nat) : v4 := abcd_of (run W 0 (4 * i) v).
  Lemma X_ok i : vok (run W 0 (4 * i) v).
  Proof using Hv. clear HW. now apply run_ok. Qed.
  Lemma run_next i : run W 0 (4 * (i + 1)) v = run W (4 * i) 4 (run W 0 (4 * i) v).
  Proof using. clear HW Hv. replace (4 * (i + 1))%nat with (4 * i + 4)%nat by lia. now rewrite run_add. Qed.
  Lemma rounds4_spec i k : (i + 1 < 20)%nat -> k = ((i + 1) / 5)%nat ->
    rounds4 (X (i + 1)) (X i) (Wv W (i + 1)) k = X (i + 2).
  Proof using Hv. clear HW.
    intros Hi ->. unfold rounds4.
    pose proof (group_spec W _ i ltac:(lia) (X_ok i)) as [_ E]. rewrite <- run_next in E.
    pose proof (group_spec W _ (i + 1) Hi (X_ok (i + 1))) as [G _]. rewrite <- run_next in G.
    replace (i + 1 + 1)%nat with (i + 2)%nat in G by lia. rewrite E in G.
    unfold sha1_first_half. unfold X at 2. unfold X in *.
    destruct (abcd_of (run W 0 (4 * i) v)) as (((x0, x1), x2), x3). exact G.
  Qed.
  Lemma sr4_spec i k : (i + 4 < 20)%nat -> k = ((i + 4) / 5)%nat ->
    schedule_rounds4 (X (i + 4)) (X (i + 3)) (Wv W i) (Wv W (i + 1)) (Wv W (i + 2)) (Wv W (i + 3)) k
    = (X (i + 5), Wv W (i + 4)).
  Proof using HW Hv.
    intros Hi Hk. unfold schedule_rounds4. rewrite schedule_spec by exact Hi. cbv zeta.
    pose proof (rounds4_spec (i + 3) k ltac:(lia) ltac:(rewrite Hk; f_equal; lia)) as E.
    replace (i + 3 + 1)%nat with (i + 4)%nat in E by lia. replace (i + 3 + 2)%nat with (i + 5)%nat in E by lia.
    now rewrite E.
  Qed.
End Block.

Definition vars_of_list (l : list N) : vars := (get l 0, get l 1, get l 2, get l 3, get l 4).
Definition list_of_vars (v : vars) : list N := let '(a, b, c, d, e) := v in [a; b; c; d; e].

Lemma block_spec v M : vok v -> length M = 16%nat ->
  sha1_digest_block_u32 (list_of_vars v) M =
  let '(a0, b0, c0, d0, e0) := v in
  let '(a, b, c, d, e) := run (Spec.SHA1.schedule M) 0 80 v in
  [add32 a0 a; add32 b0 b; add32 c0 c; add32 d0 d; add32 e0 e].
Proof.
  intros V LM. unfold sha1_digest_block_u32.
  set (st := list_of_vars v). set (W := Spec.SHA1.schedule M).
  assert (Est : (get st 0, get st 1, get st 2, get st 3) = X W v 0 /\ get st 4 = e_of v).
  { unfold st, X. now destruct v as ((((a, b), c), d), e). }
  assert (Ev : v = (get st 0, get st 1, get st 2, get st 3, get st 4)).
  { unfold st. now destruct v as ((((a, b), c), d), e). }
  destruct Est as [Est Est4]. rewrite Est.
  assert (E : forall i, (i < 4)%nat -> (get M (4 * i), get M (4 * i + 1), get M (4 * i + 2), get M (4 * i + 3)) = Wv W i).
  { intros i Hi. unfold Wv, W. now rewrite !(sched_old M LM) by lia. }
  rewrite (E 0%nat ltac:(lia) : (get M 0, get M 1, get M 2, get M 3) = _).
  rewrite (E 1%nat ltac:(lia) : (get M 4, get M 5, get M 6, get M 7) = _).
  rewrite (E 2%nat ltac:(lia) : (get M 8, get M 9, get M 10, get M 11) = _).
  rewrite (E 3%nat ltac:(lia) : (get M 12, get M 13, get M 14, get M 15) = _).
  clear E.
  pose proof (sched_new M LM : forall t, (16 <= t < 80)%nat -> get W t = _) as HW. cbv zeta in HW. fold W in HW.
  clearbody W.
  pose proof (group_spec W _ 0 ltac:(lia) (X_ok W v V 0)) as [G0 _].
  rewrite <- run_next in G0.
  assert (G0' : sha1_digest_round_x4 (X W v 0) (sha1_first_add (get st 4) (Wv W 0)) 0 = X W v 1).
  { rewrite Est4. exact G0. }
  rewrite G0'. cbv zeta. clear G0 G0'.
  rewrite (rounds4_spec W v V 0 0 ltac:(lia) eq_refl : rounds4 (X W v 1) (X W v 0) (Wv W 1) 0 = X W v 2).
  rewrite (rounds4_spec W v V 1 0 ltac:(lia) eq_refl : rounds4 (X W v 2) (X W v 1) (Wv W 2) 0 = X W v 3).
  rewrite (rounds4_spec W v V 2 0 ltac:(lia) eq_refl : rounds4 (X W v 3) (X W v 2) (Wv W 3) 0 = X W v 4).
  do 16 (match goal with |- context [schedule_rounds4 (X W v _) _ (Wv W ?i) _ _ _ ?k] =>
    let H := fresh in pose proof (sr4_spec W HW v V i k ltac:(lia) eq_refl) as H; cbn [Nat.add] in H; rewrite H; clear H;
    cbv beta iota end).
  pose proof (group_spec W _ 19 ltac:(lia) (X_ok W v V 19)) as [_ G].
  rewrite <- run_next in G.
  assert (G' : e_of (run W 0 80 v) = rotl32 (a_of (X W v 19)) 30) by exact G. clear G.
  assert (G20 : X W v 20 = abcd_of (run W 0 80 v)) by reflexivity. rewrite G20.
  destruct (X W v 19) as (((x0, x1), x2), x3). cbn [a_of] in G'. rewrite <- G'.
  destruct (run W 0 80 v) as ((((a, b), c), d), e). rewrite Ev at 1. reflexivity.
Qed.

Lemma compress_block_spec v block : vok v -> length block = 64%nat ->
  compress_block (list_of_vars v) block = list_of_vars (Spec.SHA1.compress v block) /\ vok (Spec.SHA1.compress v block).
Proof.
  intros V Lb. unfold compress_block, words_of_be. rewrite block_spec; [|exact V|].
  2:{ rewrite map_length, chunks_length, Lb by lia. reflexivity. }
  unfold Spec.SHA1.compress. cbv zeta.
  change (Spec.SHA1.rounds (Spec.SHA1.schedule (map be_val (chunks 4 block))) v)
    with (run (Spec.SHA1.schedule (map be_val (chunks 4 block))) 0 80 v).
  destruct v as ((((a0, b0), c0), d0), e0).
  destruct (run _ 0 80 _) as ((((a, b), c), d), e). split.
  - unfold list_of_vars, add32. now rewrite (wadd_comm 32 a0), (wadd_comm 32 b0), (wadd_comm 32 c0), (wadd_comm 32 d0), (wadd_comm 32 e0).
  - unfold vok, add32. auto with words.
Qed.

(** ** The hasher *)
Definition within (len : nat) : Prop := 8 * N.of_nat len < 2 ^ 64.
Definition P (s : list N) : Prop := exists v, vok v /\ s = list_of_vars v.
Definition inv (st : list N * N) : Prop := P (fst st) /\ snd st < 2 ^ 64.
Lemma P_state s : P s -> length s = 5%nat /\ words_ok 32 s.
Proof.
  intros (v & V & ->). destruct v as ((((a, b), c), d), e). destruct V as (?&?&?&?&?).
  split; [reflexivity|]. repeat constructor; assumption.
Qed.
Lemma iv_ok : vok Spec.SHA1.iv.
Proof. unfold vok, Spec.SHA1.iv. repeat split; reflexivity. Qed.

Lemma Sha1_ok : core_ok Sha1 inv Spec.SHA1.SHA1 within.
Proof.
  apply (counted_core_ok 64 64 compress_block H0 P).
  - lia.
  - exists Spec.SHA1.iv. split; [exact iv_ok|reflexivity].
  - intros s b (v & V & ->) Lb _. destruct (compress_block_spec v b V Lb) as [-> V'].
    eexists. split; [exact V'|reflexivity].
  - unfold within. intros. lia.
  - intros len W. now apply (count_lt 64 8).
  - reflexivity.
  - reflexivity.
  - intros m msg W B. unfold sha1_finalize. cbn [fst snd].
    rewrite remainder_length by lia. rewrite (bit_len_ok m 64 64 (length msg)); [|lia|reflexivity|exact W].
    eexists. split; [|reflexivity]. f_equal. f_equal. unfold Spec.SHA1.SHA1, Spec.SHA1.pad, compress, len64_padding_be.
    pose proof (md_sim (fun s v => vok v /\ s = list_of_vars v) compress_block Spec.SHA1.compress 64 H0 Spec.SHA1.iv
      0x80 (be_bytes 8 (8 * blen msg)) msg) as S.
    destruct S as [_ S].
    + lia.
    + rewrite be_bytes_length. lia.
    + reflexivity.
    + apply be_bytes_ok.
    + exact B.
    + intros s v x [V ->] L _. destruct (compress_block_spec v x V L) as [-> V']. split; [exact V'|reflexivity].
    + split; [exact iv_ok|reflexivity].
    + unfold blen in S. rewrite S. unfold words_to_be, Spec.SHA1.output, list_of_vars, blen.
      now destruct (md_iterate _ _ _ _) as ((((a, b), c), d), e).
  - intros cd st [= <-] PP C. apply P_state in PP as [L Wd]. cbn [cd_len cd_ser cd_deser sha1_codec].
    exact (counted_roundtrip 4 5 8 st ltac:(lia) L Wd C).
Qed.
