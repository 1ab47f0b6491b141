(** The portable SHA-256 backend computes the FIPS 180-4 compression function. *)
From Verif Require Import Base.Words Base.Bytes Base.Codec Model.Sha2Consts Model.Sha256Soft Proof.Sha2Spec.
From Verif Require Spec.SHA2.
Import Spec.SHA2 (sha256_params, vars, vars_of_list, list_of_vars, round, p_K).

Notation P := sha256_params.
Lemma K32_ok : p_K P = K32.
Proof. vm_compute. reflexivity. Qed.

Definition abef_of (v : vars) : v4 := let '(a, b, c, d, e, f, g, h) := v in (a, b, e, f).
Definition cdgh_of (v : vars) : v4 := let '(a, b, c, d, e, f, g, h) := v in (c, d, g, h).
Definition Wv (W : list N) (i : nat) : v4 :=
  (get W (4 * i + 3), get W (4 * i + 2), get W (4 * i + 1), get W (4 * i)).

(** One round in the code's arrangement. *)
Lemma round_eq a b c d e f g h k w : g < 2 ^ 32 ->
  round P (a, b, c, d, e, f, g, h) k w =
  let x := add32 (add32 (add32 (big_sigma1 e) (bool3ary_202 e f g)) (add32 w k)) h in
  let y := add32 (big_sigma0 a) (bool3ary_232 a b c) in
  (add32 x y, a, b, c, add32 x d, e, f, g).
Proof.
  intros Hg. unfold round. cbn [Spec.SHA2.p_w P]. cbv zeta.
  rewrite <- (ch_alt 32 e f g Hg). change (N.lxor g (N.land e (N.lxor f g))) with (bool3ary_202 e f g).
  change (Spec.SHA2.p_S1 P e) with (big_sigma1 e). change (Spec.SHA2.p_S0 P a) with (big_sigma0 a).
  change (Spec.SHA2.Maj a b c) with (bool3ary_232 a b c).
  generalize (big_sigma1 e) (bool3ary_202 e f g) (big_sigma0 a) (bool3ary_232 a b c). intros.
  tuple_eq; try reflexivity; wadd_ac.
Qed.

Lemma round_x2_spec v k0 w0 k1 w1 x y : vars_ok P v ->
  let v2 := round P (round P v k0 w0) k1 w1 in
  sha256_digest_round_x2 (cdgh_of v) (abef_of v) (x, y, add32 w1 k1, add32 w0 k0) = abef_of v2 /\
  cdgh_of v2 = abef_of v.
Proof.
  destruct v as (((((((a, b), c), d), e), f), g), h). intros (?&?&?&?&?&?&?&?). cbv zeta.
  rewrite (round_eq a b c d e f g h) by assumption. cbv zeta.
  rewrite round_eq by assumption. split; reflexivity.
Qed.

Lemma s0_eq x :
  N.lxor (N.lxor (N.lor (N.shiftr x 7) (wshl 32 x 25)) (N.lor (N.shiftr x 18) (wshl 32 x 14))) (N.shiftr x 3)
  = Spec.SHA2.p_s0 P x.
Proof. reflexivity. Qed.

(** The schedule step on sixteen words. *)
Lemma schedule_pure w0 w1 w2 w3 w4 w5 w6 w7 w8 w9 w10 w11 w12 w13 w14 w15 w16 w17 w18 w19 :
  let s0 := Spec.SHA2.p_s0 P in let s1 := Spec.SHA2.p_s1 P in
  let next a b c d := wadd 32 (wadd 32 (wadd 32 (s1 a) b) (s0 c)) d in
  w16 = next w14 w9 w1 w0 -> w17 = next w15 w10 w2 w1 ->
  w18 = next w16 w11 w3 w2 -> w19 = next w17 w12 w4 w3 ->
  schedule (w3, w2, w1, w0) (w7, w6, w5, w4) (w11, w10, w9, w8) (w15, w14, w13, w12) = (w19, w18, w17, w16).
Proof.
  cbv beta zeta. intros E16 E17 E18 E19.
  assert (A : forall a b c d, wadd 32 (wadd 32 (wadd 32 a b) c) d = add32 (add32 (add32 d c) b) a).
  { intros. wadd_ac. }
  rewrite A in E16, E17, E18, E19. clear A.
  cbv beta iota zeta delta [schedule sha256msg1 sha256load sha256msg2 sigma0x4 shr shl or xor add].
  rewrite !s0_eq. change sigma1 with (Spec.SHA2.p_s1 P).
  now rewrite <- E16, <- E17, <- E18, <- E19.
Qed.

Section Block.
  Variable W : list N.
  Hypothesis HW : forall t, (16 <= t < 64)%nat -> get W t =
    wadd 32 (wadd 32 (wadd 32 (Spec.SHA2.p_s1 P (get W (t - 2))) (get W (t - 7)))
      (Spec.SHA2.p_s0 P (get W (t - 15)))) (get W (t - 16)).

  Lemma rounds4_spec v i : vars_ok P v ->
    rounds4 (abef_of v) (cdgh_of v) (Wv W i) i
    = (abef_of (run_rounds P W (4 * i) 4 v), cdgh_of (run_rounds P W (4 * i) 4 v)).
  Proof using. clear HW.
    intros Hv. unfold rounds4, Wv, add_round_const, rk. rewrite <- K32_ok.
    unfold run_rounds. cbn [seq fold_left].
    replace (S (4 * i)) with (4 * i + 1)%nat by lia. replace (S (4 * i + 1)) with (4 * i + 2)%nat by lia.
    replace (S (4 * i + 2)) with (4 * i + 3)%nat by lia. replace (4 * i + 0)%nat with (4 * i)%nat by lia.
    set (kk := p_K P). cbn [sha256swap].
    set (v1 := round P (round P v (get kk (4 * i)) (get W (4 * i))) (get kk (4 * i + 1)) (get W (4 * i + 1))).
    assert (Hv1 : vars_ok P v1) by (do 2 apply round_ok; exact Hv).
    pose proof (round_x2_spec v (get kk (4 * i)) (get W (4 * i)) (get kk (4 * i + 1)) (get W (4 * i + 1))
      (add32 (get W (4 * i + 3)) (get kk (4 * i + 3))) (add32 (get W (4 * i + 2)) (get kk (4 * i + 2))) Hv) as [E1 E1'].
    fold v1 in E1, E1'. cbv zeta. rewrite E1.
    pose proof (round_x2_spec v1 (get kk (4 * i + 2)) (get W (4 * i + 2)) (get kk (4 * i + 3)) (get W (4 * i + 3))
      (add32 (get W (4 * i + 1)) (get kk (4 * i + 1))) (add32 (get W (4 * i)) (get kk (4 * i))) Hv1) as [E2 E2'].
    rewrite E1' in E2. rewrite E2, E2'. reflexivity.
  Qed.

  Lemma schedule_spec i : (i + 4 < 16)%nat ->
    schedule (Wv W i) (Wv W (i + 1)) (Wv W (i + 2)) (Wv W (i + 3)) = Wv W (i + 4).
  Proof using HW.
    intros Hi. unfold Wv.
    apply schedule_pure; rewrite HW at 1 by lia; repeat (f_equal; try lia).
  Qed.

  Lemma schedule_rounds4_spec v i : vars_ok P v -> (i + 4 < 16)%nat ->
    schedule_rounds4 (abef_of v) (cdgh_of v) (Wv W i) (Wv W (i + 1)) (Wv W (i + 2)) (Wv W (i + 3)) (i + 4)
    = (abef_of (run_rounds P W (4 * (i + 4)) 4 v), cdgh_of (run_rounds P W (4 * (i + 4)) 4 v), Wv W (i + 4)).
  Proof using HW.
    intros Hv Hi. unfold schedule_rounds4. rewrite schedule_spec by exact Hi. cbv zeta.
    now rewrite rounds4_spec.
  Qed.
End Block.

Lemma block_spec st M : length st = 8%nat -> words_ok 32 st -> length M = 16%nat ->
  sha256_digest_block_u32 st M =
  let W := Spec.SHA2.schedule P M in
  let v := vars_of_list st in
  let '(a, b, c, d, e, f, g, h) := run_rounds P W 0 64 v in
  [add32 (get st 0) a; add32 (get st 1) b; add32 (get st 2) c; add32 (get st 3) d;
   add32 (get st 4) e; add32 (get st 5) f; add32 (get st 6) g; add32 (get st 7) h].
Proof.
  intros Ls Ws LM. cbv zeta. unfold sha256_digest_block_u32.
  set (W := Spec.SHA2.schedule P M). set (v := vars_of_list st).
  assert (Hv : vars_ok P v) by now apply vars_of_list_ok.
  change (get st 0, get st 1, get st 4, get st 5) with (abef_of v).
  change (get st 2, get st 3, get st 6, get st 7) with (cdgh_of v).
  assert (E : forall i, (i < 4)%nat -> (get M (4 * i + 3), get M (4 * i + 2), get M (4 * i + 1), get M (4 * i)) = Wv W i).
  { intros i Hi. unfold Wv. unfold W. now rewrite !(sched_old P M LM) by lia. }
  rewrite (E 0%nat ltac:(lia) : (get M 3, get M 2, get M 1, get M 0) = _).
  rewrite (E 1%nat ltac:(lia) : (get M 7, get M 6, get M 5, get M 4) = _).
  rewrite (E 2%nat ltac:(lia) : (get M 11, get M 10, get M 9, get M 8) = _).
  rewrite (E 3%nat ltac:(lia) : (get M 15, get M 14, get M 13, get M 12) = _).
  clear E. cbv zeta.
  pose proof (sched_new P M LM : forall t, (16 <= t < 64)%nat -> get W t =
    wadd 32 (wadd 32 (wadd 32 (Spec.SHA2.p_s1 P (get W (t - 2))) (get W (t - 7)))
      (Spec.SHA2.p_s0 P (get W (t - 15)))) (get W (t - 16))) as HW.
  clearbody W.
  assert (Hok : forall n, vars_ok P (run_rounds P W 0 n v)) by (intros; now apply run_rounds_ok).
  change v with (run_rounds P W 0 0 v) at 1 2.
  assert (R4 : forall i n, n = (4 * i)%nat ->
    rounds4 (abef_of (run_rounds P W 0 n v)) (cdgh_of (run_rounds P W 0 n v)) (Wv W i) i
    = (abef_of (run_rounds P W 0 (n + 4) v), cdgh_of (run_rounds P W 0 (n + 4) v))).
  { intros i n ->. rewrite rounds4_spec by apply Hok. now rewrite !(run_rounds_add P W 0 _ 4 v). }
  assert (S4 : forall i j n, j = (i + 4)%nat -> n = (4 * (i + 4))%nat -> (i + 4 < 16)%nat ->
    schedule_rounds4 (abef_of (run_rounds P W 0 n v)) (cdgh_of (run_rounds P W 0 n v))
      (Wv W i) (Wv W (i + 1)) (Wv W (i + 2)) (Wv W (i + 3)) j
    = (abef_of (run_rounds P W 0 (n + 4) v), cdgh_of (run_rounds P W 0 (n + 4) v), Wv W j)).
  { intros i j n -> -> Hi. rewrite schedule_rounds4_spec; [|exact HW|apply Hok|exact Hi].
    now rewrite !(run_rounds_add P W 0 _ 4 v). }
  do 4 (rewrite R4 by reflexivity; cbn [Nat.add]; cbv beta iota).
  do 12 (match goal with |- context [schedule_rounds4 (abef_of (run_rounds P W 0 ?n v)) _ (Wv W ?i) _ _ _ ?j] =>
    let H := fresh in pose proof (S4 i j n eq_refl eq_refl ltac:(lia)) as H; cbn [Nat.add] in H; rewrite H; clear H;
    cbv beta iota end).
  destruct (run_rounds P W 0 64 v) as (((((((a, b), c), d), e), f), g), h). reflexivity.
Qed.

Lemma compress_block_spec st block : length st = 8%nat -> words_ok 32 st -> length block = 64%nat ->
  compress_block st block = list_of_vars (Spec.SHA2.compress P (vars_of_list st) block).
Proof.
  intros Ls Ws Lb. unfold compress_block, to_u32s, words_of_be.
  rewrite block_spec; [|exact Ls|exact Ws|].
  2:{ rewrite map_length, chunks_length, Lb by lia. reflexivity. }
  unfold Spec.SHA2.compress. replace (N.to_nat (Spec.SHA2.p_w P / 8)) with 4%nat by reflexivity. cbv zeta.
  rewrite rounds_run. replace (Spec.SHA2.p_rounds P) with 64%nat by reflexivity.
  set (v := vars_of_list st).
  destruct (run_rounds P _ 0 64 v) as (((((((a, b), c), d), e), f), g), h).
  unfold v, vars_of_list, list_of_vars. replace (Spec.SHA2.p_w P) with 32 by reflexivity.
  unfold add32. now rewrite !(wadd_comm 32 _ (get st _)).
Qed.
