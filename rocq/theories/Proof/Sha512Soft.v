(** The portable SHA-512 backend computes the FIPS 180-4 compression function. *)
From Verif Require Import Base.Words Base.Bytes Base.Codec Model.Sha2Consts Model.Sha512Soft Proof.Sha2Spec.
From Verif Require Spec.SHA2.
Import Spec.SHA2 (sha512_params, vars, vars_of_list, list_of_vars, round, p_K).

Notation P := sha512_params.
Lemma K64_ok : p_K P = K64.
Proof. vm_compute. reflexivity. Qed.

Definition ae_of (v : vars) : v2 := let '(a, b, c, d, e, f, g, h) := v in (a, e).
Definition bf_of (v : vars) : v2 := let '(a, b, c, d, e, f, g, h) := v in (b, f).
Definition cg_of (v : vars) : v2 := let '(a, b, c, d, e, f, g, h) := v in (c, g).
Definition dh_of (v : vars) : v2 := let '(a, b, c, d, e, f, g, h) := v in (d, h).
Definition Wp (W : list N) (i : nat) : v2 := (get W (2 * i + 1), get W (2 * i)).

Lemma round_eq a b c d e f g h k w : g < 2 ^ 64 ->
  round P (a, b, c, d, e, f, g, h) k w =
  let x := add64 (add64 (add64 (big_sigma1 e) (bool3ary_202 e f g)) (add64 w k)) h in
  let y := add64 (big_sigma0 a) (bool3ary_232 a b c) in
  (add64 x y, a, b, c, add64 x d, e, f, g).
Proof.
  intros Hg. unfold round. cbn [Spec.SHA2.p_w P]. cbv zeta.
  rewrite <- (ch_alt 64 e f g Hg). change (N.lxor g (N.land e (N.lxor f g))) with (bool3ary_202 e f g).
  change (Spec.SHA2.p_S1 P e) with (big_sigma1 e). change (Spec.SHA2.p_S0 P a) with (big_sigma0 a).
  change (Spec.SHA2.Maj a b c) with (bool3ary_232 a b c).
  generalize (big_sigma1 e) (bool3ary_202 e f g) (big_sigma0 a) (bool3ary_232 a b c). intros.
  tuple_eq; try reflexivity; wadd_ac.
Qed.

Lemma round_spec v k w : vars_ok P v ->
  sha512_digest_round (ae_of v) (bf_of v) (cg_of v) (dh_of v) (add64 w k) = ae_of (round P v k w) /\
  ae_of v = bf_of (round P v k w) /\ bf_of v = cg_of (round P v k w) /\ cg_of v = dh_of (round P v k w).
Proof.
  destruct v as (((((((a, b), c), d), e), f), g), h). intros (?&?&?&?&?&?&?&?).
  rewrite (round_eq a b c d e f g h) by assumption. repeat split; reflexivity.
Qed.

Lemma s0_eq x : sigma0 x = Spec.SHA2.p_s0 P x.
Proof. reflexivity. Qed.
Lemma s1_eq x : sigma1 x = Spec.SHA2.p_s1 P x.
Proof.
  unfold sigma1. cbn [Spec.SHA2.p_s1 P]. unfold Spec.SHA2.xor3, rotr64, rotl64.
  do 2 f_equal. unfold rotl, rotr. rewrite N.lor_comm. reflexivity.
Qed.

Section Block.
  Variable W : list N.
  Hypothesis HW : forall t, (16 <= t < 80)%nat -> get W t =
    wadd 64 (wadd 64 (wadd 64 (Spec.SHA2.p_s1 P (get W (t - 2))) (get W (t - 7)))
      (Spec.SHA2.p_s0 P (get W (t - 15)))) (get W (t - 16)).

  Lemma rounds4_spec v i : vars_ok P v ->
    let v' := run_rounds P W (2 * i) 4 v in
    rounds4 (ae_of v) (bf_of v) (cg_of v) (dh_of v) (add_rk (Wp W i) i) (add_rk (Wp W (i + 1)) (i + 1))
    = (ae_of v', bf_of v', cg_of v', dh_of v').
  Proof using.
    clear HW. intros Hv. unfold rounds4, Wp, add_rk, rk. rewrite <- K64_ok.
    unfold run_rounds. cbn [seq fold_left fst snd].
    replace (2 * (i + 1))%nat with (2 * i + 2)%nat by lia.
    replace (2 * i + 2 + 1)%nat with (2 * i + 3)%nat by lia. replace (2 * i + 2 + 0)%nat with (2 * i + 2)%nat by lia.
    replace (S (2 * i)) with (2 * i + 1)%nat by lia. replace (S (2 * i + 1)) with (2 * i + 2)%nat by lia.
    replace (S (2 * i + 2)) with (2 * i + 3)%nat by lia. replace (2 * i + 0)%nat with (2 * i)%nat by lia.
    set (kk := p_K P). cbv zeta.
    set (v1 := round P v (get kk (2 * i)) (get W (2 * i))).
    set (v2 := round P v1 (get kk (2 * i + 1)) (get W (2 * i + 1))).
    set (v3 := round P v2 (get kk (2 * i + 2)) (get W (2 * i + 2))).
    set (v4 := round P v3 (get kk (2 * i + 3)) (get W (2 * i + 3))).
    assert (Hv1 : vars_ok P v1) by now apply round_ok.
    assert (Hv2 : vars_ok P v2) by now apply round_ok.
    assert (Hv3 : vars_ok P v3) by now apply round_ok.
    destruct (round_spec v (get kk (2 * i)) (get W (2 * i)) Hv) as (E1 & A1 & A2 & A3).
    destruct (round_spec v1 (get kk (2 * i + 1)) (get W (2 * i + 1)) Hv1) as (E2 & B1 & B2 & B3).
    destruct (round_spec v2 (get kk (2 * i + 2)) (get W (2 * i + 2)) Hv2) as (E3 & C1 & C2 & C3).
    destruct (round_spec v3 (get kk (2 * i + 3)) (get W (2 * i + 3)) Hv3) as (E4 & D1 & D2 & D3).
    fold v1 in E1, A1, A2, A3. fold v2 in E2, B1, B2, B3. fold v3 in E3, C1, C2, C3. fold v4 in E4, D1, D2, D3.
    rewrite E1, A1, A2, A3, E2, B1, B2, B3, E3, C1, C2, C3, E4, D1, D2, D3. reflexivity.
  Qed.

  (** [schedule!] with the words it is given at positions i, i+1, i+4, i+5, i+7. *)
  Lemma schedule_spec i : (i + 8 < 40)%nat ->
    schedule (Wp W i) (Wp W (i + 1)) (Wp W (i + 4)) (Wp W (i + 5)) (Wp W (i + 7)) = Wp W (i + 8).
  Proof using HW.
    intros Hi. unfold schedule, sha512load, sha512_schedule_x2, Wp. cbn [fst snd].
    rewrite (HW (2 * (i + 8) + 1)), (HW (2 * (i + 8))) by lia. unfold add64.
    tuple_eq; repeat match goal with
      | |- wadd 64 _ _ = wadd 64 _ _ => apply (f_equal2 (wadd 64))
      | |- sigma0 ?x = _ => rewrite (s0_eq x); apply f_equal
      | |- sigma1 ?x = _ => rewrite (s1_eq x); apply f_equal
      | |- get W _ = get W _ => apply (f_equal (get W)); lia
      end.
  Qed.

  Lemma schedule2_spec v i : vars_ok P v -> (i + 9 < 40)%nat ->
    let v' := run_rounds P W (2 * (i + 8)) 4 v in
    schedule2_rounds4 (ae_of v) (bf_of v) (cg_of v) (dh_of v)
      (Wp W i) (Wp W (i + 1)) (Wp W (i + 4)) (Wp W (i + 5)) (Wp W (i + 7)) (Wp W (i + 2)) (Wp W (i + 6)) (i + 8)
    = (ae_of v', bf_of v', cg_of v', dh_of v', Wp W (i + 8), Wp W (i + 9)).
  Proof using HW.
    intros Hv Hi. unfold schedule2_rounds4. rewrite schedule_spec by lia. cbv zeta.
    pose proof (schedule_spec (i + 1) ltac:(lia)) as E.
    replace (i + 1 + 1)%nat with (i + 2)%nat in E by lia. replace (i + 1 + 4)%nat with (i + 5)%nat in E by lia.
    replace (i + 1 + 5)%nat with (i + 6)%nat in E by lia. replace (i + 1 + 7)%nat with (i + 8)%nat in E by lia.
    replace (i + 1 + 8)%nat with (i + 9)%nat in E by lia. rewrite E.
    replace (i + 9)%nat with (i + 8 + 1)%nat by lia.
    now rewrite rounds4_spec.
  Qed.
End Block.

Lemma block_spec st M : length st = 8%nat -> words_ok 64 st -> length M = 16%nat ->
  sha512_digest_block_u64 st M =
  let W := Spec.SHA2.schedule P M in
  let v := vars_of_list st in
  let '(a, b, c, d, e, f, g, h) := run_rounds P W 0 80 v in
  [add64 (get st 0) a; add64 (get st 1) b; add64 (get st 2) c; add64 (get st 3) d;
   add64 (get st 4) e; add64 (get st 5) f; add64 (get st 6) g; add64 (get st 7) h].
Proof.
  intros Ls Ws LM. cbv zeta. unfold sha512_digest_block_u64.
  set (W := Spec.SHA2.schedule P M). set (v := vars_of_list st).
  assert (Hv : vars_ok P v) by now apply vars_of_list_ok.
  change (get st 0, get st 4) with (ae_of v). change (get st 1, get st 5) with (bf_of v).
  change (get st 2, get st 6) with (cg_of v). change (get st 3, get st 7) with (dh_of v).
  assert (E : forall i, (i < 8)%nat -> (get M (2 * i + 1), get M (2 * i)) = Wp W i).
  { intros i Hi. unfold Wp. unfold W. now rewrite !(sched_old P M LM) by lia. }
  rewrite (E 0%nat ltac:(lia) : (get M 1, get M 0) = _).
  rewrite (E 1%nat ltac:(lia) : (get M 3, get M 2) = _).
  rewrite (E 2%nat ltac:(lia) : (get M 5, get M 4) = _).
  rewrite (E 3%nat ltac:(lia) : (get M 7, get M 6) = _).
  rewrite (E 4%nat ltac:(lia) : (get M 9, get M 8) = _).
  rewrite (E 5%nat ltac:(lia) : (get M 11, get M 10) = _).
  rewrite (E 6%nat ltac:(lia) : (get M 13, get M 12) = _).
  rewrite (E 7%nat ltac:(lia) : (get M 15, get M 14) = _).
  clear E. cbv zeta.
  pose proof (sched_new P M LM : forall t, (16 <= t < 80)%nat -> get W t =
    wadd 64 (wadd 64 (wadd 64 (Spec.SHA2.p_s1 P (get W (t - 2))) (get W (t - 7)))
      (Spec.SHA2.p_s0 P (get W (t - 15)))) (get W (t - 16))) as HW.
  clearbody W.
  assert (Hok : forall n, vars_ok P (run_rounds P W 0 n v)) by (intros; now apply run_rounds_ok).
  change v with (run_rounds P W 0 0 v) at 1 2 3 4.
  assert (R4 : forall i n, n = (2 * i)%nat ->
    let v0 := run_rounds P W 0 n v in let v' := run_rounds P W 0 (n + 4) v in
    rounds4 (ae_of v0) (bf_of v0) (cg_of v0) (dh_of v0) (add_rk (Wp W i) i) (add_rk (Wp W (i + 1)) (i + 1))
    = (ae_of v', bf_of v', cg_of v', dh_of v')).
  { intros i n ->. cbv zeta. rewrite rounds4_spec by apply Hok. now rewrite !(run_rounds_add P W 0 _ 4 v). }
  assert (S4 : forall i j n, j = (i + 8)%nat -> n = (2 * (i + 8))%nat -> (i + 9 < 40)%nat ->
    let v0 := run_rounds P W 0 n v in let v' := run_rounds P W 0 (n + 4) v in
    schedule2_rounds4 (ae_of v0) (bf_of v0) (cg_of v0) (dh_of v0)
      (Wp W i) (Wp W (i + 1)) (Wp W (i + 4)) (Wp W (i + 5)) (Wp W (i + 7)) (Wp W (i + 2)) (Wp W (i + 6)) j
    = (ae_of v', bf_of v', cg_of v', dh_of v', Wp W (i + 8), Wp W (i + 9))).
  { intros i j n -> -> Hi. cbv zeta. rewrite schedule2_spec; [|exact HW|apply Hok|exact Hi].
    now rewrite !(run_rounds_add P W 0 _ 4 v). }
  cbv zeta in R4, S4.
  do 4 (match goal with |- context [rounds4 (ae_of (run_rounds P W 0 ?n v)) _ _ _ (add_rk (Wp W ?i) ?i) _] =>
    let H := fresh in pose proof (R4 i n eq_refl) as H; cbn [Nat.add] in H; rewrite H; clear H;
    cbv beta iota end).
  do 16 (match goal with |- context [schedule2_rounds4 (ae_of (run_rounds P W 0 ?n v)) _ _ _ (Wp W ?i) _ _ _ _ _ _ ?j] =>
    let H := fresh in pose proof (S4 i j n eq_refl eq_refl ltac:(lia)) as H; cbn [Nat.add] in H; rewrite H; clear H;
    cbv beta iota end).
  destruct (run_rounds P W 0 80 v) as (((((((a, b), c), d), e), f), g), h). reflexivity.
Qed.

Lemma compress_block_spec st block : length st = 8%nat -> words_ok 64 st -> length block = 128%nat ->
  compress_block st block = list_of_vars (Spec.SHA2.compress P (vars_of_list st) block).
Proof.
  intros Ls Ws Lb. unfold compress_block, to_u64s, words_of_be.
  rewrite block_spec; [|exact Ls|exact Ws|].
  2:{ rewrite map_length, chunks_length, Lb by lia. reflexivity. }
  unfold Spec.SHA2.compress. replace (N.to_nat (Spec.SHA2.p_w P / 8)) with 8%nat by reflexivity. cbv zeta.
  rewrite rounds_run. replace (Spec.SHA2.p_rounds P) with 80%nat by reflexivity.
  set (v := vars_of_list st).
  destruct (run_rounds P _ 0 80 v) as (((((((a, b), c), d), e), f), g), h).
  unfold v, vars_of_list, list_of_vars. replace (Spec.SHA2.p_w P) with 64 by reflexivity.
  unfold add64. now rewrite !(wadd_comm 64 _ (get st _)).
Qed.
