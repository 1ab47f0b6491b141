(** The AArch64 and WebAssembly SHA-256 back ends compute the portable
    compression function. *)
From Verif Require Import Base.Words Base.Bytes Base.Codec Model.Sha2Consts Model.Simd Model.Sha2Simd
  Proof.Sha2Spec Proof.Loads Proof.Sha2Loong Proof.SimdFacts Proof.Sha256Simd.
From Verif Require Spec.SHA2 Model.Sha256Soft Proof.Sha256Soft.
Import Spec.SHA2 (sha256_params, vars, vars_of_list, list_of_vars, round, p_K, p_w, p_s0, p_s1, p_S0, p_S1).

(** ** AArch64 *)
Definition vabcd (v : vars) : v4 := let '(a, b, c, d, e, f, g, h) := v in (a, b, c, d).
Definition vefgh (v : vars) : v4 := let '(a, b, c, d, e, f, g, h) := v in (e, f, g, h).
Lemma hash_round v k w : vars_ok P v ->
  sha256hash_step (vabcd v, vefgh v) (add32 w k) = (vabcd (round P v k w), vefgh (round P v k w)).
Proof.
  destruct v as (((((((a, b), c), d), e), f), g), h). intros (_&_&_&_&_&_&Hg&_).
  unfold round, vabcd, vefgh, sha256hash_step.
  replace (SHAchoose e f g) with (Spec.SHA2.Ch (p_w P) e f g).
  2:{ rewrite <- ch_alt by exact Hg. unfold SHAchoose. now rewrite N.lxor_comm, N.land_comm. }
  replace (SHAmajority a b c) with (Spec.SHA2.Maj a b c).
  2:{ rewrite <- maj_alt. unfold SHAmajority. apply N.bits_inj. intros i.
      rewrite !N.lor_spec, !N.land_spec, !N.lor_spec.
      destruct (N.testbit a i), (N.testbit b i), (N.testbit c i); reflexivity. }
  change i_S1 with (p_S1 P). change i_S0 with (p_S0 P). change (wadd (p_w P)) with add32.
  generalize (p_S1 P e) (Spec.SHA2.Ch (p_w P) e f g) (p_S0 P a) (Spec.SHA2.Maj a b c). intros.
  tuple_eq; try reflexivity; wadd_ac.
Qed.
Lemma arm_schedule_pure w0 w1 w2 w3 w4 w5 w6 w7 w8 w9 w10 w11 w12 w13 w14 w15 w16 w17 w18 w19 :
  let s0 := p_s0 P in let s1 := p_s1 P in
  let next a b c d := wadd 32 (wadd 32 (wadd 32 (s1 a) b) (s0 c)) d in
  ok4 (w0, w1, w2, w3) -> ok4 (w4, w5, w6, w7) -> ok4 (w8, w9, w10, w11) -> ok4 (w12, w13, w14, w15) ->
  w16 = next w14 w9 w1 w0 -> w17 = next w15 w10 w2 w1 ->
  w18 = next w16 w11 w3 w2 -> w19 = next w17 w12 w4 w3 ->
  vsha256su1 (vsha256su0 (w0, w1, w2, w3) (w4, w5, w6, w7)) (w8, w9, w10, w11) (w12, w13, w14, w15) = (w16, w17, w18, w19).
Proof.
  cbv beta zeta. intros _ _ _ _ E16 E17 E18 E19.
  assert (A : forall a b c d, wadd 32 (wadd 32 (wadd 32 a b) c) d = add32 (add32 a (add32 c d)) b).
  { intros. wadd_ac. }
  rewrite A in E16, E17, E18, E19. clear A.
  cbv beta iota zeta delta [vsha256su0 vsha256su1].
  change i_s0 with (p_s0 P). change i_s1 with (p_s1 P).
  now rewrite <- E16, <- E17, <- E18, <- E19.
Qed.
Lemma arm_rounds4_spec W v i : vars_ok P v -> (i < 16)%nat ->
  arm_rounds4 (vabcd v) (vefgh v) (Wl4 W i) (4 * i)
  = (vabcd (run_rounds P W (4 * i) 4 v), vefgh (run_rounds P W (4 * i) 4 v)).
Proof.
  intros Hv Hi. unfold arm_rounds4. cbv zeta. rewrite ld_k32_eq by exact Hi. rewrite run4. unfold Wl4, add4, zip4.
  generalize (4 * i + 1)%nat (4 * i + 2)%nat (4 * i + 3)%nat (4 * i)%nat. intros i1 i2 i3 i0.
  unfold vsha256h, vsha256h2, sha256hash, list_of_v4. cbn [fold_left].
  rewrite !hash_round by (repeat apply round_ok; exact Hv). reflexivity.
Qed.
Lemma arm_load block i : length block = 64%nat -> (i < 4)%nat -> arm_load32 i block = be4 (mem16 i block).
Proof. intros L Hi. apply vrev32_be, mem16_length. lia. Qed.
Lemma arm256_block_spec v block : vars_ok P v -> length block = 64%nat -> bytes_ok block ->
  arm256_block (vabcd v, vefgh v) block = (vabcd (Spec.SHA2.compress P v block), vefgh (Spec.SHA2.compress P v block)).
Proof.
  intros Hv L O. rewrite compress_run. destruct (sched256 block L O) as (HW & WW & HB).
  set (W := sched P block) in *. unfold arm256_block. rewrite !arm_load, !HB by (assumption || lia). clearbody W. clear HB L O.
  cbv zeta. change (Spec.SHA2.p_rounds P) with 64%nat.
  assert (Hok : forall n, vars_ok P (run_rounds P W 0 n v)) by (intros; now apply run_rounds_ok).
  assert (R4 : forall i n m, n = (4 * i)%nat -> (i < 16)%nat -> m = (n + 4)%nat ->
    arm_rounds4 (vabcd (run_rounds P W 0 n v)) (vefgh (run_rounds P W 0 n v)) (Wl4 W i) n
    = (vabcd (run_rounds P W 0 m v), vefgh (run_rounds P W 0 m v))).
  { intros i n m -> Hi ->. rewrite arm_rounds4_spec by (exact Hi || apply Hok). now rewrite !(run_rounds_add P W 0 _ 4 v). }
  pose proof (next4 W HW WW (fun a b c d => vsha256su1 (vsha256su0 a b) c d) arm_schedule_pure) as S4.
  assert (Loop : forall j, (j < 3)%nat ->
    arm_loop (vabcd (run_rounds P W 0 (16 * j + 16) v), vefgh (run_rounds P W 0 (16 * j + 16) v),
      Wl4 W (4 * j), Wl4 W (4 * j + 1), Wl4 W (4 * j + 2), Wl4 W (4 * j + 3)) (16 * j + 16)
    = (vabcd (run_rounds P W 0 (16 * j + 32) v), vefgh (run_rounds P W 0 (16 * j + 32) v),
      Wl4 W (4 * j + 4), Wl4 W (4 * j + 5), Wl4 W (4 * j + 6), Wl4 W (4 * j + 7))).
  { intros j Hj. unfold arm_loop. rewrite (S4 (4 * j)%nat) by lia. cbv zeta.
    rewrite (R4 (4 * j + 4)%nat _ (16 * j + 16 + 4)%nat) by lia.
    pose proof (S4 (4 * j + 1)%nat ltac:(lia)) as S5.
    replace (4 * j + 1 + 1)%nat with (4 * j + 2)%nat in S5 by lia. replace (4 * j + 1 + 2)%nat with (4 * j + 3)%nat in S5 by lia.
    replace (4 * j + 1 + 3)%nat with (4 * j + 4)%nat in S5 by lia. replace (4 * j + 1 + 4)%nat with (4 * j + 5)%nat in S5 by lia.
    rewrite S5. clear S5. rewrite (R4 (4 * j + 5)%nat _ (16 * j + 16 + 8)%nat) by lia.
    pose proof (S4 (4 * j + 2)%nat ltac:(lia)) as S5.
    replace (4 * j + 2 + 1)%nat with (4 * j + 3)%nat in S5 by lia. replace (4 * j + 2 + 2)%nat with (4 * j + 4)%nat in S5 by lia.
    replace (4 * j + 2 + 3)%nat with (4 * j + 5)%nat in S5 by lia. replace (4 * j + 2 + 4)%nat with (4 * j + 6)%nat in S5 by lia.
    rewrite S5. clear S5. rewrite (R4 (4 * j + 6)%nat _ (16 * j + 16 + 12)%nat) by lia.
    pose proof (S4 (4 * j + 3)%nat ltac:(lia)) as S5.
    replace (4 * j + 3 + 1)%nat with (4 * j + 4)%nat in S5 by lia. replace (4 * j + 3 + 2)%nat with (4 * j + 5)%nat in S5 by lia.
    replace (4 * j + 3 + 3)%nat with (4 * j + 6)%nat in S5 by lia. replace (4 * j + 3 + 4)%nat with (4 * j + 7)%nat in S5 by lia.
    rewrite S5. clear S5. rewrite (R4 (4 * j + 7)%nat _ (16 * j + 32)%nat) by lia. reflexivity. }
  rewrite (R4 0%nat 0%nat 4%nat eq_refl ltac:(lia) eq_refl : arm_rounds4 (vabcd v) (vefgh v) _ _ = _). cbv beta iota.
  rewrite (R4 1%nat 4%nat 8%nat eq_refl ltac:(lia) eq_refl). cbv beta iota.
  rewrite (R4 2%nat 8%nat 12%nat eq_refl ltac:(lia) eq_refl). cbv beta iota.
  rewrite (R4 3%nat 12%nat 16%nat eq_refl ltac:(lia) eq_refl). cbv beta iota.
  cbn [fold_left].
  pose proof (Loop 0%nat ltac:(lia)) as L0. cbn [Nat.add Nat.mul] in L0. rewrite L0. clear L0.
  pose proof (Loop 1%nat ltac:(lia)) as L0. cbn [Nat.add Nat.mul] in L0. rewrite L0. clear L0.
  pose proof (Loop 2%nat ltac:(lia)) as L0. cbn [Nat.add Nat.mul] in L0. rewrite L0. clear L0.
  destruct (run_rounds P W 0 64 v) as (((((((a, b), c), d), e), f), g), h).
  destruct v as (((((((a0, b0), c0), d0), e0), f0), g0), h0). reflexivity.
Qed.
Lemma arm256 st blocks : length st = 8%nat -> words_ok 32 st ->
  Forall (fun b => length b = 64%nat /\ bytes_ok b) blocks ->
  sha256_arm st blocks = Model.Sha256Soft.compress st blocks.
Proof.
  intros Ls Ws Hb. unfold Model.Sha256Soft.compress.
  rewrite (soft_fold P 64 _ blocks st Proof.Sha256Soft.compress_block_spec Hb Ls Ws).
  pose proof (vars_of_list_ok P st Ls Ws) as Hv. rewrite <- (list_of_vars_of_list st Ls) at 1.
  set (v := vars_of_list st) in *. clearbody v. clear st Ls Ws.
  pose proof (enc_fold P 64 (fun v => (vabcd v, vefgh v)) arm256_block blocks v Hv arm256_block_spec Hb) as E. cbv beta in E.
  unfold sha256_arm. set (F := fold_left _ blocks) in *.
  replace (v4_of_list (firstn 4 (list_of_vars v)), v4_of_list (skipn 4 (list_of_vars v))) with (vabcd v, vefgh v)
    by now destruct v as (((((((a, b), c), d), e), f), g), h).
  rewrite E. now destruct (fold_left (Spec.SHA2.compress P) blocks v) as (((((((a', b'), c'), d'), e'), f'), g'), h').
Qed.

(** ** WebAssembly *)
Lemma sha_round_spec Q S0 S1 v k w : vars_ok Q v -> S0 = p_S0 Q -> S1 = p_S1 Q ->
  sha_round (p_w Q) S0 S1 (list_of_vars v) (wadd (p_w Q) w k) = list_of_vars (round Q v k w).
Proof.
  destruct v as (((((((a, b), c), d), e), f), g), h). intros (_&_&_&_&_&_&Hg&_) -> ->.
  unfold round, list_of_vars, sha_round. cbn [get nth upd rotate_state]. cbv zeta.
  unfold rotate_state, get, upd. cbn [nth].
  replace (bool3ary_202 e f g) with (Spec.SHA2.Ch (p_w Q) e f g) by now rewrite <- ch_alt.
  change (bool3ary_232 a b c) with (Spec.SHA2.Maj a b c).
  generalize (p_S1 Q e) (Spec.SHA2.Ch (p_w Q) e f g) (p_S0 Q a) (Spec.SHA2.Maj a b c). intros.
  f_equal; [wadd_ac|]. do 3 f_equal. f_equal. wadd_ac.
Qed.
Lemma lo_rotr x n : x < 2 ^ 32 -> n <= 32 -> N.shiftr (x + 2 ^ 32 * x) n mod 2 ^ 32 = rotr 32 x n.
Proof.
  intros Hx Hn. rewrite <- lor_disjoint by exact Hx. apply N.bits_inj. intros i.
  rewrite testbit_mod_pow2, testbit_shiftr, N.lor_spec. unfold rotr. rewrite N.lor_spec, testbit_shiftr, testbit_wshl.
  rewrite (N.mul_comm (2 ^ 32)). destruct (N.ltb_spec i 32) as [L|L]; cbn [andb].
  - f_equal. destruct (N.leb_spec (32 - n) i) as [G|G].
    + rewrite N.mul_pow2_bits_high by lia. cbn [andb]. f_equal. lia.
    + rewrite N.mul_pow2_bits_low by lia. reflexivity.
  - rewrite (proj1 (lt_pow2_bits x 32) Hx (i + n)) by lia. reflexivity.
Qed.
Lemma u64_again x n m : 
  let p := N.shiftr (x + 2 ^ 32 * x) n in N.shiftr (p mod 2 ^ 32 + 2 ^ 32 * (p / 2 ^ 32)) m = N.shiftr (x + 2 ^ 32 * x) (n + m).
Proof.
  cbv zeta. rewrite (N.add_comm (_ mod _)). rewrite <- N.div_mod by discriminate. now rewrite N.shiftr_shiftr.
Qed.
Lemma wasm_s1 x : x < 2 ^ 32 ->
  N.lxor (N.lxor (N.shiftr x 10) (N.shiftr (x + 2 ^ 32 * x) 17 mod 2 ^ 32)) (N.shiftr (x + 2 ^ 32 * x) (17 + 2) mod 2 ^ 32) = p_s1 P x.
Proof.
  intros Hx. rewrite !lo_rotr by (exact Hx || lia). change (17 + 2) with 19. change (p_s1 P x) with (i_s1 x). unfold i_s1.
  rewrite (N.lxor_comm (N.shiftr x 10)), N.lxor_assoc, (N.lxor_comm (N.shiftr x 10)). symmetry. apply N.lxor_assoc.
Qed.
Lemma wasm_s0 x : x < 2 ^ 32 ->
  N.lxor (N.lxor (N.lxor (N.lxor (N.shiftr x 3) (N.shiftr x 7)) (wshl 32 x (32 - 18))) (N.shiftr (N.shiftr x 7) (18 - 7)))
    (wshl 32 (wshl 32 x (32 - 18)) (18 - 7)) = p_s0 P x.
Proof.
  intros Hx. rewrite wshl_wshl, N.shiftr_shiftr. change (p_s0 P x) with (i_s0 x). unfold i_s0, rotr32.
  rewrite !rotr_xor by (exact Hx || lia).
  change (32 - 18 + (18 - 7)) with 25. change (7 + (18 - 7)) with 18. change (32 - 18) with 14. change (32 - 7) with 25.
  generalize (N.shiftr x 3) (N.shiftr x 7) (wshl 32 x 14) (N.shiftr x 18) (wshl 32 x 25). intros a b c d e.
  apply N.bits_inj. intros i. rewrite !N.lxor_spec.
  destruct (N.testbit a i), (N.testbit b i), (N.testbit c i), (N.testbit d i), (N.testbit e i); reflexivity.
Qed.
Definition update0 (x0 x1 x2 x3 : v4) : v4 := nth4 (fst (sha256_update_x [x0; x1; x2; x3] z4)) 3.
Lemma update_x_eq x0 x1 x2 x3 k : sha256_update_x [x0; x1; x2; x3] k
  = ([x1; x2; x3; update0 x0 x1 x2 x3], add4 (update0 x0 x1 x2 x3) k).
Proof. reflexivity. Qed.
Lemma wasm_schedule_pure w0 w1 w2 w3 w4 w5 w6 w7 w8 w9 w10 w11 w12 w13 w14 w15 w16 w17 w18 w19 :
  let s0 := p_s0 P in let s1 := p_s1 P in
  let next a b c d := wadd 32 (wadd 32 (wadd 32 (s1 a) b) (s0 c)) d in
  ok4 (w0, w1, w2, w3) -> ok4 (w4, w5, w6, w7) -> ok4 (w8, w9, w10, w11) -> ok4 (w12, w13, w14, w15) ->
  w16 = next w14 w9 w1 w0 -> w17 = next w15 w10 w2 w1 ->
  w18 = next w16 w11 w3 w2 -> w19 = next w17 w12 w4 w3 ->
  update0 (w0, w1, w2, w3) (w4, w5, w6, w7) (w8, w9, w10, w11) (w12, w13, w14, w15) = (w16, w17, w18, w19).
Proof.
  cbv beta zeta. intros O0 O1 O2 O3 E16 E17 E18 E19.
  assert (A : forall a b c d, wadd 32 (wadd 32 (wadd 32 a b) c) d = add32 (add32 (add32 d b) c) a).
  { intros. wadd_ac. }
  rewrite A in E16, E17, E18, E19. clear A.
  destruct O0 as (?&?&?&?), O1 as (?&?&?&?), O2 as (?&?&?&?), O3 as (?&?&?&?).
  unfold update0, sha256_update_x, nth4. cbn [nth].
  cbv beta iota zeta delta [fst nth u32x4_shuffle list_of_v4 app get shr4 shl4 map4 add4 xor4 zip4 u64x2_shr_4 z4].
  rewrite !u64_again. rewrite !wasm_s0 by assumption. rewrite !wasm_s1 by assumption.
  rewrite <- E16, <- E17.
  assert (Z : forall x y, add32 (add32 x y) 0 = add32 x y) by (intros; apply wadd_0_r, wadd_lt).
  assert (w16 < 2 ^ 32) by (rewrite E16; apply wadd_lt). assert (w17 < 2 ^ 32) by (rewrite E17; apply wadd_lt).
  rewrite !wasm_s1 by assumption. unfold add32 in *. rewrite !Z, !wadd_0_r by assumption.
  now rewrite <- E18, <- E19.
Qed.
Lemma wasm_rounds W v i : vars_ok P v ->
  wasm256_rounds_ms (list_of_vars v) (add4 (Wl4 W i) (Wl4 K32 i)) = list_of_vars (run_rounds P W (4 * i) 4 v).
Proof.
  intros Hv. rewrite run4. unfold Wl4, add4, zip4, wasm256_rounds_ms.
  generalize (4 * i + 1)%nat (4 * i + 2)%nat (4 * i + 3)%nat (4 * i)%nat. intros i1 i2 i3 i0.
  unfold list_of_v4. cbn [fold_left]. unfold sha_round32, add32.
  change 32 with (p_w P). now rewrite !(sha_round_spec P) by (repeat apply round_ok; exact Hv || reflexivity).
Qed.
Lemma wasm_load block i : length block = 64%nat -> (i < 4)%nat ->
  v4_of_bytes (i8x16_shuffle [3;2;1;0;7;6;5;4;11;10;9;8;15;14;13;12]%nat (mem16 i block) (mem16 i block)) = be4 (mem16 i block).
Proof. intros L Hi. apply wasm32_be, mem16_length. lia. Qed.
Lemma wasm256_block_spec v block : vars_ok P v -> length block = 64%nat -> bytes_ok block ->
  wasm256_block (list_of_vars v) block = list_of_vars (Spec.SHA2.compress P v block).
Proof.
  intros Hv L O. rewrite compress_run. destruct (sched256 block L O) as (HW & WW & HB).
  set (W := sched P block) in *. unfold wasm256_block, wasm256_load. cbn [map seq].
  rewrite !wasm_load, !HB by (assumption || lia). clearbody W. clear HB L O. cbv zeta. cbn [nth4 nth].
  rewrite !ld_k32_eq by lia.
  change (Spec.SHA2.p_rounds P) with 64%nat.
  assert (Hok : forall n, vars_ok P (run_rounds P W 0 n v)) by (intros; now apply run_rounds_ok).
  pose proof (loop_end v4 z4 4 (Wl4 W) (fun i => add4 (Wl4 W i) (Wl4 K32 i)) (fun i => ld_k32 (4 * i)) wasm256_rounds_ms
    sha256_update_x (fun i => list_of_vars (run_rounds P W 0 (4 * i) v)) 16 ltac:(lia)) as Q.
  assert (HR : forall i, (i < 16)%nat ->
    wasm256_rounds_ms (list_of_vars (run_rounds P W 0 (4 * i) v)) (add4 (Wl4 W i) (Wl4 K32 i)) =
    list_of_vars (run_rounds P W 0 (4 * S i) v)).
  { intros i Hi. rewrite wasm_rounds by apply Hok. replace (4 * S i)%nat with (4 * i + 4)%nat by lia.
    now rewrite run_rounds_add. }
  assert (HU : forall n, (n + 4 < 16)%nat -> sha256_update_x (map (Wl4 W) (seq n 4)) (ld_k32 (4 * (n + 4))) =
    (map (Wl4 W) (seq (S n) 4), add4 (Wl4 W (n + 4)) (Wl4 K32 (n + 4)))).
  { intros n Hn. rewrite ld_k32_eq by lia. cbn [seq map]. rewrite update_x_eq.
    pose proof (next4 W HW WW update0 wasm_schedule_pure n Hn) as S4.
    replace (S n) with (n + 1)%nat by lia. replace (S (n + 1)) with (n + 2)%nat by lia.
    replace (S (n + 2)) with (n + 3)%nat by lia. rewrite S4. replace (S (n + 3)) with (n + 4)%nat by lia. reflexivity. }
  specialize (Q HR HU 12%nat eq_refl eq_refl). clear HR HU.
  cbn [map seq Nat.add] in Q. cbn beta in Q. change (run_rounds P W 0 (4 * 0) v) with v in Q.
  match type of Q with context [fold_left ?f ?l ?i] =>
    assert (E : fold_left wasm256_step l i = fold_left f l i) end.
  { generalize (list_of_vars v, [Wl4 W 0; Wl4 W 1; Wl4 W 2; Wl4 W 3],
       [add4 (Wl4 W 0) (Wl4 K32 0); add4 (Wl4 W 1) (Wl4 K32 1); add4 (Wl4 W 2) (Wl4 K32 2); add4 (Wl4 W 3) (Wl4 K32 3)]).
    generalize [0; 1; 2; 3; 4; 5; 6; 7; 8; 9; 10; 11]%nat. clear. intros l.
    induction l as [|n l IH]; intros i; [reflexivity|]. cbn [fold_left]. rewrite <- IH. f_equal.
    destruct i as [[s x] ms]. unfold wasm256_step, lstep. now replace (4 * (4 + n))%nat with (16 + 4 * n)%nat by lia. }
  rewrite E. clear E.
  destruct (fold_left (lstep _ _ _ _ _ _) _ _) as [[s x] ms]. cbn [map] in *. unfold nth4. rewrite Q.
  change (4 * 16)%nat with 64%nat. clear Q.
  destruct (run_rounds P W 0 64 v) as (((((((a, b), c), d), e), f), g), h).
  destruct v as (((((((a0, b0), c0), d0), e0), f0), g0), h0).
  unfold accumulate_state, list_of_vars. cbn [map seq get nth].
  change (p_w P) with 32. rewrite (wadd_comm 32 a), (wadd_comm 32 b), (wadd_comm 32 c), (wadd_comm 32 d),
      (wadd_comm 32 e), (wadd_comm 32 f), (wadd_comm 32 g), (wadd_comm 32 h). reflexivity.
Qed.
Lemma wasm256 st blocks : length st = 8%nat -> words_ok 32 st ->
  Forall (fun b => length b = 64%nat /\ bytes_ok b) blocks ->
  sha256_wasm st blocks = Model.Sha256Soft.compress st blocks.
Proof.
  intros Ls Ws Hb. unfold Model.Sha256Soft.compress.
  rewrite (soft_fold P 64 _ blocks st Proof.Sha256Soft.compress_block_spec Hb Ls Ws).
  rewrite <- (list_of_vars_of_list st Ls) at 1. unfold sha256_wasm.
  apply (enc_fold P 64 list_of_vars wasm256_block); [now apply vars_of_list_ok|exact wasm256_block_spec|exact Hb].
Qed.
