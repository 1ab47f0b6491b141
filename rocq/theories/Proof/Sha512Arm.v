(** The AArch64 SHA-512 back end computes the portable compression function. *)
From Verif Require Import Base.Words Base.Bytes Base.Codec Model.Sha2Consts Model.Simd Model.Sha2Simd
  Proof.Sha2Spec Proof.Loads Proof.SimdFacts Proof.Sha256Simd Proof.Sha512Simd.
From Verif Require Spec.SHA2 Model.Sha512Soft Proof.Sha512Soft.
Import Spec.SHA2 (sha512_params, vars, vars_of_list, list_of_vars, round, p_K, p_w, p_s0, p_s1, p_S0, p_S1).

Lemma arm_rounds2_spec W v i : (i < 40)%nat ->
  let v' := run_rounds Q W (2 * i) 2 v in
  arm_rounds2 (vab v) (vcd v) (vef v) (vgh v) (Wl2 W i) (2 * i) = (vab v', vef v') /\ vcd v' = vab v /\ vgh v' = vef v.
Proof.
  intros Hi. cbv zeta. rewrite run2.
  pose proof (arm_two v (get K64 (2 * i)) (get W (2 * i)) (get K64 (2 * i + 1)) (get W (2 * i + 1))) as (E1 & E2 & E3).
  split; [|exact E3]. unfold arm_rounds2. rewrite ld_k64_eq by exact Hi. unfold Wl2. cbv zeta.
  change (add2 (get W (2 * i), get W (2 * i + 1)) (get K64 (2 * i), get K64 (2 * i + 1)))
    with (add64 (get W (2 * i)) (get K64 (2 * i)), add64 (get W (2 * i + 1)) (get K64 (2 * i + 1))).
  now rewrite E1, E2.
Qed.
Lemma arm_sched_pure w0 w1 w2 w3 w8 w9 w10 w11 w14 w15 :
  let next a b c d := wadd 64 (wadd 64 (wadd 64 (p_s1 Q a) b) (p_s0 Q c)) d in
  ok2 (w0, w1) -> ok2 (w2, w3) -> ok2 (w8, w9) -> ok2 (w10, w11) -> ok2 (w14, w15) ->
  vsha512su1 (vsha512su0 (w0, w1) (w2, w3)) (w14, w15) (vext1 (w8, w9) (w10, w11)) = (next w14 w9 w1 w0, next w15 w10 w2 w1).
Proof.
  cbv beta zeta. intros _ _ _ _ _. unfold vsha512su1, vsha512su0, vext1, fst, snd.
  assert (E0 : a_s0 = p_s0 Q) by reflexivity. assert (E1 : a_s1 = p_s1 Q) by reflexivity. rewrite E0, E1.
  generalize (p_s1 Q w14) (p_s1 Q w15) (p_s0 Q w1) (p_s0 Q w2). intros. tuple_eq; wadd_ac.
Qed.
Section Block.
  Variable W : list N.
  Variable v : vars.
  Hypothesis HW : forall t, (16 <= t < 80)%nat -> get W t =
    wadd 64 (wadd 64 (wadd 64 (p_s1 Q (get W (t - 2))) (get W (t - 7)))
      (p_s0 Q (get W (t - 15)))) (get W (t - 16)).
  Hypothesis WW : words_ok 64 W.
  Notation u := (U W v).
  (** two rounds, with the previous pair standing for c, d and g, h *)
  Lemma R2 i t : t = (2 * S i)%nat -> (S i < 40)%nat ->
    arm_rounds2 (vab (u (S i))) (vab (u i)) (vef (u (S i))) (vef (u i)) (Wl2 W (S i)) t = (vab (u (S (S i))), vef (u (S (S i)))).
  Proof using. clear HW WW.
    intros -> Hi. pose proof (arm_rounds2_spec W (u i) i ltac:(lia)) as (_ & E1 & E2). rewrite <- U_S in E1, E2.
    pose proof (arm_rounds2_spec W (u (S i)) (S i) Hi) as (E & _). rewrite <- U_S in E. now rewrite E1, E2 in E.
  Qed.
  Lemma R0 : arm_rounds2 (vab v) (vcd v) (vef v) (vgh v) (Wl2 W 0) 0 = (vab (u 1), vef (u 1)).
  Proof using. clear. exact (proj1 (arm_rounds2_spec W v 0 ltac:(lia))). Qed.
  Lemma S2 i : (i + 8 < 40)%nat ->
    vsha512su1 (vsha512su0 (Wl2 W i) (Wl2 W (S i))) (Wl2 W (S (S (S (S (S (S (S i))))))))
      (vext1 (Wl2 W (S (S (S (S i))))) (Wl2 W (S (S (S (S (S i))))))) = Wl2 W (S (S (S (S (S (S (S (S i)))))))).
  Proof using HW WW.
    intros Hi. pose proof (next2 W HW WW (fun a b c d e => vsha512su1 (vsha512su0 a b) e (vext1 c d)) arm_sched_pure i Hi) as E.
    cbv beta in E. replace (i + 8)%nat with (S (S (S (S (S (S (S (S i)))))))) in E by lia.
    replace (i + 7)%nat with (S (S (S (S (S (S (S i))))))) in E by lia.
    replace (i + 5)%nat with (S (S (S (S (S i))))) in E by lia. replace (i + 4)%nat with (S (S (S (S i)))) in E by lia.
    replace (i + 1)%nat with (S i) in E by lia. exact E.
  Qed.
  Definition m8 (i : nat) : list v2 := map (Wl2 W) (seq i 8).
  Definition reg (i : nat) := (vab (u (S i)), vab (u i), vef (u (S i)), vef (u i)).
  Lemma first8_spec : arm_first8 (vab v, vcd v, vef v, vgh v) (m8 0) = reg 7.
  Proof using. clear HW WW.
    unfold arm_first8, m8, nth2. cbn [map seq nth]. rewrite R0.
    change (vab v) with (vab (u 0)). change (vef v) with (vef (u 0)).
    do 7 (rewrite R2 by (reflexivity || lia)). reflexivity.
  Qed.
  Lemma pass_spec i t : t = (2 * (8 + i))%nat -> (i + 16 <= 40)%nat ->
    arm_pass (reg (7 + i), m8 i) t = (reg (15 + i), m8 (8 + i)).
  Proof using HW WW.
    intros -> Hi. unfold arm_pass, m8, nth2, reg. cbn [map seq nth Nat.add].
    rewrite (S2 i) by lia. rewrite R2 by lia.
    do 7 (rewrite S2 by lia; rewrite R2 by lia). reflexivity.
  Qed.
End Block.
Lemma arm512_block_spec v block : vars_ok Q v -> length block = 128%nat -> bytes_ok block ->
  let v' := Spec.SHA2.compress Q v block in
  arm512_block (vab v, vcd v, vef v, vgh v) block = (vab v', vcd v', vef v', vgh v').
Proof.
  intros Hv L O. cbv zeta. rewrite compress_run. destruct (sched512 block L O) as (HW & WW & HB).
  unfold arm512_block.
  replace (map (fun i => arm_load64 i block) (seq 0 8)) with (m8 (sched Q block) 0).
  2:{ apply map_ext_in. intros i Hi. apply in_seq in Hi. rewrite <- HB by lia.
      unfold arm_load64. now rewrite vrev64_be by (apply mem16_length; lia). }
  set (W := sched Q block) in *. clearbody W. clear HB L O. rewrite first8_spec. unfold reg at 1.
  change (vab (U W v 8), vab (U W v 7), vef (U W v 8), vef (U W v 7), m8 W 0) with (reg W v (7 + 0), m8 W 0).
  cbn [fold_left]. pose proof (pass_spec W v HW WW) as Hp.
  rewrite (Hp 0%nat 16%nat eq_refl ltac:(lia)).
  rewrite (Hp 8%nat 32%nat eq_refl ltac:(lia) : arm_pass (reg W v (15 + 0), m8 W (8 + 0)) 32 = _).
  rewrite (Hp 16%nat 48%nat eq_refl ltac:(lia) : arm_pass (reg W v (15 + 8), m8 W (8 + 8)) 48 = _).
  rewrite (Hp 24%nat 64%nat eq_refl ltac:(lia) : arm_pass (reg W v (15 + 16), m8 W (8 + 16)) 64 = _).
  cbn [Nat.add].
  change (run_rounds Q W 0 (Spec.SHA2.p_rounds Q) v) with (U W v 40). unfold reg.
  pose proof (arm_rounds2_spec W (U W v 39) 39 ltac:(lia)) as (_ & E1 & E2). rewrite <- U_S in E1, E2.
  rewrite <- E1, <- E2.
  destruct (U W v 40) as (((((((a, b), c), d), e), f), g), h).
  destruct v as (((((((a0, b0), c0), d0), e0), f0), g0), h0). reflexivity.
Qed.
Lemma arm512 st blocks : length st = 8%nat -> words_ok 64 st ->
  Forall (fun b => length b = 128%nat /\ bytes_ok b) blocks ->
  sha512_arm st blocks = Model.Sha512Soft.compress st blocks.
Proof.
  intros Ls Ws Hb. unfold Model.Sha512Soft.compress.
  rewrite (soft_fold Q 128 _ blocks st Proof.Sha512Soft.compress_block_spec Hb Ls Ws).
  pose proof (vars_of_list_ok Q st Ls Ws) as Hv. rewrite <- (list_of_vars_of_list st Ls) at 1.
  set (v := vars_of_list st) in *. clearbody v. clear st Ls Ws.
  pose proof (enc_fold Q 128 (fun v => (vab v, vcd v, vef v, vgh v)) arm512_block blocks v Hv arm512_block_spec Hb) as E. cbv beta in E.
  unfold sha512_arm. set (F := fold_left _ blocks) in *. cbv zeta.
  replace (F _) with (F (vab v, vcd v, vef v, vgh v))
    by now destruct v as (((((((a, b), c), d), e), f), g), h).
  rewrite E. now destruct (fold_left (Spec.SHA2.compress Q) blocks v) as (((((((a', b'), c'), d'), e'), f'), g'), h').
Qed.
