(** The AVX2, WebAssembly and AArch64 SHA-512 back ends compute the portable
    compression function. *)
From Verif Require Import Base.Words Base.Bytes Base.Codec Model.Sha2Consts Model.Simd Model.Sha2Simd
  Proof.Sha2Spec Proof.Loads Proof.SimdFacts Proof.Sha256Simd Proof.Sha256Simd2.
From Verif Require Spec.SHA2 Model.Sha512Soft Proof.Sha512Soft.
Import Spec.SHA2 (sha512_params, vars, vars_of_list, list_of_vars, round, p_K, p_w, p_s0, p_s1, p_S0, p_S1).

Notation Q := sha512_params.
Notation K64_ok := Proof.Sha512Soft.K64_ok.
Lemma ld_k64_eq i : (i < 40)%nat -> ld_k64 (2 * i) = Wl2 K64 i.
Proof. intros H. do 40 (destruct i as [|i]; [reflexivity|]). lia. Qed.

Lemma sched512 block : length block = 128%nat -> bytes_ok block ->
  let W := sched Q block in
  (forall t, (16 <= t < 80)%nat -> get W t =
    wadd 64 (wadd 64 (wadd 64 (p_s1 Q (get W (t - 2))) (get W (t - 7)))
      (p_s0 Q (get W (t - 15)))) (get W (t - 16))) /\
  words_ok 64 W /\ forall i, (i < 8)%nat -> be2 (mem16 i block) = Wl2 W i.
Proof.
  intros L O. destruct (sched_words Q block 8 eq_refl eq_refl ltac:(lia) L O) as [WW LM]. cbv zeta.
  split; [exact (sched_new Q _ LM)|]. split; [exact WW|]. intros i Hi. rewrite be2_block by assumption.
  unfold Wl2, sched. change (N.to_nat (p_w Q / 8)) with 8%nat. now rewrite !(sched_old Q _ LM) by lia.
Qed.
Lemma run2 W i v : run_rounds Q W (2 * i) 2 v =
  round Q (round Q v (get K64 (2 * i)) (get W (2 * i))) (get K64 (2 * i + 1)) (get W (2 * i + 1)).
Proof. unfold run_rounds. cbn [seq fold_left]. rewrite K64_ok. now replace (2 * i + 1)%nat with (S (2 * i)) by lia. Qed.
Section Block.
  Variable W : list N.
  Hypothesis HW : forall t, (16 <= t < 80)%nat -> get W t =
    wadd 64 (wadd 64 (wadd 64 (p_s1 Q (get W (t - 2))) (get W (t - 7)))
      (p_s0 Q (get W (t - 15)))) (get W (t - 16)).
  Hypothesis WW : words_ok 64 W.
  Lemma ok_Wl2 i : ok2 (Wl2 W i).
  Proof using WW. clear HW. repeat split; now apply get_ok. Qed.
  (** a schedule group from the five groups it depends on *)
  Lemma next2 (f : v2 -> v2 -> v2 -> v2 -> v2 -> v2) :
    (forall w0 w1 w2 w3 w8 w9 w10 w11 w14 w15,
      let next a b c d := wadd 64 (wadd 64 (wadd 64 (p_s1 Q a) b) (p_s0 Q c)) d in
      ok2 (w0, w1) -> ok2 (w2, w3) -> ok2 (w8, w9) -> ok2 (w10, w11) -> ok2 (w14, w15) ->
      f (w0, w1) (w2, w3) (w8, w9) (w10, w11) (w14, w15) = (next w14 w9 w1 w0, next w15 w10 w2 w1)) ->
    forall i, (i + 8 < 40)%nat -> f (Wl2 W i) (Wl2 W (i + 1)) (Wl2 W (i + 4)) (Wl2 W (i + 5)) (Wl2 W (i + 7)) = Wl2 W (i + 8).
  Proof using HW WW.
    intros Hf i Hi. unfold Wl2. rewrite Hf by apply ok_Wl2.
    rewrite (HW (2 * (i + 8))%nat), (HW (2 * (i + 8) + 1)%nat) by lia. cbv zeta.
    repeat match goal with |- context [get W (?a - ?b)] => progress (
      first [replace (a - b)%nat with (2 * i)%nat by lia | replace (a - b)%nat with (2 * i + 1)%nat by lia
      | replace (a - b)%nat with (2 * (i + 1))%nat by lia | replace (a - b)%nat with (2 * (i + 4) + 1)%nat by lia
      | replace (a - b)%nat with (2 * (i + 5))%nat by lia | replace (a - b)%nat with (2 * (i + 7))%nat by lia
      | replace (a - b)%nat with (2 * (i + 7) + 1)%nat by lia ]) end.
    reflexivity.
  Qed.
End Block.

(** ** The schedule of the 64-bit lane files *)
Lemma lane_s0 x : x < 2 ^ 64 ->
  N.lxor (N.lxor (N.lxor (N.lxor (N.shiftr x 7) (N.shiftr x 1)) (wshl 64 x (64 - 8))) (N.shiftr (N.shiftr x 1) (8 - 1)))
    (wshl 64 (wshl 64 x (64 - 8)) (8 - 1)) = p_s0 Q x.
Proof.
  intros Hx. rewrite wshl_wshl, N.shiftr_shiftr. change (p_s0 Q x) with (a_s0 x). unfold a_s0, rotr64.
  rewrite !rotr_xor by (exact Hx || lia).
  change (64 - 8 + (8 - 1)) with 63. change (1 + (8 - 1)) with 8. change (64 - 8) with 56. change (64 - 1) with 63.
  generalize (N.shiftr x 1) (N.shiftr x 7) (wshl 64 x 56) (N.shiftr x 8) (wshl 64 x 63). intros a b c d e.
  apply N.bits_inj. intros i. rewrite !N.lxor_spec.
  destruct (N.testbit a i), (N.testbit b i), (N.testbit c i), (N.testbit d i), (N.testbit e i); reflexivity.
Qed.
Lemma lane_s1 x : x < 2 ^ 64 ->
  N.lxor (N.lxor (N.lxor (N.lxor (N.shiftr x 6) (wshl 64 x (64 - 61))) (N.shiftr x 19)) (wshl 64 (wshl 64 x (64 - 61)) (61 - 19)))
    (N.shiftr (N.shiftr x 19) (61 - 19)) = p_s1 Q x.
Proof.
  intros Hx. rewrite wshl_wshl, N.shiftr_shiftr. change (p_s1 Q x) with (a_s1 x). unfold a_s1, rotr64.
  rewrite !rotr_xor by (exact Hx || lia).
  change (64 - 61 + (61 - 19)) with 45. change (19 + (61 - 19)) with 61. change (64 - 61) with 3. change (64 - 19) with 45.
  generalize (N.shiftr x 6) (N.shiftr x 19) (wshl 64 x 3) (N.shiftr x 61) (wshl 64 x 45). intros a b c d e.
  apply N.bits_inj. intros i. rewrite !N.lxor_spec.
  destruct (N.testbit a i), (N.testbit b i), (N.testbit c i), (N.testbit d i), (N.testbit e i); reflexivity.
Qed.
Section Lanes.
  Variable A : v2 -> v2 -> v2.
  Hypothesis HA : forall a b, ok2 a -> ok2 b -> A a b = (snd b, fst a).
  Definition update := sha512_update_x v2 z2 add2 xor2 A shr2 shl2.
  Definition new0 (x0 x1 x4 x5 x7 : v2) : v2 := nth2 (fst (update [x0; x1; z2; z2; x4; x5; z2; x7] z2)) 7.
  Lemma update_eq x0 x1 x2 x3 x4 x5 x6 x7 k : update [x0; x1; x2; x3; x4; x5; x6; x7] k
    = ([x1; x2; x3; x4; x5; x6; x7; new0 x0 x1 x4 x5 x7], add2 (new0 x0 x1 x4 x5 x7) k).
  Proof using. reflexivity. Qed.
  Lemma new0_pure w0 w1 w2 w3 w8 w9 w10 w11 w14 w15 :
    let next a b c d := wadd 64 (wadd 64 (wadd 64 (p_s1 Q a) b) (p_s0 Q c)) d in
    ok2 (w0, w1) -> ok2 (w2, w3) -> ok2 (w8, w9) -> ok2 (w10, w11) -> ok2 (w14, w15) ->
    new0 (w0, w1) (w2, w3) (w8, w9) (w10, w11) (w14, w15) = (next w14 w9 w1 w0, next w15 w10 w2 w1).
  Proof using HA.
    cbv beta zeta. intros O0 O1 O4 O5 O7.
    assert (E : forall a b c d, wadd 64 (wadd 64 (wadd 64 a b) c) d = add64 (add64 (add64 d b) c) a).
    { intros. wadd_ac. }
    rewrite (E (p_s1 Q w14)), (E (p_s1 Q w15)). clear E. unfold new0, update, sha512_update_x, nth2. cbn [nth]. rewrite !HA by assumption.
    destruct O0 as (?&?), O1 as (?&?), O4 as (?&?), O5 as (?&?), O7 as (?&?).
    cbv beta iota zeta delta [fst snd nth shr2 shl2 map2 add2 xor2 zip2].
    rewrite !lane_s0, !lane_s1 by assumption. reflexivity.
  Qed.
  Lemma update_spec W n : (forall t, (16 <= t < 80)%nat -> get W t =
      wadd 64 (wadd 64 (wadd 64 (p_s1 Q (get W (t - 2))) (get W (t - 7)))
        (p_s0 Q (get W (t - 15)))) (get W (t - 16))) -> words_ok 64 W -> (n + 8 < 40)%nat ->
    update (map (Wl2 W) (seq n 8)) (ld_k64 (2 * (n + 8))) =
    (map (Wl2 W) (seq (S n) 8), add2 (Wl2 W (n + 8)) (Wl2 K64 (n + 8))).
  Proof using HA.
    intros HW WW Hn. rewrite ld_k64_eq by lia. cbn [seq map]. rewrite update_eq.
    pose proof (next2 W HW WW new0 new0_pure n Hn) as S4.
    replace (S (S (S (S (S (S (S (S n)))))))) with (n + 8)%nat by lia.
    replace (S (S (S (S (S (S (S n))))))) with (n + 7)%nat by lia.
    replace (S (S (S (S (S n))))) with (n + 5)%nat by lia. replace (S (S (S (S n)))) with (n + 4)%nat by lia.
    replace (S n) with (n + 1)%nat by lia. rewrite S4. reflexivity.
  Qed.
End Lanes.
Lemma rounds_ms64_spec W v i : vars_ok Q v ->
  rounds_ms64 (list_of_vars v) (add2 (Wl2 W i) (Wl2 K64 i)) = list_of_vars (run_rounds Q W (2 * i) 2 v).
Proof.
  intros Hv. rewrite run2. unfold Wl2, add2, zip2, rounds_ms64.
  generalize (2 * i + 1)%nat (2 * i)%nat. intros i1 i0.
  unfold list_of_v2. cbn [fold_left]. unfold sha_round64, add64.
  change 64 with (p_w Q). now rewrite !(sha_round_spec Q) by (repeat apply round_ok; exact Hv || reflexivity).
Qed.
Definition U (W : list N) (v : vars) (i : nat) : vars := run_rounds Q W 0 (2 * i) v.
Lemma U_ok W v i : vars_ok Q v -> vars_ok Q (U W v i).
Proof. apply run_rounds_ok. Qed.
Lemma U_S W v i : U W v (S i) = run_rounds Q W (2 * i) 2 (U W v i).
Proof. unfold U. replace (2 * S i)%nat with (2 * i + 2)%nat by lia. now rewrite run_rounds_add. Qed.
Lemma acc_compress v block :
  accumulate_state 64 (list_of_vars v) (list_of_vars (U (sched Q block) v 40)) = list_of_vars (Spec.SHA2.compress Q v block).
Proof.
  rewrite compress_run. unfold U. change (2 * 40)%nat with 80%nat. change (Spec.SHA2.p_rounds Q) with 80%nat.
  destruct (run_rounds Q _ 0 80 v) as (((((((a, b), c), d), e), f), g), h).
  destruct v as (((((((a0, b0), c0), d0), e0), f0), g0), h0).
  unfold accumulate_state, list_of_vars. cbn [map seq get nth].
  change (p_w Q) with 64. rewrite (wadd_comm 64 a), (wadd_comm 64 b), (wadd_comm 64 c), (wadd_comm 64 d),
      (wadd_comm 64 e), (wadd_comm 64 f), (wadd_comm 64 g), (wadd_comm 64 h). reflexivity.
Qed.
Definition gk W i := add2 (Wl2 W i) (Wl2 K64 i).
Section One.
  Variable A : v2 -> v2 -> v2.
  Hypothesis HA : forall a b, ok2 a -> ok2 b -> A a b = (snd b, fst a).
  Lemma steps_end v block : vars_ok Q v -> length block = 128%nat -> bytes_ok block ->
    (let '(s, _, ms) := fold_left (step512 (update A)) (seq 0 32)
       (list_of_vars v, map (Wl2 (sched Q block)) (seq 0 8), map (gk (sched Q block)) (seq 0 8)) in
     rounds_64_79 s ms) = list_of_vars (U (sched Q block) v 40).
  Proof using HA.
    intros Hv L O. destruct (sched512 block L O) as (HW & WW & HB). set (W := sched Q block) in *. clearbody W. clear HB L O.
    pose proof (loop_end v2 z2 8 (Wl2 W) (gk W) (fun i => ld_k64 (2 * i)) rounds_ms64
      (update A) (fun i => list_of_vars (U W v i)) 40 ltac:(lia)) as E.
    specialize (E ltac:(intros i Hi; cbv beta; rewrite U_S; apply rounds_ms64_spec; now apply U_ok)).
    specialize (E ltac:(intros n Hn; now apply update_spec)).
    specialize (E 32%nat eq_refl eq_refl). cbv beta in E. change (U W v 0) with v in E.
    revert E. generalize (list_of_vars v, map (Wl2 W) (seq 0 8), map (gk W) (seq 0 8)). intros i E.
    replace (fold_left (step512 (update A)) (seq 0 32) i)
      with (fold_left (lstep v2 z2 8 (fun i => ld_k64 (2 * i)) rounds_ms64 (update A)) (seq 0 32) i).
    { destruct (fold_left _ _ i) as [[s x] ms]. exact E. }
    clear. generalize (seq 0 32). intros l. revert i.
    induction l as [|n l IH]; intros i; [reflexivity|]. cbn [fold_left]. rewrite <- IH. f_equal.
    destruct i as [[s x] ms]. unfold step512, lstep. now replace (2 * (8 + n))%nat with (16 + 2 * n)%nat by lia.
  Qed.
  Lemma block512_spec load v block : vars_ok Q v -> length block = 128%nat -> bytes_ok block ->
    (forall i, (i < 8)%nat -> load i block = be2 (mem16 i block)) ->
    block512 load (update A) (list_of_vars v) block = list_of_vars (Spec.SHA2.compress Q v block).
  Proof using HA.
    intros Hv L O HL. unfold block512, load_data. cbv zeta.
    pose proof (steps_end v block Hv L O) as E.
    destruct (sched512 block L O) as (HW & WW & HB).
    replace (map (fun i => load i block) (seq 0 8)) with (map (Wl2 (sched Q block)) (seq 0 8)).
    2:{ apply map_ext_in. intros i Hi. apply in_seq in Hi. now rewrite HL, HB by lia. }
    match goal with |- context [(list_of_vars v, _, ?m)] => replace m with (map (gk (sched Q block)) (seq 0 8)) end.
    2:{ cbn [map seq]. unfold nth2. cbn [nth]. now rewrite !ld_k64_eq by lia. }
    destruct (fold_left _ _ _) as [[s x] ms]. rewrite E. apply acc_compress.
  Qed.
End One.
Lemma wasm512 st blocks : length st = 8%nat -> words_ok 64 st ->
  Forall (fun b => length b = 128%nat /\ bytes_ok b) blocks ->
  sha512_wasm st blocks = Model.Sha512Soft.compress st blocks.
Proof.
  intros Ls Ws Hb. unfold Model.Sha512Soft.compress.
  rewrite (soft_fold Q 128 _ blocks st Proof.Sha512Soft.compress_block_spec Hb Ls Ws).
  rewrite <- (list_of_vars_of_list st Ls) at 1. unfold sha512_wasm.
  apply (enc_fold Q 128 list_of_vars); [now apply vars_of_list_ok| |exact Hb].
  intros v b Hv L O. apply (block512_spec (fun b a => u64x2_shuffle 1 2 a b)); [now intros [? ?] [? ?]|assumption..|].
  intros i Hi. apply wasm64_be, mem16_length. lia.
Qed.

(** ** AVX2 *)
Notation shuf := (fun a b => alignr_epi8_2 a b 8).
Lemma avx_block_spec v block : vars_ok Q v -> length block = 128%nat -> bytes_ok block ->
  avx_block (list_of_vars v) block = list_of_vars (Spec.SHA2.compress Q v block).
Proof.
  intros Hv L O. apply (block512_spec shuf alignr2_8); [assumption..|].
  intros i Hi. apply avx_mask_be; [apply mem16_length; lia|now apply mem16_ok].
Qed.
Lemma avx2_update_eq x0 x1 x2 x3 x4 x5 x6 x7 y0 y1 y2 y3 y4 y5 y6 y7 k :
  avx2_update_x [(x0, y0); (x1, y1); (x2, y2); (x3, y3); (x4, y4); (x5, y5); (x6, y6); (x7, y7)] (k, k)
  = let n1 := new0 shuf x0 x1 x4 x5 x7 in let n2 := new0 shuf y0 y1 y4 y5 y7 in
    ([(x1, y1); (x2, y2); (x3, y3); (x4, y4); (x5, y5); (x6, y6); (x7, y7); (n1, n2)], (add2 n1 k, add2 n2 k)).
Proof. reflexivity. Qed.
Section Pair.
  Variables W1 W2 : list N.
  Notation sched_rule W := (forall t, (16 <= t < 80)%nat -> get W t =
    wadd 64 (wadd 64 (wadd 64 (p_s1 Q (get W (t - 2))) (get W (t - 7)))
      (p_s0 Q (get W (t - 15)))) (get W (t - 16))).
  Hypothesis HW1 : sched_rule W1.
  Hypothesis HW2 : sched_rule W2.
  Hypothesis WW1 : words_ok 64 W1.
  Hypothesis WW2 : words_ok 64 W2.
  Definition pr i := (Wl2 W1 i, Wl2 W2 i).
  Lemma avx2_update_spec n : (n + 8 < 40)%nat ->
    avx2_update_x (map pr (seq n 8)) (ld_k64 (2 * (n + 8)), ld_k64 (2 * (n + 8)))
    = (map pr (seq (S n) 8), (gk W1 (n + 8), gk W2 (n + 8))).
  Proof using HW1 HW2 WW1 WW2.
    intros Hn. rewrite ld_k64_eq by lia. cbn [seq map]. unfold pr. rewrite avx2_update_eq. cbv zeta.
    pose proof (next2 W1 HW1 WW1 (new0 shuf) (new0_pure shuf alignr2_8) n Hn) as S1.
    pose proof (next2 W2 HW2 WW2 (new0 shuf) (new0_pure shuf alignr2_8) n Hn) as S2.
    replace (S (S (S (S (S (S (S (S n)))))))) with (n + 8)%nat by lia.
    replace (S (S (S (S (S (S (S n))))))) with (n + 7)%nat by lia.
    replace (S (S (S (S (S n))))) with (n + 5)%nat by lia. replace (S (S (S (S n)))) with (n + 4)%nat by lia.
    replace (S n) with (n + 1)%nat by lia. rewrite S1, S2. reflexivity.
  Qed.
  Lemma pair_steps s0 ms0 n : (n <= 32)%nat -> exists s ms,
    fold_left step_avx2 (seq 0 n) (s0, map pr (seq 0 8), ms0, map (gk W2) (seq 0 8)) = (s, map pr (seq n 8), ms, map (gk W2) (seq 0 (8 + n))) /\
    fold_left (step512 (update shuf)) (seq 0 n) (s0, map (Wl2 W1) (seq 0 8), ms0) = (s, map (Wl2 W1) (seq n 8), ms).
  Proof using HW1 HW2 WW1 WW2.
    induction n as [|n IH]; intros Hn; [now exists s0, ms0|].
    destruct (IH ltac:(lia)) as (s & ms & E1 & E2). clear IH.
    rewrite seq_S, !fold_left_app, E1, E2. cbn [fold_left Nat.add]. unfold step_avx2, step512.
    replace (16 + 2 * n)%nat with (2 * (n + 8))%nat by lia.
    rewrite avx2_update_spec, (update_spec shuf alignr2_8) by (assumption || lia). cbv zeta.
    eexists _, _. split; [|reflexivity]. cbn [fst snd]. unfold gk at 1.
    replace (8 + S n)%nat with (S (8 + n)) by lia. rewrite (seq_S (8 + n)), map_app.
    replace (0 + (8 + n))%nat with (n + 8)%nat by lia. reflexivity.
  Qed.
End Pair.
Lemma rounds_all W v n : vars_ok Q v ->
  fold_left rounds_ms64 (map (gk W) (seq 0 n)) (list_of_vars v) = list_of_vars (U W v n).
Proof.
  intros Hv. induction n as [|n IH]; [reflexivity|].
  rewrite seq_S, map_app, fold_left_app, IH. cbn [fold_left map Nat.add]. unfold gk.
  rewrite rounds_ms64_spec by now apply U_ok. now rewrite U_S.
Qed.
Lemma mem16_l i (a b : bytes) : (16 * i + 16 <= length a)%nat -> mem16 i (a ++ b) = mem16 i a.
Proof. intros H. unfold mem16. rewrite skipn_app, firstn_app, skipn_length.
  replace (16 - (length a - 16 * i))%nat with 0%nat by lia. cbn [firstn]. apply app_nil_r. Qed.
Lemma mem16_r i (a b : bytes) : length a = 128%nat -> mem16 (8 + i) (a ++ b) = mem16 i b.
Proof. intros H. unfold mem16. rewrite skipn_app, skipn_all2 by lia. cbn [app].
  replace (16 * (8 + i) - length a)%nat with (16 * i)%nat by lia. reflexivity. Qed.
Lemma avx2_pair_spec v b1 b2 : vars_ok Q v -> length b1 = 128%nat -> bytes_ok b1 -> length b2 = 128%nat -> bytes_ok b2 ->
  avx2_pair (list_of_vars v) (b1 ++ b2) = list_of_vars (Spec.SHA2.compress Q (Spec.SHA2.compress Q v b1) b2).
Proof.
  intros Hv L1 O1 L2 O2.
  destruct (sched512 b1 L1 O1) as (HW1 & WW1 & HB1). destruct (sched512 b2 L2 O2) as (HW2 & WW2 & HB2).
  pose proof (steps_end shuf alignr2_8 v b1 Hv L1 O1) as E.
  pose proof (acc_compress v b1) as A1. pose proof (acc_compress (Spec.SHA2.compress Q v b1) b2) as A2.
  set (W1 := sched Q b1) in *. set (W2 := sched Q b2) in *. cbv zeta in *.
  unfold avx2_pair, load_data_avx2. cbv zeta.
  replace (map (fun i => avx2_load64 i (b1 ++ b2)) (seq 0 8)) with (map (pr W1 W2) (seq 0 8)).
  2:{ apply map_ext_in. intros i Hi. apply in_seq in Hi. unfold pr, avx2_load64, avx2_mask.
      rewrite mem16_l, mem16_r by lia.
      rewrite !avx2_mask_be by (try apply mem16_ok; try apply mem16_length; assumption || lia).
      now rewrite HB1, HB2 by lia. }
  match goal with |- context [(list_of_vars v, map (pr W1 W2) (seq 0 8), ?m, ?t)] =>
    replace m with (map (gk W1) (seq 0 8)); [replace t with (map (gk W2) (seq 0 8))|] end.
  2,3: cbn [map seq nth Nat.mul Nat.add]; unfold gk; rewrite <- !(ld_k64_eq 0), <- !(ld_k64_eq 1), <- !(ld_k64_eq 2), <- !(ld_k64_eq 3),
    <- !(ld_k64_eq 4), <- !(ld_k64_eq 5), <- !(ld_k64_eq 6), <- !(ld_k64_eq 7) by lia; reflexivity.
  destruct (pair_steps W1 W2 HW1 HW2 WW1 WW2 (list_of_vars v) (map (gk W1) (seq 0 8)) 32 (le_n _)) as (s & ms & E1 & E2).
  unfold v22 in *. rewrite E1. rewrite E2 in E. clear E1 E2. rewrite E, A1. cbv zeta. change (8 + 32)%nat with 40%nat.
  rewrite rounds_all by now apply compress_ok. exact A2.
Qed.
Lemma avx2_pairs_spec n : forall v blocks, (length blocks = 2 * n)%nat -> vars_ok Q v ->
  Forall (fun b => length b = 128%nat /\ bytes_ok b) blocks ->
  avx2_pairs (list_of_vars v) blocks = list_of_vars (fold_left (Spec.SHA2.compress Q) blocks v).
Proof.
  induction n as [|n IH]; intros v blocks L Hv Hb.
  - destruct blocks; [reflexivity|discriminate].
  - destruct blocks as [|b1 [|b2 rest]]; cbn in L; try lia.
    inversion_clear Hb as [|? ? [L1 O1] Hb']. inversion_clear Hb' as [|? ? [L2 O2] Hr].
    cbn [avx2_pairs fold_left]. rewrite avx2_pair_spec by assumption.
    apply IH; [lia|now do 2 apply compress_ok|exact Hr].
Qed.
Lemma avx2_512 st blocks : length st = 8%nat -> words_ok 64 st ->
  Forall (fun b => length b = 128%nat /\ bytes_ok b) blocks ->
  sha512_avx2 st blocks = Model.Sha512Soft.compress st blocks.
Proof.
  intros Ls Ws Hb. unfold Model.Sha512Soft.compress.
  rewrite (soft_fold Q 128 _ blocks st Proof.Sha512Soft.compress_block_spec Hb Ls Ws).
  rewrite <- (list_of_vars_of_list st Ls) at 1. pose proof (vars_of_list_ok Q st Ls Ws) as Hv.
  generalize dependent (vars_of_list st). clear st Ls Ws. intros v Hv. unfold sha512_avx2.
  destruct (Nat.odd (length blocks)) eqn:Od.
  - apply Nat.odd_spec in Od. destruct Od as [n Hn]. destruct blocks as [|b rest]; [cbn in Hn; lia|].
    inversion_clear Hb as [|? ? [L O] Hr]. cbn [fold_left]. rewrite avx_block_spec by assumption.
    apply (avx2_pairs_spec n); [cbn in Hn; lia|now apply compress_ok|exact Hr].
  - assert (Ev : Nat.even (length blocks) = true) by now rewrite <- Nat.negb_odd, Od.
    apply Nat.even_spec in Ev. destruct Ev as [n Hn]. now apply (avx2_pairs_spec n).
Qed.

(** ** AArch64 *)
Definition vab (v : vars) : v2 := let '(a, b, c, d, e, f, g, h) := v in (a, b).
Definition vcd (v : vars) : v2 := let '(a, b, c, d, e, f, g, h) := v in (c, d).
Definition vef (v : vars) : v2 := let '(a, b, c, d, e, f, g, h) := v in (e, f).
Definition vgh (v : vars) : v2 := let '(a, b, c, d, e, f, g, h) := v in (g, h).
Lemma maj_perm a b c : N.lxor (N.lxor (N.land c b) (N.land c a)) (N.land b a) = Spec.SHA2.Maj a b c.
Proof. unfold Spec.SHA2.Maj. apply N.bits_inj. intros i. rewrite !N.lxor_spec, !N.land_spec.
  destruct (N.testbit a i), (N.testbit b i), (N.testbit c i); reflexivity. Qed.
Lemma maj_perm' a b c : N.lxor (N.lxor (N.land a b) (N.land a c)) (N.land c b) = Spec.SHA2.Maj a b c.
Proof. unfold Spec.SHA2.Maj. now rewrite (N.land_comm c b). Qed.
Lemma arm_two v k0 w0 k1 w1 :
  let v' := round Q (round Q v k0 w0) k1 w1 in
  let sum := add2 (vext1 (add64 w0 k0, add64 w1 k1) (add64 w0 k0, add64 w1 k1)) (vgh v) in
  let intermed := vsha512h sum (vext1 (vef v) (vgh v)) (vext1 (vcd v) (vef v)) in
  vsha512h2 intermed (vcd v) (vab v) = vab v' /\ add2 (vcd v) intermed = vef v' /\ vcd v' = vab v /\ vgh v' = vef v.
Proof.
  destruct v as (((((((a, b), c), d), e), f), g), h). cbv zeta. unfold round at 1 2 3 4.
  cbv [vab vcd vef vgh vext1 fst snd vsha512h vsha512h2 add2 zip2]. cbv zeta.
  change (N.lxor (N.land e f) (N.land (not64 e) g)) with (Spec.SHA2.Ch 64 e f g).
  change (p_w Q) with 64. change a_S1 with (p_S1 Q). change a_S0 with (p_S0 Q).
  set (T1 := wadd 64 (wadd 64 (wadd 64 (wadd 64 h (p_S1 Q e)) (Spec.SHA2.Ch 64 e f g)) k0) w0).
  replace (add64 (add64 (Spec.SHA2.Ch 64 e f g) (p_S1 Q e)) (add64 (add64 w0 k0) h)) with T1
    by (unfold T1; generalize (p_S1 Q e) (Spec.SHA2.Ch 64 e f g); intros; wadd_ac).
  replace (add64 T1 d) with (wadd 64 d T1) by apply wadd_comm. set (e1 := wadd 64 d T1).
  change (N.lxor (N.land e1 e) (N.land (not64 e1) f)) with (Spec.SHA2.Ch 64 e1 e f).
  set (T1' := wadd 64 (wadd 64 (wadd 64 (wadd 64 g (p_S1 Q e1)) (Spec.SHA2.Ch 64 e1 e f)) k1) w1).
  replace (add64 (add64 (Spec.SHA2.Ch 64 e1 e f) (p_S1 Q e1)) (add64 (add64 w1 k1) g)) with T1'
    by (unfold T1'; generalize (p_S1 Q e1) (Spec.SHA2.Ch 64 e1 e f); intros; wadd_ac).
  rewrite maj_perm.
  replace (add64 (add64 (Spec.SHA2.Maj a b c) (p_S0 Q a)) T1) with (wadd 64 T1 (wadd 64 (p_S0 Q a) (Spec.SHA2.Maj a b c)))
    by (generalize (p_S0 Q a) (Spec.SHA2.Maj a b c) T1; intros; wadd_ac).
  set (a1 := wadd 64 T1 _).
  rewrite maj_perm'.
  replace (add64 (add64 (Spec.SHA2.Maj a1 a b) (p_S0 Q a1)) T1') with (wadd 64 T1' (wadd 64 (p_S0 Q a1) (Spec.SHA2.Maj a1 a b)))
    by (generalize (p_S0 Q a1) (Spec.SHA2.Maj a1 a b) T1'; intros; wadd_ac).
  repeat split; reflexivity.
Qed.
