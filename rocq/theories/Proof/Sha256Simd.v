(** The x86, AArch64 and WebAssembly SHA-256 back ends compute the portable
    compression function. *)
From Verif Require Import Base.Words Base.Bytes Base.Codec Model.Sha2Consts Model.Simd Model.Sha2Simd
  Proof.Sha2Spec Proof.Loads Proof.Sha2Riscv Proof.Sha2Loong Proof.SimdFacts.
From Verif Require Spec.SHA2 Model.Sha256Soft Proof.Sha256Soft.
Import Spec.SHA2 (sha256_params, vars, vars_of_list, list_of_vars, round, p_K, p_w, p_s0, p_s1, p_S0, p_S1).

Notation P := sha256_params.
Notation K32_ok := Proof.Sha256Soft.K32_ok.

(** ** The wrapper common to all back ends *)
Lemma enc_fold {S : Type} Q bs (enc : vars -> S) one blocks v : vars_ok Q v ->
  (forall v b, vars_ok Q v -> length b = bs -> bytes_ok b -> one (enc v) b = enc (Spec.SHA2.compress Q v b)) ->
  Forall (fun b => length b = bs /\ bytes_ok b) blocks ->
  fold_left one blocks (enc v) = enc (fold_left (Spec.SHA2.compress Q) blocks v).
Proof.
  intros Hv H1 Hb. revert v Hv. induction Hb as [|b blocks (L & O) Hb IH]; intros v Hv; [reflexivity|].
  cbn [fold_left]. rewrite H1 by assumption. apply IH, compress_ok, Hv.
Qed.
Lemma soft_fold Q bs soft blocks st :
  (forall st block, length st = 8%nat -> words_ok (p_w Q) st -> length block = bs ->
    soft st block = list_of_vars (Spec.SHA2.compress Q (vars_of_list st) block)) ->
  Forall (fun b => length b = bs /\ bytes_ok b) blocks -> length st = 8%nat -> words_ok (p_w Q) st ->
  fold_left soft blocks st = list_of_vars (fold_left (Spec.SHA2.compress Q) blocks (vars_of_list st)).
Proof.
  intros Hs Hb Ls Ws.
  assert (Hv : vars_ok Q (vars_of_list st)) by now apply vars_of_list_ok.
  rewrite <- (list_of_vars_of_list st Ls) at 1. revert Hv. generalize (vars_of_list st). clear st Ls Ws.
  induction Hb as [|b blocks (L & O) Hb IH]; intros v Hv; [reflexivity|].
  cbn [fold_left]. rewrite Hs; [|now destruct v as (((((((a, b0), c), d), e), f), g), h)|now apply list_of_vars_ok|exact L].
  rewrite vars_of_list_of. apply IH, compress_ok, Hv.
Qed.
Definition sched Q (block : bytes) : list N := Spec.SHA2.schedule Q (map be_val (chunks (N.to_nat (p_w Q / 8)) block)).

(** ** Constants *)
Lemma kv32 i : (i < 16)%nat -> Wl4 K32 i =
  set_epi32 (get (nth i K32X4 []) 0) (get (nth i K32X4 []) 1) (get (nth i K32X4 []) 2) (get (nth i K32X4 []) 3).
Proof. intros H. do 16 (destruct i as [|i]; [reflexivity|]). lia. Qed.
Lemma ld_k32_eq i : (i < 16)%nat -> ld_k32 (4 * i) = Wl4 K32 i.
Proof. intros H. do 16 (destruct i as [|i]; [reflexivity|]). lia. Qed.
Lemma K32_bound : words_ok 32 K32.
Proof. repeat constructor. Qed.

Section Block.
  Variable W : list N.
  Hypothesis HW : forall t, (16 <= t < 64)%nat -> get W t =
    wadd 32 (wadd 32 (wadd 32 (p_s1 P (get W (t - 2))) (get W (t - 7)))
      (p_s0 P (get W (t - 15)))) (get W (t - 16)).
  Hypothesis WW : words_ok 32 W.
  Lemma ok_Wl4 i : ok4 (Wl4 W i).
  Proof using WW. clear HW. repeat split; now apply get_ok. Qed.
  Lemma run4 i v : run_rounds P W (4 * i) 4 v =
    round P (round P (round P (round P v (get K32 (4 * i)) (get W (4 * i))) (get K32 (4 * i + 1)) (get W (4 * i + 1)))
      (get K32 (4 * i + 2)) (get W (4 * i + 2))) (get K32 (4 * i + 3)) (get W (4 * i + 3)).
  Proof using. clear. unfold run_rounds. cbn [seq fold_left]. rewrite K32_ok.
    replace (4 * i + 1)%nat with (S (4 * i)) by lia. replace (4 * i + 2)%nat with (S (S (4 * i))) by lia.
    now replace (4 * i + 3)%nat with (S (S (S (4 * i)))) by lia. Qed.
  (** a schedule group from its predecessors *)
  Lemma next4 (f : v4 -> v4 -> v4 -> v4 -> v4) :
    (forall w0 w1 w2 w3 w4 w5 w6 w7 w8 w9 w10 w11 w12 w13 w14 w15 w16 w17 w18 w19,
      let s0 := p_s0 P in let s1 := p_s1 P in
      let next a b c d := wadd 32 (wadd 32 (wadd 32 (s1 a) b) (s0 c)) d in
      ok4 (w0, w1, w2, w3) -> ok4 (w4, w5, w6, w7) -> ok4 (w8, w9, w10, w11) -> ok4 (w12, w13, w14, w15) ->
      w16 = next w14 w9 w1 w0 -> w17 = next w15 w10 w2 w1 ->
      w18 = next w16 w11 w3 w2 -> w19 = next w17 w12 w4 w3 ->
      f (w0, w1, w2, w3) (w4, w5, w6, w7) (w8, w9, w10, w11) (w12, w13, w14, w15) = (w16, w17, w18, w19)) ->
    forall i, (i + 4 < 16)%nat -> f (Wl4 W i) (Wl4 W (i + 1)) (Wl4 W (i + 2)) (Wl4 W (i + 3)) = Wl4 W (i + 4).
  Proof using HW WW.
    intros Hf i Hi. unfold Wl4. apply Hf; try apply ok_Wl4; rewrite HW at 1 by lia; repeat (f_equal; try lia).
  Qed.
End Block.

(** ** x86 *)
Definition rabef (v : vars) : v4 := let '(a, b, c, d, e, f, g, h) := v in (f, e, b, a).
Definition rcdgh (v : vars) : v4 := let '(a, b, c, d, e, f, g, h) := v in (h, g, d, c).
Lemma rnds2_round v k w : rnds2_step v (add32 w k) = round P v k w.
Proof.
  destruct v as (((((((a, b), c), d), e), f), g), h). unfold rnds2_step, round.
  change (Spec.SHA2.Ch (p_w P) e f g) with (i_Ch e f g). change (Spec.SHA2.Maj a b c) with (i_Maj a b c).
  change (p_S1 P e) with (i_S1 e). change (p_S0 P a) with (i_S0 a). change (wadd (p_w P)) with add32.
  generalize (i_S1 e) (i_Ch e f g) (i_S0 a) (i_Maj a b c). intros.
  tuple_eq; try reflexivity; wadd_ac.
Qed.
Lemma rnds2_spec v k0 w0 k1 w1 x y :
  let v2 := round P (round P v k0 w0) k1 w1 in
  sha256rnds2 (rcdgh v) (rabef v) (add32 w0 k0, add32 w1 k1, x, y) = rabef v2 /\ rcdgh v2 = rabef v.
Proof.
  cbv zeta. destruct v as (((((((a, b), c), d), e), f), g), h). split; [|reflexivity].
  unfold sha256rnds2, rcdgh, rabef at 1. cbv beta iota. now rewrite !rnds2_round.
Qed.
Lemma ni_schedule_pure w0 w1 w2 w3 w4 w5 w6 w7 w8 w9 w10 w11 w12 w13 w14 w15 w16 w17 w18 w19 :
  let s0 := p_s0 P in let s1 := p_s1 P in
  let next a b c d := wadd 32 (wadd 32 (wadd 32 (s1 a) b) (s0 c)) d in
  ok4 (w0, w1, w2, w3) -> ok4 (w4, w5, w6, w7) -> ok4 (w8, w9, w10, w11) -> ok4 (w12, w13, w14, w15) ->
  w16 = next w14 w9 w1 w0 -> w17 = next w15 w10 w2 w1 ->
  w18 = next w16 w11 w3 w2 -> w19 = next w17 w12 w4 w3 ->
  ni_schedule (w0, w1, w2, w3) (w4, w5, w6, w7) (w8, w9, w10, w11) (w12, w13, w14, w15) = (w16, w17, w18, w19).
Proof.
  cbv beta zeta. intros O0 O1 O2 O3 E16 E17 E18 E19.
  assert (A : forall a b c d, wadd 32 (wadd 32 (wadd 32 a b) c) d = add32 (add32 (add32 d c) b) a).
  { intros. wadd_ac. }
  rewrite A in E16, E17, E18, E19. clear A.
  unfold ni_schedule. rewrite alignr4_4 by assumption.
  cbv beta iota zeta delta [sha256msg1 sha256msg2 add4 zip4].
  change i_s0 with (p_s0 P). change i_s1 with (p_s1 P).
  now rewrite <- E16, <- E17, <- E18, <- E19.
Qed.
Section NI.
  Variable W : list N.
  Hypothesis HW : forall t, (16 <= t < 64)%nat -> get W t =
    wadd 32 (wadd 32 (wadd 32 (p_s1 P (get W (t - 2))) (get W (t - 7)))
      (p_s0 P (get W (t - 15)))) (get W (t - 16)).
  Hypothesis WW : words_ok 32 W.
  Lemma ni_rounds4_spec v i : (i < 16)%nat ->
    ni_rounds4 (rabef v) (rcdgh v) (Wl4 W i) i
    = (rabef (run_rounds P W (4 * i) 4 v), rcdgh (run_rounds P W (4 * i) 4 v)).
  Proof using. clear HW WW.
    intros Hi. unfold ni_rounds4. cbv zeta. rewrite <- kv32 by exact Hi. unfold Wl4, add4, zip4.
    rewrite run4.
    set (v1 := round P (round P v (get K32 (4 * i)) (get W (4 * i))) (get K32 (4 * i + 1)) (get W (4 * i + 1))).
    pose proof (rnds2_spec v (get K32 (4 * i)) (get W (4 * i)) (get K32 (4 * i + 1)) (get W (4 * i + 1))
      (add32 (get W (4 * i + 2)) (get K32 (4 * i + 2))) (add32 (get W (4 * i + 3)) (get K32 (4 * i + 3)))) as [E1 E1'].
    fold v1 in E1, E1'. rewrite E1.
    pose proof (rnds2_spec v1 (get K32 (4 * i + 2)) (get W (4 * i + 2)) (get K32 (4 * i + 3)) (get W (4 * i + 3))
      (add32 (get W (4 * i)) (get K32 (4 * i))) (add32 (get W (4 * i)) (get K32 (4 * i)))) as [E2 E2'].
    rewrite E1' in E2. rewrite E2'. f_equal. exact E2.
  Qed.
  Lemma ni_schedule_rounds4_spec v i : (i + 4 < 16)%nat ->
    ni_schedule_rounds4 (rabef v) (rcdgh v) (Wl4 W i) (Wl4 W (i + 1)) (Wl4 W (i + 2)) (Wl4 W (i + 3)) (i + 4)
    = (rabef (run_rounds P W (4 * (i + 4)) 4 v), rcdgh (run_rounds P W (4 * (i + 4)) 4 v), Wl4 W (i + 4)).
  Proof using HW WW.
    intros Hi. unfold ni_schedule_rounds4. rewrite (next4 W HW WW _ ni_schedule_pure) by exact Hi. cbv zeta.
    now rewrite ni_rounds4_spec.
  Qed.
End NI.

Lemma sched_words Q block k : N.to_nat (p_w Q / 8) = k -> p_w Q = 8 * N.of_nat k -> (0 < k)%nat ->
  length block = (k * 16)%nat -> bytes_ok block ->
  words_ok (p_w Q) (sched Q block) /\ length (map be_val (chunks k block)) = 16%nat.
Proof.
  intros Hk Hw Hp L O. unfold sched. rewrite Hk.
  assert (LM : length (map be_val (chunks k block)) = 16%nat).
  { rewrite map_length, chunks_length, L by lia. rewrite Nat.mul_comm. apply Nat.div_mul; lia. }
  split; [|exact LM]. apply schedule_ok; [exact LM|].
  apply Forall_map. pose proof (chunks_block_length k block Hp) as Q1. pose proof (chunks_ok k block Hp O) as Q2.
  rewrite Forall_forall in *. intros c Hc. rewrite Hw, <- pow256, <- (Q1 c Hc). now apply be_val_lt, Q2.
Qed.
(** What a back end needs to know about a block. *)
Lemma sched256 block : length block = 64%nat -> bytes_ok block ->
  let W := sched P block in
  (forall t, (16 <= t < 64)%nat -> get W t =
    wadd 32 (wadd 32 (wadd 32 (p_s1 P (get W (t - 2))) (get W (t - 7)))
      (p_s0 P (get W (t - 15)))) (get W (t - 16))) /\
  words_ok 32 W /\ forall i, (i < 4)%nat -> be4 (mem16 i block) = Wl4 W i.
Proof.
  intros L O. destruct (sched_words P block 4 eq_refl eq_refl ltac:(lia) L O) as [WW LM]. cbv zeta.
  split; [exact (sched_new P _ LM)|]. split; [exact WW|]. intros i Hi. rewrite be4_block by assumption.
  unfold Wl4, sched. change (N.to_nat (p_w P / 8)) with 4%nat. now rewrite !(sched_old P _ LM) by lia.
Qed.
Lemma compress_run Q v block : Spec.SHA2.compress Q v block =
  let '(a0, b0, c0, d0, e0, f0, g0, h0) := v in
  let '(a, b, c, d, e, f, g, h) := run_rounds Q (sched Q block) 0 (Spec.SHA2.p_rounds Q) v in
  let w := p_w Q in
  (wadd w a a0, wadd w b b0, wadd w c c0, wadd w d d0, wadd w e e0, wadd w f f0, wadd w g g0, wadd w h h0).
Proof. reflexivity. Qed.

Lemma ni_load block i : length block = 64%nat -> bytes_ok block -> (i < 4)%nat ->
  shuffle_epi8_4 (v4_of_bytes (mem16 i block)) ni_mask = be4 (mem16 i block).
Proof. intros L O Hi. apply ni_mask_be; [apply mem16_length; lia|now apply mem16_ok]. Qed.
Lemma ni_block_spec v block : length block = 64%nat -> bytes_ok block ->
  ni_block (rabef v) (rcdgh v) block = (rabef (Spec.SHA2.compress P v block), rcdgh (Spec.SHA2.compress P v block)).
Proof.
  intros L O. rewrite compress_run. destruct (sched256 block L O) as (HW & WW & HB).
  set (W := sched P block) in *. unfold ni_block. rewrite !ni_load, !HB by (assumption || lia). clearbody W. clear HB L O.
  cbv zeta. change (Spec.SHA2.p_rounds P) with 64%nat.
  assert (R4 : forall i n, n = (4 * i)%nat -> (i < 16)%nat ->
    ni_rounds4 (rabef (run_rounds P W 0 n v)) (rcdgh (run_rounds P W 0 n v)) (Wl4 W i) i
    = (rabef (run_rounds P W 0 (n + 4) v), rcdgh (run_rounds P W 0 (n + 4) v))).
  { intros i n -> Hi. rewrite ni_rounds4_spec by exact Hi. now rewrite !(run_rounds_add P W 0 _ 4 v). }
  assert (S4 : forall i j n, j = (i + 4)%nat -> n = (4 * (i + 4))%nat -> (i + 4 < 16)%nat ->
    ni_schedule_rounds4 (rabef (run_rounds P W 0 n v)) (rcdgh (run_rounds P W 0 n v))
      (Wl4 W i) (Wl4 W (i + 1)) (Wl4 W (i + 2)) (Wl4 W (i + 3)) j
    = (rabef (run_rounds P W 0 (n + 4) v), rcdgh (run_rounds P W 0 (n + 4) v), Wl4 W j)).
  { intros i j n -> -> Hi. rewrite (ni_schedule_rounds4_spec W HW WW) by exact Hi.
    now rewrite !(run_rounds_add P W 0 _ 4 v). }
  rewrite (R4 0%nat 0%nat eq_refl ltac:(lia) : ni_rounds4 (rabef v) (rcdgh v) _ _ = _). cbn [Nat.add]. cbv beta iota.
  do 3 (match goal with |- context [ni_rounds4 (rabef (run_rounds P W 0 ?n v)) _ (Wl4 W ?i) ?i] =>
    let H := fresh in pose proof (R4 i n eq_refl ltac:(lia)) as H; cbn [Nat.add] in H; rewrite H; clear H;
    cbv beta iota end).
  do 12 (match goal with |- context [ni_schedule_rounds4 (rabef (run_rounds P W 0 ?n v)) _ (Wl4 W ?i) _ _ _ ?j] =>
    let H := fresh in pose proof (S4 i j n eq_refl eq_refl ltac:(lia)) as H; cbn [Nat.add] in H; rewrite H; clear H;
    cbv beta iota end).
  destruct (run_rounds P W 0 64 v) as (((((((a, b), c), d), e), f), g), h).
  destruct v as (((((((a0, b0), c0), d0), e0), f0), g0), h0). reflexivity.
Qed.
Lemma ok_pairs v : vars_ok P v -> let '(a, b, c, d, e, f, g, h) := v in
  ok4 (a, b, c, d) /\ ok4 (e, f, g, h) /\ ok4 (h, g, f, e) /\ ok4 (b, a, d, c) /\ ok4 (a, b, e, f) /\ ok4 (g, h, c, d).
Proof. destruct v as (((((((a, b), c), d), e), f), g), h). intros (?&?&?&?&?&?&?&?). repeat split; assumption. Qed.
Lemma shani st blocks : length st = 8%nat -> words_ok 32 st ->
  Forall (fun b => length b = 64%nat /\ bytes_ok b) blocks ->
  sha256_shani st blocks = Model.Sha256Soft.compress st blocks.
Proof.
  intros Ls Ws Hb. unfold Model.Sha256Soft.compress.
  rewrite (soft_fold P 64 _ blocks st Proof.Sha256Soft.compress_block_spec Hb Ls Ws).
  pose proof (vars_of_list_ok P st Ls Ws) as Hv. rewrite <- (list_of_vars_of_list st Ls) at 1.
  set (v := vars_of_list st) in *. clearbody v. clear st Ls Ws.
  pose proof (enc_fold P 64 (fun v => (rabef v, rcdgh v)) (fun s block => ni_block (fst s) (snd s) block) blocks v Hv
    ltac:(intros v0 b _ L O; exact (ni_block_spec v0 b L O)) Hb) as E. cbv beta in E.
  assert (Hv' : vars_ok P (fold_left (Spec.SHA2.compress P) blocks v)).
  { clear - Hv. revert v Hv. induction blocks as [|b bl IH]; intros v Hv; [exact Hv|]. apply IH, compress_ok, Hv. }
  unfold sha256_shani. set (F := fold_left _ blocks) in *.
  destruct (fold_left (Spec.SHA2.compress P) blocks v) as (((((((a', b'), c'), d'), e'), f'), g'), h').
  destruct v as (((((((a, b), c), d), e), f), g), h).
  apply ok_pairs in Hv, Hv'. cbv zeta in *.
  change (shuffle_epi32 (v4_of_list (firstn 4 (list_of_vars _))) 0xB1) with (b, a, d, c).
  change (shuffle_epi32 (v4_of_list (skipn 4 (list_of_vars _))) 0x1B) with (h, g, f, e).
  rewrite alignr4_8, blend_F0 by apply Hv. change (F (f, e, b, a, (h, g, d, c))) with (F (rabef (a, b, c, d, e, f, g, h), rcdgh (a, b, c, d, e, f, g, h))).
  rewrite E. cbv beta iota delta [rabef rcdgh].
  change (shuffle_epi32 _ 0x1B) with (a', b', e', f'). change (shuffle_epi32 _ 0xB1) with (g', h', c', d').
  rewrite alignr4_8, blend_F0 by apply Hv'. reflexivity.
Qed.
