(** The x86 and AArch64 SHA-1 back ends compute the portable compression function. *)
From Verif Require Import Base.Words Base.Bytes Base.Codec Model.Simd Model.Sha1Simd Proof.Loads Proof.SimdFacts.
From Verif Require Spec.SHA1 Model.Sha1 Proof.Sha1 Proof.Sha1Loong Proof.Sha1Checked.
Import Spec.SHA1 (vars, round).
Import Proof.Sha1 (abcd_of, e_of, vok, fm, run, list_of_vars).
Notation K := Model.Sha1.K.

(** ** Four rounds with the function and constant of the group *)
Definition four (W : list N) (i : nat) (v : vars) : vars :=
  let f := fm (i / 5) in let k := get K (i / 5) in
  round (round (round (round v f k (get W (4 * i))) f k (get W (4 * i + 1))) f k (get W (4 * i + 2))) f k (get W (4 * i + 3)).
Lemma run_four W v i : (i < 20)%nat -> run W (4 * i) 4 v = four W i v.
Proof.
  intros Hi. rewrite !Proof.Sha1.run_S, Proof.Sha1.run_0. unfold four.
  replace (S (4 * i)) with (4 * i + 1)%nat by lia. replace (S (4 * i + 1)) with (4 * i + 2)%nat by lia.
  replace (S (4 * i + 2)) with (4 * i + 3)%nat by lia.
  pose proof (Proof.Sha1.f_get i 0 Hi ltac:(lia)) as F0. rewrite Nat.add_0_r in F0.
  rewrite F0, (Proof.Sha1.f_get i 1 Hi), (Proof.Sha1.f_get i 2 Hi), (Proof.Sha1.f_get i 3 Hi) by lia.
  rewrite !Proof.Sha1.K_get by lia.
  assert (D : forall j, (j < 4)%nat -> ((4 * i + j) / 20 = i / 5)%nat).
  { intros j Hj. replace 20%nat with (4 * 5)%nat by lia. rewrite <- Nat.div_div by lia.
    replace (4 * i + j)%nat with (j + i * 4)%nat by lia. rewrite Nat.div_add, (Nat.div_small j 4) by lia. reflexivity. }
  pose proof (D 0%nat ltac:(lia)) as D0. rewrite Nat.add_0_r in D0.
  now rewrite D0, !D by lia.
Qed.
Lemma idx5 i : (i < 20)%nat -> (i / 5 < 4)%nat.
Proof. intros H. apply Nat.div_lt_upper_bound; lia. Qed.
Lemma four_e W i v : e_of (four W i v) = rotl32 (lane0 (abcd_of v)) 30.
Proof. destruct v as ((((a, b), c), d), e). reflexivity. Qed.
Section Sched.
  Variable W : list N.
  Hypothesis HW : forall t, (16 <= t < 80)%nat -> get W t =
    rotl32 (N.lxor (N.lxor (N.lxor (get W (t - 3)) (get W (t - 8))) (get W (t - 14))) (get W (t - 16))) 1.
  Lemma next1 (f : v4 -> v4 -> v4 -> v4 -> v4) :
    (forall w0 w1 w2 w3 w4 w5 w6 w7 w8 w9 w10 w11 w12 w13 w14 w15 w16 w17 w18 w19,
      let next a b c d := rotl32 (N.lxor (N.lxor (N.lxor a b) c) d) 1 in
      w16 = next w13 w8 w2 w0 -> w17 = next w14 w9 w3 w1 ->
      w18 = next w15 w10 w4 w2 -> w19 = next w16 w11 w5 w3 ->
      f (w0, w1, w2, w3) (w4, w5, w6, w7) (w8, w9, w10, w11) (w12, w13, w14, w15) = (w16, w17, w18, w19)) ->
    forall i, (i + 4 < 20)%nat -> f (Wl4 W i) (Wl4 W (i + 1)) (Wl4 W (i + 2)) (Wl4 W (i + 3)) = Wl4 W (i + 4).
  Proof using HW.
    intros Hf i Hi. unfold Wl4. apply Hf; rewrite HW at 1 by lia; repeat (f_equal; try lia).
  Qed.
End Sched.

(** ** x86: everything is held with the first word in the top lane *)
Definition xstep (f : N -> N -> N -> N) (k : N) (v : vars) (w : N) : vars :=
  let '(a, b, c, d, e) := v in
  (add32 (add32 (add32 (add32 (f b c d) (rotl32 a 5)) w) e) k, a, rotl32 b 30, c, d).
Lemma xstep_round f k v w : xstep f k v w = round v f k w.
Proof.
  destruct v as ((((a, b), c), d), e). unfold xstep, round. generalize (f b c d) (rotl32 a 5). intros.
  tuple_eq; try reflexivity; wadd_ac.
Qed.
Lemma rnds4_group W v i : (i < 20)%nat ->
  sha1rnds4 (rev4 (abcd_of v)) (rev4 (Model.Sha1.sha1_first_add (e_of v) (Wl4 W i))) (i / 5) = rev4 (abcd_of (four W i v)).
Proof.
  intros Hi. unfold four, Wl4. pose proof (idx5 i Hi) as Hj. revert Hj. generalize (i / 5)%nat. intros j Hj.
  generalize (get W (4 * i)) (get W (4 * i + 1)) (get W (4 * i + 2)) (get W (4 * i + 3)). intros w0 w1 w2 w3.
  cbv zeta. assert (E : sha1rnds4_f j = (fm j, get K j)) by (clear - Hj; destruct j as [|[|[|[|j]]]]; [reflexivity..|lia]).
  unfold sha1rnds4. rewrite E. generalize (fm j) (get K j). clear. intros f k.
  rewrite <- !xstep_round. destruct v as ((((a, b), c), d), e).
  assert (A0 : add32 (add32 (add32 (f b c d) (rotl32 a 5)) (add32 e w0)) k = add32 (add32 (add32 (add32 (f b c d) (rotl32 a 5)) w0) e) k)
    by (generalize (f b c d) (rotl32 a 5); intros; wadd_ac).
  unfold abcd_of at 1, e_of, Model.Sha1.sha1_first_add, rev4 at 1 2. cbv beta iota. rewrite A0. reflexivity.
Qed.
Lemma nexte_half a w : sha1nexte (rev4 a) (rev4 w) = rev4 (Model.Sha1.sha1_first_add (rotl32 (lane0 a) 30) w).
Proof.
  destruct a as (((a0, a1), a2), a3), w as (((w0, w1), w2), w3). unfold sha1nexte, rev4, Model.Sha1.sha1_first_add, lane0.
  unfold add32. now rewrite wadd_comm.
Qed.
Lemma ni1_schedule_pure w0 w1 w2 w3 w4 w5 w6 w7 w8 w9 w10 w11 w12 w13 w14 w15 w16 w17 w18 w19 :
  let next a b c d := rotl32 (N.lxor (N.lxor (N.lxor a b) c) d) 1 in
  w16 = next w13 w8 w2 w0 -> w17 = next w14 w9 w3 w1 ->
  w18 = next w15 w10 w4 w2 -> w19 = next w16 w11 w5 w3 ->
  rev4 (ni1_schedule (rev4 (w0, w1, w2, w3)) (rev4 (w4, w5, w6, w7)) (rev4 (w8, w9, w10, w11)) (rev4 (w12, w13, w14, w15))) = (w16, w17, w18, w19).
Proof.
  cbv beta zeta. intros E16 E17 E18 E19.
  assert (A : forall a b c d, N.lxor (N.lxor (N.lxor a b) c) d = N.lxor (N.lxor (N.lxor c d) b) a) by (intros; bitblast).
  rewrite A in E16, E17, E18, E19.
  cbv beta iota zeta delta [ni1_schedule sha1msg1 sha1msg2 xor4 zip4 rev4].
  now rewrite <- E16, <- E17, <- E18, <- E19.
Qed.
Lemma rev4_rev4 a : rev4 (rev4 a) = a.
Proof. now destruct a as (((a0, a1), a2), a3). Qed.

(** What a back end needs to know about a block. *)
Lemma sched1 block : length block = 64%nat -> bytes_ok block ->
  let W := Spec.SHA1.schedule (map be_val (chunks 4 block)) in
  (forall t, (16 <= t < 80)%nat -> get W t =
    rotl32 (N.lxor (N.lxor (N.lxor (get W (t - 3)) (get W (t - 8))) (get W (t - 14))) (get W (t - 16))) 1) /\
  (forall i, ok4 (Wl4 W i)) /\ forall i, (i < 4)%nat -> be4 (mem16 i block) = Wl4 W i.
Proof.
  intros L O. cbv zeta.
  assert (LM : length (map be_val (chunks 4 block)) = 16%nat) by (rewrite map_length, chunks_length, L by lia; reflexivity).
  assert (HB : forall i, (i < 4)%nat -> be4 (mem16 i block) = Wl4 (Spec.SHA1.schedule (map be_val (chunks 4 block))) i).
  { intros i Hi. rewrite be4_block by assumption. unfold Wl4. now rewrite !(Proof.Sha1.sched_old _ LM) by lia. }
  split; [exact (Proof.Sha1.sched_new _ LM)|]. split; [|exact HB].
  pose proof (words_of_be_ok 4 block ltac:(lia) O) as WM. intros i.
  repeat split; now apply Proof.Sha1Checked.schedule_lt.
Qed.
Section Blocks.
  Variable W : list N.
  Variable v : vars.
  Hypothesis HW : forall t, (16 <= t < 80)%nat -> get W t =
    rotl32 (N.lxor (N.lxor (N.lxor (get W (t - 3)) (get W (t - 8))) (get W (t - 14))) (get W (t - 16))) 1.
  Hypothesis W0 : ok4 (Wl4 W 0).
  Definition A (i : nat) : v4 := abcd_of (run W 0 (4 * i) v).
  Definition E (i : nat) : N := e_of (run W 0 (4 * i) v).
  Lemma run_step i : (i < 20)%nat -> run W 0 (4 * S i) v = four W i (run W 0 (4 * i) v).
  Proof using. clear. intros Hi. replace (4 * S i)%nat with (4 * i + 4)%nat by lia.
    rewrite Proof.Sha1.run_add. cbn [Nat.add]. now apply run_four. Qed.
  Lemma E_step i : (i < 20)%nat -> E (S i) = rotl32 (lane0 (A i)) 30.
  Proof using. clear. intros Hi. unfold E. rewrite run_step by exact Hi. apply four_e. Qed.
  Lemma x_rounds4 i k : (S i < 20)%nat -> k = (S i / 5)%nat ->
    ni1_rounds4 (rev4 (A (S i))) (rev4 (A i)) (rev4 (Wl4 W (S i))) k = rev4 (A (S (S i))).
  Proof using. clear HW W0.
    intros Hi ->. unfold ni1_rounds4. rewrite nexte_half, <- E_step by lia. unfold A at 2. rewrite run_step by exact Hi.
    apply rnds4_group, Hi.
  Qed.
  Lemma x_first : sha1rnds4 (rev4 (A 0)) (add4 (0, 0, 0, E 0) (rev4 (Wl4 W 0))) 0 = rev4 (A 1).
  Proof using W0. clear HW.
    unfold A at 2. rewrite (run_step 0) by lia. rewrite <- (rnds4_group W _ 0) by lia.
    change (0 / 5)%nat with 0%nat. f_equal. destruct W0 as (?&?&?&?). unfold add4, zip4, rev4, Wl4, Model.Sha1.sha1_first_add, add32.
    now rewrite !wadd_0_l by assumption.
  Qed.
  Lemma x_schedule i : (i + 4 < 20)%nat ->
    ni1_schedule (rev4 (Wl4 W i)) (rev4 (Wl4 W (i + 1))) (rev4 (Wl4 W (i + 2))) (rev4 (Wl4 W (i + 3))) = rev4 (Wl4 W (i + 4)).
  Proof using HW. clear W0.
    intros Hi. rewrite <- (rev4_rev4 (ni1_schedule _ _ _ _)). f_equal.
    exact (next1 W HW (fun a b c d => rev4 (ni1_schedule (rev4 a) (rev4 b) (rev4 c) (rev4 d))) ni1_schedule_pure i Hi).
  Qed.
  Lemma x_sr4 i k : (i + 4 < 20)%nat -> k = ((i + 4) / 5)%nat ->
    ni1_schedule_rounds4 (rev4 (A (i + 4))) (rev4 (A (i + 3))) (rev4 (Wl4 W i)) (rev4 (Wl4 W (i + 1))) (rev4 (Wl4 W (i + 2)))
      (rev4 (Wl4 W (i + 3))) k = (rev4 (A (i + 5)), rev4 (Wl4 W (i + 4))).
  Proof using HW. clear W0.
    intros Hi ->. unfold ni1_schedule_rounds4. rewrite x_schedule by exact Hi. cbv zeta.
    replace (i + 5)%nat with (S (S (i + 3))) by lia. replace (i + 4)%nat with (S (i + 3)) by lia.
    now rewrite x_rounds4 by (reflexivity || lia).
  Qed.
End Blocks.
Definition enc_x (v : vars) : v4 * v4 := (rev4 (abcd_of v), (0, 0, 0, e_of v)).
Lemma compress1 v block : Spec.SHA1.compress v block =
  let '(a0, b0, c0, d0, e0) := v in
  let '(a, b, c, d, e) := run (Spec.SHA1.schedule (map be_val (chunks 4 block))) 0 80 v in
  (add32 a a0, add32 b b0, add32 c c0, add32 d d0, add32 e e0).
Proof. reflexivity. Qed.
Lemma ni1_block_spec v block : vok v -> length block = 64%nat -> bytes_ok block ->
  ni1_block (enc_x v) block = enc_x (Spec.SHA1.compress v block).
Proof.
  intros V L O. rewrite compress1. destruct (sched1 block L O) as (HW & W0 & HB).
  unfold ni1_block, ni1_load. unfold ni1_mask.
  rewrite !ni1_mask_be by (try apply mem16_ok; try apply mem16_length; assumption || lia).
  rewrite !HB by lia. set (W := Spec.SHA1.schedule _) in *. clearbody W. clear L O HB. unfold enc_x at 1. cbv zeta.
  change (abcd_of v) with (A W v 0). change (e_of v) with (E W v 0).
  rewrite (x_first W v (W0 0%nat)).
  rewrite (x_rounds4 W v 0 0 ltac:(lia) eq_refl), (x_rounds4 W v 1 0 ltac:(lia) eq_refl), (x_rounds4 W v 2 0 ltac:(lia) eq_refl).
  do 16 (match goal with |- context [ni1_schedule_rounds4 (rev4 (A W v _)) _ (rev4 (Wl4 W ?i)) _ _ _ ?k] =>
    let H := fresh in pose proof (x_sr4 W v HW i k ltac:(lia) eq_refl) as H; cbn [Nat.add] in H; rewrite H; clear H;
    cbv beta iota end).
  pose proof (E_step W v 19 ltac:(lia)) as G.
  destruct (A W v 19) as (((x0, x1), x2), x3). cbn [lane0] in G. unfold rev4 at 3. unfold sha1nexte. rewrite <- G. clear G.
  change (A W v 20) with (abcd_of (run W 0 80 v)). change (E W v 20) with (e_of (run W 0 80 v)).
  destruct (run W 0 80 v) as ((((a, b), c), d), e). change (A W v 0) with (abcd_of v). change (E W v 0) with (e_of v).
  destruct v as ((((a0, b0), c0), d0), e0). unfold enc_x, abcd_of, e_of, rev4, add4, zip4, add32.
  now rewrite (wadd_comm 32 a0), (wadd_comm 32 b0), (wadd_comm 32 c0), (wadd_comm 32 d0), (wadd_comm 32 e0).
Qed.
Lemma enc1_fold {S : Type} (enc : vars -> S) one blocks v : vok v ->
  (forall v b, vok v -> length b = 64%nat -> bytes_ok b -> one (enc v) b = enc (Spec.SHA1.compress v b)) ->
  Forall (fun b => length b = 64%nat /\ bytes_ok b) blocks ->
  fold_left one blocks (enc v) = enc (fold_left Spec.SHA1.compress blocks v) /\
  Model.Sha1.compress (list_of_vars v) blocks = list_of_vars (fold_left Spec.SHA1.compress blocks v).
Proof.
  intros Hv H1 Hb. unfold Model.Sha1.compress. pose proof Proof.Sha1.compress_block_spec as CB. revert CB H1.
  generalize Model.Sha1.compress_block Spec.SHA1.compress. intros soft spec CB H1. revert v Hv.
  induction Hb as [|b blocks (L & O) Hb IH]; intros v Hv; [split; reflexivity|].
  cbn [fold_left]. destruct (CB v b Hv L) as [E1 Hv']. rewrite H1, E1 by assumption. now apply IH.
Qed.
Lemma shani1 st blocks : length st = 5%nat -> words_ok 32 st ->
  Forall (fun b => length b = 64%nat /\ bytes_ok b) blocks ->
  sha1_shani st blocks = Model.Sha1.compress st blocks.
Proof.
  intros Ls Ws Hb. destruct (Proof.Sha1Loong.vars_list st Ls Ws) as (v & Hv & ->). clear Ls Ws.
  destruct (enc1_fold enc_x ni1_block blocks v Hv ni1_block_spec Hb) as [E1 E2]. rewrite E2. unfold sha1_shani. clear E2.
  set (F := fold_left ni1_block blocks) in *.
  replace (F _) with (F (enc_x v)) by now destruct v as ((((a, b), c), d), e).
  rewrite E1. now destruct (fold_left Spec.SHA1.compress blocks v) as ((((a, b), c), d), e).
Qed.

(** ** AArch64 *)
Lemma rotl_twice x : x < 2 ^ 32 -> rotl32 x 2 = rotl32 (rotl32 x 1) 1.
Proof.
  intros Hx. unfold rotl32. rewrite !rotl_rotr by lia. now rewrite rotr_rotr by (exact Hx || lia).
Qed.
Lemma arm1_schedule_pure w0 w1 w2 w3 w4 w5 w6 w7 w8 w9 w10 w11 w12 w13 w14 w15 :
  let next a b c d := rotl32 (N.lxor (N.lxor (N.lxor a b) c) d) 1 in
  ok4 (w0, w1, w2, w3) -> ok4 (w4, w5, w6, w7) -> ok4 (w8, w9, w10, w11) -> ok4 (w12, w13, w14, w15) ->
  vsha1su1 (vsha1su0 (w0, w1, w2, w3) (w4, w5, w6, w7) (w8, w9, w10, w11)) (w12, w13, w14, w15)
  = (next w13 w8 w2 w0, next w14 w9 w3 w1, next w15 w10 w4 w2, next (next w13 w8 w2 w0) w11 w5 w3).
Proof.
  cbv beta zeta. intros (?&?&?&?) (?&?&?&?) (?&?&?&?) (?&?&?&?).
  cbv beta iota zeta delta [vsha1su1 vsha1su0 xor4 zip4].
  assert (X : forall a b c d, N.lxor (N.lxor (N.lxor a b) c) d = N.lxor (N.lxor (N.lxor d c) b) a) by (intros; bitblast).
  rewrite (X w13), (X w14), (X w15), (X (rotl32 _ 1)).
  rewrite (Proof.Sha1Checked.rotl32_lxor (N.lxor (N.lxor w3 w5) w11)) by (repeat apply lxor_lt; try apply rotl_lt; repeat apply lxor_lt; assumption).
  rewrite rotl_twice by (repeat apply lxor_lt; assumption).
  assert (C : forall a b, N.lxor (N.lxor a b) w8 = N.lxor (N.lxor a b) w8) by reflexivity. clear C.
  rewrite !(N.lxor_comm w2 w0), !(N.lxor_comm w3 w1), !(N.lxor_comm w4 w2), !(N.lxor_comm w5 w3), N.lxor_0_r. reflexivity.
Qed.
Lemma arm_next W i : (forall t, (16 <= t < 80)%nat -> get W t =
    rotl32 (N.lxor (N.lxor (N.lxor (get W (t - 3)) (get W (t - 8))) (get W (t - 14))) (get W (t - 16))) 1) ->
  (forall i, ok4 (Wl4 W i)) -> (i + 4 < 20)%nat ->
  vsha1su1 (vsha1su0 (Wl4 W i) (Wl4 W (i + 1)) (Wl4 W (i + 2))) (Wl4 W (i + 3)) = Wl4 W (i + 4).
Proof.
  intros HW WW Hi.
  pose proof (WW i) as O0. pose proof (WW (i + 1)%nat) as O1. pose proof (WW (i + 2)%nat) as O2. pose proof (WW (i + 3)%nat) as O3.
  unfold Wl4 in *. rewrite arm1_schedule_pure by assumption. cbv beta zeta.
  rewrite (HW (4 * (i + 4) + 3)%nat) by lia. replace (4 * (i + 4) + 3 - 3)%nat with (4 * (i + 4))%nat by lia.
  rewrite (HW (4 * (i + 4))%nat), (HW (4 * (i + 4) + 1)%nat), (HW (4 * (i + 4) + 2)%nat) by lia.
  repeat match goal with |- context [get W (?a - ?b)] => progress (
    first [replace (a - b)%nat with (4 * i)%nat by lia | replace (a - b)%nat with (4 * i + 1)%nat by lia
    | replace (a - b)%nat with (4 * i + 2)%nat by lia | replace (a - b)%nat with (4 * i + 3)%nat by lia
    | replace (a - b)%nat with (4 * (i + 1))%nat by lia | replace (a - b)%nat with (4 * (i + 1) + 1)%nat by lia
    | replace (a - b)%nat with (4 * (i + 2))%nat by lia | replace (a - b)%nat with (4 * (i + 2) + 1)%nat by lia
    | replace (a - b)%nat with (4 * (i + 2) + 2)%nat by lia | replace (a - b)%nat with (4 * (i + 2) + 3)%nat by lia
    | replace (a - b)%nat with (4 * (i + 3) + 1)%nat by lia
    | replace (a - b)%nat with (4 * (i + 3) + 2)%nat by lia | replace (a - b)%nat with (4 * (i + 3) + 3)%nat by lia ]) end.
  reflexivity.
Qed.
Definition aop (j : nat) : v4 -> N -> v4 -> v4 := nth j [vsha1c; vsha1p; vsha1m; vsha1p] vsha1p.
Definition afn (j : nat) : N -> N -> N -> N := nth j [SHAchoose; SHAparity; SHAmajority; SHAparity] SHAparity.
Lemma afn_ok j b c d : (j < 4)%nat -> d < 2 ^ 32 -> afn j b c d = fm j b c d.
Proof.
  intros Hj Hd. destruct j as [|[|[|[|j]]]]; [|reflexivity| |reflexivity|lia].
  - cbn [afn fm nth]. rewrite <- Proof.Sha1.ch_ok by exact Hd. unfold SHAchoose, Model.Sha1.bool3ary_202.
    now rewrite N.lxor_comm, N.land_comm.
  - cbn [afn fm nth]. unfold SHAmajority, Spec.SHA1.Maj. apply N.bits_inj. intros i.
    rewrite !N.lor_spec, !N.lxor_spec, !N.land_spec, !N.lor_spec.
    destruct (N.testbit b i), (N.testbit c i), (N.testbit d i); reflexivity.
Qed.
Lemma astep v j k w : (j < 4)%nat -> vok v ->
  sha1_step (afn j) (abcd_of v, e_of v) (add32 w k) = (abcd_of (round v (fm j) k w), e_of (round v (fm j) k w)).
Proof.
  intros Hj V. destruct v as ((((a, b), c), d), e). destruct V as (_ & _ & _ & Hd & _).
  unfold abcd_of, e_of, sha1_step, round. rewrite afn_ok by assumption. generalize (fm j b c d) (rotl32 a 5). intros.
  tuple_eq; try reflexivity; wadd_ac.
Qed.
Lemma aop_group W v i : (i < 20)%nat -> vok v ->
  aop (i / 5) (abcd_of v) (e_of v) (add4 (Wl4 W i) (arm1_k (i / 5))) = abcd_of (four W i v).
Proof.
  intros Hi V. unfold four, Wl4, arm1_k, dup4. pose proof (idx5 i Hi) as Hj. revert Hj. generalize (i / 5)%nat. intros j Hj.
  generalize (get W (4 * i)) (get W (4 * i + 1)) (get W (4 * i + 2)) (get W (4 * i + 3)) (get K j). intros w0 w1 w2 w3 k.
  cbv zeta. replace (aop j) with (sha1_hash (afn j)) by (clear - Hj; destruct j as [|[|[|[|j]]]]; [reflexivity..|lia]).
  unfold sha1_hash, add4, zip4, list_of_v4. cbn [fold_left].
  rewrite !astep by (repeat apply Proof.Sha1.round_ok; assumption). reflexivity.
Qed.
Section Arm.
  Variable W : list N.
  Variable v : vars.
  Hypothesis HW : forall t, (16 <= t < 80)%nat -> get W t =
    rotl32 (N.lxor (N.lxor (N.lxor (get W (t - 3)) (get W (t - 8))) (get W (t - 14))) (get W (t - 16))) 1.
  Hypothesis WW : forall i, ok4 (Wl4 W i).
  Hypothesis V : vok v.
  Lemma a_group i : (i < 20)%nat -> aop (i / 5) (A W v i) (E W v i) (add4 (Wl4 W i) (arm1_k (i / 5))) = A W v (S i).
  Proof using V. clear HW WW. intros Hi. unfold A at 2. rewrite run_step by exact Hi. apply aop_group; [exact Hi|].
    now apply Proof.Sha1.run_ok. Qed.
  Lemma a_e i : (i < 20)%nat -> vsha1h (lane0 (A W v i)) = E W v (S i).
  Proof using. clear. intros Hi. now rewrite E_step. Qed.
  Ltac settle a b r a' pf := let H := fresh in assert (H : a = a') by pf; change (b a = r); rewrite H; clear H; cbv beta.
  Ltac one := match goal with |- (let x := ?a in @?b x) = ?r =>
    lazymatch a with
    | vsha1h (lane0 (A W v ?i)) => settle a b r (E W v (S i)) ltac:(exact (a_e i ltac:(lia)))
    | vsha1su1 (vsha1su0 (Wl4 W ?i) _ _) _ => settle a b r (Wl4 W (S (S (S (S i))))) ltac:(exact (arm_next W i HW WW ltac:(lia)))
    | _ (A W v ?i) _ _ => settle a b r (A W v (S i)) ltac:(exact (a_group i ltac:(lia)))
    | _ => change (b a = r); cbv beta
    end end.
  Lemma arm1_rounds_spec : arm1_rounds (A W v 0) (E W v 0) (Wl4 W 0) (Wl4 W 1) (Wl4 W 2) (Wl4 W 3) = (A W v 20, E W v 20).
  Proof using HW WW V.
    cbv beta delta [arm1_rounds]. repeat one. reflexivity.
  Qed.
End Arm.
Definition enc_a (v : vars) : v4 * N := (abcd_of v, e_of v).
Lemma arm1_block_spec v block : vok v -> length block = 64%nat -> bytes_ok block ->
  arm1_block (enc_a v) block = enc_a (Spec.SHA1.compress v block).
Proof.
  intros V L O. rewrite compress1. destruct (sched1 block L O) as (HW & WW & HB).
  unfold arm1_block, arm1_load. rewrite !vrev32_be by (apply mem16_length; lia).
  rewrite !HB by lia. set (W := Spec.SHA1.schedule _) in *. clearbody W. clear L O HB. unfold enc_a at 1.
  pose proof (arm1_rounds_spec W v HW WW V) as R.
  change (A W v 0) with (abcd_of v) in R. change (E W v 0) with (e_of v) in R. cbv beta iota. rewrite R. clear R.
  change (A W v 20) with (abcd_of (run W 0 80 v)). change (E W v 20) with (e_of (run W 0 80 v)).
  destruct (run W 0 80 v) as ((((a, b), c), d), e).
  destruct v as ((((a0, b0), c0), d0), e0). unfold enc_a, abcd_of, e_of, add4, zip4, add32.
  now rewrite (wadd_comm 32 a0), (wadd_comm 32 b0), (wadd_comm 32 c0), (wadd_comm 32 d0).
Qed.
Lemma arm1 st blocks : length st = 5%nat -> words_ok 32 st ->
  Forall (fun b => length b = 64%nat /\ bytes_ok b) blocks ->
  sha1_arm st blocks = Model.Sha1.compress st blocks.
Proof.
  intros Ls Ws Hb. destruct (Proof.Sha1Loong.vars_list st Ls Ws) as (v & Hv & ->). clear Ls Ws.
  destruct (enc1_fold enc_a arm1_block blocks v Hv arm1_block_spec Hb) as [E1 E2]. rewrite E2. unfold sha1_arm. clear E2.
  set (F := fold_left arm1_block blocks) in *.
  replace (F _) with (F (enc_a v)) by now destruct v as ((((a, b), c), d), e).
  rewrite E1. now destruct (fold_left Spec.SHA1.compress blocks v) as ((((a, b), c), d), e).
Qed.
