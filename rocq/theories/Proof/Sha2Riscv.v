(** The RISC-V back ends compute the FIPS 180-4 compression functions. *)
From Verif Require Import Base.Words Base.Bytes Base.Codec Spec.Memory Model.Sha2Consts Model.Sha2Riscv
  Proof.Sha2Spec Proof.Sha2Roll Proof.Loads.
From Verif Require Spec.SHA2 Model.Sha256Soft Model.Sha512Soft Proof.Sha256Soft Proof.Sha512Soft.
Import Spec.SHA2 (params, vars, vars_of_list, list_of_vars, round, p_K, p_w, p_s0, p_s1, p_S0, p_S1, p_rounds,
  sha256_params, sha512_params).

Section Rounds.
  Variable P : params.
  Variables sum0 sum1 sig0 sig1 : N -> N.
  Notation w := (p_w P).
  Hypothesis Hsum0 : forall x, x < 2 ^ w -> sum0 x = p_S0 P x.
  Hypothesis Hsum1 : forall x, x < 2 ^ w -> sum1 x = p_S1 P x.
  Hypothesis Hsig0 : forall x, x < 2 ^ w -> sig0 x = p_s0 P x.
  Hypothesis Hsig1 : forall x, x < 2 ^ w -> sig1 x = p_s1 P x.
  Notation K := (p_K P).
  Variable passes : nat.
  Hypothesis HR : p_rounds P = (16 * passes + 16)%nat.
  Hypothesis HK : length K = p_rounds P.

  Lemma round_lay r kr br v : (r <= length K)%nat -> vars_ok P v ->
    round_with w sum0 sum1 K r kr br (lay r v) = lay (S r) (round P v kr br).
  Proof using Hsum0 Hsum1 HR HK. clear Hsig0 Hsig1 sig0 sig1.
    intros Hr Hv. unfold round_with.
    assert (H8 : (length K mod 8 = 0)%nat).
    { rewrite HK, HR. replace (16 * passes + 16)%nat with ((2 * passes + 2) * 8)%nat by lia. apply Nat.mod_mul. lia. }
    rewrite !(rot_index (length K) r) by assumption.
    rewrite (lay_mod r), (lay_mod (S r)).
    replace (S r mod 8)%nat with (S (r mod 8) mod 8)%nat
      by (rewrite <- !(Nat.add_1_r), Nat.add_mod_idemp_l; lia).
    pose proof (Nat.mod_upper_bound r 8 ltac:(lia)) as B.
    set (s := (r mod 8)%nat) in *. clearbody s. clear Hr H8 r.
    destruct v as (((((((a, b), c), d), e), f), g), h). destruct Hv as (Ha&Hb&Hc&Hd&He&Hf&Hg&Hh).
    unfold round. rewrite <- (Hsum0 a Ha), <- (Hsum1 e He).
    change (Spec.SHA2.Maj a b c) with (maj a b c). change (Spec.SHA2.Ch w e f g) with (ch w e f g).
    set (t := wadd w (wadd w (wadd w (wadd w h (sum1 e)) (ch w e f g)) kr) br).
    assert (E : wadd w t (wadd w (sum0 a) (maj a b c)) = wadd w (wadd w t (sum0 a)) (maj a b c)) by wadd_ac.
    rewrite E.
    do 8 (destruct s as [|s];
      [cbn [lay map seq Nat.add Nat.sub Nat.modulo Nat.divmod fst snd get nth list_of_vars upd];
       fold t; reflexivity|]).
    lia.
  Qed.

  Section Sched.
    Variable W : list N.
    Hypothesis HW : forall t, (16 <= t < p_rounds P)%nat -> get W t =
      wadd w (wadd w (wadd w (p_s1 P (get W (t - 2))) (get W (t - 7))) (p_s0 P (get W (t - 15)))) (get W (t - 16)).
    Hypothesis Wok : forall t, (t < p_rounds P)%nat -> get W t < 2 ^ w.

    Lemma mod_add_idem r k : ((r + k) mod 16 = (r mod 16 + k) mod 16)%nat.
    Proof using. clear. rewrite Nat.add_mod_idemp_l; lia. Qed.
    Lemma schedule_window r blk : (r + 16 < p_rounds P)%nat -> window W r (r + 16) blk ->
      window W (S r) (S r + 16) (schedule_at w sig0 sig1 r blk).
    Proof using Hsig0 Hsig1 HW Wok. clear HR HK passes.
      intros Hr Hw. unfold schedule_at.
      pose proof (window_get W r (r + 16) blk) as G.
      rewrite (G r Hw), (G (r + 14)%nat Hw), (G (r + 9)%nat Hw), (G (r + 1)%nat Hw) by lia.
      rewrite (Hsig0 (get W (r + 1))), (Hsig1 (get W (r + 14))) by (apply Wok; lia).
      assert (E : (r mod 16 = (r + 16) mod 16)%nat).
      { replace (r + 16)%nat with (r + 1 * 16)%nat by lia. symmetry. apply Nat.mod_add. lia. }
      rewrite E. change (S r + 16)%nat with (S (r + 16)).
      apply window_upd; [apply (window_weaken W r); [exact Hw|lia]|lia|].
      rewrite (HW (r + 16)) by lia.
      replace (r + 16 - 2)%nat with (r + 14)%nat by lia. replace (r + 16 - 7)%nat with (r + 9)%nat by lia.
      replace (r + 16 - 15)%nat with (r + 1)%nat by lia. replace (r + 16 - 16)%nat with r by lia.
      wadd_ac.
    Qed.

    Lemma run_S n v : run_rounds P W 0 (S n) v = round P (run_rounds P W 0 n v) (get K n) (get W n).
    Proof using. unfold run_rounds. now rewrite seq_S, fold_left_app. Qed.

    (** The compact loop. *)
    Definition compact_step : list N * list N -> nat -> list N * list N := fun '(s, b) r =>
      let s := round_c w sum0 sum1 K s b r in
      (s, if (r <? 16 * passes)%nat then schedule_at w sig0 sig1 r b else b).
    Lemma compact_run v M n : vars_ok P v -> window W 0 16 M -> (n <= 16 * passes + 16)%nat ->
      let sb := fold_left compact_step (seq 0 n) (lay 0 v, M) in
      fst sb = lay n (run_rounds P W 0 n v) /\
      window W (Nat.min n (16 * passes)) (Nat.min n (16 * passes) + 16) (snd sb).
    Proof using Hsum0 Hsum1 Hsig0 Hsig1 HR HK HW Wok.
      intros Hv HM. induction n as [|n IH]; intros Hn; cbv zeta; [split; [reflexivity|exact HM]|].
      rewrite seq_S, fold_left_app. cbn [Nat.add].
      specialize (IH ltac:(lia)). cbv zeta in IH. destruct (fold_left _ (seq 0 n) _) as [s b].
      cbn [fst snd] in IH. destruct IH as [-> Hb]. cbn [fold_left compact_step fst snd].
      unfold round_c. split.
      - rewrite (window_get W _ _ b n Hb) by lia.
        rewrite round_lay; [|lia|now apply run_rounds_ok]. now rewrite run_S.
      - destruct (Nat.ltb_spec n (16 * passes)) as [L|L].
        + rewrite (Nat.min_l n) in Hb by lia. rewrite (Nat.min_l (S n)) by lia.
          apply schedule_window; [lia|exact Hb].
        + rewrite (Nat.min_r n) in Hb by lia. rewrite (Nat.min_r (S n)) by lia. exact Hb.
    Qed.

    (** The unrolled passes. *)
    Lemma skipn_get i R l : get (skipn i l) R = get l (i + R).
    Proof using.
      clear. unfold get. revert l; induction i as [|i IH]; intros l; [reflexivity|].
      destruct l; cbn [skipn]; [now rewrite !nth_overflow by (cbn; lia)|apply IH].
    Qed.
    Lemma lay_congr r r' v : (r mod 8 = r' mod 8)%nat -> lay r v = lay r' v.
    Proof using. intros H. now rewrite lay_mod, H, <- lay_mod. Qed.
    Lemma schedule_at_congr i R b : schedule_at w sig0 sig1 R b = schedule_at w sig0 sig1 (16 * i + R) b.
    Proof using.
      clear. unfold schedule_at.
      assert (E : forall k, ((16 * i + R + k) mod 16 = (R + k) mod 16)%nat).
      { intros k. replace (16 * i + R + k)%nat with (R + k + i * 16)%nat by lia. apply Nat.mod_add. lia. }
      rewrite !E. replace (16 * i + R)%nat with (16 * i + R + 0)%nat by lia. rewrite E.
      now rewrite Nat.add_0_r.
    Qed.
    Lemma round_u_step i R blk v : (R < 16)%nat -> (i <= passes)%nat -> vars_ok P v ->
      get blk R = get W (16 * i + R) ->
      round_u w sum0 sum1 K R (skipn (16 * i) K) (lay R v) blk
      = lay (S R) (round P v (get K (16 * i + R)) (get W (16 * i + R))).
    Proof using Hsum0 Hsum1 HR HK. clear Hsig0 Hsig1 sig0 sig1 HW Wok.
      intros HRr Hi Hv Hb. unfold round_u. rewrite skipn_get, Hb. apply round_lay; [lia|exact Hv].
    Qed.
    Lemma pass_run i v b m : vars_ok P v -> (i < passes)%nat -> (m <= 16)%nat ->
      window W (16 * i) (16 * i + 16) b ->
      let sb := fold_left (fun sb R => round_schedule_u w sum0 sum1 sig0 sig1 K R (skipn (16 * i) K) sb) (seq 0 m) (lay 0 v, b) in
      fst sb = lay m (run_rounds P W (16 * i) m v) /\ window W (16 * i + m) (16 * i + m + 16) (snd sb).
    Proof using Hsum0 Hsum1 Hsig0 Hsig1 HR HK HW Wok.
      intros Hv Hi Hm Hb. induction m as [|m IH]; cbv zeta.
      { split; [reflexivity|]. rewrite Nat.add_0_r. exact Hb. }
      rewrite seq_S, fold_left_app. cbn [Nat.add].
      specialize (IH ltac:(lia)). cbv zeta in IH. destruct (fold_left _ (seq 0 m) _) as [s b'].
      cbn [fst snd] in IH. destruct IH as [-> Hb']. cbn [fold_left round_schedule_u fst snd]. split.
      - rewrite (round_u_step i m); try lia.
        + unfold run_rounds. now rewrite seq_S, fold_left_app.
        + now apply run_rounds_ok.
        + pose proof (window_get W _ _ b' (16 * i + m) Hb' ltac:(lia)) as G.
          replace ((16 * i + m) mod 16)%nat with m in G; [exact G|].
          replace (16 * i + m)%nat with (m + i * 16)%nat by lia. rewrite Nat.mod_add by lia. symmetry. apply Nat.mod_small. lia.
      - rewrite (schedule_at_congr i). replace (16 * i + S m)%nat with (S (16 * i + m)) by lia.
        apply schedule_window; [lia|exact Hb'].
    Qed.
    Lemma passes_run v M n : vars_ok P v -> window W 0 16 M -> (n <= passes)%nat ->
      let sb := fold_left (fun sb i => let k := skipn (16 * i) K in
        fold_left (fun sb R => round_schedule_u w sum0 sum1 sig0 sig1 K R k sb) (seq 0 16) sb) (seq 0 n) (lay 0 v, M) in
      fst sb = lay 0 (run_rounds P W 0 (16 * n) v) /\ window W (16 * n) (16 * n + 16) (snd sb).
    Proof using Hsum0 Hsum1 Hsig0 Hsig1 HR HK HW Wok.
      intros Hv HM. induction n as [|n IH]; intros Hn; cbv zeta; [split; [reflexivity|exact HM]|].
      rewrite (seq_S n), fold_left_app. cbn [Nat.add].
      specialize (IH ltac:(lia)). cbv zeta in IH. destruct (fold_left _ (seq 0 n) _) as [s b].
      cbn [fst snd] in IH. destruct IH as [-> Hb].
      pose proof (pass_run n (run_rounds P W 0 (16 * n) v) b 16 ltac:(now apply run_rounds_ok) ltac:(lia) (le_n 16) Hb) as Q.
      cbv zeta in Q. cbn [fold_left]. destruct Q as [Q1 Q2]. split.
      - cbn [fold_left] in Q1. rewrite Q1. replace (16 * S n)%nat with (16 * n + 16)%nat by lia.
        rewrite run_rounds_add. apply lay_congr. reflexivity.
      - replace (16 * S n)%nat with (16 * n + 16)%nat by lia. exact Q2.
    Qed.
    Lemma last_run v b m : vars_ok P v -> (m <= 16)%nat -> window W (16 * passes) (16 * passes + 16) b ->
      fold_left (fun s R => round_u w sum0 sum1 K R (skipn (16 * passes) K) s b) (seq 0 m) (lay 0 v)
      = lay m (run_rounds P W (16 * passes) m v).
    Proof using Hsum0 Hsum1 HR HK. clear Hsig0 Hsig1 sig0 sig1 HW Wok.
      intros Hv Hm Hb. induction m as [|m IH]; [reflexivity|].
      rewrite seq_S, fold_left_app, IH by lia. cbn [fold_left Nat.add].
      rewrite (round_u_step passes m); try lia.
      - unfold run_rounds. now rewrite seq_S, fold_left_app.
      - now apply run_rounds_ok.
      - pose proof (window_get W _ _ b (16 * passes + m) Hb ltac:(lia)) as G.
        replace ((16 * passes + m) mod 16)%nat with m in G; [exact G|].
        replace (16 * passes + m)%nat with (m + passes * 16)%nat by lia.
        rewrite Nat.mod_add by lia. symmetry. apply Nat.mod_small. lia.
    Qed.
  End Sched.

  Definition add_vars (st : list N) (v : vars) : list N :=
    map (fun i => wadd w (get st i) (get (list_of_vars v) i)) (seq 0 8).

  Lemma schedule_ok M : length M = 16%nat -> words_ok w M -> words_ok w (Spec.SHA2.schedule P M).
  Proof using.
    clear. intros _. unfold Spec.SHA2.schedule. generalize (p_rounds P - 16)%nat. intros n. revert M.
    induction n as [|n IH]; intros M H; [exact H|]. cbn [Spec.SHA2.extend]. apply IH.
    apply Forall_app. split; [exact H|]. repeat constructor. unfold Spec.SHA2.next_w. apply wadd_lt.
  Qed.

  Lemma schedule_get M : length M = 16%nat -> words_ok w M -> forall t, (t < p_rounds P)%nat -> get (Spec.SHA2.schedule P M) t < 2 ^ w.
  Proof using HR.
    clear HK. intros LM WM t Ht. apply get_in; [now apply schedule_ok|]. unfold Spec.SHA2.schedule. rewrite extend_length, LM. lia.
  Qed.

  Lemma compact_spec st M : length st = 8%nat -> words_ok w st -> length M = 16%nat -> words_ok w M ->
    compress_block_c w sum0 sum1 sig0 sig1 K passes st M
    = add_vars st (Spec.SHA2.rounds P (Spec.SHA2.schedule P M) (vars_of_list st)).
  Proof using Hsum0 Hsum1 Hsig0 Hsig1 HR HK.
    intros Ls Ws LM WM. unfold compress_block_c.
    pose proof (compact_run (Spec.SHA2.schedule P M) (sched_new P M LM) (schedule_get M LM WM) (vars_of_list st) M
      (16 * passes + 16) ltac:(now apply vars_of_list_ok)
      (window_start _ M LM (sched_old P M LM)) (le_n _)) as Q. cbv zeta in Q.
    change (lay 0 (vars_of_list st)) with (lay (8 * 0) (vars_of_list st)) in Q.
    rewrite lay_full, (list_of_vars_of_list st Ls) in Q. unfold compact_step in Q.
    destruct (fold_left _ _ (st, M)) as [s b]. cbn [fst snd] in Q. destruct Q as [-> _].
    replace (lay (16 * passes + 16)) with (lay (8 * (2 * passes + 2))) by (f_equal; lia).
    rewrite lay_full. unfold add_vars. rewrite rounds_run, HR. reflexivity.
  Qed.
  Lemma unrolled_spec st M : length st = 8%nat -> words_ok w st -> length M = 16%nat -> words_ok w M ->
    compress_block_u w sum0 sum1 sig0 sig1 K passes st M
    = add_vars st (Spec.SHA2.rounds P (Spec.SHA2.schedule P M) (vars_of_list st)).
  Proof using Hsum0 Hsum1 Hsig0 Hsig1 HR HK.
    intros Ls Ws LM WM. unfold compress_block_u. set (W := Spec.SHA2.schedule P M).
    pose proof (passes_run W (sched_new P M LM) (schedule_get M LM WM) (vars_of_list st) M
      passes ltac:(now apply vars_of_list_ok)
      (window_start _ M LM (sched_old P M LM)) (le_n _)) as Q. cbv zeta in Q.
    change (lay 0 (vars_of_list st)) with (lay (8 * 0) (vars_of_list st)) in Q.
    rewrite lay_full, (list_of_vars_of_list st Ls) in Q. cbv zeta.
    destruct (fold_left _ (seq 0 passes) (st, M)) as [s b]. cbn [fst snd] in Q. destruct Q as [-> Hb].
    rewrite (last_run W); [|apply run_rounds_ok; now apply vars_of_list_ok|lia|exact Hb].
    change (lay 16) with (lay (8 * 2)). rewrite lay_full. unfold add_vars.
    rewrite rounds_run, HR. now rewrite run_rounds_add.
  Qed.
  Lemma add_vars_compress st block : length st = 8%nat ->
    let M := map be_val (chunks (N.to_nat (w / 8)) block) in
    add_vars st (Spec.SHA2.rounds P (Spec.SHA2.schedule P M) (vars_of_list st))
    = list_of_vars (Spec.SHA2.compress P (vars_of_list st) block).
  Proof using.
    clear. intros Ls M. unfold Spec.SHA2.compress. fold M.
    do 9 (destruct st as [|? st]; cbn in Ls; try lia). cbn [vars_of_list get nth].
    destruct (Spec.SHA2.rounds P _ _) as (((((((a, b), c), d), e), f), g), h).
    cbn. rewrite (wadd_comm w a), (wadd_comm w b), (wadd_comm w c), (wadd_comm w d),
      (wadd_comm w e), (wadd_comm w f), (wadd_comm w g), (wadd_comm w h). reflexivity.
  Qed.
End Rounds.

(** ** The RV32 instruction pairs *)
Lemma hi_bit x i : x < 2 ^ 64 -> N.testbit (hi32 x) i = (i <? 32) && N.testbit x (i + 32).
Proof. intros H. unfold hi32. now rewrite testbit_mod_pow2, testbit_shiftr. Qed.
Lemma lo_bit x i : N.testbit (lo32 x) i = (i <? 32) && N.testbit x i.
Proof. unfold lo32. now rewrite testbit_mod_pow2. Qed.
Lemma join_bit a b i : b < 2 ^ 32 -> i < 64 ->
  N.testbit (join a b) i = if i <? 32 then N.testbit b i else N.testbit a (i - 32).
Proof.
  intros Hb Hi. unfold join. rewrite N.lor_spec, testbit_wshl.
  destruct (N.ltb_spec i 32) as [L|L].
  - replace (32 <=? i) with false by (symmetry; apply N.leb_gt; lia). now rewrite andb_false_r.
  - replace (32 <=? i) with true by (symmetry; apply N.leb_le; lia).
    replace (i <? 64) with true by (symmetry; apply N.ltb_lt; lia).
    rewrite (proj1 (lt_pow2_bits b 32) Hb i L). cbn. apply orb_false_r.
Qed.
Lemma join_lt a b : b < 2 ^ 32 -> join a b < 2 ^ 64.
Proof. intros H. unfold join. apply lor_lt; [apply wshl_lt|]. eapply N.lt_trans; [exact H|reflexivity]. Qed.
Lemma shr64_bit x n i : x < 2 ^ 64 -> N.testbit (N.shiftr x n) i = (i + n <? 64) && N.testbit x (i + n).
Proof.
  intros Hx. rewrite testbit_shiftr. destruct (N.ltb_spec (i + n) 64) as [L|L]; [reflexivity|].
  now apply (proj1 (lt_pow2_bits x 64) Hx).
Qed.
Lemma below_64 i : i < 64 -> In i (map N.of_nat (seq 0 64)).
Proof. intros H. rewrite <- (N2Nat.id i). apply in_map, in_seq. lia. Qed.
Ltac bits64 := cbv - [N.testbit xorb];
  repeat match goal with |- context [N.testbit ?x ?i] => generalize (N.testbit x i); intro end;
  repeat match goal with b : bool |- _ => destruct b; try reflexivity end.
Ltac halves x Hx :=
  apply (word_ext 64);
  [apply join_lt; repeat (apply lxor_lt || apply wshl_lt || apply shiftr_lt); apply N.mod_lt; discriminate
  |repeat (apply lxor_lt || apply (rotr_lt 64) || apply shiftr_lt); exact Hx|];
  let i := fresh "i" in let Hi := fresh "Hi" in intros i Hi;
  rewrite join_bit; [|repeat (apply lxor_lt || apply wshl_lt || apply shiftr_lt); apply N.mod_lt; discriminate|exact Hi];
  rewrite !N.lxor_spec, ?(shr64_bit x _ _ Hx), !testbit_shiftr, !testbit_wshl, !(hi_bit x _ Hx), !lo_bit;
  rewrite ?(testbit_rotr 64 x _ i Hx) by (reflexivity || exact Hi);
  apply below_64 in Hi; clear Hx; cbn [map seq In] in Hi;
  repeat (destruct Hi as [<-|Hi]; [bits64|]); destruct Hi.

Notation P5 := sha512_params.
Lemma rv32_sum0 x : x < 2 ^ 64 -> rv32_sha512sum0 x = p_S0 P5 x.
Proof. intros Hx. unfold rv32_sha512sum0, sha512sum0r, p_S0, P5, Spec.SHA2.xor3. halves x Hx. Qed.
Lemma rv32_sum1 x : x < 2 ^ 64 -> rv32_sha512sum1 x = p_S1 P5 x.
Proof. intros Hx. unfold rv32_sha512sum1, sha512sum1r, p_S1, P5, Spec.SHA2.xor3. halves x Hx. Qed.
Lemma rv32_sig0 x : x < 2 ^ 64 -> rv32_sha512sig0 x = p_s0 P5 x.
Proof. intros Hx. unfold rv32_sha512sig0, sha512sig0h, sha512sig0l, p_s0, P5, Spec.SHA2.xor3. halves x Hx. Qed.
Lemma rv32_sig1 x : x < 2 ^ 64 -> rv32_sha512sig1 x = p_s1 P5 x.
Proof. intros Hx. unfold rv32_sha512sig1, sha512sig1h, sha512sig1l, p_s1, P5, Spec.SHA2.xor3. halves x Hx. Qed.

(** ** Whole calls *)
Lemma K256_len : length (p_K sha256_params) = p_rounds sha256_params.
Proof. now rewrite Proof.Sha256Soft.K32_ok. Qed.
Lemma K512_len : length (p_K sha512_params) = p_rounds sha512_params.
Proof. now rewrite Proof.Sha512Soft.K64_ok. Qed.

Lemma compress_with_spec P load one k bs soft :
  (forall pre block post mem, surrounds k pre block post mem -> bytes_ok mem -> length block = bs ->
    load (length pre) mem = map be_val (chunks (N.to_nat (p_w P / 8)) block)) ->
  (0 < N.to_nat (p_w P / 8))%nat -> (bs / N.to_nat (p_w P / 8) = 16)%nat -> 8 * N.of_nat (N.to_nat (p_w P / 8)) = p_w P ->
  (forall st M, length st = 8%nat -> words_ok (p_w P) st -> length M = 16%nat -> words_ok (p_w P) M ->
    one st M = add_vars P st (Spec.SHA2.rounds P (Spec.SHA2.schedule P M) (vars_of_list st))) ->
  (forall st block, length st = 8%nat -> words_ok (p_w P) st -> length block = bs ->
    soft st block = list_of_vars (Spec.SHA2.compress P (vars_of_list st) block)) ->
  forall placed blocks st, Forall2 (in_memory k) placed blocks ->
  Forall (fun b => length b = bs) blocks -> length st = 8%nat -> words_ok (p_w P) st ->
  compress_with load one st placed = fold_left soft blocks st.
Proof.
  intros Hload Hk Hbs Hw Hone Hsoft placed blocks st H. unfold compress_with.
  revert st. induction H as [|[off mem] block placed blocks (pre & post & Ho & Hs & Hm) H IH]; intros st Hb Ls Ws; [reflexivity|].
  cbn [fst snd] in Ho, Hs, Hm. subst off. inversion_clear Hb.
  cbn [fold_left]. rewrite (Hload pre block post mem) by assumption.
  assert (LM : length (map be_val (chunks (N.to_nat (p_w P / 8)) block)) = 16%nat).
  { rewrite map_length, chunks_length by assumption. rewrite H0. exact Hbs. }
  rewrite Hone; [|assumption..|].
  2:{ rewrite <- Hw at 1. apply words_of_be_ok; [exact Hk|]. now apply (surrounds_ok k pre block post mem). }
  rewrite add_vars_compress by exact Ls. rewrite <- Hsoft by assumption.
  apply IH; [assumption| |].
  - rewrite Hsoft by assumption.
    now destruct (Spec.SHA2.compress P (vars_of_list st) block) as (((((((a, b), c), d), e), f), g), h).
  - rewrite Hsoft by assumption. apply list_of_vars_ok, compress_ok, vars_of_list_ok; assumption.
Qed.

Lemma zknh256 placed blocks st : Forall2 (in_memory 4) placed blocks ->
  Forall (fun b => length b = 64%nat) blocks -> length st = 8%nat -> words_ok 32 st ->
  sha256_zknh st placed = Sha256Soft.compress st blocks.
Proof.
  unfold sha256_zknh, Sha256Soft.compress. rewrite <- Proof.Sha256Soft.K32_ok.
  apply (compress_with_spec sha256_params); try reflexivity; [|vm_compute; lia| |].
  - intros. now apply (load256_spec pre block post).
  - intros. apply (unrolled_spec sha256_params); try assumption; [reflexivity|reflexivity|reflexivity|reflexivity|reflexivity|exact K256_len].
  - apply Proof.Sha256Soft.compress_block_spec.
Qed.
Lemma zknh256_compact placed blocks st : Forall2 (in_memory 4) placed blocks ->
  Forall (fun b => length b = 64%nat) blocks -> length st = 8%nat -> words_ok 32 st ->
  sha256_zknh_compact st placed = Sha256Soft.compress st blocks.
Proof.
  unfold sha256_zknh_compact, Sha256Soft.compress. rewrite <- Proof.Sha256Soft.K32_ok.
  apply (compress_with_spec sha256_params); try reflexivity; [|vm_compute; lia| |].
  - intros. now apply (load256_spec pre block post).
  - intros. apply (compact_spec sha256_params); try assumption; [reflexivity|reflexivity|reflexivity|reflexivity|reflexivity|exact K256_len].
  - apply Proof.Sha256Soft.compress_block_spec.
Qed.
Lemma zknh512_rv64 placed blocks st : Forall2 (in_memory 8) placed blocks ->
  Forall (fun b => length b = 128%nat) blocks -> length st = 8%nat -> words_ok 64 st ->
  sha512_zknh_rv64 st placed = Sha512Soft.compress st blocks.
Proof.
  unfold sha512_zknh_rv64, Sha512Soft.compress. rewrite <- Proof.Sha512Soft.K64_ok.
  apply (compress_with_spec sha512_params); try reflexivity; [|vm_compute; lia| |].
  - intros. now apply (rv64_load512_spec pre block post).
  - intros. apply (unrolled_spec sha512_params); try assumption; [reflexivity|reflexivity|reflexivity|reflexivity|reflexivity|exact K512_len].
  - apply Proof.Sha512Soft.compress_block_spec.
Qed.
Lemma zknh512_rv32 placed blocks st : Forall2 (in_memory 4) placed blocks ->
  Forall (fun b => length b = 128%nat) blocks -> length st = 8%nat -> words_ok 64 st ->
  sha512_zknh_rv32 st placed = Sha512Soft.compress st blocks.
Proof.
  unfold sha512_zknh_rv32, Sha512Soft.compress. rewrite <- Proof.Sha512Soft.K64_ok.
  apply (compress_with_spec sha512_params); try reflexivity; [|vm_compute; lia| |].
  - intros. now apply (rv32_load512_spec pre block post).
  - intros. apply (unrolled_spec sha512_params); try assumption;
      [exact rv32_sum0|exact rv32_sum1|exact rv32_sig0|exact rv32_sig1|reflexivity|exact K512_len].
  - apply Proof.Sha512Soft.compress_block_spec.
Qed.
Lemma zknh512_compact_rv64 placed blocks st : Forall2 (in_memory 8) placed blocks ->
  Forall (fun b => length b = 128%nat) blocks -> length st = 8%nat -> words_ok 64 st ->
  sha512_zknh_compact_rv64 st placed = Sha512Soft.compress st blocks.
Proof.
  unfold sha512_zknh_compact_rv64, Sha512Soft.compress. rewrite <- Proof.Sha512Soft.K64_ok.
  apply (compress_with_spec sha512_params); try reflexivity; [|vm_compute; lia| |].
  - intros. now apply (rv64_load512_spec pre block post).
  - intros. apply (compact_spec sha512_params); try assumption; [reflexivity|reflexivity|reflexivity|reflexivity|reflexivity|exact K512_len].
  - apply Proof.Sha512Soft.compress_block_spec.
Qed.
Lemma zknh512_compact_rv32 placed blocks st : Forall2 (in_memory 4) placed blocks ->
  Forall (fun b => length b = 128%nat) blocks -> length st = 8%nat -> words_ok 64 st ->
  sha512_zknh_compact_rv32 st placed = Sha512Soft.compress st blocks.
Proof.
  unfold sha512_zknh_compact_rv32, Sha512Soft.compress. rewrite <- Proof.Sha512Soft.K64_ok.
  apply (compress_with_spec sha512_params); try reflexivity; [|vm_compute; lia| |].
  - intros. now apply (rv32_load512_spec pre block post).
  - intros. apply (compact_spec sha512_params); try assumption;
      [exact rv32_sum0|exact rv32_sum1|exact rv32_sig0|exact rv32_sig1|reflexivity|exact K512_len].
  - apply Proof.Sha512Soft.compress_block_spec.
Qed.
