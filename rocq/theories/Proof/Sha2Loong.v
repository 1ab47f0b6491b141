(** The LoongArch64 SHA-2 back ends compute the FIPS 180-4 compression functions. *)
From Verif Require Import Base.Words Base.Bytes Base.Codec Model.Sha2Consts Model.Loong Model.LoongLines
  Model.LoongCompress Proof.Sha2Spec Proof.Sha2Roll Proof.Loads.
From Verif Require Import Proof.Sha2Riscv.
From Verif Require Spec.SHA2 Model.Sha256Soft Model.Sha512Soft Proof.Sha256Soft Proof.Sha512Soft.
Import Spec.SHA2 (params, vars, vars_of_list, list_of_vars, round, p_K, p_w, p_s0, p_s1, p_S0, p_S1, p_rounds,
  sha256_params, sha512_params).

Lemma run_app w blk K p q m : run w blk K (p ++ q) m = run w blk K q (run w blk K p m).
Proof. unfold run. apply fold_left_app. Qed.

(** The register that holds variable [j] in round [i]. *)
Definition rg (j i : nat) : nat := ((j + (8 - i mod 8)) mod 8)%nat.

Section Asm.
  Variable A : sha2_asm.
  Variables (w : N) (blk K : list N).
  Definition fS1 (e : N) : N := N.lxor (rotr w e (e_c A)) (N.lxor (rotr w e (e_a A)) (rotr w e (e_b A))).
  Definition fS0 (a : N) : N := N.lxor (rotr w a (a_c A)) (N.lxor (rotr w a (a_a A)) (rotr w a (a_b A))).
  Definition fs0 (x : N) : N := N.lxor (rotr w x (w15_b A)) (N.lxor (rotr w x (w15_a A)) (N.shiftr x (w15_s A))).
  Definition fs1 (x : N) : N := N.lxor (rotr w x (w2_b A)) (N.lxor (rotr w x (w2_a A)) (N.shiftr x (w2_s A))).
  Definition fround (v : vars) (k x : N) : vars :=
    let '(a, b, c, d, e, f, g, h) := v in
    let h1 := wadd w (wadd w h x) (wadd w (wadd w (fS1 e) (N.lxor (N.land (N.lxor g f) e) g)) k) in
    let h2 := wadd w (wadd w h1 (fS0 a)) (N.lor (N.land (N.lor c b) a) (N.land c b)) in
    (h2, a, b, c, wadd w d h1, e, f, g).

  Ltac steps := cbv beta iota zeta delta [run fold_left exec load rget rset upd nth roundtail lay map seq Nat.add Nat.sub Nat.modulo
    Nat.divmod fst snd get list_of_vars app t0 t1 t2 t3 t4 t5 t6 t7 t8 a4 a5 a6 a7].
  Lemma tail_exec i s v x8 x9 x10 x11 x12 stk st : (s < 8)%nat -> exists y9 y11 y12,
    run w blk K (roundtail A i (rg 0 s) (rg 1 s) (rg 2 s) (rg 3 s) (rg 4 s) (rg 5 s) (rg 6 s) (rg 7 s))
      (lay s v ++ [x8; x9; x10; x11; x12], stk, st)
    = (lay (S s) (fround v (mget K i) x10) ++ [x8; y9; x10; y11; y12], mset stk (i mod 16) x10, st).
  Proof using.
    intros Hs. destruct v as (((((((a, b), c), d), e), f), g), h).
    unfold fround, roundtail. generalize (i mod 16)%nat as im. intros im. unfold rg.
    do 8 (destruct s as [|s];
      [do 3 eexists; unfold fS1, fS0; steps; reflexivity|]).
    lia.
  Qed.

  Definition next (stk : list N) (i : nat) : N :=
    wadd w (wadd w (wadd w (mget stk ((i - 16) mod 16)) (mget stk ((i - 7) mod 16)))
      (fs0 (mget stk ((i - 15) mod 16)))) (fs1 (mget stk ((i - 2) mod 16))).
  Lemma eight (l : list N) : length l = 8%nat -> exists r0 r1 r2 r3 r4 r5 r6 r7, l = [r0; r1; r2; r3; r4; r5; r6; r7].
  Proof using. clear. intros H. do 9 (destruct l as [|? l]; cbn in H; try lia). now do 8 eexists. Qed.
  Lemma five (l : list N) : length l = 5%nat -> exists r0 r1 r2 r3 r4, l = [r0; r1; r2; r3; r4].
  Proof using. clear. intros H. do 6 (destruct l as [|? l]; cbn in H; try lia). now do 5 eexists. Qed.
  Lemma roundb_exec i s v tmp stk st : (s < 8)%nat -> length tmp = 5%nat -> exists tmp', length tmp' = 5%nat /\
    run w blk K (roundb A i (rg 0 s) (rg 1 s) (rg 2 s) (rg 3 s) (rg 4 s) (rg 5 s) (rg 6 s) (rg 7 s))
      (lay s v ++ tmp, stk, st)
    = (lay (S s) (fround v (mget K i) (next stk i)) ++ tmp', mset stk (i mod 16) (next stk i), st).
  Proof using.
    intros Hs Ht. destruct (five tmp Ht) as (x8 & x9 & x10 & x11 & x12 & ->).
    unfold roundb. rewrite run_app.
    assert (E : exists y9 y11 y12, run w blk K
      [Ld a4 SP ((i - 15) mod 16); Ld a5 SP ((i - 16) mod 16); Ld a6 SP ((i - 7) mod 16); Add a5 a5 a6;
       Rotri a6 a4 (w15_a A); Srli a7 a4 (w15_s A); Rotri a4 a4 (w15_b A); Xor a6 a6 a7; Xor a4 a4 a6;
       Add a5 a5 a4; Ld a4 SP ((i - 2) mod 16); Rotri a6 a4 (w2_a A); Srli a7 a4 (w2_s A); Rotri a4 a4 (w2_b A);
       Xor a6 a6 a7; Xor a4 a4 a6; Add a5 a5 a4] (lay s v ++ [x8; x9; x10; x11; x12], stk, st)
      = (lay s v ++ [x8; y9; next stk i; y11; y12], stk, st)).
    { destruct (eight (lay s v) (lay_length s v)) as (r0&r1&r2&r3&r4&r5&r6&r7&->).
      unfold next, fs0, fs1.
      generalize ((i - 15) mod 16)%nat ((i - 16) mod 16)%nat ((i - 7) mod 16)%nat ((i - 2) mod 16)%nat.
      intros. do 3 eexists. steps. reflexivity. }
    destruct E as (y9 & y11 & y12 & ->).
    destruct (tail_exec i s v x8 y9 (next stk i) y11 y12 stk st Hs) as (z9 & z11 & z12 & ->).
    eexists. split; [|reflexivity]. reflexivity.
  Qed.

  Variable rev : N -> N.
  Hypothesis Hrev : forall r0 r1 r2 r3 r4 r5 r6 r7 r8 r9 r10 r11 r12 stk st,
    run w blk K (rev_a5 A) ([r0; r1; r2; r3; r4; r5; r6; r7; r8; r9; r10; r11; r12], stk, st)
    = ([r0; r1; r2; r3; r4; r5; r6; r7; r8; r9; rev r10; r11; r12], stk, st).
  Lemma rounda_exec i s v tmp stk st : (s < 8)%nat -> length tmp = 5%nat -> exists tmp', length tmp' = 5%nat /\
    run w blk K (rounda A i (rg 0 s) (rg 1 s) (rg 2 s) (rg 3 s) (rg 4 s) (rg 5 s) (rg 6 s) (rg 7 s))
      (lay s v ++ tmp, stk, st)
    = (lay (S s) (fround v (mget K i) (rev (mget blk i))) ++ tmp', mset stk (i mod 16) (rev (mget blk i)), st).
  Proof using Hrev.
    intros Hs Ht. destruct (five tmp Ht) as (x8 & x9 & x10 & x11 & x12 & ->).
    unfold rounda. rewrite !run_app.
    assert (E : run w blk K (rev_a5 A) (run w blk K [Ld a5 A1 i] (lay s v ++ [x8; x9; x10; x11; x12], stk, st))
      = (lay s v ++ [x8; x9; rev (mget blk i); x11; x12], stk, st)).
    { destruct (eight (lay s v) (lay_length s v)) as (r0&r1&r2&r3&r4&r5&r6&r7&->).
      change (run w blk K [Ld a5 A1 i] ([r0; r1; r2; r3; r4; r5; r6; r7] ++ [x8; x9; x10; x11; x12], stk, st))
        with ([r0; r1; r2; r3; r4; r5; r6; r7; x8; x9; mget blk i; x11; x12], stk, st).
      rewrite Hrev. reflexivity. }
    rewrite E.
    destruct (tail_exec i s v x8 x9 (rev (mget blk i)) x11 x12 stk st Hs) as (z9 & z11 & z12 & ->).
    eexists. split; [|reflexivity]. reflexivity.
  Qed.
End Asm.

Lemma rg_mod j i : rg j i = rg j (i mod 8).
Proof. unfold rg. now rewrite Nat.mod_mod. Qed.
Lemma maj_alt a b c : N.lor (N.land (N.lor c b) a) (N.land c b) = Spec.SHA2.Maj a b c.
Proof. unfold Spec.SHA2.Maj. apply N.bits_inj. intros i.
  rewrite !N.lor_spec, !N.land_spec, !N.lxor_spec, !N.land_spec, N.lor_spec.
  destruct (N.testbit a i), (N.testbit b i), (N.testbit c i); reflexivity. Qed.

Section Family.
  Variable P : params.
  Variable A : sha2_asm.
  Notation w := (p_w P).
  Notation K := (p_K P).
  Hypothesis HS0 : forall x, fS0 A w x = p_S0 P x.
  Hypothesis HS1 : forall x, fS1 A w x = p_S1 P x.
  Hypothesis Hs0 : forall x, fs0 A w x = p_s0 P x.
  Hypothesis Hs1 : forall x, fs1 A w x = p_s1 P x.

  Lemma fround_round v k x : vars_ok P v -> fround A w v k x = round P v k x.
  Proof using HS0 HS1.
    clear Hs0 Hs1. destruct v as (((((((a, b), c), d), e), f), g), h). intros (?&?&?&?&?&?&?&?).
    unfold fround, round. rewrite HS0, HS1, maj_alt.
    replace (N.lxor (N.land (N.lxor g f) e) g) with (Spec.SHA2.Ch w e f g).
    2:{ rewrite <- ch_alt by assumption. now rewrite N.lxor_comm, N.land_comm, (N.lxor_comm f g). }
    generalize (p_S1 P e) (Spec.SHA2.Ch w e f g) (p_S0 P a) (Spec.SHA2.Maj a b c). intros.
    tuple_eq; try reflexivity; wadd_ac.
  Qed.

  Section Block.
    Variables (blk W : list N) (rev : N -> N).
    Hypothesis Hrev : forall r0 r1 r2 r3 r4 r5 r6 r7 r8 r9 r10 r11 r12 stk st,
      run w blk K (rev_a5 A) ([r0; r1; r2; r3; r4; r5; r6; r7; r8; r9; r10; r11; r12], stk, st)
      = ([r0; r1; r2; r3; r4; r5; r6; r7; r8; r9; rev r10; r11; r12], stk, st).
    Hypothesis Wold : forall t, (t < 16)%nat -> rev (mget blk t) = get W t.
    Hypothesis HW : forall t, (16 <= t < p_rounds P)%nat -> get W t =
      wadd w (wadd w (wadd w (p_s1 P (get W (t - 2))) (get W (t - 7))) (p_s0 P (get W (t - 15)))) (get W (t - 16)).

    Definition line (i : nat) : list instr :=
      (if (i <? 16)%nat then rounda A else roundb A) i
        (rg 0 i) (rg 1 i) (rg 2 i) (rg 3 i) (rg 4 i) (rg 5 i) (rg 6 i) (rg 7 i).

    Lemma lines_run n v tmp stk st : (n <= p_rounds P)%nat -> vars_ok P v -> length tmp = 5%nat ->
      length stk = 16%nat ->
      exists tmp' stk', length tmp' = 5%nat /\ window W (n - 16) n stk' /\
      run w blk K (concat (map line (seq 0 n))) (lay 0 v ++ tmp, stk, st)
      = (lay n (run_rounds P W 0 n v) ++ tmp', stk', st).
    Proof using HS0 HS1 Hs0 Hs1 Hrev Wold HW.
      intros Hn Hv Ht Hstk. induction n as [|n IH].
      { exists tmp, stk. repeat split; try assumption. intros t. lia. }
      destruct (IH ltac:(lia)) as (tmp1 & stk1 & Ht1 & Hw1 & E). clear IH.
      rewrite seq_S, map_app, concat_app, run_app, E. cbn [map concat Nat.add]. rewrite app_nil_r. clear E.
      pose proof (Nat.mod_upper_bound n 8 ltac:(lia)) as B.
      assert (Hvn : vars_ok P (run_rounds P W 0 n v)) by now apply run_rounds_ok.
      assert (EL : forall v', lay (S n) v' = lay (S (n mod 8)) v').
      { intros v'. rewrite (lay_mod (S n)), (lay_mod (S (n mod 8))). f_equal.
        change (S n) with (1 + n)%nat. change (S (n mod 8)) with (1 + n mod 8)%nat. rewrite Nat.add_mod_idemp_r; [reflexivity|discriminate]. }
      assert (ER : forall v' x, x = get W n -> fround A w v' (mget K n) x = fround A w v' (get K n) (get W n)) by (now intros v' x ->).
      assert (EW : run_rounds P W 0 (S n) v = round P (run_rounds P W 0 n v) (get K n) (get W n)).
      { unfold run_rounds. now rewrite seq_S, fold_left_app. }
      unfold line. rewrite !(rg_mod _ n), (lay_mod n).
      destruct (Nat.ltb_spec n 16) as [L|L].
      - destruct (rounda_exec A w blk K rev Hrev n (n mod 8) (run_rounds P W 0 n v) tmp1 stk1 st B Ht1) as (tmp2 & Ht2 & ->).
        exists tmp2, (mset stk1 (n mod 16) (rev (mget blk n))).
        split; [exact Ht2|]. split.
        + replace (S n - 16)%nat with (n - 16)%nat by lia. apply window_upd; [exact Hw1|lia|now apply Wold].
        + rewrite ER by now apply Wold. rewrite fround_round by exact Hvn. now rewrite EW, EL.
      - assert (EN : next A w stk1 n = get W n).
        { destruct Hw1 as [_ G]. unfold next. change (mget stk1) with (get stk1).
          rewrite (G (n - 16)%nat), (G (n - 7)%nat), (G (n - 15)%nat), (G (n - 2)%nat) by lia.
          rewrite Hs0, Hs1, (HW n) by lia. wadd_ac. }
        destruct (roundb_exec A w blk K n (n mod 8) (run_rounds P W 0 n v) tmp1 stk1 st B Ht1) as (tmp2 & Ht2 & ->).
        exists tmp2, (mset stk1 (n mod 16) (next A w stk1 n)).
        split; [exact Ht2|]. split.
        + replace (S n - 16)%nat with (S (n - 16)) by lia.
          apply window_upd; [apply (window_weaken W (n - 16)); [exact Hw1|lia]|lia|exact EN].
        + rewrite ER by exact EN. rewrite fround_round by exact Hvn. now rewrite EW, EL.
    Qed.
  End Block.

  Definition done (st tmp stk : list N) (v : vars) : machine :=
    (add_vars P st v ++ tmp, stk, add_vars P st v).
  Lemma update_exec blk st tmp stk v : length st = 8%nat -> length tmp = 5%nat -> exists tmp', length tmp' = 5%nat /\
    run w blk K update_state (list_of_vars v ++ tmp, stk, st) = done st tmp' stk v.
  Proof using.
    clear HS0 HS1 Hs0 Hs1. intros Ls Lt. destruct (five tmp Lt) as (x8 & x9 & x10 & x11 & x12 & ->).
    destruct (eight st Ls) as (s0&s1&s2&s3&s4&s5&s6&s7&->).
    destruct v as (((((((a, b), c), d), e), f), g), h).
    exists [x8; s4; s5; s6; s7]. split; [reflexivity|]. unfold done, add_vars.
    cbv beta iota zeta delta [run fold_left exec load rget rset mget mset upd nth map seq get list_of_vars app update_state
      t0 t1 t2 t3 t4 t5 t6 t7 t8 a4 a5 a6 a7].
    rewrite (wadd_comm w a), (wadd_comm w b), (wadd_comm w c), (wadd_comm w d),
      (wadd_comm w e), (wadd_comm w f), (wadd_comm w g), (wadd_comm w h). reflexivity.
  Qed.

  Variables (q bs : nat) (rev : N -> N) (soft : list N -> bytes -> list N).
  Notation k := (N.to_nat (w / 8)).
  Hypothesis Hq : p_rounds P = (8 * q)%nat.
  Hypothesis Hk : (0 < k)%nat.
  Hypothesis Hbs : (bs / k = 16)%nat.
  Hypothesis Hrev : forall blk r0 r1 r2 r3 r4 r5 r6 r7 r8 r9 r10 r11 r12 stk st,
    run w blk K (rev_a5 A) ([r0; r1; r2; r3; r4; r5; r6; r7; r8; r9; r10; r11; r12], stk, st)
    = ([r0; r1; r2; r3; r4; r5; r6; r7; r8; r9; rev r10; r11; r12], stk, st).
  Hypothesis Hbe : forall c, length c = k -> bytes_ok c -> rev (le_val c) = be_val c.
  Hypothesis Hsoft : forall st block, length st = 8%nat -> words_ok w st -> length block = bs ->
    soft st block = list_of_vars (Spec.SHA2.compress P (vars_of_list st) block).

  Lemma block_exec block st tmp stk : length block = bs -> bytes_ok block ->
    length st = 8%nat -> words_ok w st -> length tmp = 5%nat -> length stk = 16%nat ->
    exists tmp' stk', length tmp' = 5%nat /\ length stk' = 16%nat /\
    run w (words_of_le k block) K update_state
      (run w (words_of_le k block) K (concat (map line (seq 0 (8 * q)))) (st ++ tmp, stk, st))
    = (soft st block ++ tmp', stk', soft st block).
  Proof using Hq Hk Hbs Hrev Hbe Hsoft HS0 HS1 Hs0 Hs1.
    intros Lb Ob Ls Ws Lt Lk. set (blk := words_of_le k block).
    set (M := map be_val (chunks k block)).
    assert (LM : length M = 16%nat) by (unfold M; now rewrite map_length, chunks_length, Lb).
    assert (Wold : forall t, (t < 16)%nat -> rev (mget blk t) = get (Spec.SHA2.schedule P M) t).
    { intros t Ht. rewrite sched_old by assumption. unfold blk, mget, words_of_le, M, get.
      unfold M in LM. rewrite map_length in LM.
      rewrite !(nth_indep _ oob (le_val [])) by (rewrite map_length; lia).
      rewrite map_nth. rewrite (nth_indep (map be_val _) (le_val []) (be_val [])) by (rewrite map_length; lia).
      rewrite map_nth.
      assert (I : In (nth t (chunks k block) []) (chunks k block)) by (apply nth_In; lia).
      apply Hbe.
      - pose proof (chunks_block_length k block Hk) as L. rewrite Forall_forall in L. now apply L.
      - pose proof (chunks_ok k block Hk Ob) as L. rewrite Forall_forall in L. now apply L. }
    pose proof (lines_run blk (Spec.SHA2.schedule P M) rev (Hrev blk) Wold (sched_new P M LM) (8 * q)
      (vars_of_list st) tmp stk st ltac:(lia) (vars_of_list_ok P st Ls Ws) Lt Lk) as (tmp1 & stk1 & Lt1 & [Lk1 _] & E).
    change (lay 0 (vars_of_list st)) with (lay (8 * 0) (vars_of_list st)) in E.
    rewrite lay_full, (list_of_vars_of_list st Ls), lay_full in E. rewrite E. clear E.
    destruct (update_exec blk st tmp1 stk1 (run_rounds P (Spec.SHA2.schedule P M) 0 (8 * q) (vars_of_list st)) Ls Lt1)
      as (tmp2 & Lt2 & ->).
    exists tmp2, stk1. split; [exact Lt2|]. split; [exact Lk1|].
    unfold done. rewrite <- Hq, <- rounds_run. unfold M.
    now rewrite (add_vars_compress P st block Ls), <- Hsoft.
  Qed.

  Lemma asm_spec regs stk st blocks : length regs = 13%nat -> length stk = 16%nat ->
    length st = 8%nat -> words_ok w st -> Forall (fun b => length b = bs /\ bytes_ok b) blocks ->
    compress_asm w k K load_state (concat (map line (seq 0 (8 * q)))) update_state regs stk st blocks
    = fold_left soft blocks st.
  Proof using Hq Hk Hbs Hrev Hbe Hsoft HS0 HS1 Hs0 Hs1.
    intros Lr Lk Ls Ws Hb. unfold compress_asm.
    assert (E : exists tmp, length tmp = 5%nat /\ run w [] K load_state (regs, stk, st) = (st ++ tmp, stk, st)).
    { clear - Lr Ls. do 14 (destruct regs as [|? regs]; try discriminate Lr).
      destruct (eight st Ls) as (s0&s1&s2&s3&s4&s5&s6&s7&->).
      eexists [_;_;_;_;_]. split; [reflexivity|reflexivity]. }
    destruct E as (tmp & Lt & ->).
    enough (F : exists tmp' stk', fold_left (fun m block =>
        run w (words_of_le k block) K update_state
          (run w (words_of_le k block) K (concat (map line (seq 0 (8 * q)))) m)) blocks (st ++ tmp, stk, st)
        = (fold_left soft blocks st ++ tmp', stk', fold_left soft blocks st)).
    { destruct F as (t' & k' & ->). now destruct blocks. }
    clear regs Lr. revert st tmp stk Ls Ws Lt Lk. induction Hb as [|b blocks [Lb Ob] Hb IH]; intros st tmp stk Ls Ws Lt Lk.
    { now exists tmp, stk. }
    cbn [fold_left]. destruct (block_exec b st tmp stk Lb Ob Ls Ws Lt Lk) as (t1 & k1 & Lt1 & Lk1 & ->).
    apply IH; try assumption.
    - rewrite Hsoft by assumption.
      now destruct (Spec.SHA2.compress P (vars_of_list st) b) as (((((((a, b0), c), d), e), f), g), h).
    - rewrite Hsoft by assumption. apply list_of_vars_ok, compress_ok, vars_of_list_ok; assumption.
  Qed.
End Family.

Lemma swap_halves lo hi : lo < 2 ^ 16 -> hi < 2 ^ 16 -> rotr 32 (lo + 2 ^ 16 * hi) 16 = hi + 2 ^ 16 * lo.
Proof.
  intros Hl Hh. unfold rotr, wshl. change (32 - 16) with 16.
  rewrite N.shiftr_div_pow2, N.shiftl_mul_pow2.
  replace ((lo + 2 ^ 16 * hi) / 2 ^ 16) with hi.
  2:{ rewrite N.mul_comm, N.div_add by discriminate. now rewrite N.div_small. }
  replace (((lo + 2 ^ 16 * hi) * 2 ^ 16) mod 2 ^ 32) with (2 ^ 16 * lo).
  2:{ replace ((lo + 2 ^ 16 * hi) * 2 ^ 16) with (2 ^ 16 * lo + hi * 2 ^ 32) by lia.
      rewrite N.mod_add by discriminate. symmetry. apply N.mod_small. lia. }
  now apply lor_disjoint.
Qed.
Lemma rev256 c : length c = 4%nat -> bytes_ok c -> rotr 32 (revb_2h (le_val c)) 16 = be_val c.
Proof.
  intros L O. unfold revb_2h. rewrite <- L at 1. rewrite le_bytes_val by exact O.
  do 5 (destruct c as [|? c]; cbn in L; try lia).
  unfold bytes_ok in O. repeat match goal with H : Forall _ (_ :: _) |- _ => inversion_clear H end.
  unfold be_val. cbn [le_val rev app].
  replace (n0 + 256 * (n + 256 * (n2 + 256 * (n1 + 256 * 0)))) with ((n0 + 256 * n) + 2 ^ 16 * (n2 + 256 * n1)) by lia.
  rewrite swap_halves by (change (2 ^ 16) with 65536; lia). lia.
Qed.
Lemma rev512 c : length c = 8%nat -> bytes_ok c -> revb_d (le_val c) = be_val c.
Proof. intros L O. unfold revb_d. rewrite <- L at 1. now rewrite le_bytes_val. Qed.

Lemma lines256_eq : lines256 = map (line sha256_asm) (seq 0 (8 * 8)).
Proof. reflexivity. Qed.
Lemma lines512_eq : lines512 = map (line sha512_asm) (seq 0 (8 * 10)).
Proof. reflexivity. Qed.

Lemma lxor3 a b c : N.lxor c (N.lxor a b) = N.lxor (N.lxor c a) b.
Proof. now rewrite N.lxor_assoc. Qed.

Lemma lxor3' a b c : N.lxor c (N.lxor a b) = N.lxor (N.lxor c b) a.
Proof. now rewrite N.lxor_assoc, (N.lxor_comm a b). Qed.

Lemma loong256 regs stk st blocks : length regs = 13%nat -> length stk = 16%nat ->
  length st = 8%nat -> words_ok 32 st -> Forall (fun b => length b = 64%nat /\ bytes_ok b) blocks ->
  sha256_loong regs stk st blocks = Sha256Soft.compress st blocks.
Proof.
  unfold sha256_loong, Sha256Soft.compress. rewrite <- Proof.Sha256Soft.K32_ok, lines256_eq.
  apply (asm_spec sha256_params sha256_asm) with (rev := fun x => rotr 32 (revb_2h x) 16).
  - intros x. unfold fS0. cbn. rewrite lxor3. reflexivity.
  - intros x. unfold fS1. cbn. rewrite lxor3. reflexivity.
  - intros x. unfold fs0. cbn. rewrite lxor3. reflexivity.
  - intros x. unfold fs1. cbn. rewrite lxor3. reflexivity.
  - reflexivity.
  - vm_compute; lia.
  - reflexivity.
  - reflexivity.
  - exact rev256.
  - apply Proof.Sha256Soft.compress_block_spec.
Qed.
Lemma loong512 regs stk st blocks : length regs = 13%nat -> length stk = 16%nat ->
  length st = 8%nat -> words_ok 64 st -> Forall (fun b => length b = 128%nat /\ bytes_ok b) blocks ->
  sha512_loong regs stk st blocks = Sha512Soft.compress st blocks.
Proof.
  unfold sha512_loong, Sha512Soft.compress. rewrite <- Proof.Sha512Soft.K64_ok, lines512_eq.
  apply (asm_spec sha512_params sha512_asm) with (rev := revb_d).
  - intros x. unfold fS0. cbn. rewrite lxor3'. reflexivity.
  - intros x. unfold fS1. cbn. rewrite lxor3. reflexivity.
  - intros x. unfold fs0. cbn. rewrite lxor3. reflexivity.
  - intros x. unfold fs1. cbn. rewrite lxor3. reflexivity.
  - reflexivity.
  - vm_compute; lia.
  - reflexivity.
  - reflexivity.
  - exact rev512.
  - apply Proof.Sha512Soft.compress_block_spec.
Qed.
