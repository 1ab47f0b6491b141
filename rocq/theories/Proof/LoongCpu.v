(** The processor of Model/LoongCpu.v follows the array machine of Model/Loong.v. *)
From Verif Require Import Base.Words Base.Bytes Base.Codec Base.MDFacts Spec.FlatMemory Model.Loong Model.LoongLines Model.LoongCpu.

(** ** Low bits *)
Lemma pow2_nz w : 2 ^ w <> 0.
Proof. apply N.pow_nonzero; discriminate. Qed.
Lemma mod_bits x w i : N.testbit (x mod 2 ^ w) i = (i <? w) && N.testbit x i.
Proof.
  destruct (N.ltb_spec i w) as [H|H]; [now rewrite N.mod_pow2_bits_low|now rewrite N.mod_pow2_bits_high].
Qed.
Lemma lxor_mod x y w : N.lxor x y mod 2 ^ w = N.lxor (x mod 2 ^ w) (y mod 2 ^ w).
Proof. apply N.bits_inj. intros i. rewrite N.lxor_spec, !mod_bits, N.lxor_spec. now destruct (i <? w). Qed.
Lemma land_mod x y w : N.land x y mod 2 ^ w = N.land (x mod 2 ^ w) (y mod 2 ^ w).
Proof. apply N.bits_inj. intros i. rewrite N.land_spec, !mod_bits, N.land_spec. now destruct (i <? w). Qed.
Lemma lor_mod x y w : N.lor x y mod 2 ^ w = N.lor (x mod 2 ^ w) (y mod 2 ^ w).
Proof. apply N.bits_inj. intros i. rewrite N.lor_spec, !mod_bits, N.lor_spec. now destruct (i <? w). Qed.
Lemma wnot_bits w x i : N.testbit (wnot w x) i = (i <? w) && negb (N.testbit x i).
Proof.
  unfold wnot. rewrite N.ldiff_spec. destruct (N.ltb_spec i w) as [H|H]; [now rewrite N.ones_spec_low|now rewrite N.ones_spec_high].
Qed.
Lemma wnot_mod x w : w <= 64 -> wnot 64 x mod 2 ^ w = wnot w (x mod 2 ^ w).
Proof.
  intros H. apply N.bits_inj. intros i. rewrite mod_bits, !wnot_bits, mod_bits.
  destruct (N.ltb_spec i w) as [L|L]; [|reflexivity]. destruct (N.ltb_spec i 64); [reflexivity|lia].
Qed.
Lemma sext_mod w x : w <= 64 -> sext w x mod 2 ^ w = x mod 2 ^ w.
Proof.
  intros H. unfold sext. destruct (N.testbit _ _); [|apply N.mod_mod, pow2_nz].
  replace (2 ^ 64 - 2 ^ w) with ((2 ^ (64 - w) - 1) * 2 ^ w).
  - rewrite N.mod_add by apply pow2_nz. apply N.mod_mod, pow2_nz.
  - rewrite N.mul_sub_distr_r, <- N.pow_add_r. replace (64 - w + w) with 64 by lia. lia.
Qed.
Lemma sext_small w x : w <= 64 -> x < 2 ^ w -> sext w x mod 2 ^ w = x.
Proof. intros H L. rewrite sext_mod by exact H. now apply N.mod_small. Qed.
Lemma wadd_mod w x y : wadd w (x mod 2 ^ w) (y mod 2 ^ w) = wadd w x y.
Proof. unfold wadd. rewrite N.add_mod_idemp_l, N.add_mod_idemp_r by apply pow2_nz. reflexivity. Qed.

Lemma revb_2h_lt x : revb_2h x < 2 ^ 32.
Proof.
  unfold revb_2h. cbn [le_bytes]. change (2 ^ 32) with (256 ^ N.of_nat 4).
  match goal with |- le_val ?l < _ => apply (le_val_lt l) end. repeat constructor; apply N.mod_lt; discriminate.
Qed.
Lemma revb_2h_mod x : revb_2h (x mod 2 ^ 32) = revb_2h x.
Proof. unfold revb_2h. change 32 with (8 * N.of_nat 4). now rewrite le_bytes_mod. Qed.
Lemma revb_d_lt x : revb_d x < 2 ^ 64.
Proof.
  unfold revb_d. pose proof (be_val_lt (le_bytes 8 x) (le_bytes_ok 8 x)) as H. rewrite le_bytes_length in H. exact H.
Qed.
Lemma revb_d_mod x : revb_d (x mod 2 ^ 64) = revb_d x.
Proof. unfold revb_d. change 64 with (8 * N.of_nat 8). now rewrite le_bytes_mod. Qed.

(** ** Memory *)
Lemma bytes_at_ext m m' a k : (forall j, (j < k)%nat -> m (a + N.of_nat j) = m' (a + N.of_nat j)) -> bytes_at m a k = bytes_at m' a k.
Proof. intros H. apply map_ext_in. intros j Hj. apply in_seq in Hj. apply H. lia. Qed.
Lemma bytes_at_holds m a l : holds m a l -> bytes_at m a (length l) = l.
Proof.
  intros H. apply nth_ext with 0 0; [unfold bytes_at; now rewrite map_length, seq_length|].
  intros i Hi. unfold bytes_at in *. rewrite map_length, seq_length in Hi.
  rewrite nth_indep with (d' := m (a + N.of_nat 0)) by now rewrite map_length, seq_length.
  rewrite (map_nth (fun j => m (a + N.of_nat j))), seq_nth by exact Hi. apply H, Hi.
Qed.
Lemma holds_bytes_at m a l : bytes_at m a (length l) = l -> holds m a l.
Proof.
  intros E i Hi. rewrite <- E. unfold bytes_at.
  rewrite nth_indep with (d' := m (a + N.of_nat 0)) by now rewrite map_length, seq_length.
  now rewrite (map_nth (fun j => m (a + N.of_nat j))), seq_nth by exact Hi.
Qed.
Lemma bytes_at_app m a i j : bytes_at m a (i + j) = bytes_at m a i ++ bytes_at m (a + N.of_nat i) j.
Proof.
  unfold bytes_at. rewrite seq_app, map_app. f_equal. cbn [Nat.add].
  rewrite <- (Nat.add_0_r i) at 1. generalize 0%nat. induction j as [|j IH]; intros s; [reflexivity|].
  cbn [seq map]. f_equal; [f_equal; lia|]. rewrite <- Nat.add_succ_r. apply IH.
Qed.
Lemma holds_app m a l l' : holds m a (l ++ l') -> holds m a l /\ holds m (a + N.of_nat (length l)) l'.
Proof.
  intros H. split; intros i Hi.
  - rewrite H by (rewrite app_length; lia). now rewrite app_nth1.
  - rewrite <- N.add_assoc, <- Nnat.Nat2N.inj_add, H by (rewrite app_length; lia). rewrite app_nth2 by lia. f_equal. lia.
Qed.
Lemma holds_frame m m' a l : holds m a l -> (forall x, a <= x < a + N.of_nat (length l) -> m' x = m x) -> holds m' a l.
Proof. intros H E i Hi. rewrite E by lia. now apply H. Qed.

Lemma write_at m a l : bytes_at (write m a l) a (length l) = l.
Proof.
  apply bytes_at_holds. intros i Hi. unfold write.
  destruct (N.leb_spec a (a + N.of_nat i)); [|lia]. destruct (N.ltb_spec (a + N.of_nat i) (a + N.of_nat (length l))); [|lia].
  cbn [andb]. f_equal. lia.
Qed.
Lemma write_out m a l x : outside (a, N.of_nat (length l)) x -> write m a l x = m x.
Proof.
  intros H. unfold write. cbn [outside fst snd] in H. unfold outside in H. cbn [fst snd] in H.
  destruct (N.leb_spec a x), (N.ltb_spec x (a + N.of_nat (length l))); cbn [andb]; try reflexivity. lia.
Qed.
Lemma bytes_at_write m a l b k : apart (a, N.of_nat (length l)) (b, N.of_nat k) -> bytes_at (write m a l) b k = bytes_at m b k.
Proof.
  intros H. apply bytes_at_ext. intros j Hj. apply write_out. unfold outside, apart in *. cbn [fst snd] in *. lia.
Qed.

Lemma apart_sym r s : apart r s -> apart s r.
Proof. unfold apart. tauto. Qed.
Lemma apart_sub r s b n : apart r s -> fst s <= b -> b + n <= fst s + snd s -> apart r (b, n).
Proof. unfold apart. cbn [fst snd]. lia. Qed.

Lemma write_byte m a k x y : (forall z, m z < 256) -> write m a (le_bytes k x) y < 256.
Proof.
  intros H. unfold write. destruct (_ && _) eqn:E; [|apply H].
  pose proof (le_bytes_ok k x) as B. unfold bytes_ok in B. rewrite Forall_forall in B.
  destruct (Nat.ltb_spec (N.to_nat (y - a)) (length (le_bytes k x))) as [L|L].
  - now apply B, nth_In.
  - rewrite nth_overflow by exact L. reflexivity.
Qed.

(** ** The registers *)
Lemma rn_inj i j : rn i = rn j -> (i < 13)%nat -> (j < 13)%nat -> i = j.
Proof. unfold rn. destruct (Nat.ltb_spec i 9), (Nat.ltb_spec j 9); lia. Qed.
Lemma rn_not_base i b : (i < 13)%nat -> rn i <> rb b.
Proof. unfold rn, rb, r_a0, r_a1, r_a3, r_sp. destruct (Nat.ltb_spec i 9), b; lia. Qed.
Lemma nth_upd_same (l : list N) i v : (i < length l)%nat -> nth i (upd l i v) oob = v.
Proof. revert i. induction l as [|x l IH]; intros [|i] H; cbn in *; try lia. apply IH. lia. Qed.
Lemma nth_upd_other (l : list N) i j v : i <> j -> (j < length l)%nat -> nth j (upd l i v) oob = nth j l oob.
Proof. apply nth_upd_neq. Qed.
Lemma upd_len (l : list N) i v : (i < length l)%nat -> length (upd l i v) = length l.
Proof. apply upd_length. Qed.

Section Sim.
  Variables (w : N) (k : nat).
  Hypothesis Hw : w = 8 * N.of_nat k.
  Hypothesis Hk : k = 4%nat \/ k = 8%nat.
  (* addresses of state, constants and stack frame; their sizes in words *)
  Variables (S K T : N) (ns nk nt : nat).
  Let kb := N.of_nat k.
  Let RS := (S, N.of_nat ns * kb).
  Let RK := (K, N.of_nat nk * kb).
  Let RT := (T, N.of_nat nt * kb).
  Hypothesis FS : fits RS.
  Hypothesis FK : fits RK.
  Hypothesis FT : fits RT.
  Hypothesis AST : apart RS RT.
  Hypothesis ASK : apart RS RK.
  Hypothesis ATK : apart RT RK.
  (* all the blocks *)
  Variable RB : N * N.
  Hypothesis FB : fits RB.
  Hypothesis ASB : apart RS RB.
  Hypothesis ATB : apart RT RB.
  Let rdr := [RS; RB; RK; RT].
  Let wrr := [RS; RT].
  Variable clob : list nat.
  Hypothesis clob_base : forall b, b <> A1 -> ~ In (rb b) clob.
  Variable Kw : list N.

  (** The words of [l] lie at [a]. *)
  Definition at_words (m : N -> N) (a : N) (l : list N) : Prop :=
    forall i, (i < length l)%nat -> le_val (bytes_at m (a + N.of_nat i * kb) k) mod 2 ^ w = nth i l oob.
  Definition Rel (s : machine) (c : cpu) : Prop :=
    let '(regs, stk, st) := s in
    length regs = 13%nat /\ length stk = nt /\ length st = ns /\
    (forall i, (i < 13)%nat -> reg c (rn i) mod 2 ^ w = nth i regs oob) /\
    (ns = 0%nat \/ reg c r_a0 = S) /\ (nk = 0%nat \/ reg c r_a3 = K) /\ (nt = 0%nat \/ reg c r_sp = T) /\
    at_words (mem c) S st /\ at_words (mem c) T stk /\ at_words (mem c) K Kw /\ (forall x, mem c x < 256).
  (* $a1 and $a2 *)
  Definition Blk (B : N * N) (blk : list N) (c : cpu) : Prop :=
    reg c r_a1 = fst B /\ at_words (mem c) (fst B) blk /\ fst RB <= fst B /\ fst B + N.of_nat (length blk) * kb <= fst RB + snd RB /\
    reg c r_a2 = snd B.
  Definition Frame (c c' : cpu) : Prop :=
    (forall x, outside RS x -> outside RT x -> mem c' x = mem c x) /\ (forall r, ~ In r clob -> reg c' r = reg c r).

  Definition dest_ok (d : nat) : bool := (d <? 13)%nat && existsb (Nat.eqb (rn d)) clob.
  Definition size_of (nb : nat) (b : base) : nat := match b with A0 => ns | A1 => nb | A3 => nk | SP => nt end.
  Definition instr_ok (nb : nat) (i : instr) : bool :=
    match i with
    | Ld d b o => dest_ok d && (o <? size_of nb b)%nat
    | St s b o => (s <? 13)%nat && (o <? size_of nb b)%nat && match b with A0 | SP => true | _ => false end
    | Revb2h d j => dest_ok d && (j <? 13)%nat && (w =? 32)
    | RevbD d j => dest_ok d && (j <? 13)%nat && (w =? 64)
    | Rotri d j _ | Srli d j _ | Move d j => dest_ok d && (j <? 13)%nat
    | Xor d j l | And d j l | Or d j l | Andn d j l | Orn d j l | Add d j l => dest_ok d && (j <? 13)%nat && (l <? 13)%nat
    end.

  Lemma w_le : w <= 64.
  Proof. subst w. lia. Qed.
  Lemma w_8 : w / 8 = kb.
  Proof. subst w. rewrite N.mul_comm. now apply N.div_mul. Qed.
  Lemma Hkn : N.to_nat kb = k.
  Proof. apply Nnat.Nat2N.id. Qed.

  Lemma frame_refl c : Frame c c.
  Proof. split; auto. Qed.
  Lemma frame_trans a b c : Frame a b -> Frame b c -> Frame a c.
  Proof. intros [M1 R1] [M2 R2]. split; intros; [rewrite M2, M1|rewrite R2, R1]; auto. Qed.

  Lemma dest_sound d : dest_ok d = true -> (d < 13)%nat /\ In (rn d) clob.
  Proof.
    unfold dest_ok. intros H. apply andb_prop in H. destruct H as [H1 H2]. apply Nat.ltb_lt in H1.
    apply existsb_exists in H2. destruct H2 as (x & Hx & E). apply Nat.eqb_eq in E. subst. auto.
  Qed.

  (** Registers only *)
  Lemma sim_set B blk regs stk st c d v v' : dest_ok d = true ->
    Rel (regs, stk, st) c -> Blk B blk c -> v' mod 2 ^ w = v ->
    Rel (rset regs d v, stk, st) (setreg c (rn d) v') /\ Blk B blk (setreg c (rn d) v') /\
    Frame c (setreg c (rn d) v').
  Proof.
    intros D (L1 & L2 & L3 & Rr & E0 & E3 & Es & M1 & M2 & M3 & M4) (B1 & B2 & B3) V.
    destruct (dest_sound d D) as [Hd Hc].
    assert (Nb : forall b, (rb b =? rn d)%nat = false).
    { intros b. apply Nat.eqb_neq. intros E. apply (rn_not_base d b Hd). congruence. }
    repeat split; cbn [setreg reg mem]; auto.
    - unfold rset. rewrite upd_len; [exact L1|rewrite L1; exact Hd].
    - intros i Hi. destruct (Nat.eqb_spec (rn i) (rn d)) as [E|E].
      + apply rn_inj in E; [|exact Hi|exact Hd]. subst i. unfold rset. rewrite nth_upd_same by lia. exact V.
      + unfold rset. rewrite nth_upd_other; [now apply Rr|congruence|lia].
    - change r_a0 with (rb A0). now rewrite Nb.
    - change r_a3 with (rb A3). now rewrite Nb.
    - change r_sp with (rb SP). now rewrite Nb.
    - change r_a1 with (rb A1). now rewrite Nb.
    - apply B3.
    - apply B3.
    - replace (r_a2 =? rn d)%nat with false; [apply B3|]. symmetry. apply Nat.eqb_neq. unfold rn, r_a2. destruct (Nat.ltb_spec d 9); lia.
    - intros r Hr. destruct (Nat.eqb_spec r (rn d)) as [->|]; [contradiction|reflexivity].
  Qed.

  Lemma at_range (l : list N) a o (R : N * N) : (o < length l)%nat -> fst R <= a -> a + N.of_nat (length l) * kb <= fst R + snd R -> fits R ->
    wadd 64 a (N.of_nat o * kb) = a + N.of_nat o * kb /\ fst R <= a + N.of_nat o * kb /\ a + N.of_nat o * kb + kb <= fst R + snd R.
  Proof.
    intros Ho H1 H2 F. unfold fits in F. assert (0 < kb) by (unfold kb; lia). split; [|nia].
    unfold wadd. apply N.mod_small. nia.
  Qed.
  Lemma allowed_in (R : N * N) Rs a n : In R Rs -> fst R <= a -> a + n <= fst R + snd R -> allowed Rs a n = true.
  Proof.
    intros H H1 H2. apply existsb_exists. exists R. split; [exact H|].
    apply andb_true_intro. split; now apply N.leb_le.
  Qed.

  Lemma at_words_write_same m a l o x : (o < length l)%nat ->
    at_words m a l -> at_words (write m (a + N.of_nat o * kb) (le_bytes k x)) a (upd l o (x mod 2 ^ w)).
  Proof.
    intros Ho M i Hi. rewrite upd_len in Hi by exact Ho.
    destruct (Nat.eq_dec o i) as [->|Ne].
    - rewrite nth_upd_same by exact Hi.
      assert (E : bytes_at (write m (a + N.of_nat i * kb) (le_bytes k x)) (a + N.of_nat i * kb) k = le_bytes k x).
      { pose proof (write_at m (a + N.of_nat i * kb) (le_bytes k x)) as E. rewrite le_bytes_length in E. exact E. }
      rewrite E, le_val_bytes, pow256, <- Hw. apply N.mod_mod, pow2_nz.
    - rewrite nth_upd_other by assumption. rewrite bytes_at_write; [now apply M|].
      rewrite le_bytes_length. unfold apart. cbn [fst snd]. fold kb. assert (0 < kb) by (unfold kb; lia). nia.
  Qed.
  Lemma at_words_write_other m a l b R x : fst R <= b -> b + kb <= fst R + snd R ->
    apart R (a, N.of_nat (length l) * kb) -> at_words m a l -> at_words (write m b (le_bytes k x)) a l.
  Proof.
    intros H1 H2 A M i Hi. rewrite bytes_at_write; [now apply M|].
    rewrite le_bytes_length. unfold apart in *. cbn [fst snd] in *. fold kb. nia.
  Qed.
  Lemma write_outside m b R x y : fst R <= b -> b + kb <= fst R + snd R -> outside R y -> write m b (le_bytes k x) y = m y.
  Proof.
    intros H1 H2 O. apply write_out. rewrite le_bytes_length. unfold outside in *. cbn [fst snd] in *. fold kb. lia.
  Qed.

  Hypothesis LK : length Kw = nk.
  Hypothesis Hns : N.of_nat ns * kb = snd RS.

  Lemma exec_sim B blk s c i : instr_ok (length blk) i = true -> Rel s c -> Blk B blk c ->
    exists c', exec64 rdr wrr w c i = Some c' /\ Rel (exec w blk Kw s i) c' /\ Blk B blk c' /\ Frame c c' /\ pc c' = Datatypes.S (pc c).
  Proof.
    destruct s as ((regs, stk), st). intros OK HR HB.
    pose proof w_le as Wl. pose proof HR as (L1 & L2 & L3 & Rr & E0 & E3 & Es & M1 & M2 & M3 & M4). pose proof HB as (B1 & B2 & B3 & B4 & B5).
    assert (Set' : forall d v v', dest_ok d = true -> v' mod 2 ^ w = v ->
      exists c', Some (setreg c (rn d) v') = Some c' /\ Rel (rset regs d v, stk, st) c' /\ Blk B blk c' /\ Frame c c' /\ pc c' = Datatypes.S (pc c)).
    { intros d v v' D V. destruct (sim_set B blk regs stk st c d v v' D HR HB V) as (H1 & H2 & H3).
      eexists. split; [reflexivity|]. auto. }
    destruct i; cbn [instr_ok] in OK; repeat rewrite andb_true_iff in OK; rewrite ?Nat.ltb_lt, ?N.eqb_eq in OK.
    - (* load *)
      destruct OK as [D O].
      assert (G : forall a R l, reg c (rb b) = a -> In R rdr -> fits R -> fst R <= a -> a + N.of_nat (length l) * kb <= fst R + snd R ->
        (i < length l)%nat -> at_words (mem c) a l -> load blk Kw (regs, stk, st) b i = nth i l oob ->
        exists c', exec64 rdr wrr w c (Ld rd b i) = Some c' /\ Rel (exec w blk Kw (regs, stk, st) (Ld rd b i)) c' /\ Blk B blk c' /\ Frame c c' /\ pc c' = Datatypes.S (pc c)).
      { intros a R l Ea IR F Lo Hi' Hl M E. cbn [exec64 exec]. rewrite Ea, w_8.
        destruct (at_range l a i R Hl Lo Hi' F) as (-> & G1 & G2). rewrite (allowed_in R) by assumption.
        rewrite Hkn. apply Set'; [exact D|]. rewrite sext_mod by exact Wl. rewrite E. now apply M. }
      destruct b; cbn [size_of] in O.
      + apply (G S RS st); [destruct E0 as [Z|E']; [rewrite Z in O; lia|exact E']|now left|exact FS|apply N.le_refl|rewrite L3; apply N.le_refl|now rewrite L3|exact M1|reflexivity].
      + apply (G (fst B) RB blk); [exact B1|right; now left|exact FB|exact B3|exact B4|exact O|exact B2|reflexivity].
      + apply (G K RK Kw); [destruct E3 as [Z|E']; [rewrite Z in O; lia|exact E']|right; right; now left|exact FK|apply N.le_refl|rewrite LK; apply N.le_refl|now rewrite LK|exact M3|reflexivity].
      + apply (G T RT stk); [destruct Es as [Z|E']; [rewrite Z in O; lia|exact E']|right; right; right; now left|exact FT|apply N.le_refl|rewrite L2; apply N.le_refl|now rewrite L2|exact M2|reflexivity].
    - (* store *)
      destruct OK as [[Hs O] Hb].
      destruct b; try discriminate Hb; cbn [size_of] in O; cbn [exec64 exec rb];
        [destruct E0 as [Z|E0']; [rewrite Z in O; lia|rewrite E0']|destruct Es as [Z|Es']; [rewrite Z in O; lia|rewrite Es']]; rewrite w_8, Hkn.
      + destruct (at_range st S i RS) as (-> & G1 & G2); [rewrite L3; exact O|apply N.le_refl|rewrite L3; apply N.le_refl|exact FS|].
        rewrite (allowed_in RS) by (assumption || now left).
        eexists. split; [reflexivity|]. split; [|split; [|split; [|reflexivity]]].
        * unfold mset. repeat split; cbn [reg mem]; auto.
          { rewrite upd_len; [exact L3|rewrite L3; exact O]. }
          { unfold rget. rewrite <- (Rr rs Hs). apply at_words_write_same; [rewrite L3; exact O|exact M1]. }
          { apply at_words_write_other with RS; auto. rewrite L2. exact AST. }
          { apply at_words_write_other with RS; auto. rewrite LK. exact ASK. }
          { intros x. now apply write_byte. }
        * repeat split; cbn [reg mem]; auto. apply at_words_write_other with RS; auto. now apply apart_sub with RB.
        * split; cbn [reg mem]; [|auto]. intros x O1 _. now apply write_outside with RS.
      + destruct (at_range stk T i RT) as (-> & G1 & G2); [rewrite L2; exact O|apply N.le_refl|rewrite L2; apply N.le_refl|exact FT|].
        rewrite (allowed_in RT) by (assumption || (right; now left)).
        eexists. split; [reflexivity|]. split; [|split; [|split; [|reflexivity]]].
        * unfold mset. repeat split; cbn [reg mem]; auto.
          { rewrite upd_len; [exact L2|rewrite L2; exact O]. }
          { apply at_words_write_other with RT; auto. rewrite L3. apply apart_sym, AST. }
          { unfold rget. rewrite <- (Rr rs Hs). apply at_words_write_same; [rewrite L2; exact O|exact M2]. }
          { apply at_words_write_other with RT; auto. rewrite LK. exact ATK. }
          { intros x. now apply write_byte. }
        * repeat split; cbn [reg mem]; auto. apply at_words_write_other with RT; auto. now apply apart_sub with RB.
        * split; cbn [reg mem]; [|auto]. intros x _ O1. now apply write_outside with RT.
    - destruct OK as [[D J] E]. cbn [exec64 exec]. apply Set'; [exact D|].
      unfold rget. rewrite <- (Rr _ J), E, revb_2h_mod. apply sext_small; [lia|]. apply revb_2h_lt.
    - destruct OK as [[D J] E]. cbn [exec64 exec]. apply Set'; [exact D|].
      unfold rget. rewrite <- (Rr _ J), E, revb_d_mod. apply N.mod_small, revb_d_lt.
    - destruct OK as [D J]. cbn [exec64 exec]. apply Set'; [exact D|].
      unfold rget. rewrite <- (Rr _ J). apply sext_small; [exact Wl|]. apply rotr_lt, N.mod_lt, pow2_nz.
    - destruct OK as [D J]. cbn [exec64 exec]. apply Set'; [exact D|].
      unfold rget. rewrite <- (Rr _ J). apply sext_small; [exact Wl|]. apply shiftr_lt, N.mod_lt, pow2_nz.
    - destruct OK as [[D J] L]. cbn [exec64 exec]. apply Set'; [exact D|]. unfold rget. rewrite <- (Rr _ J), <- (Rr _ L). apply lxor_mod.
    - destruct OK as [[D J] L]. cbn [exec64 exec]. apply Set'; [exact D|]. unfold rget. rewrite <- (Rr _ J), <- (Rr _ L). apply land_mod.
    - destruct OK as [[D J] L]. cbn [exec64 exec]. apply Set'; [exact D|]. unfold rget. rewrite <- (Rr _ J), <- (Rr _ L). apply lor_mod.
    - destruct OK as [[D J] L]. cbn [exec64 exec]. apply Set'; [exact D|]. unfold rget. rewrite <- (Rr _ J), <- (Rr _ L).
      rewrite land_mod. now rewrite wnot_mod.
    - destruct OK as [[D J] L]. cbn [exec64 exec]. apply Set'; [exact D|]. unfold rget. rewrite <- (Rr _ J), <- (Rr _ L).
      rewrite lor_mod. now rewrite wnot_mod.
    - destruct OK as [D J]. cbn [exec64 exec]. apply Set'; [exact D|]. unfold rget. now apply Rr.
    - destruct OK as [[D J] L]. cbn [exec64 exec]. apply Set'; [exact D|]. unfold rget. rewrite <- (Rr _ J), <- (Rr _ L), wadd_mod.
      apply sext_small; [exact Wl|apply wadd_lt].
  Qed.

  Lemma steps_app prog n m c : steps rdr wrr prog (n + m) c = let* c := steps rdr wrr prog n c in steps rdr wrr prog m c.
  Proof.
    revert c. induction n as [|n IH]; intros c; [reflexivity|]. cbn [Nat.add steps].
    destruct (step rdr wrr prog c) as [c1|]; [|reflexivity]. cbn [obind]. apply IH.
  Qed.
  Lemma steps_one prog c c' : step rdr wrr prog c = Some c' -> steps rdr wrr prog 1 c = Some c'.
  Proof. intros H. cbn [steps]. now rewrite H. Qed.
  Lemma nth_error_mid {A} (pre post : list A) x : nth_error (pre ++ x :: post) (length pre) = Some x.
  Proof. induction pre as [|y pre IH]; [reflexivity|exact IH]. Qed.

  Lemma nth_error_off {A} (pre post : list A) i : nth_error (pre ++ post) (length pre + i) = nth_error post i.
  Proof. induction pre as [|y pre IH]; [reflexivity|exact IH]. Qed.

  Lemma run_sim p : forall pre post B blk s c, forallb (instr_ok (length blk)) p = true -> pc c = length pre -> Rel s c -> Blk B blk c ->
    exists c', steps rdr wrr (pre ++ map (Op w) p ++ post) (length p) c = Some c' /\ Rel (run w blk Kw p s) c' /\ Blk B blk c' /\ Frame c c' /\
      pc c' = (length pre + length p)%nat.
  Proof.
    induction p as [|i p IH]; intros pre post B blk s c OK P HR HB.
    { exists c. split; [reflexivity|]. split; [exact HR|]. split; [exact HB|]. split; [apply frame_refl|]. cbn [length]. lia. }
    cbn [forallb] in OK. apply andb_prop in OK. destruct OK as [O1 O2].
    destruct (exec_sim B blk s c i O1 HR HB) as (c1 & E1 & R1 & B1 & F1 & P1).
    specialize (IH (pre ++ [Op w i]) post B blk (exec w blk Kw s i) c1 O2).
    rewrite app_length in IH. cbn [length] in IH. destruct IH as (c2 & E2 & R2 & B2 & F2 & P2); [lia|exact R1|exact B1|].
    exists c2. split; [|split; [exact R2|split; [exact B2|split; [now apply frame_trans with c1|cbn [length]; lia]]]].
    cbn [length steps map app]. unfold step. rewrite P, nth_error_mid, E1. cbn [obind].
    rewrite <- app_assoc in E2. exact E2.
  Qed.

  (** ** Words and bytes *)
  Lemma bytes_at_ok m a n : (forall x, m x < 256) -> bytes_ok (bytes_at m a n).
  Proof using Hw Hk. clear - Hw Hk. intros H. apply Forall_forall. intros x Hx. apply in_map_iff in Hx. destruct Hx as (j & <- & _). apply H. Qed.
  Lemma bytes_at_len m a n : length (bytes_at m a n) = n.
  Proof using Hw Hk. clear - Hw Hk. unfold bytes_at. now rewrite map_length, seq_length. Qed.
  Lemma at_words_of_holds m cs : forall a, Forall (fun b => length b = k) cs -> holds m a (concat cs) ->
    at_words m a (map (fun b => le_val b mod 2 ^ w) cs).
  Proof using Hw Hk. clear - Hw Hk.
    induction cs as [|b cs IH]; intros a L H i Hi; [cbn in Hi; lia|].
    inversion L as [|? ? Lb Lc]; subst. cbn [concat] in H. apply holds_app in H. destruct H as [H1 H2].
    destruct i as [|i]; cbn [map nth].
    - change (N.of_nat 0) with 0. rewrite N.mul_0_l, N.add_0_r. rewrite <- Lb, bytes_at_holds by exact H1. reflexivity.
    - cbn [map length] in Hi. specialize (IH (a + N.of_nat (length b)) Lc H2 i ltac:(lia)).
      rewrite <- IH. do 3 f_equal. unfold kb. rewrite Lb. lia.
  Qed.
  Lemma at_words_block m a b : bytes_ok b -> (length b mod k = 0)%nat -> holds m a b -> at_words m a (words_of_le k b).
  Proof using Hw Hk. clear - Hw Hk.
    intros B L H. assert (Hk0 : (0 < k)%nat) by lia.
    assert (E : concat (chunks k b) = b).
    { pose proof (concat_chunks_rem k b Hk0) as E. rewrite <- E at 2. pose proof (remainder_length k b Hk0) as Lr. rewrite L in Lr.
      destruct (remainder k b); [now rewrite app_nil_r|discriminate Lr]. }
    rewrite <- E in H. apply at_words_of_holds in H; [|now apply chunks_block_length].
    replace (words_of_le k b) with (map (fun b => le_val b mod 2 ^ w) (chunks k b)); [exact H|].
    unfold words_of_le. apply map_ext_in. intros x Hx. apply N.mod_small. rewrite Hw.
    pose proof (chunks_ok k b Hk0 B) as O. pose proof (chunks_block_length k b Hk0) as Lc. rewrite Forall_forall in O, Lc.
    rewrite <- pow256, <- (Lc x Hx). now apply le_val_lt, O.
  Qed.
  Lemma at_words_words m a l : words_ok w l -> holds m a (words_to_le k l) -> at_words m a l.
  Proof using Hw Hk. clear - Hw Hk.
    intros W H. unfold words_to_le in H. apply at_words_of_holds in H.
    - replace l with (map (fun b => le_val b mod 2 ^ w) (map (le_bytes k) l)); [exact H|].
      rewrite map_map. rewrite <- (map_id l) at 2. apply map_ext_in. intros x Hx. rewrite le_val_bytes, pow256, <- Hw.
      rewrite N.mod_mod by apply pow2_nz. apply N.mod_small. unfold words_ok in W. rewrite Forall_forall in W. auto.
    - apply Forall_forall. intros x Hx. apply in_map_iff in Hx. destruct Hx as (y & <- & _). apply le_bytes_length.
  Qed.
  Lemma words_at m a l : (forall x, m x < 256) -> at_words m a l -> holds m a (words_to_le k l).
  Proof using Hw Hk. clear - Hw Hk.
    intros B. revert a. induction l as [|x l IH]; intros a H; [intros i Hi; cbn in Hi; lia|].
    apply holds_bytes_at. rewrite words_to_le_length. cbn [length].
    replace (k * Datatypes.S (length l))%nat with (k + k * length l)%nat by lia. rewrite bytes_at_app.
    change (words_to_le k (x :: l)) with (le_bytes k x ++ words_to_le k l). f_equal.
    - specialize (H 0%nat ltac:(cbn; lia)). cbn [nth] in H. change (N.of_nat 0) with 0 in H. rewrite N.mul_0_l, N.add_0_r in H.
      rewrite <- H. pose proof (le_bytes_val (bytes_at m a k) (bytes_at_ok m a k B)) as E. rewrite bytes_at_len in E.
      rewrite N.mod_small; [now rewrite E|]. rewrite Hw, <- pow256.
      pose proof (le_val_lt (bytes_at m a k) (bytes_at_ok m a k B)) as Lt. now rewrite bytes_at_len in Lt.
    - pose proof (bytes_at_holds m (a + N.of_nat k) (words_to_le k l)) as E. rewrite words_to_le_length in E. apply E, IH.
      intros i Hi. specialize (H (Datatypes.S i) ltac:(cbn; lia)). cbn [nth] in H. rewrite <- H. do 3 f_equal. unfold kb. lia.
  Qed.

  (** ** The loop *)
  Hypothesis clob_a1 : In r_a1 clob.
  Hypothesis clob_a2 : In r_a2 clob.

  Lemma rel_set s c r v : Rel s c -> r = r_a1 \/ r = r_a2 -> Rel s (setreg c r v).
  Proof.
    destruct s as ((regs, stk), st). intros (L1 & L2 & L3 & Rr & E0 & E3 & Es & M1 & M2 & M3 & M4) Hr.
    assert (X : forall i, (i < 13)%nat -> (rn i =? r)%nat = false).
    { intros i Hi. apply Nat.eqb_neq. unfold rn, r_a1, r_a2 in *. destruct (Nat.ltb_spec i 9); lia. }
    repeat split; cbn [setreg reg mem]; auto.
    - intros i Hi. rewrite X by exact Hi. now apply Rr.
    - destruct Hr as [-> | ->]; exact E0.
    - destruct Hr as [-> | ->]; exact E3.
    - destruct Hr as [-> | ->]; exact Es.
  Qed.
  Lemma frame_set c r v : In r clob -> Frame c (setreg c r v).
  Proof.
    intros H. split; cbn [setreg reg mem]; [auto|]. intros r' Hr. destruct (Nat.eqb_spec r' r) as [->|]; [contradiction|reflexivity].
  Qed.

  Lemma loop_sim code pre post : forallb (instr_ok 16) code = true ->
    let prog := pre ++ map (Op w) code ++ [AddiD r_a1 r_a1 (16 * kb); AddiD r_a2 r_a2 (neg64 1); Bnez r_a2 (length pre)] ++ post in
    forall blocks B s c, blocks <> [] -> Forall (fun b => length b = (16 * k)%nat /\ bytes_ok b) blocks ->
    fst RB <= B -> B + N.of_nat (length (concat blocks)) <= fst RB + snd RB -> reg c r_a1 = B ->
    N.of_nat (length blocks) < 2 ^ 64 -> reg c r_a2 = N.of_nat (length blocks) -> holds (mem c) B (concat blocks) ->
    Rel s c -> pc c = length pre ->
    exists n c', steps rdr wrr prog n c = Some c' /\ pc c' = (length pre + length code + 3)%nat /\
      Rel (fold_left (fun s b => run w (words_of_le k b) Kw code s) blocks s) c' /\ Frame c c'.
  Proof.
    intros OK prog. induction blocks as [|b blocks IH]; [congruence|]. intros B s c _ HF H1 H2 E1 Nn E2 HM HR P.
    inversion HF as [|? ? [Lb Ob] HF']; subst. cbn [concat] in HM, H2. rewrite app_length in H2.
    apply holds_app in HM. destruct HM as [HMb HMr].
    assert (Lw : length (words_of_le k b) = 16%nat).
    { rewrite words_of_le_length by lia. rewrite Lb. apply Nat.div_mul. lia. }
    set (B := reg c r_a1) in *. set (n := N.of_nat (length (b :: blocks))) in *.
    assert (HB : Blk (B, n) (words_of_le k b) c).
    { unfold Blk; cbn [fst snd]. split; [reflexivity|]. split; [|split; [exact H1|split; [rewrite Lw; unfold kb; lia|exact E2]]].
      apply at_words_block; [exact Ob|rewrite Lb; apply Nat.mod_mul; lia|exact HMb]. }
    destruct (run_sim code pre ([AddiD r_a1 r_a1 (16 * kb); AddiD r_a2 r_a2 (neg64 1); Bnez r_a2 (length pre)] ++ post)
      (B, n) (words_of_le k b) s c) as (c1 & S1 & R1 & B1 & F1 & P1); [now rewrite Lw|exact P|exact HR|exact HB|].
    fold prog in S1.
    set (c2 := setreg c1 r_a1 (wadd 64 (reg c1 r_a1) (16 * kb))).
    set (c3 := setreg c2 r_a2 (wadd 64 (reg c2 r_a2) (neg64 1))).
    set (c4 := {| reg := reg c3; mem := mem c3; pc := if reg c3 r_a2 =? 0 then Datatypes.S (pc c3) else length pre |}).
    assert (At : forall i, nth_error prog (length pre + length code + i)
      = nth_error ([AddiD r_a1 r_a1 (16 * kb); AddiD r_a2 r_a2 (neg64 1); Bnez r_a2 (length pre)] ++ post) i).
    { intros i. unfold prog. rewrite app_assoc.
      replace (length pre + length code)%nat with (length (pre ++ map (Op w) code)) by (rewrite app_length, map_length; reflexivity).
      apply nth_error_off. }
    assert (T2 : step rdr wrr prog c1 = Some c2).
    { unfold step. rewrite P1, <- (Nat.add_0_r (length pre + length code)), At. reflexivity. }
    assert (T3 : step rdr wrr prog c2 = Some c3).
    { unfold step. change (pc c2) with (Datatypes.S (pc c1)). rewrite P1.
      replace (Datatypes.S (length pre + length code)) with (length pre + length code + 1)%nat by lia. now rewrite At. }
    assert (T4 : step rdr wrr prog c3 = Some c4).
    { unfold step. change (pc c3) with (Datatypes.S (Datatypes.S (pc c1))). rewrite P1.
      replace (Datatypes.S (Datatypes.S (length pre + length code))) with (length pre + length code + 2)%nat by lia. rewrite At.
      cbn [app nth_error]. unfold c4. change (pc c3) with (Datatypes.S (Datatypes.S (pc c1))). rewrite P1.
      replace (Datatypes.S (Datatypes.S (length pre + length code))) with (length pre + length code + 2)%nat by lia. reflexivity. }
    assert (S4 : steps rdr wrr prog (length code + 3) c = Some c4).
    { rewrite steps_app, S1. cbn [obind steps]. rewrite T2. cbn [obind]. rewrite T3. cbn [obind]. now rewrite T4. }
    assert (R4 : Rel (run w (words_of_le k b) Kw code s) c4).
    { assert (R3 : Rel (run w (words_of_le k b) Kw code s) c3) by (apply rel_set; [apply rel_set|]; auto).
      destruct (run w (words_of_le k b) Kw code s) as ((regs, stk), st). exact R3. }
    assert (F4 : Frame c c4).
    { apply frame_trans with c1; [exact F1|]. apply frame_trans with c2; [now apply frame_set|].
      assert (F3 : Frame c2 c3) by now apply frame_set. exact F3. }
    assert (A1' : reg c4 r_a1 = wadd 64 B (16 * kb)).
    { cbn [c4 reg]. change (reg c3 r_a1) with (wadd 64 (reg c1 r_a1) (16 * kb)). now destruct B1 as (-> & _). }
    assert (A2' : reg c4 r_a2 = N.of_nat (length blocks)).
    { change (reg c4 r_a2) with (wadd 64 (reg c1 r_a2) (neg64 1)).
      destruct B1 as (_ & _ & _ & _ & ->). cbn [snd]. unfold n, wadd, neg64. cbn [length].
      replace (N.of_nat (Datatypes.S (length blocks)) + (2 ^ 64 - 1)) with (N.of_nat (length blocks) + 1 * 2 ^ 64) by lia.
      rewrite N.mod_add by apply pow2_nz. apply N.mod_small. unfold n in Nn. cbn [length] in Nn. lia. }
    destruct blocks as [|b' blocks].
    - exists (length code + 3)%nat, c4. split; [exact S4|]. split; [|split; [exact R4|exact F4]].
      cbn [c4 pc]. change (reg c3 r_a2) with (reg c4 r_a2). rewrite A2'. change (N.of_nat (length (@nil bytes)) =? 0) with true. cbv iota.
      change (pc c3) with (Datatypes.S (Datatypes.S (pc c1))). rewrite P1. clear. lia.
    - destruct (IH (B + 16 * kb) (run w (words_of_le k b) Kw code s) c4) as (m & c5 & S5 & P5 & R5 & F5); auto.
      + discriminate.
      + unfold kb. lia.
      + unfold kb. lia.
      + rewrite A1'. unfold wadd. apply N.mod_small. unfold fits in FB. cbn [concat] in H2. rewrite app_length in H2.
        inversion HF' as [|? ? [Lb' _] _]; subst. unfold kb. lia.
      + unfold n in Nn. cbn [length] in *. lia.
      + replace (B + 16 * kb) with (B + N.of_nat (length b)) by (unfold kb; lia).
        apply holds_frame with (mem c); [exact HMr|]. intros x Hx. destruct F4 as [F4 _]. apply F4; unfold outside, apart in *; cbn [fst snd] in *; lia.
      + cbn [c4 pc]. change (reg c3 r_a2) with (reg c4 r_a2). rewrite A2'. reflexivity.
      + exists (length code + 3 + m)%nat, c5. split; [rewrite steps_app, S4; exact S5|].
        split; [exact P5|]. split; [exact R5|]. now apply frame_trans with c4.
  Qed.

  (** ** Whole functions *)
  Definition regs_of (c : cpu) : list N := map (fun i => reg c (rn i) mod 2 ^ w) (seq 0 13).
  Lemma regs_of_len c : length (regs_of c) = 13%nat.
  Proof. reflexivity. Qed.
  Lemma regs_of_nth c i : (i < 13)%nat -> reg c (rn i) mod 2 ^ w = nth i (regs_of c) oob.
  Proof. intros H. do 13 (destruct i as [|i]; [reflexivity|]). lia. Qed.
  Definition words_at_list (m : N -> N) (a : N) (n : nat) : list N := map (fun i => le_val (bytes_at m (a + N.of_nat i * kb) k) mod 2 ^ w) (seq 0 n).
  Lemma words_at_list_ok m a n : length (words_at_list m a n) = n /\ at_words m a (words_at_list m a n).
  Proof.
    assert (L : length (words_at_list m a n) = n) by (unfold words_at_list; now rewrite map_length, seq_length).
    split; [exact L|]. intros i Hi. rewrite L in Hi. unfold words_at_list.
    set (f := fun i => le_val (bytes_at m (a + N.of_nat i * kb) k) mod 2 ^ w).
    rewrite nth_indep with (d' := f 0%nat) by now rewrite map_length, seq_length. now rewrite map_nth, seq_nth.
  Qed.
  Lemma run_app blk p q s : run w blk Kw (p ++ q) s = run w blk Kw q (run w blk Kw p s).
  Proof. apply fold_left_app. Qed.

  Lemma fold_app p q blocks : forall s, fold_left (fun s b => run w (words_of_le k b) Kw (p ++ q) s) blocks s
    = fold_left (fun m block => run w (words_of_le k block) Kw q (run w (words_of_le k block) Kw p m)) blocks s.
  Proof. induction blocks as [|x l IH]; intros m; [reflexivity|]. cbn [fold_left]. rewrite run_app. apply IH. Qed.

  Lemma framed_sim start body finish frame blocks c st : frame = N.of_nat nt * kb ->
    forallb (instr_ok 0) start = true -> forallb (instr_ok 16) (body ++ finish) = true ->
    blocks <> [] -> Forall (fun b => length b = (16 * k)%nat /\ bytes_ok b) blocks ->
    (ns = 0%nat \/ reg c r_a0 = S) -> (nk = 0%nat \/ reg c r_a3 = K) -> reg c r_sp = T + frame -> T + frame < 2 ^ 64 ->
    RB = (reg c r_a1, N.of_nat (length (concat blocks))) -> reg c r_a2 = N.of_nat (length blocks) ->
    holds (mem c) (reg c r_a1) (concat blocks) -> length st = ns -> at_words (mem c) S st -> at_words (mem c) K Kw ->
    (forall x, mem c x < 256) -> pc c = 0%nat ->
    exists stk n c', length stk = nt /\ steps rdr wrr (framed w frame (16 * kb) start body finish) n c = Some c' /\
      pc c' = length (framed w frame (16 * kb) start body finish) /\
      holds (mem c') S (words_to_le k (compress_asm w k Kw start body finish (regs_of c) stk st blocks)) /\
      (forall x, outside RS x -> outside RT x -> mem c' x = mem c x) /\ (forall r, ~ In r clob -> reg c' r = reg c r).
  Proof.
    intros Fr O1 O2 Ne HF H0 H3 Hsp Lsp ERB E2 HM Ls MS MK MB P.
    set (prog := framed w frame (16 * kb) start body finish).
    exists (words_at_list (mem c) T nt). destruct (words_at_list_ok (mem c) T nt) as [Lk MT].
    set (c1 := setreg c r_sp (wadd 64 (reg c r_sp) (neg64 frame))).
    assert (ET : wadd 64 (reg c r_sp) (neg64 frame) = T).
    { rewrite Hsp. unfold wadd, neg64. replace (T + frame + (2 ^ 64 - frame)) with (T + 1 * 2 ^ 64) by lia.
      rewrite N.mod_add by apply pow2_nz. apply N.mod_small. lia. }
    assert (Nsp : forall i, (i < 13)%nat -> (rn i =? r_sp)%nat = false).
    { intros i Hi. apply Nat.eqb_neq. apply (rn_not_base i SP Hi). }
    assert (T1 : step rdr wrr prog c = Some c1) by (unfold step; rewrite P; reflexivity).
    assert (R1 : Rel (regs_of c, words_at_list (mem c) T nt, st) c1).
    { repeat split; cbn [c1 setreg reg mem]; auto.
      intros i Hi. rewrite Nsp by exact Hi. now apply regs_of_nth. }
    assert (B1 : Blk (reg c r_a1, reg c r_a2) [] c1).
    { unfold Blk. cbn [fst snd length]. rewrite ERB. cbn [fst snd]. split; [reflexivity|]. split; [intros i Hi; cbn in Hi; lia|].
      split; [apply N.le_refl|]. split; [lia|reflexivity]. }
    set (tail4 := [AddiD r_a1 r_a1 (16 * kb); AddiD r_a2 r_a2 (neg64 1); Bnez r_a2 (1 + length start); AddiD r_sp r_sp frame]).
    destruct (run_sim start [AddiD r_sp r_sp (neg64 frame)] (map (Op w) (body ++ finish) ++ tail4)
      (reg c r_a1, reg c r_a2) [] (regs_of c, words_at_list (mem c) T nt, st) c1 O1) as (c2 & S2 & R2 & B2 & F2 & P2); [cbn [c1 setreg pc]; now rewrite P|exact R1|exact B1|].
    destruct B2 as (A1' & _ & _ & _ & A2'). cbn [fst snd] in A1', A2'.
    destruct (loop_sim (body ++ finish) ([AddiD r_sp r_sp (neg64 frame)] ++ map (Op w) start) [AddiD r_sp r_sp frame] O2
      blocks (reg c r_a1) (run w [] Kw start (regs_of c, words_at_list (mem c) T nt, st)) c2)
      as (n & c3 & S3 & P3 & R3 & F3); auto.
    { rewrite ERB. apply N.le_refl. }
    { rewrite ERB. cbn [fst snd]. lia. }
    { assert (16 * k * length blocks = length (concat blocks))%nat.
      { symmetry. apply concat_length_blocks. eapply Forall_impl; [|exact HF]. now intros a [? _]. }
      unfold fits in FB. rewrite ERB in FB. cbn [fst snd] in FB. lia. }
    { now rewrite A2'. }
    { apply holds_frame with (mem c1); [exact HM|]. intros x Hx.
      destruct F2 as [F2 _]. apply F2; unfold outside, apart in *; rewrite ERB in *; cbn [fst snd] in *; lia. }
    { rewrite app_length, map_length. cbn [length Nat.add] in P2 |- *. exact P2. }
    assert (EP : ([AddiD r_sp r_sp (neg64 frame)] ++ map (Op w) start) ++ map (Op w) (body ++ finish) ++
      [AddiD r_a1 r_a1 (16 * kb); AddiD r_a2 r_a2 (neg64 1); Bnez r_a2 (length ([AddiD r_sp r_sp (neg64 frame)] ++ map (Op w) start))] ++ [AddiD r_sp r_sp frame] = prog).
    { unfold prog, framed. rewrite (app_length _ (map (Op w) start)), map_length. cbn [length]. rewrite <- app_assoc. reflexivity. }
    rewrite EP in S3.
    change ([AddiD r_sp r_sp (neg64 frame)] ++ map (Op w) start ++ map (Op w) (body ++ finish) ++ tail4) with prog in S2.
    rewrite (app_length _ (map (Op w) start)), map_length in P3. cbn [length] in P3.
    set (c4 := setreg c3 r_sp (wadd 64 (reg c3 r_sp) frame)).
    assert (T4 : step rdr wrr prog c3 = Some c4).
    { unfold step. rewrite P3. unfold prog, framed.
      replace (1 + length start + length (body ++ finish) + 3)%nat
        with (length ([AddiD r_sp r_sp (neg64 frame)] ++ map (Op w) start ++ map (Op w) (body ++ finish)) + 3)%nat
        by (rewrite !app_length, !map_length, !app_length; cbn [length]; lia).
      rewrite (app_assoc (map (Op w) start)), (app_assoc [AddiD r_sp r_sp (neg64 frame)]), nth_error_off. reflexivity. }
    exists (1 + length start + n + 1)%nat, c4. split; [exact Lk|]. split.
    { rewrite <- !Nat.add_assoc, steps_app, (steps_one _ _ _ T1). cbn [obind]. rewrite steps_app, S2. cbn [obind].
      rewrite steps_app, S3. cbn [obind]. exact (steps_one _ _ _ T4). }
    split.
    { cbn [c4 setreg pc]. rewrite P3. unfold prog, framed. rewrite !app_length, !map_length, !app_length. cbn [length]. lia. }
    split; [|split].
    - unfold compress_asm. destruct blocks as [|b bs]; [congruence|].
      assert (EQ : fold_left (fun s b => run w (words_of_le k b) Kw (body ++ finish) s) (b :: bs)
          (run w [] Kw start (regs_of c, words_at_list (mem c) T nt, st))
        = fold_left (fun m block => run w (words_of_le k block) Kw finish (run w (words_of_le k block) Kw body m)) (b :: bs)
          (run w [] Kw start (regs_of c, words_at_list (mem c) T nt, st))).
      { apply fold_app. }
      rewrite EQ in R3. destruct (fold_left _ (b :: bs) _) as ((regs', stk'), st'). destruct R3 as (_ & _ & _ & _ & _ & _ & _ & MS' & _ & _ & MB').
      cbn [c4 setreg mem]. now apply words_at.
    - intros x X1 X2. cbn [c4 setreg mem]. destruct F3 as [F3 _], F2 as [F2 _]. rewrite F3, F2 by assumption. reflexivity.
    - intros r Hr. cbn [c4 setreg reg]. destruct F3 as [_ F3], F2 as [_ F2].
      destruct (Nat.eqb_spec r r_sp) as [->|Hs].
      + rewrite F3, F2 by exact Hr. cbn [c1 setreg reg]. rewrite Nat.eqb_refl, ET. rewrite Hsp. unfold wadd. now apply N.mod_small.
      + rewrite F3, F2 by exact Hr. cbn [c1 setreg reg]. destruct (Nat.eqb_spec r r_sp); [contradiction|reflexivity].
  Qed.

  Lemma unframed_sim code blocks c : ns = 0%nat -> nt = 0%nat ->
    forallb (instr_ok 16) code = true ->
    blocks <> [] -> Forall (fun b => length b = (16 * k)%nat /\ bytes_ok b) blocks ->
    reg c r_a3 = K ->
    RB = (reg c r_a1, N.of_nat (length (concat blocks))) -> reg c r_a2 = N.of_nat (length blocks) ->
    holds (mem c) (reg c r_a1) (concat blocks) -> at_words (mem c) K Kw ->
    (forall x, mem c x < 256) -> pc c = 0%nat ->
    exists n c' regs, steps rdr wrr (map (Op w) code ++ [AddiD r_a1 r_a1 (16 * kb); AddiD r_a2 r_a2 (neg64 1); Bnez r_a2 0]) n c = Some c' /\
      pc c' = (length code + 3)%nat /\
      fold_left (fun s b => run w (words_of_le k b) Kw code s) blocks (regs_of c, [], []) = (regs, [], []) /\
      (forall i, (i < 13)%nat -> reg c' (rn i) mod 2 ^ w = nth i regs oob) /\
      (forall x, outside RS x -> outside RT x -> mem c' x = mem c x) /\ (forall r, ~ In r clob -> reg c' r = reg c r).
  Proof.
    intros Zs Zt O2 Ne HF H3 ERB E2 HM MK MB P.
    destruct (loop_sim code [] [] O2 blocks (reg c r_a1) (regs_of c, [], []) c) as (n & c3 & S3 & P3 & R3 & F3); auto.
    { rewrite ERB. apply N.le_refl. }
    { rewrite ERB. cbn [fst snd]. lia. }
    { assert (16 * k * length blocks = length (concat blocks))%nat.
      { symmetry. apply concat_length_blocks. eapply Forall_impl; [|exact HF]. now intros a [? _]. }
      unfold fits in FB. rewrite ERB in FB. cbn [fst snd] in FB. lia. }
    { repeat split; auto. - intros i Hi. now apply regs_of_nth. - intros i Hi. cbn in Hi. lia. - intros i Hi. cbn in Hi. lia. }
    cbn [app length Nat.add] in S3, P3. exists n, c3.
    destruct (fold_left _ _ _) as ((regs', stk'), st') eqn:E. destruct R3 as (L1 & L2 & L3 & Rr & _).
    exists regs'. split; [exact S3|]. split; [exact P3|]. split.
    { rewrite Zt in L2. rewrite Zs in L3. destruct stk', st'; try discriminate. reflexivity. }
    split; [exact Rr|]. exact F3.
  Qed.
End Sim.
