(** The LoongArch64 SHA-1 back end computes the FIPS 180-4 compression function. *)
From Verif Require Import Base.Words Base.Bytes Base.Codec Model.Loong Model.LoongLines Model.LoongCompress
  Proof.Sha2Roll Proof.Sha2Loong.
From Verif Require Spec.SHA1 Model.Sha1 Proof.Sha1.
Import Spec.SHA1 (vars, round).
Import Proof.Sha1 (vok, round_ok, list_of_vars).

Definition lay5 (r : nat) (v : vars) : list N :=
  map (fun j => get (list_of_vars v) ((j + r) mod 5)) (seq 0 5).
Lemma lay5_mod r v : lay5 r v = lay5 (r mod 5) v.
Proof.
  unfold lay5. apply map_ext. intros j. f_equal. rewrite (Nat.add_mod j (r mod 5)), Nat.mod_mod, <- Nat.add_mod; lia.
Qed.
Definition rg5 (j i : nat) : nat := ((j + (5 - i mod 5)) mod 5)%nat.
Lemma rg5_mod j i : rg5 j i = rg5 j (i mod 5).
Proof. unfold rg5. now rewrite Nat.mod_mod. Qed.

Section Exec.
  Variables (blk : list N).
  Variables k0 k1 k2 k3 : N.
  Notation ks := [k0; k1; k2; k3].
  Definition fround (ft : N -> N -> N -> N) (v : vars) (k x : N) : vars :=
    let '(a, b, c, d, e) := v in
    (wadd 32 (wadd 32 (wadd 32 (wadd 32 e x) (ft b c d)) k) (rotr 32 a 27), a, rotr 32 b 2, c, d).
  Definition ch1 (b c d : N) := N.lxor (N.land (N.lxor c d) b) d.
  Definition par1 (b c d : N) := N.lxor (N.lxor b c) d.
  Definition maj1 (b c d : N) := N.lor (N.land (N.lor c d) b) (N.land c d).
  Definition next (stk : list N) (i : nat) : N :=
    rotr 32 (N.lxor (N.lxor (N.lxor (mget stk ((i - 3) mod 16)) (mget stk ((i - 8) mod 16)))
      (mget stk ((i - 14) mod 16))) (mget stk ((i - 16) mod 16))) 31.
  Definition input (i : nat) : N := rotr 32 (revb_2h (mget blk i)) 16.

  Definition good (line : nat -> nat -> nat -> nat -> nat -> nat -> list instr) ft k (x : list N -> nat -> N) (at_ : nat -> nat) : Prop :=
    forall i s v x5 x6 x7 x8 stk st, (s < 5)%nat -> exists y5 y6 y7 y8,
    run 32 blk [] (line (rg5 0 s) (rg5 1 s) (rg5 2 s) (rg5 3 s) (rg5 4 s) i)
      (lay5 s v ++ [x5; x6; x7; x8] ++ ks, stk, st)
    = (lay5 (S s) (fround ft v k (x stk i)) ++ [y5; y6; y7; y8] ++ ks, mset stk (at_ i) (x stk i), st).

  Ltac steps := cbv beta iota zeta delta [run fold_left exec load rget rset upd nth roundtail1 lay5 map seq Nat.add Nat.sub Nat.modulo
    Nat.divmod fst snd get list_of_vars app t0 t1 t2 t3 t4 t5 t6 t7 t8 a4 a5 a6 a7].
  Ltac go := intros i s v x5 x6 x7 x8 stk st Hs; destruct v as ((((a, b), c), d), e);
    unfold fround, round0a, round0b, round1, round2, round3, scheldule, roundtail1, next, input, ch1, par1, maj1;
    generalize (i mod 16)%nat ((i - 3) mod 16)%nat ((i - 8) mod 16)%nat ((i - 14) mod 16)%nat ((i - 16) mod 16)%nat;
    intros im i3 i8 i14 i16; unfold rg5;
    do 5 (destruct s as [|s]; [do 4 eexists; steps; reflexivity|]); lia.
  Lemma good0a : good round0a ch1 k0 (fun _ i => input i) (fun i => i).
  Proof using. go. Qed.
  Lemma good0b : good round0b ch1 k0 next (fun i => i mod 16)%nat.
  Proof using. go. Qed.
  Lemma good1 : good round1 par1 k1 next (fun i => i mod 16)%nat.
  Proof using. go. Qed.
  Lemma good2 : good round2 maj1 k2 next (fun i => i mod 16)%nat.
  Proof using. go. Qed.
  Lemma good3 : good round3 par1 k3 next (fun i => i mod 16)%nat.
  Proof using. go. Qed.
End Exec.

Definition line (i : nat) : list instr :=
  (if (i <? 16)%nat then round0a else if (i <? 20)%nat then round0b else if (i <? 40)%nat then round1
   else if (i <? 60)%nat then round2 else round3)
    (rg5 0 i) (rg5 1 i) (rg5 2 i) (rg5 3 i) (rg5 4 i) i.
Lemma lines1_eq : lines1 = map line (seq 0 80).
Proof. reflexivity. Qed.

Lemma ch1_ok b c d : d < 2 ^ 32 -> ch1 b c d = Spec.SHA1.Ch b c d.
Proof.
  intros H. rewrite <- Proof.Sha1.ch_ok by exact H. unfold ch1, Sha1.bool3ary_202.
  now rewrite N.lxor_comm, N.land_comm.
Qed.
Lemma maj1_ok b c d : maj1 b c d = Spec.SHA1.Maj b c d.
Proof. unfold maj1. rewrite (N.lor_comm c d), (N.land_comm c d). exact (maj_alt b c d). Qed.
Lemma rotr_rotl x n : n <= 32 -> rotr 32 x n = rotl 32 x (32 - n).
Proof. intros H. unfold rotr, rotl. rewrite N.lor_comm. now replace (32 - (32 - n)) with n by lia. Qed.
Lemma fround_round g ft v k x : (forall b c d, d < 2 ^ 32 -> g b c d = ft b c d) -> vok v ->
  fround g v k x = round v ft k x.
Proof.
  intros Hg. destruct v as ((((a, b), c), d), e). intros (?&?&?&?&?). unfold fround, round.
  rewrite Hg by assumption. rewrite !rotr_rotl by lia. change (32 - 27) with 5. change (32 - 2) with 30.
  fold rotl32. generalize (rotl32 a 5) (ft b c d). intros. tuple_eq; try reflexivity. unfold add32. wadd_ac.
Qed.

Definition fkind (i : nat) : N -> N -> N -> N :=
  if (i <? 20)%nat then ch1 else if (i <? 40)%nat then par1 else if (i <? 60)%nat then maj1 else par1.
Lemma fkind_ok i b c d : d < 2 ^ 32 -> fkind i b c d = Spec.SHA1.f i b c d.
Proof.
  intros H. unfold fkind, Spec.SHA1.f. destruct (i <? 20)%nat; [now apply ch1_ok|].
  destruct (i <? 40)%nat; [reflexivity|]. destruct (i <? 60)%nat; [apply maj1_ok|reflexivity].
Qed.

Section Block.
  Variables (blk W : list N).
  Notation ks := Sha1.K.
  Hypothesis Wold : forall t, (t < 16)%nat -> input blk t = get W t.
  Hypothesis HW : forall t, (16 <= t < 80)%nat -> get W t =
    rotl32 (N.lxor (N.lxor (N.lxor (get W (t - 3)) (get W (t - 8))) (get W (t - 14))) (get W (t - 16))) 1.

  Lemma line_exec i v tmp stk st : (i < 80)%nat -> length tmp = 4%nat -> exists tmp', length tmp' = 4%nat /\
    let x := if (i <? 16)%nat then input blk i else next stk i in
    run 32 blk [] (line i) (lay5 i v ++ tmp ++ ks, stk, st)
    = (lay5 (S i) (fround (fkind i) v (get ks (i / 20)) x) ++ tmp' ++ ks, mset stk (i mod 16) x, st).
  Proof using.
    clear. intros Hi Lt. do 5 (destruct tmp as [|? tmp]; try discriminate Lt). clear Lt.
    pose proof (Nat.mod_upper_bound i 5 ltac:(lia)) as B.
    assert (EL : forall v', lay5 (S i) v' = lay5 (S (i mod 5)) v').
    { intros v'. rewrite (lay5_mod (S i)), (lay5_mod (S (i mod 5))). f_equal.
      change (S i) with (1 + i)%nat. change (S (i mod 5)) with (1 + i mod 5)%nat.
      rewrite Nat.add_mod_idemp_r; [reflexivity|discriminate]. }
    cbv zeta. rewrite EL, (lay5_mod i). unfold line. rewrite !(rg5_mod _ i). unfold Sha1.K.
    assert (Q : forall j, (j * 20 <= i < j * 20 + 20)%nat -> (i / 20 = j)%nat).
    { intros j Hj. symmetry. apply (Nat.div_unique i 20 j (i - j * 20)); lia. }
    unfold fkind.
    destruct (Nat.ltb_spec i 16).
    { rewrite (Q 0%nat) by lia. destruct (Nat.ltb_spec i 20); [|lia].
      destruct (good0a blk 0x5A827999 0x6ED9EBA1 0x8F1BBCDC 0xCA62C1D6 i (i mod 5)%nat v n n0 n1 n2 stk st B) as (y5&y6&y7&y8&->).
      exists [y5; y6; y7; y8]. split; [reflexivity|]. now rewrite (Nat.mod_small i 16). }
    destruct (Nat.ltb_spec i 20).
    { rewrite (Q 0%nat) by lia.
      destruct (good0b blk 0x5A827999 0x6ED9EBA1 0x8F1BBCDC 0xCA62C1D6 i (i mod 5)%nat v n n0 n1 n2 stk st B) as (y5&y6&y7&y8&->).
      now exists [y5; y6; y7; y8]. }
    destruct (Nat.ltb_spec i 40).
    { rewrite (Q 1%nat) by lia.
      destruct (good1 blk 0x5A827999 0x6ED9EBA1 0x8F1BBCDC 0xCA62C1D6 i (i mod 5)%nat v n n0 n1 n2 stk st B) as (y5&y6&y7&y8&->).
      now exists [y5; y6; y7; y8]. }
    destruct (Nat.ltb_spec i 60).
    { rewrite (Q 2%nat) by lia.
      destruct (good2 blk 0x5A827999 0x6ED9EBA1 0x8F1BBCDC 0xCA62C1D6 i (i mod 5)%nat v n n0 n1 n2 stk st B) as (y5&y6&y7&y8&->).
      now exists [y5; y6; y7; y8]. }
    rewrite (Q 3%nat) by lia.
    destruct (good3 blk 0x5A827999 0x6ED9EBA1 0x8F1BBCDC 0xCA62C1D6 i (i mod 5)%nat v n n0 n1 n2 stk st B) as (y5&y6&y7&y8&->).
    now exists [y5; y6; y7; y8].
  Qed.

  Lemma lines_run n v tmp stk st : (n <= 80)%nat -> vok v -> length tmp = 4%nat -> length stk = 16%nat ->
    exists tmp' stk', length tmp' = 4%nat /\ window W (n - 16) n stk' /\
    run 32 blk [] (concat (map line (seq 0 n))) (lay5 0 v ++ tmp ++ ks, stk, st)
    = (lay5 n (Proof.Sha1.run W 0 n v) ++ tmp' ++ ks, stk', st).
  Proof using Wold HW.
    intros Hn Hv Ht Hstk. induction n as [|n IH].
    { exists tmp, stk. repeat split; try assumption. intros t. lia. }
    destruct (IH ltac:(lia)) as (tmp1 & stk1 & Ht1 & Hw1 & E). clear IH.
    rewrite seq_S, map_app, concat_app, run_app, E. cbn [map concat Nat.add]. rewrite app_nil_r. clear E.
    assert (Hvn : vok (Proof.Sha1.run W 0 n v)) by now apply Proof.Sha1.run_ok.
    destruct (line_exec n (Proof.Sha1.run W 0 n v) tmp1 stk1 st ltac:(lia) Ht1) as (tmp2 & Ht2 & E).
    cbv zeta in E. rewrite E. clear E.
    assert (EN : (if (n <? 16)%nat then input blk n else next stk1 n) = get W n).
    { destruct (Nat.ltb_spec n 16); [now apply Wold|]. destruct Hw1 as [_ G]. unfold next. change (mget stk1) with (get stk1).
      rewrite (G (n - 3)%nat), (G (n - 8)%nat), (G (n - 14)%nat), (G (n - 16)%nat) by lia.
      rewrite rotr_rotl by lia. symmetry. apply HW. lia. }
    rewrite EN. exists tmp2, (mset stk1 (n mod 16) (get W n)).
    split; [exact Ht2|]. split.
    - destruct (Nat.ltb_spec n 16).
      + replace (S n - 16)%nat with (n - 16)%nat by lia. apply window_upd; [exact Hw1|lia|reflexivity].
      + replace (S n - 16)%nat with (S (n - 16)) by lia.
        apply window_upd; [apply (window_weaken W (n - 16)); [exact Hw1|lia]|lia|reflexivity].
    - rewrite (fround_round (fkind n) (Spec.SHA1.f n)) by (exact Hvn || apply fkind_ok).
      rewrite <- Proof.Sha1.K_get by lia. unfold Proof.Sha1.run. rewrite seq_S, fold_left_app. reflexivity.
  Qed.
End Block.

Lemma lay5_80 v : lay5 80 v = list_of_vars v.
Proof. rewrite lay5_mod. now destruct v as ((((a, b), c), d), e). Qed.
Lemma update1_exec blk v0 tmp stk v : length tmp = 4%nat -> exists tmp', length tmp' = 4%nat /\
  let r := let '(a0, b0, c0, d0, e0) := v0 in let '(a, b, c, d, e) := v in
    [add32 a a0; add32 b b0; add32 c c0; add32 d d0; add32 e e0] in
  run 32 blk [] update_state1 (list_of_vars v ++ tmp ++ Sha1.K, stk, list_of_vars v0) = (r ++ tmp' ++ Sha1.K, stk, r).
Proof.
  intros Lt. do 5 (destruct tmp as [|? tmp]; try discriminate Lt).
  destruct v as ((((a, b), c), d), e), v0 as ((((a0, b0), c0), d0), e0).
  exists [e0; b0; c0; d0]. split; reflexivity.
Qed.

Lemma block_exec block v tmp stk : length block = 64%nat -> bytes_ok block -> vok v ->
  length tmp = 4%nat -> length stk = 16%nat ->
  let r := list_of_vars (Spec.SHA1.compress v block) in
  exists tmp' stk', length tmp' = 4%nat /\ length stk' = 16%nat /\
  run 32 (words_of_le 4 block) [] update_state1
    (run 32 (words_of_le 4 block) [] (concat lines1) (list_of_vars v ++ tmp ++ Sha1.K, stk, list_of_vars v))
  = (r ++ tmp' ++ Sha1.K, stk', r).
Proof.
  intros Lb Ob Hv Lt Lk r. rewrite lines1_eq. set (blk := words_of_le 4 block).
  set (M := map be_val (chunks 4 block)).
  assert (LC : length (chunks 4 block) = 16%nat) by (rewrite chunks_length, Lb by lia; reflexivity).
  assert (LM : length M = 16%nat) by (unfold M; now rewrite map_length).
  assert (Wold : forall t, (t < 16)%nat -> input blk t = get (Spec.SHA1.schedule M) t).
  { intros t Ht. rewrite Proof.Sha1.sched_old by assumption. unfold input, blk, mget, words_of_le, M, get.
    rewrite !(nth_indep _ oob (le_val [])) by (rewrite map_length; lia).
    rewrite map_nth. rewrite (nth_indep (map be_val _) (le_val []) (be_val [])) by (rewrite map_length; lia).
    rewrite map_nth.
    assert (I : In (nth t (chunks 4 block) []) (chunks 4 block)) by (apply nth_In; lia).
    apply rev256.
    - pose proof (chunks_block_length 4 block ltac:(lia)) as L. rewrite Forall_forall in L. now apply L.
    - pose proof (chunks_ok 4 block ltac:(lia) Ob) as L. rewrite Forall_forall in L. now apply L. }
  destruct (lines_run blk (Spec.SHA1.schedule M) Wold (Proof.Sha1.sched_new M LM) 80 v tmp stk (list_of_vars v)
    (le_n _) Hv Lt Lk) as (tmp1 & stk1 & Lt1 & [Lk1 _] & E).
  assert (E0 : lay5 0 v = list_of_vars v) by now destruct v as ((((a, b), c), d), e).
  rewrite E0, lay5_80 in E. rewrite E. clear E E0.
  destruct (update1_exec blk v tmp1 stk1 (Proof.Sha1.run (Spec.SHA1.schedule M) 0 80 v) Lt1) as (tmp2 & Lt2 & E).
  cbv zeta in E. rewrite E. clear E.
  exists tmp2, stk1. split; [exact Lt2|]. split; [exact Lk1|].
  unfold r, Spec.SHA1.compress. fold M. change (Spec.SHA1.rounds (Spec.SHA1.schedule M) v) with (Proof.Sha1.run (Spec.SHA1.schedule M) 0 80 v).
  clear. destruct v as ((((a0, b0), c0), d0), e0).
  destruct (Proof.Sha1.run (Spec.SHA1.schedule M) 0 80 _) as ((((a, b), c), d), e). reflexivity.
Qed.

Lemma vars_list st : length st = 5%nat -> words_ok 32 st -> exists v, vok v /\ st = list_of_vars v.
Proof.
  intros L W. do 6 (destruct st as [|? st]; try discriminate L).
  unfold words_ok in W. repeat match goal with H : Forall _ (_ :: _) |- _ => inversion_clear H end.
  exists (n, n0, n1, n2, n3). split; [|reflexivity]. cbn. auto.
Qed.

Lemma loong1 regs stk st blocks : length regs = 13%nat -> length stk = 16%nat ->
  length st = 5%nat -> words_ok 32 st -> Forall (fun b => length b = 64%nat /\ bytes_ok b) blocks ->
  sha1_loong regs stk st blocks = Sha1.compress st blocks.
Proof.
  intros Lr Lk Ls Ws Hb. destruct (vars_list st Ls Ws) as (v & Hv & ->). clear Ls Ws.
  unfold sha1_loong, compress_asm, Sha1.compress.
  pose proof block_exec as BE. pose proof Proof.Sha1.compress_block_spec as CB. revert BE CB.
  generalize (concat lines1) Sha1.compress_block Spec.SHA1.compress update_state1. intros body soft spec upd1 BE CB.
  assert (E : exists tmp, length tmp = 4%nat /\ run 32 [] [] load_state1 (firstn 9 regs ++ Sha1.K, stk, list_of_vars v)
    = (list_of_vars v ++ tmp ++ Sha1.K, stk, list_of_vars v)).
  { clear - Lr. do 14 (destruct regs as [|? regs]; try discriminate Lr).
    destruct v as ((((a, b), c), d), e). eexists [_;_;_;_]. split; [reflexivity|reflexivity]. }
  destruct E as (tmp & Lt & ->).
  enough (F : exists tmp' stk', fold_left (fun m block =>
      run 32 (words_of_le 4 block) [] upd1 (run 32 (words_of_le 4 block) [] body m))
      blocks (list_of_vars v ++ tmp ++ Sha1.K, stk, list_of_vars v)
      = (fold_left soft blocks (list_of_vars v) ++ tmp' ++ Sha1.K, stk',
         fold_left soft blocks (list_of_vars v))).
  { destruct F as (t' & k' & ->). now destruct blocks. }
  clear regs Lr. revert v tmp stk Hv Lt Lk. induction Hb as [|b blocks [Lb Ob] Hb IH]; intros v tmp stk Hv Lt Lk.
  { now exists tmp, stk. }
  cbn [fold_left]. destruct (BE b v tmp stk Lb Ob Hv Lt Lk) as (t1 & k1 & Lt1 & Lk1 & ->).
  destruct (CB v b Hv Lb) as [-> Hv'].
  now apply IH.
Qed.
