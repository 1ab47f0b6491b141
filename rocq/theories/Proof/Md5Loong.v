(** The LoongArch64 MD5 back end computes the RFC 1321 compression function. *)
From Verif Require Import Base.Words Base.Bytes Base.Codec Model.Loong Model.LoongLines Model.LoongCompress
  Proof.Sha2Loong.
From Verif Require Spec.MD5 Model.Md5 Proof.Md5 Proof.Sha1 Proof.Sha1Loong.
Import Spec.MD5 (vars, step, widx, shift).
Import Proof.Md5 (vok, list_of_vars).

Definition lay4 (r : nat) (v : vars) : list N :=
  map (fun j => get (list_of_vars v) ((j + r) mod 4)) (seq 0 4).
Lemma lay4_mod r v : lay4 r v = lay4 (r mod 4) v.
Proof.
  unfold lay4. apply map_ext. intros j. f_equal. rewrite (Nat.add_mod j (r mod 4)), Nat.mod_mod, <- Nat.add_mod; lia.
Qed.
Definition rg4 (j i : nat) : nat := ((j + (4 - i mod 4)) mod 4)%nat.
Lemma rg4_mod j i : rg4 j i = rg4 j (i mod 4).
Proof. unfold rg4. now rewrite Nat.mod_mod. Qed.

Section Exec.
  Variables (blk K : list N) (st : list N).
  Definition fstep (ft : N -> N -> N -> N) (v : vars) (x k s : N) : vars :=
    let '(a, b, c, d) := v in
    (d, wadd 32 (rotr 32 (wadd 32 (wadd 32 (wadd 32 a k) x) (ft b c d)) (32 - s)) b, b, c).
  Definition f0 (b c d : N) := N.lxor (N.land (N.lxor c d) b) d.
  Definition f1 (b c d : N) := N.lor (N.land c (wnot 32 d)) (N.land d b).
  Definition f2 (b c d : N) := N.lxor (N.lxor c d) b.
  Definition f3 (b c d : N) := N.lxor (N.lor b (wnot 32 d)) c.

  Definition good (line : nat -> nat -> nat -> nat -> nat -> N -> nat -> list instr) ft : Prop :=
    forall i k s r v x4 x5 x6 x7 x8 y, (r < 4)%nat -> exists z4 z5 z6,
    run 32 blk K (line (rg4 0 r) (rg4 1 r) (rg4 2 r) (rg4 3 r) k s i)
      (lay4 r v ++ [x4; x5; x6; x7; x8] ++ st, y, [])
    = (lay4 (S r) (fstep ft v (mget blk k) (mget K i) s) ++ [z4; z5; z6; x7; x8] ++ st, y, []).

  Ltac steps := cbv beta iota zeta delta [run fold_left exec load rget rset upd nth roundtail5 lay4 map seq Nat.add Nat.sub Nat.modulo
    Nat.divmod fst snd get list_of_vars app t0 t1 t2 t3 t4 t5 t6 t7 t8 a4 a5 a6 a7].
  Ltac go := intros i k s r v x4 x5 x6 x7 x8 y Hr; destruct v as (((a, b), c), d);
    unfold fstep, md5_round0, md5_round1, md5_round2, md5_round3, roundtail5, f0, f1, f2, f3;
    generalize (32 - s); intros s'; unfold rg4;
    do 4 (destruct r as [|r]; [do 3 eexists; steps; reflexivity|]); lia.
  Lemma good0 : good md5_round0 f0.
  Proof using. go. Qed.
  Lemma good1 : good md5_round1 f1.
  Proof using. go. Qed.
  Lemma good2 : good md5_round2 f2.
  Proof using. go. Qed.
  Lemma good3 : good md5_round3 f3.
  Proof using. go. Qed.
End Exec.

Definition line (i : nat) : list instr :=
  nth (i / 16) [md5_round0; md5_round1; md5_round2; md5_round3] md5_round0
    (rg4 0 i) (rg4 1 i) (rg4 2 i) (rg4 3 i) (widx i) (shift i) i.
Lemma lines5_eq : lines5 = map line (seq 0 64).
Proof. reflexivity. Qed.

Definition fkind (i : nat) : N -> N -> N -> N := nth (i / 16) [f0; f1; f2; f3] f0.
Lemma fkind_ok i b c d : (i < 64)%nat -> b < 2 ^ 32 -> c < 2 ^ 32 -> d < 2 ^ 32 -> fkind i b c d = Spec.MD5.aux i b c d.
Proof.
  intros Hi Hb Hc Hd. unfold fkind, Spec.MD5.aux.
  assert (Q : (i / 16 < 4)%nat) by (apply Nat.div_lt_upper_bound; lia). revert Q. generalize (i / 16)%nat. intros q Q.
  do 4 (destruct q as [|q]; [cbn [nth]; unfold f0, f1, f2, f3, Spec.MD5.F, Spec.MD5.G, Spec.MD5.H, Spec.MD5.I, not32; bitblast;
    match goal with |- context [?i <? 32] => destruct (N.ltb_spec i 32); try reflexivity end;
    rewrite lt_pow2_bits in Hd; 
    match goal with L : 32 <= ?i |- _ => specialize (Hd i L) end; congruence|]). lia.
Qed.
Lemma shift_le i : shift i <= 32.
Proof.
  unfold shift. pose proof (Nat.mod_upper_bound i 4 ltac:(lia)) as B. revert B. generalize (i mod 4)%nat (i / 16)%nat. intros j q B.
  do 4 (destruct q as [|q]; [do 4 (destruct j as [|j]; [cbn [nth]; lia|]); lia|]).
  destruct q; destruct j; cbn [nth]; lia.
Qed.
Lemma fstep_step X i v : (i < 64)%nat -> vok v ->
  fstep (fkind i) v (get X (widx i)) (get Model.Md5.RC i) (shift i) = step X v i.
Proof.
  intros Hi. destruct v as (((a, b), c), d). intros (?&?&?&?). unfold fstep, step.
  rewrite Proof.Md5.T_ok, fkind_ok by assumption.
  pose proof (shift_le i). rewrite Proof.Sha1Loong.rotr_rotl by lia.
  replace (32 - (32 - shift i)) with (shift i) by lia. fold rotl32.
  tuple_eq; try reflexivity. unfold add32. rewrite wadd_comm. f_equal. f_equal. wadd_ac.
Qed.
Lemma step_vok X i v : vok v -> vok (step X v i).
Proof. destruct v as (((a, b), c), d). intros (?&?&?&?). unfold step, vok, add32. auto with words. Qed.

Section Block.
  Variables (blk st : list N).
  Lemma line_exec i v tmp : (i < 64)%nat -> length tmp = 5%nat -> exists tmp', length tmp' = 5%nat /\
    run 32 blk Model.Md5.RC (line i) (lay4 i v ++ tmp ++ st, [], [])
    = (lay4 (S i) (fstep (fkind i) v (get blk (widx i)) (get Model.Md5.RC i) (shift i)) ++ tmp' ++ st, [], []).
  Proof using.
    intros Hi Lt. do 6 (destruct tmp as [|? tmp]; try discriminate Lt). clear Lt.
    pose proof (Nat.mod_upper_bound i 4 ltac:(lia)) as B.
    assert (EL : forall v', lay4 (S i) v' = lay4 (S (i mod 4)) v').
    { intros v'. rewrite (lay4_mod (S i)), (lay4_mod (S (i mod 4))). f_equal.
      change (S i) with (1 + i)%nat. change (S (i mod 4)) with (1 + i mod 4)%nat.
      rewrite Nat.add_mod_idemp_r; [reflexivity|discriminate]. }
    rewrite EL, (lay4_mod i). unfold line, fkind. rewrite !(rg4_mod _ i).
    assert (Q : (i / 16 < 4)%nat) by (apply Nat.div_lt_upper_bound; lia). revert Q. generalize (i / 16)%nat. intros q Q.
    generalize (widx i) (shift i) Model.Md5.RC. intros k s K. fold (mget blk k). fold (mget K i).
    destruct q as [|q].
    { destruct (good0 blk K st i k s (i mod 4)%nat v n n0 n1 n2 n3 [] B) as (z4&z5&z6&E). exists [z4; z5; z6; n2; n3].
      split; [reflexivity|exact E]. }
    destruct q as [|q].
    { destruct (good1 blk K st i k s (i mod 4)%nat v n n0 n1 n2 n3 [] B) as (z4&z5&z6&E). exists [z4; z5; z6; n2; n3].
      split; [reflexivity|exact E]. }
    destruct q as [|q].
    { destruct (good2 blk K st i k s (i mod 4)%nat v n n0 n1 n2 n3 [] B) as (z4&z5&z6&E). exists [z4; z5; z6; n2; n3].
      split; [reflexivity|exact E]. }
    destruct q as [|q].
    { destruct (good3 blk K st i k s (i mod 4)%nat v n n0 n1 n2 n3 [] B) as (z4&z5&z6&E). exists [z4; z5; z6; n2; n3].
      split; [reflexivity|exact E]. }
    lia.
  Qed.
  Lemma lines_run n v tmp : (n <= 64)%nat -> vok v -> length tmp = 5%nat -> exists tmp', length tmp' = 5%nat /\
    vok (fold_left (step blk) (seq 0 n) v) /\
    run 32 blk Model.Md5.RC (concat (map line (seq 0 n))) (lay4 0 v ++ tmp ++ st, [], [])
    = (lay4 n (fold_left (step blk) (seq 0 n) v) ++ tmp' ++ st, [], []).
  Proof using.
    intros Hn Hv Ht. induction n as [|n IH]; [now exists tmp|].
    destruct (IH ltac:(lia)) as (tmp1 & Ht1 & Hv1 & E). clear IH.
    rewrite seq_S, map_app, concat_app, run_app, E, fold_left_app. cbn [map concat Nat.add fold_left]. rewrite app_nil_r. clear E.
    destruct (line_exec n (fold_left (step blk) (seq 0 n) v) tmp1 ltac:(lia) Ht1) as (tmp2 & Ht2 & E).
    rewrite E, fstep_step by (assumption || lia). exists tmp2. split; [exact Ht2|]. split; [now apply step_vok|reflexivity].
  Qed.
End Block.

Lemma lay4_64 v : lay4 64 v = list_of_vars v.
Proof. rewrite lay4_mod. now destruct v as (((a, b), c), d). Qed.
Lemma block_exec block v tmp : vok v -> length tmp = 9%nat ->
  exists tmp', length tmp' = 9%nat /\
  run 32 (words_of_le 4 block) Model.Md5.RC md5_finish
    (run 32 (words_of_le 4 block) Model.Md5.RC (concat lines5)
      (run 32 (words_of_le 4 block) Model.Md5.RC md5_start (tmp ++ list_of_vars v, [], [])))
  = (tmp' ++ list_of_vars (Spec.MD5.compress v block), [], []).
Proof.
  intros Hv Lt. rewrite lines5_eq. unfold Spec.MD5.compress, words_of_le. set (blk := map le_val (chunks 4 block)).
  do 10 (destruct tmp as [|? tmp]; try discriminate Lt). clear Lt.
  assert (E : run 32 blk Model.Md5.RC md5_start ([n; n0; n1; n2; n3; n4; n5; n6; n7] ++ list_of_vars v, [], [])
    = (lay4 0 v ++ [n3; n4; n5; n6; n7] ++ list_of_vars v, [], [])) by now destruct v as (((a, b), c), d).
  rewrite E. clear E.
  destruct (lines_run blk (list_of_vars v) 64 v [n3; n4; n5; n6; n7] (le_n _) Hv eq_refl) as (tmp1 & Lt1 & _ & E).
  rewrite E, lay4_64. clear E. destruct v as (((a0, b0), c0), d0).
  generalize (fold_left (step blk) (seq 0 64) (a0, b0, c0, d0)). intros (((a, b), c), d).
  do 6 (destruct tmp1 as [|? tmp1]; try discriminate Lt1).
  eexists [a; b; c; d; n8; n9; n10; n11; n12]. split; [reflexivity|].
  unfold add32. rewrite (wadd_comm 32 a), (wadd_comm 32 b), (wadd_comm 32 c), (wadd_comm 32 d). reflexivity.
Qed.

Lemma vars_list st : length st = 4%nat -> words_ok 32 st -> exists v, vok v /\ st = list_of_vars v.
Proof.
  intros L W. do 5 (destruct st as [|? st]; try discriminate L).
  unfold words_ok in W. repeat match goal with H : Forall _ (_ :: _) |- _ => inversion_clear H end.
  exists (n, n0, n1, n2). split; [|reflexivity]. cbn. auto.
Qed.
Lemma loong5 regs st blocks : length regs = 13%nat -> length st = 4%nat -> words_ok 32 st ->
  md5_loong regs st blocks = Model.Md5.compress st blocks.
Proof.
  intros Lr Ls Ws. destruct (vars_list st Ls Ws) as (v & Hv & ->). clear Ls Ws.
  unfold md5_loong, compress_md5, Model.Md5.compress.
  pose proof block_exec as BE. pose proof Proof.Md5.compress_block_spec as CB. revert BE CB.
  generalize (concat lines5) Model.Md5.compress_block Spec.MD5.compress md5_finish md5_start Model.Md5.RC.
  intros body soft spec fin start K BE CB.
  assert (Lt : length (firstn 9 regs) = 9%nat) by (rewrite firstn_length; lia).
  revert Lt. generalize (firstn 9 regs). intros tmp Lt.
  enough (F : exists tmp', length tmp' = 9%nat /\ fold_left (fun m block =>
      run 32 (words_of_le 4 block) K fin (run 32 (words_of_le 4 block) K body (run 32 (words_of_le 4 block) K start m))) blocks (tmp ++ list_of_vars v, [], [])
      = (tmp' ++ fold_left soft blocks (list_of_vars v), [], []) /\
      exists v', fold_left soft blocks (list_of_vars v) = list_of_vars v').
  { destruct F as (t' & L' & E & v' & E'). destruct blocks as [|b bs]; [reflexivity|]. rewrite E, E'.
    clear - L'. do 10 (destruct t' as [|? t']; try discriminate L'). now destruct v' as (((a, b), c), d). }
  clear regs Lr. revert v tmp Hv Lt. induction blocks as [|b blocks IH]; intros v tmp Hv Lt.
  { exists tmp. cbn [fold_left]. eauto. }
  cbn [fold_left]. destruct (BE b v tmp Hv Lt) as (t1 & Lt1 & E). rewrite E.
  destruct (CB v b) as [-> Hv']. now apply IH.
Qed.
