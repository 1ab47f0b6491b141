(** The four LoongArch programs on the processor of Model/LoongCpu.v. *)
From Verif Require Import Base.Words Base.Bytes Base.Codec Base.MDFacts Spec.Memory Spec.FlatMemory
  Model.Loong Model.LoongLines Model.LoongCompress Model.LoongCpu Model.Backends Proof.LoongCpu.
From Verif Require Spec.MD5 Spec.SHA1 Spec.SHA2 Model.Sha1 Model.Md5 Model.Sha2Consts.
From Verif Require Proof.Backends Proof.Sha256Soft Proof.Sha512Soft Proof.Md5 Proof.Md5Loong Proof.Sha1.
Import Spec.SHA2 (vars_of_list, list_of_vars, sha256_params, sha512_params, p_K).

Lemma ok256 : forallb (instr_ok 32 8 64 16 clobbers2 0) load_state && forallb (instr_ok 32 8 64 16 clobbers2 16) (concat lines256 ++ update_state) = true.
Proof. vm_compute. reflexivity. Qed.
Lemma ok512 : forallb (instr_ok 64 8 80 16 clobbers2 0) load_state && forallb (instr_ok 64 8 80 16 clobbers2 16) (concat lines512 ++ update_state) = true.
Proof. vm_compute. reflexivity. Qed.
Lemma ok1 : forallb (instr_ok 32 5 0 16 clobbers1 0) load_state1 && forallb (instr_ok 32 5 0 16 clobbers1 16) (concat lines1 ++ update_state1) = true.
Proof. vm_compute. reflexivity. Qed.
Lemma ok5 : forallb (instr_ok 32 0 64 0 clobbers5 16) (md5_start ++ concat lines5 ++ md5_finish) = true.
Proof. vm_compute. reflexivity. Qed.

Lemma zero_apart r : apart (0, 0) r.
Proof. left. cbn [fst snd]. lia. Qed.
Lemma zero_apart_r r : apart r (0, 0).
Proof. right. cbn [fst snd]. lia. Qed.
Lemma zero_fits : fits (0, 0).
Proof. unfold fits. cbn [fst snd]. lia. Qed.
Lemma whole_len n blocks : whole n blocks -> N.of_nat (length (concat blocks)) = N.of_nat n * N.of_nat (length blocks).
Proof.
  intros H. rewrite (concat_length_blocks n); [lia|]. eapply Forall_impl; [|exact H]. now intros a [].
Qed.
Lemma nodup_nat (l : list nat) r : existsb (Nat.eqb r) l = true -> In r l.
Proof. intros H. apply existsb_exists in H. destruct H as (x & Hx & E). apply Nat.eqb_eq in E. now subst. Qed.
Lemma unchanged2 R1 R2 m m' : (forall x, outside R1 x -> outside R2 x -> m' x = m x) -> unchanged_but [R1; R2] m m'.
Proof. intros H x F. inversion_clear F as [|? ? F1 F2]. inversion_clear F2. auto. Qed.

Section Sha2.
  Variables (w : N) (k nk : nat) (Kw : list N) (lines : list (list instr)) (P : Spec.SHA2.params).
  Hypothesis Hw : w = 8 * N.of_nat k.
  Hypothesis Hk : k = 4%nat \/ k = 8%nat.
  Hypothesis LK : length Kw = nk.
  Hypothesis WK : words_ok w Kw.
  Let kb := N.of_nat k.
  Hypothesis OK : forallb (instr_ok w 8 nk 16 clobbers2 0) load_state && forallb (instr_ok w 8 nk 16 clobbers2 16) (concat lines ++ update_state) = true.
  Hypothesis Spc : forall regs stk st blocks, length regs = 13%nat -> length stk = 16%nat -> length st = 8%nat -> words_ok w st -> whole (16 * k) blocks ->
    compress_asm w k Kw load_state (concat lines) update_state regs stk st blocks
    = list_of_vars (fold_left (Spec.SHA2.compress P) blocks (vars_of_list st)).

  Lemma sha2_prog c st blocks :
    let RS := (reg c r_a0, 8 * kb) in
    let RB := (reg c r_a1, 16 * kb * N.of_nat (length blocks)) in
    let RK := (reg c r_a3, N.of_nat nk * kb) in
    let RT := (reg c r_sp - 16 * kb, 16 * kb) in
    let prog := framed w (16 * kb) (16 * kb) load_state (concat lines) update_state in
    pc c = 0%nat -> bytes_mem (mem c) -> blocks <> [] -> whole (16 * k) blocks -> reg c r_a2 = N.of_nat (length blocks) ->
    length st = 8%nat -> words_ok w st ->
    holds (mem c) (fst RS) (words_to_le k st) -> holds (mem c) (fst RB) (concat blocks) -> holds (mem c) (fst RK) (words_to_le k Kw) ->
    16 * kb <= reg c r_sp -> reg c r_sp < 2 ^ 64 -> fits RS -> fits RB -> fits RK ->
    apart RS RT -> apart RS RK -> apart RT RK -> apart RS RB -> apart RT RB ->
    exists n c', steps [RS; RB; RK; RT] [RS; RT] prog n c = Some c' /\ pc c' = length prog /\
      holds (mem c') (fst RS) (words_to_le k (list_of_vars (fold_left (Spec.SHA2.compress P) blocks (vars_of_list st)))) /\
      unchanged_but [RS; RT] (mem c) (mem c') /\ (forall r, ~ In r clobbers2 -> reg c' r = reg c r).
  Proof.
    intros RS RB RK RT prog Pc MB Ne Wb E2 Ls Ws HS HB HK T1 T2 FS FB FK AST ASK ATK ASB ATB.
    apply andb_prop in OK. destruct OK as [O1 O2].
    destruct (framed_sim w k Hw Hk (reg c r_a0) (reg c r_a3) (reg c r_sp - 16 * kb) 8 nk 16 FS FK) with (RB := RB) (clob := clobbers2)
      (Kw := Kw) (start := load_state) (body := concat lines) (finish := update_state) (frame := 16 * kb) (blocks := blocks) (c := c) (st := st)
      as (stk & n & c' & Lk & S & P' & H & F & R); auto.
    - unfold fits. cbn [fst snd]. change (N.of_nat 16) with 16. fold kb. lia.
    - now apply nodup_nat.
    - now apply nodup_nat.
    - lia.
    - lia.
    - unfold RB. f_equal. rewrite (whole_len _ _ Wb). unfold kb. lia.
    - now apply at_words_words.
    - now apply at_words_words.
    - exists n, c'. split; [exact S|]. split; [exact P'|]. split; [|split; [now apply unchanged2|exact R]].
      rewrite Spc in H; auto.
  Qed.
End Sha2.

Lemma spc256 regs stk st blocks : length regs = 13%nat -> length stk = 16%nat -> length st = 8%nat -> words_ok 32 st -> whole 64 blocks ->
  compress_asm 32 4 (p_K sha256_params) load_state (concat lines256) update_state regs stk st blocks
  = list_of_vars (fold_left (Spec.SHA2.compress sha256_params) blocks (vars_of_list st)).
Proof.
  intros L1 L2 L3 W B. rewrite Proof.Sha256Soft.K32_ok.
  exact (Proof.Backends.fips256 (Loongarch64 regs stk) st blocks L3 W B (conj L1 L2)).
Qed.
Lemma spc512 regs stk st blocks : length regs = 13%nat -> length stk = 16%nat -> length st = 8%nat -> words_ok 64 st -> whole 128 blocks ->
  compress_asm 64 8 (p_K sha512_params) load_state (concat lines512) update_state regs stk st blocks
  = list_of_vars (fold_left (Spec.SHA2.compress sha512_params) blocks (vars_of_list st)).
Proof.
  intros L1 L2 L3 W B. rewrite Proof.Sha512Soft.K64_ok.
  exact (Proof.Backends.fips512 (Loongarch64 regs stk) st blocks L3 W B (conj L1 L2)).
Qed.

Lemma forallb_words w l : forallb (fun x => x <? 2 ^ w) l = true -> words_ok w l.
Proof. intros H. rewrite forallb_forall in H. apply Forall_forall. intros x Hx. now apply N.ltb_lt, H. Qed.
Lemma k256_ok : words_ok 32 (p_K sha256_params).
Proof. rewrite Proof.Sha256Soft.K32_ok. apply forallb_words. vm_compute. reflexivity. Qed.
Lemma k512_ok : words_ok 64 (p_K sha512_params).
Proof. rewrite Proof.Sha512Soft.K64_ok. apply forallb_words. vm_compute. reflexivity. Qed.
Lemma k256_len : length (p_K sha256_params) = 64%nat.
Proof. now rewrite Proof.Sha256Soft.K32_ok. Qed.
Lemma k512_len : length (p_K sha512_params) = 80%nat.
Proof. now rewrite Proof.Sha512Soft.K64_ok. Qed.

Lemma run256 c st blocks :
  let RS := (reg c r_a0, 32) in
  let RB := (reg c r_a1, 64 * N.of_nat (length blocks)) in
  let RK := (reg c r_a3, 256) in
  let RT := (reg c r_sp - 64, 64) in
  pc c = 0%nat -> bytes_mem (mem c) -> blocks <> [] -> whole 64 blocks -> reg c r_a2 = N.of_nat (length blocks) ->
  length st = 8%nat -> words_ok 32 st ->
  holds (mem c) (fst RS) (words_to_le 4 st) -> holds (mem c) (fst RB) (concat blocks) ->
  holds (mem c) (fst RK) (words_to_le 4 (p_K sha256_params)) ->
  64 <= reg c r_sp -> reg c r_sp < 2 ^ 64 -> fits RS -> fits RB -> fits RK ->
  apart RS RT -> apart RS RK -> apart RT RK -> apart RS RB -> apart RT RB ->
  exists n c', steps [RS; RB; RK; RT] [RS; RT] prog256 n c = Some c' /\ pc c' = length prog256 /\
    holds (mem c') (fst RS) (words_to_le 4 (list_of_vars (fold_left (Spec.SHA2.compress sha256_params) blocks (vars_of_list st)))) /\
    unchanged_but [RS; RT] (mem c) (mem c') /\ (forall r, ~ In r clobbers2 -> reg c' r = reg c r).
Proof.
  exact (sha2_prog 32 4 64 (p_K sha256_params) lines256 sha256_params eq_refl (or_introl eq_refl) k256_len k256_ok ok256 spc256 c st blocks).
Qed.
Lemma run512 c st blocks :
  let RS := (reg c r_a0, 64) in
  let RB := (reg c r_a1, 128 * N.of_nat (length blocks)) in
  let RK := (reg c r_a3, 640) in
  let RT := (reg c r_sp - 128, 128) in
  pc c = 0%nat -> bytes_mem (mem c) -> blocks <> [] -> whole 128 blocks -> reg c r_a2 = N.of_nat (length blocks) ->
  length st = 8%nat -> words_ok 64 st ->
  holds (mem c) (fst RS) (words_to_le 8 st) -> holds (mem c) (fst RB) (concat blocks) ->
  holds (mem c) (fst RK) (words_to_le 8 (p_K sha512_params)) ->
  128 <= reg c r_sp -> reg c r_sp < 2 ^ 64 -> fits RS -> fits RB -> fits RK ->
  apart RS RT -> apart RS RK -> apart RT RK -> apart RS RB -> apart RT RB ->
  exists n c', steps [RS; RB; RK; RT] [RS; RT] prog512 n c = Some c' /\ pc c' = length prog512 /\
    holds (mem c') (fst RS) (words_to_le 8 (list_of_vars (fold_left (Spec.SHA2.compress sha512_params) blocks (vars_of_list st)))) /\
    unchanged_but [RS; RT] (mem c) (mem c') /\ (forall r, ~ In r clobbers2 -> reg c' r = reg c r).
Proof.
  exact (sha2_prog 64 8 80 (p_K sha512_params) lines512 sha512_params eq_refl (or_intror eq_refl) k512_len k512_ok ok512 spc512 c st blocks).
Qed.

(** ** SHA-1: the constants are in $a4-$a7 *)
Lemma steps_sub rd wr rd' prog n : (forall a m, allowed rd a m = true -> 0 < m -> allowed rd' a m = true) ->
  Forall (fun x => match x with Op w _ => 8 <= w | _ => True end) prog ->
  forall c c', steps rd wr prog n c = Some c' -> steps rd' wr prog n c = Some c'.
Proof.
  intros H F. induction n as [|n IH]; intros c c' E; [exact E|]. cbn [steps] in *.
  destruct (step rd wr prog c) as [c1|] eqn:S1; [|discriminate]. cbn [obind] in E.
  assert (S2 : step rd' wr prog c = Some c1).
  { unfold step in *. destruct (nth_error prog (pc c)) as [x|] eqn:Ex; [|discriminate].
    apply nth_error_In in Ex. rewrite Forall_forall in F. specialize (F x Ex).
    destruct x as [w i| |]; try exact S1. destruct i; try exact S1. cbn [exec64] in *.
    destruct (allowed rd _ _) eqn:A; [|discriminate]. rewrite (H _ _ A); [exact S1|].
    apply N.div_str_pos. lia. }
  rewrite S2. cbn [obind]. now apply IH.
Qed.
Lemma allowed_drop l l' a m : allowed (l ++ (0, 0) :: l') a m = true -> 0 < m -> allowed (l ++ l') a m = true.
Proof.
  unfold allowed. rewrite !existsb_app. cbn [existsb fst snd]. intros H M.
  replace ((0 <=? a) && (a + m <=? 0 + 0)) with false in H; [exact H|].
  symmetry. apply andb_false_intro2. apply N.leb_gt. lia.
Qed.
Lemma steps_sub_wr rd wr wr' prog n : (forall a m, allowed wr a m = true -> 0 < m -> allowed wr' a m = true) ->
  Forall (fun x => match x with Op w _ => 8 <= w | _ => True end) prog ->
  forall c c', steps rd wr prog n c = Some c' -> steps rd wr' prog n c = Some c'.
Proof.
  intros H F. induction n as [|n IH]; intros c c' E; [exact E|]. cbn [steps] in *.
  destruct (step rd wr prog c) as [c1|] eqn:S1; [|discriminate]. cbn [obind] in E.
  assert (S2 : step rd wr' prog c = Some c1).
  { unfold step in *. destruct (nth_error prog (pc c)) as [x|] eqn:Ex; [|discriminate].
    apply nth_error_In in Ex. rewrite Forall_forall in F. specialize (F x Ex).
    destruct x as [w i| |]; try exact S1. destruct i; try exact S1. cbn [exec64] in *.
    destruct (allowed wr _ _) eqn:A; [|discriminate]. rewrite (H _ _ A); [exact S1|].
    apply N.div_str_pos. lia. }
  rewrite S2. cbn [obind]. now apply IH.
Qed.
Lemma ops_wide w l : 8 <= w -> Forall (fun x => match x with Op w _ => 8 <= w | _ => True end) (map (Op w) l).
Proof. intros H. apply Forall_forall. intros x Hx. apply in_map_iff in Hx. now destruct Hx as (i & <- & _). Qed.
Lemma framed_wide w frame size a b f : 8 <= w -> Forall (fun x => match x with Op w _ => 8 <= w | _ => True end) (framed w frame size a b f).
Proof.
  intros H. unfold framed. repeat (apply Forall_app; split); try now apply ops_wide. all: repeat constructor.
Qed.

Lemma run1 c a b' c' d e blocks :
  let RS := (reg c r_a0, 20) in
  let RB := (reg c r_a1, 64 * N.of_nat (length blocks)) in
  let RT := (reg c r_sp - 64, 64) in
  pc c = 0%nat -> bytes_mem (mem c) -> blocks <> [] -> whole 64 blocks -> reg c r_a2 = N.of_nat (length blocks) ->
  words_ok 32 [a; b'; c'; d; e] -> holds (mem c) (fst RS) (words_to_le 4 [a; b'; c'; d; e]) -> holds (mem c) (fst RB) (concat blocks) ->
  map (fun r => reg c r mod 2 ^ 32) [8; 9; 10; 11]%nat = map Spec.SHA1.K [0; 20; 40; 60]%nat ->
  64 <= reg c r_sp -> reg c r_sp < 2 ^ 64 -> fits RS -> fits RB ->
  apart RS RT -> apart RS RB -> apart RT RB ->
  exists n cf, steps [RS; RB; RT] [RS; RT] prog1 n c = Some cf /\ pc cf = length prog1 /\
    holds (mem cf) (fst RS) (let '(a, b, c, d, e) := fold_left Spec.SHA1.compress blocks (a, b', c', d, e) in words_to_le 4 [a; b; c; d; e]) /\
    unchanged_but [RS; RT] (mem c) (mem cf) /\ (forall r, ~ In r clobbers1 -> reg cf r = reg c r).
Proof.
  intros RS RB RT Pc MB Ne Wb E2 Ws HS HB HK T1 T2 FS FB AST ASB ATB.
  pose proof ok1 as OK. apply andb_prop in OK. destruct OK as [O1 O2].
  destruct (framed_sim 32 4 eq_refl (or_introl eq_refl) (reg c r_a0) 0 (reg c r_sp - 64) 5 0 16 FS zero_fits) with (RB := RB) (clob := clobbers1)
    (Kw := @nil N) (start := load_state1) (body := concat lines1) (finish := update_state1) (frame := 64) (blocks := blocks) (c := c) (st := [a; b'; c'; d; e])
    as (stk & n & cf & Lk & S & P' & H & F & R); auto.
  - unfold fits. cbn [fst snd]. change (N.of_nat 16 * N.of_nat 4) with 64. lia.
  - apply zero_apart_r.
  - apply zero_apart_r.
  - now apply nodup_nat.
  - now apply nodup_nat.
  - lia.
  - lia.
  - unfold RB. f_equal. now rewrite (whole_len _ _ Wb).
  - now apply (at_words_words 32 4 eq_refl (or_introl eq_refl)).
  - intros i Hi. cbn in Hi. lia.
  - exists n, cf. split.
    { eapply steps_sub; [|now apply framed_wide|exact S]. intros x m. exact (allowed_drop [RS; RB] [RT] x m). }
    split; [exact P'|]. split; [|split; [now apply unchanged2|exact R]].
    assert (E : regs_of 32 c = firstn 9 (regs_of 32 c) ++ Model.Sha1.K).
    { unfold regs_of. cbn [seq map firstn app rn Nat.ltb Nat.leb Nat.add Nat.sub]. cbn [map] in HK.
      injection HK as -> -> -> ->. reflexivity. }
    rewrite E in H.
    pose proof (Proof.Backends.fips1 (Loongarch64_1 (regs_of 32 c) stk) (a, b', c', d, e) blocks Ws Wb (conj eq_refl Lk)) as G.
    change (compress1 (Loongarch64_1 (regs_of 32 c) stk) (Proof.Backends.list1 (a, b', c', d, e)) blocks)
      with (compress_asm 32 4 [] load_state1 (concat lines1) update_state1 (firstn 9 (regs_of 32 c) ++ Model.Sha1.K) stk [a; b'; c'; d; e] blocks) in G.
    rewrite G in H. destruct (fold_left Spec.SHA1.compress blocks (a, b', c', d, e)) as ((((fa, fb), fc), fd), fe). exact H.
Qed.

(** ** MD5: the state is in $a4-$a7 and nothing is stored *)
Lemma fold5 c v blocks regs : Proof.Md5.vok v -> regs_of 32 c = firstn 9 (regs_of 32 c) ++ Proof.Md5.list_of_vars v ->
  fold_left (fun s b => run 32 (words_of_le 4 b) Model.Md5.RC (md5_start ++ concat lines5 ++ md5_finish) s) blocks (regs_of 32 c, [], []) = (regs, [], []) ->
  exists tmp, length tmp = 9%nat /\ regs = tmp ++ Proof.Md5.list_of_vars (fold_left Spec.MD5.compress blocks v).
Proof.
  intros Hv E. rewrite E. assert (Lt : length (firstn 9 (regs_of 32 c)) = 9%nat) by reflexivity.
  revert Lt. generalize (firstn 9 (regs_of 32 c)). clear E. intros tmp Lt. revert v tmp Hv Lt.
  pose proof Proof.Md5Loong.block_exec as BE. pose proof Proof.Md5.compress_block_spec as CB. revert BE CB.
  generalize (concat lines5) Spec.MD5.compress md5_finish md5_start Model.Md5.RC.
  intros body spec fin start K BE CB. induction blocks as [|b blocks IH]; intros v tmp Hv Lt; cbn [fold_left].
  { intros H. injection H as <-. eauto. }
  rewrite !run_app. destruct (BE b v tmp Hv Lt) as (t1 & Lt1 & E). rewrite E. apply IH; [|exact Lt1].
  now destruct (CB v b) as [_ Hv'].
Qed.

Lemma wide5 : Forall (fun x => match x with Op w _ => 8 <= w | _ => True end) prog5.
Proof. apply Forall_app. split; [now apply ops_wide|repeat constructor]. Qed.
Lemma drop5 RB RK prog n c cf : Forall (fun x => match x with Op w _ => 8 <= w | _ => True end) prog ->
  steps [(0, 0); RB; RK; (0, 0)] [(0, 0); (0, 0)] prog n c = Some cf -> steps [RB; RK] [] prog n c = Some cf.
Proof.
  intros W S.
  apply steps_sub_wr with (wr := [(0, 0)]); [intros x m; exact (allowed_drop [] [] x m)|exact W|].
  apply steps_sub_wr with (wr := [(0, 0); (0, 0)]); [intros x m; exact (allowed_drop [] [(0, 0)] x m)|exact W|].
  apply steps_sub with (rd := [RB; RK; (0, 0)]); [intros x m; exact (allowed_drop [RB; RK] [] x m)|exact W|].
  apply steps_sub with (rd := [(0, 0); RB; RK; (0, 0)]); [intros x m; exact (allowed_drop [] [RB; RK; (0, 0)] x m)|exact W|].
  exact S.
Qed.
Lemma len5 : length prog5 = (length (md5_start ++ concat lines5 ++ md5_finish) + 3)%nat.
Proof. unfold prog5. rewrite app_length, map_length. reflexivity. Qed.
Lemma run5 c a b' c' d blocks :
  let RB := (reg c r_a1, 64 * N.of_nat (length blocks)) in
  let RK := (reg c r_a3, 256) in
  pc c = 0%nat -> bytes_mem (mem c) -> blocks <> [] -> whole 64 blocks -> reg c r_a2 = N.of_nat (length blocks) ->
  map (fun r => reg c r mod 2 ^ 32) [8; 9; 10; 11]%nat = [a; b'; c'; d] -> holds (mem c) (fst RB) (concat blocks) ->
  holds (mem c) (fst RK) (words_to_le 4 Spec.MD5.T_table) -> fits RB -> fits RK ->
  exists n cf, steps [RB; RK] [] prog5 n c = Some cf /\ pc cf = length prog5 /\
    (let '(a, b, c, d) := fold_left Spec.MD5.compress blocks (a, b', c', d) in
     map (fun r => reg cf r mod 2 ^ 32) [8; 9; 10; 11]%nat = [a; b; c; d]) /\
    unchanged_but [] (mem c) (mem cf) /\ (forall r, ~ In r clobbers5 -> reg cf r = reg c r).
Proof.
  intros RB RK Pc MB Ne Wb E2 Hs HB HK FB FK. rewrite Proof.Md5.T_ok in HK.
  destruct (unframed_sim 32 4 eq_refl (or_introl eq_refl) 0 (reg c r_a3) 0 0 64 0 zero_fits FK zero_fits) with (RB := RB) (clob := clobbers5)
    (Kw := Model.Md5.RC) (code := md5_start ++ concat lines5 ++ md5_finish) (blocks := blocks) (c := c)
    as (n & cf & regs & S & P' & H & R & F & Fr); auto using zero_apart, ok5.
  - now apply nodup_nat.
  - now apply nodup_nat.
  - unfold RB. f_equal. now rewrite (whole_len _ _ Wb).
  - apply (at_words_words 32 4 eq_refl (or_introl eq_refl)); auto. apply forallb_words. vm_compute. reflexivity.
  - exists n, cf. split.
    { apply drop5; [exact wide5|]. exact S. }
    split; [exact (eq_trans P' (eq_sym len5))|].
    split; [|split; [|exact Fr]].
    + cbn [map] in Hs. injection Hs as Ha Hb Hc Hd.
      destruct (fold5 c (a, b', c', d) blocks regs) as (tmp & Lt & ->).
      * cbn. subst. repeat split; apply N.mod_lt; discriminate.
      * unfold regs_of. cbn [seq map firstn app rn Nat.ltb Nat.leb Nat.add Nat.sub]. now rewrite Ha, Hb, Hc, Hd.
      * exact H.
      * destruct (fold_left Spec.MD5.compress blocks (a, b', c', d)) as (((fa, fb), fc), fd).
        do 10 (destruct tmp as [|? tmp]; try discriminate Lt). cbn [map].
        pose proof (R 9%nat ltac:(lia)) as R9. pose proof (R 10%nat ltac:(lia)) as R10.
        pose proof (R 11%nat ltac:(lia)) as R11. pose proof (R 12%nat ltac:(lia)) as R12.
        change (rn 9) with 8%nat in R9. change (rn 10) with 9%nat in R10. change (rn 11) with 10%nat in R11. change (rn 12) with 11%nat in R12.
        rewrite R9, R10, R11, R12. reflexivity.
    + intros x _. apply F; right; cbn [fst snd]; lia.
Qed.

(** For the examples *)
Lemma holds_same m a l : holds (write m a l) a l.
Proof. apply holds_bytes_at, write_at. Qed.
Lemma holds_other m a l b l' : apart (b, N.of_nat (length l')) (a, N.of_nat (length l)) -> holds m a l -> holds (write m b l') a l.
Proof. intros A H. apply holds_frame with m; [exact H|]. intros x Hx. apply write_out. unfold outside, apart in *. cbn [fst snd] in *. lia. Qed.
Lemma bytes_write m a l : bytes_mem m -> bytes_ok l -> bytes_mem (write m a l).
Proof.
  intros H B x. unfold write. destruct (_ && _); [|apply H]. unfold bytes_ok in B. rewrite Forall_forall in B.
  destruct (Nat.ltb_spec (N.to_nat (x - a)) (length l)) as [L|L]; [now apply B, nth_In|rewrite nth_overflow by exact L; reflexivity].
Qed.
Lemma bytes_bool l : forallb (fun x => x <? 256) l = true -> bytes_ok l.
Proof. intros H. rewrite forallb_forall in H. apply Forall_forall. intros x Hx. now apply N.ltb_lt, H. Qed.
Definition apartb (r s : N * N) : bool := (fst r + snd r <=? fst s) || (fst s + snd s <=? fst r).
Lemma apart_bool r s : apartb r s = true -> apart r s.
Proof. unfold apartb, apart. rewrite orb_true_iff, !N.leb_le. tauto. Qed.
