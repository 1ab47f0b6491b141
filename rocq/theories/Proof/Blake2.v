(** The blake2 crate computes BLAKE2 (Spec/BLAKE2.v). *)
From Verif Require Import Base.Words Base.Bytes Base.Codec Base.BlockBuffer Base.BlockBufferFacts
  Base.Digest Base.DigestFacts Base.MDFacts Model.Blake2.
From Verif Require Spec.BLAKE2.

(** Model parameters that stand for a variant of the specification. *)
Record same (P : b2p) (V : Spec.BLAKE2.variant) : Prop := {
  s_w : wbits P = Spec.BLAKE2.w V;
  s_wb : wb P = Spec.BLAKE2.wbytes V;
  s_bytes : BYTES P = Spec.BLAKE2.maxout V;
  s_block : BLOCK P = Spec.BLAKE2.bb V;
  s_r1 : ROT1 P = Spec.BLAKE2.R1 V; s_r2 : ROT2 P = Spec.BLAKE2.R2 V;
  s_r3 : ROT3 P = Spec.BLAKE2.R3 V; s_r4 : ROT4 P = Spec.BLAKE2.R4 V;
  s_iv : IV P = Spec.BLAKE2.IV V;
  s_ivlen : length (IV P) = 8%nat;
  s_ivok : words_ok (wbits P) (IV P);
  s_two : (wb P = 8%nat /\ wbits P = 64 /\ BYTES P = 64%nat /\ BLOCK P = 128%nat /\ Spec.BLAKE2.nr V = 12%nat) \/
          (wb P = 4%nat /\ wbits P = 32 /\ BYTES P = 32%nat /\ BLOCK P = 64%nat /\ Spec.BLAKE2.nr V = 10%nat)
}.
Lemma same_b : same Blake2b Spec.BLAKE2.BLAKE2b.
Proof. constructor; try reflexivity; [repeat constructor|left; repeat split]. Qed.
Lemma same_s : same Blake2s Spec.BLAKE2.BLAKE2s.
Proof. constructor; try reflexivity; [repeat constructor|right; repeat split]. Qed.

Definition st16 (v : v4 * v4 * v4 * v4) : list N :=
  let '(a, b, c, d) := v in v4_list a ++ v4_list b ++ v4_list c ++ v4_list d.
Definition h8 (h : v4 * v4) : list N := v4_list (fst h) ++ v4_list (snd h).

(** Half of G, as the model's [quarter_round] does it on four lanes at once. *)
Definition half (w rd rb va vb vc vd x : N) : N * N * N * N :=
  let va := wadd w (wadd w va vb) x in
  let vd := rotr w (N.lxor vd va) rd in
  let vc := wadd w vc vd in
  let vb := rotr w (N.lxor vb vc) rb in (va, vb, vc, vd).
Lemma mix_half V a b c d x y : Spec.BLAKE2.mix V a b c d x y =
  let '(a, b, c, d) := half (Spec.BLAKE2.w V) (Spec.BLAKE2.R1 V) (Spec.BLAKE2.R2 V) a b c d x in
  half (Spec.BLAKE2.w V) (Spec.BLAKE2.R3 V) (Spec.BLAKE2.R4 V) a b c d y.
Proof. reflexivity. Qed.
Lemma quarter_half P rd rb a0 a1 a2 a3 b0 b1 b2 b3 c0 c1 c2 c3 d0 d1 d2 d3 m0 m1 m2 m3 :
  quarter_round P ((a0, a1, a2, a3), (b0, b1, b2, b3), (c0, c1, c2, c3), (d0, d1, d2, d3)) rd rb (m0, m1, m2, m3) =
  let '(a0, b0, c0, d0) := half (wbits P) rd rb a0 b0 c0 d0 m0 in
  let '(a1, b1, c1, d1) := half (wbits P) rd rb a1 b1 c1 d1 m1 in
  let '(a2, b2, c2, d2) := half (wbits P) rd rb a2 b2 c2 d2 m2 in
  let '(a3, b3, c3, d3) := half (wbits P) rd rb a3 b3 c3 d3 m3 in
  ((a0, a1, a2, a3), (b0, b1, b2, b3), (c0, c1, c2, c3), (d0, d1, d2, d3)).
Proof. reflexivity. Qed.
Lemma G_half V v a b c d x y va vb vc vd wa wb wc wd :
  half (Spec.BLAKE2.w V) (Spec.BLAKE2.R1 V) (Spec.BLAKE2.R2 V) (get v a) (get v b) (get v c) (get v d) x = (va, vb, vc, vd) ->
  half (Spec.BLAKE2.w V) (Spec.BLAKE2.R3 V) (Spec.BLAKE2.R4 V) va vb vc vd y = (wa, wb, wc, wd) ->
  Spec.BLAKE2.G V v a b c d x y = upd (upd (upd (upd v a wa) b wb) c wc) d wd.
Proof. intros E1 E2. unfold Spec.BLAKE2.G. now rewrite mix_half, E1, E2. Qed.
Ltac dh := match goal with |- context [half ?a ?b ?c ?d ?e ?f ?g ?h] =>
  let E := fresh "E" in destruct (half a b c d e f g h) as [[[? ?] ?] ?] eqn:E end; cbv beta iota.
Ltac gh := match goal with |- context [Spec.BLAKE2.G ?V (?e :: ?l) ?a ?b ?c ?d ?x ?y] =>
  erewrite (G_half V (e :: l) a b c d x y); [|cbn [get nth]; eassumption|eassumption]; cbn [upd] end.
Lemma round_spec P V m v i : same P V -> (i < 10)%nat ->
  st16 (round P m v (nth i SIGMA [])) = Spec.BLAKE2.round V m (st16 v) i.
Proof.
  intros SV L. destruct v as [[[a b] c] d].
  destruct a as [[[a0 a1] a2] a3], b as [[[b0 b1] b2] b3], c as [[[c0 c1] c2] c3], d as [[[d0 d1] d2] d3].
  unfold round, Spec.BLAKE2.round, Spec.BLAKE2.round_with.
  assert (ES : nth i SIGMA [] = nth (i mod 10) Spec.BLAKE2.SIGMA []).
  { rewrite Nat.mod_small by exact L. do 10 (destruct i as [|i]; [reflexivity|]). lia. }
  rewrite ES. set (s := nth (i mod 10) Spec.BLAKE2.SIGMA []). clearbody s. clear ES.
  unfold gather.
  set (x0 := get m (nth 0 s 0%nat)). set (x1 := get m (nth 1 s 0%nat)). set (x2 := get m (nth 2 s 0%nat)).
  set (x3 := get m (nth 3 s 0%nat)). set (x4 := get m (nth 4 s 0%nat)). set (x5 := get m (nth 5 s 0%nat)).
  set (x6 := get m (nth 6 s 0%nat)). set (x7 := get m (nth 7 s 0%nat)). set (x8 := get m (nth 8 s 0%nat)).
  set (x9 := get m (nth 9 s 0%nat)). set (x10 := get m (nth 10 s 0%nat)). set (x11 := get m (nth 11 s 0%nat)).
  set (x12 := get m (nth 12 s 0%nat)). set (x13 := get m (nth 13 s 0%nat)). set (x14 := get m (nth 14 s 0%nat)).
  set (x15 := get m (nth 15 s 0%nat)).
  clearbody x0 x1 x2 x3 x4 x5 x6 x7 x8 x9 x10 x11 x12 x13 x14 x15. clear m s L i.
  rewrite (s_r1 _ _ SV), (s_r2 _ _ SV), (s_r3 _ _ SV), (s_r4 _ _ SV). cbv zeta.
  cbn [st16 v4_list app].
  rewrite quarter_half, (s_w _ _ SV). do 4 dh. rewrite quarter_half, (s_w _ _ SV). do 4 dh.
  cbv [shuffle shuffle_left_1 shuffle_left_2 shuffle_left_3].
  rewrite quarter_half, (s_w _ _ SV). do 4 dh. rewrite quarter_half, (s_w _ _ SV). do 4 dh.
  cbv [unshuffle shuffle_right_1 shuffle_right_2 shuffle_right_3 shuffle_left_1 shuffle_left_2 shuffle_left_3].
  do 8 gh. reflexivity.
Qed.
Lemma mod_lo i : (i < 12)%nat -> nth i SIGMA [] = nth (i mod 10) SIGMA [].
Proof. intros L. do 12 (destruct i as [|i]; [reflexivity|]). lia. Qed.

Lemma fold_cons {A B} (f : A -> B -> A) b l a : fold_left f (b :: l) a = fold_left f l (f a b).
Proof. reflexivity. Qed.
Lemma rounds_K P V m l : same P V -> forall v, Forall (fun i => i < 10)%nat l ->
  st16 (fold_left (round P m) (map (fun i => nth i SIGMA []) l) v) = fold_left (Spec.BLAKE2.round V m) l (st16 v).
Proof.
  intros SV. induction l as [|i l IH]; intros v Fl; [reflexivity|]. apply Forall_cons_iff in Fl. destruct Fl as [Li Fl].
  rewrite map_cons, !fold_cons. rewrite IH by exact Fl. now rewrite (round_spec P V) by assumption.
Qed.
Lemma round_KM V m h i : Spec.BLAKE2.round V m h (10 + i) = Spec.BLAKE2.round V m h i.
Proof.
  unfold Spec.BLAKE2.round.
  assert (E : ((10 + i) mod 10 = i mod 10)%nat).
  { replace (10 + i)%nat with (i + 1 * 10)%nat by lia. now rewrite Nat.mod_add. }
  now rewrite E.
Qed.
Lemma rounds_12 V m v : fold_left (Spec.BLAKE2.round V m) (seq 0 10 ++ [0; 1]%nat) v
  = fold_left (Spec.BLAKE2.round V m) (seq 0 12) v.
Proof.
  assert (E : seq 0 12 = (seq 0 10 ++ [10 + 0; 10 + 1])%nat) by reflexivity. rewrite E, !fold_left_app.
  generalize (fold_left (Spec.BLAKE2.round V m) (seq 0 10) v). intros h. cbn [fold_left]. now rewrite !round_KM.
Qed.
Lemma rounds_spec P V m v : same P V ->
  st16 (fold_left (round P m) (map (fun i => nth i SIGMA [])
     ([0; 1; 2; 3; 4; 5; 6; 7; 8; 9]%nat ++ (if (BYTES P =? 64)%nat then [0; 1]%nat else []))) v)
  = fold_left (Spec.BLAKE2.round V m) (seq 0 (Spec.BLAKE2.nr V)) (st16 v).
Proof.
  intros SV.
  assert (E : exists l, ([0; 1; 2; 3; 4; 5; 6; 7; 8; 9] ++ (if (BYTES P =? 64)%nat then [0; 1] else []))%nat = l /\
     Forall (fun i => i < 10)%nat l /\ forall v, fold_left (Spec.BLAKE2.round V m) l v
       = fold_left (Spec.BLAKE2.round V m) (seq 0 (Spec.BLAKE2.nr V)) v).
  { destruct (s_two _ _ SV) as [(_ & _ & -> & _ & ->)|(_ & _ & -> & _ & ->)].
    - exists (seq 0 10 ++ [0; 1])%nat. split; [reflexivity|]. split; [repeat constructor|]. intros v0. apply rounds_12.
    - exists (seq 0 10). split; [reflexivity|]. split; [repeat constructor|reflexivity]. }
  destruct E as (l & -> & Fl & El). rewrite (rounds_K P V m l SV v Fl). apply El.
Qed.

Definition flag (P : b2p) (f : bool) : N := if f then N.ones (wbits P) else 0.
Lemma lxor_ones w x : x < 2 ^ w -> N.lxor x (N.ones w) = wnot w x.
Proof.
  intros H. apply (word_ext w); [apply lxor_lt; [exact H|]|apply wnot_lt|].
  - rewrite N.ones_equiv. pose proof (pow2_pos w). lia.
  - intros i Hi. rewrite N.lxor_spec, testbit_wnot, N.ones_spec_low by exact Hi.
    destruct (N.ltb_spec i w); [|lia]. now destruct (N.testbit x i).
Qed.
Lemma compress_spec P V h t block f : same P V -> t < 2 ^ 64 ->
  h8 (compress P h t block (flag P f) 0) = Spec.BLAKE2.F V (h8 h) (Spec.BLAKE2.le_words V block) t f.
Proof.
  intros SV T. unfold compress, Spec.BLAKE2.F. rewrite (s_wb _ _ SV). fold (Spec.BLAKE2.le_words V block).
  set (m := Spec.BLAKE2.le_words V block). clearbody m. clear block.
  pose proof (s_ivlen _ _ SV) as LI. pose proof (s_ivok _ _ SV) as WI. rewrite <- (s_iv _ _ SV).
  pose proof (rounds_spec P V m) as RS.
  unfold iv0, iv1, gather. set (I := IV P) in *. clearbody I. explode I. cbn [get nth].
  assert (T1 : (if (BYTES P =? 64)%nat then 0 else N.shiftr t 32 mod 2 ^ wbits P) = t / 2 ^ wbits P mod 2 ^ wbits P).
  { destruct (s_two _ _ SV) as [(_ & -> & -> & _)|(_ & -> & -> & _)]; cbn [Nat.eqb].
    - now rewrite N.div_small by exact T.
    - now rewrite N.shiftr_div_pow2. }
  rewrite T1. destruct h as [[[[p0 p1] p2] p3] [[[q0 q1] q2] q3]]. cbv zeta. cbn [fst snd vxor vmap2].
  specialize (RS ((p0, p1, p2, p3), (q0, q1, q2, q3), (x, x0, x1, x2),
    (N.lxor x3 (t mod 2 ^ wbits P), N.lxor x4 (t / 2 ^ wbits P mod 2 ^ wbits P), N.lxor x5 (flag P f), N.lxor x6 0)) SV).
  cbv beta. destruct (fold_left (round P m) _ _) as [[[a b] c] d].
  cbn [h8 fst snd v4_list app upd get nth]. rewrite <- (s_w _ _ SV).
  replace (if f then _ else _) with (st16 ((p0, p1, p2, p3), (q0, q1, q2, q3), (x, x0, x1, x2),
    (N.lxor x3 (t mod 2 ^ wbits P), N.lxor x4 (t / 2 ^ wbits P mod 2 ^ wbits P), N.lxor x5 (flag P f), N.lxor x6 0))).
  - rewrite <- RS. destruct a as [[[a0 a1] a2] a3], b as [[[b0 b1] b2] b3], c as [[[c0 c1] c2] c3], d as [[[d0 d1] d2] d3].
    reflexivity.
  - cbn [st16 v4_list app]. rewrite N.lxor_0_r. destruct f; cbn [flag].
    + rewrite lxor_ones; [reflexivity|]. apply (get_ok (wbits P) [x; x0; x1; x2; x3; x4; x5; x6] 6); [exact WI|]. now destruct (s_two _ _ SV) as [(_ & -> & _)|(_ & -> & _)].
    + now rewrite N.lxor_0_r.
Qed.
(** ** Initialization *)
Lemma zpad_length n l : (length l <= n)%nat -> length (Spec.BLAKE2.zpad n l) = n.
Proof. intros H. unfold Spec.BLAKE2.zpad. rewrite app_length, zeros_length. lia. Qed.
Lemma two_words_spec P q s : q = (2 * wb P)%nat -> (0 < wb P)%nat -> (length s <= q)%nat ->
  two_words P q s = Some (le_val (firstn (wb P) (Spec.BLAKE2.zpad q s)), le_val (skipn (wb P) (Spec.BLAKE2.zpad q s))).
Proof.
  intros Q W L. unfold two_words.
  assert (D : (q / 2 = wb P)%nat) by (rewrite Q, Nat.mul_comm; apply Nat.div_mul; lia).
  pose proof (zpad_length q s L) as LZ.
  transitivity (let* a := word_of P (firstn (wb P) (Spec.BLAKE2.zpad q s)) in
     let* b := word_of P (skipn (wb P) (Spec.BLAKE2.zpad q s)) in Some (a, b)).
  { destruct (Nat.ltb_spec (length s) q) as [H|H]; cbv zeta.
    - now rewrite D.
    - assert (HL : length s = q) by lia. rewrite HL, D. unfold Spec.BLAKE2.zpad. rewrite HL, Nat.sub_diag.
      cbn [zeros repeat]. now rewrite app_nil_r. }
  unfold word_of. rewrite firstn_length, skipn_length, LZ.
  replace (Nat.min (wb P) q) with (wb P) by lia. replace (q - wb P)%nat with (wb P) by lia.
  rewrite Nat.eqb_refl. reflexivity.
Qed.
Definition p0_check (w : N) (n : nat) : bool :=
  forallb (fun k => forallb (fun o =>
    N.lxor (N.lxor 0x01010000 (wshl w (N.of_nat k) 8)) (N.of_nat o) =? N.of_nat o + 256 * N.of_nat k + 65536 + 16777216)
    (seq 0 n)) (seq 0 n).
Lemma p0_checked : p0_check 64 65 && p0_check 32 65 = true.
Proof. vm_compute. reflexivity. Qed.
Lemma p0_spec w k o : w = 64 \/ w = 32 -> (k <= 64)%nat -> (o <= 64)%nat ->
  N.lxor (N.lxor 0x01010000 (wshl w (N.of_nat k) 8)) (N.of_nat o) = N.of_nat o + 256 * N.of_nat k + 65536 + 16777216.
Proof.
  intros W K O. pose proof p0_checked as C. apply andb_true_iff in C. destruct C as [C1 C2].
  assert (C : p0_check w 65 = true) by (destruct W as [-> | ->]; assumption).
  unfold p0_check in C. rewrite forallb_forall in C. specialize (C k ltac:(apply in_seq; lia)).
  rewrite forallb_forall in C. specialize (C o ltac:(apply in_seq; lia)). now apply N.eqb_eq.
Qed.
Lemma le_words_app V a b : (0 < Spec.BLAKE2.wbytes V)%nat -> (length a mod Spec.BLAKE2.wbytes V = 0)%nat ->
  Spec.BLAKE2.le_words V (a ++ b) = Spec.BLAKE2.le_words V a ++ Spec.BLAKE2.le_words V b.
Proof. intros W H. unfold Spec.BLAKE2.le_words. now rewrite chunks_app, map_app. Qed.
Lemma le_words_two V a : (0 < Spec.BLAKE2.wbytes V)%nat -> length a = (2 * Spec.BLAKE2.wbytes V)%nat ->
  Spec.BLAKE2.le_words V a = [le_val (firstn (Spec.BLAKE2.wbytes V) a); le_val (skipn (Spec.BLAKE2.wbytes V) a)].
Proof.
  intros W H. unfold Spec.BLAKE2.le_words. rewrite <- (firstn_skipn (Spec.BLAKE2.wbytes V) a) at 1.
  rewrite chunks_cons by (try exact W; rewrite firstn_length; lia).
  rewrite chunks_one by (try exact W; rewrite skipn_length; lia). reflexivity.
Qed.
Definition params_ok (P : b2p) (salt persona : bytes) (kk nn : nat) : Prop :=
  (kk <= BYTES P)%nat /\ (nn <= BYTES P)%nat /\ (length salt <= BYTES P / 4)%nat /\ (length persona <= BYTES P / 4)%nat.
Lemma wb_pos P V : same P V -> (0 < wb P)%nat.
Proof. intros SV. destruct (s_two _ _ SV) as [(-> & _)|(-> & _)]; lia. Qed.
Lemma new_spec P V salt persona kk nn : same P V -> params_ok P salt persona kk nn ->
  exists h, new_with_params P salt persona kk nn = Some (mkB2 h 0 h) /\ h8 h = Spec.BLAKE2.init V salt persona kk nn.
Proof.
  intros SV (K & O & Sa & Pe). unfold new_with_params, assert.
  assert (W : (0 < wb P)%nat) by (destruct (s_two _ _ SV) as [(-> & _)|(-> & _)]; lia).
  assert (Q : (BYTES P / 4 = 2 * wb P)%nat) by (destruct (s_two _ _ SV) as [(-> & _ & -> & _)|(-> & _ & -> & _)]; reflexivity).
  do 4 (match goal with |- context [if (?a <=? ?b)%nat then _ else _] => destruct (Nat.leb_spec a b) as [_|]; [|lia] end; cbn [obind]).
  cbv zeta. rewrite two_words_spec, two_words_spec by assumption. cbn [obind].
  eexists. split; [reflexivity|].
  unfold Spec.BLAKE2.init, Spec.BLAKE2.param_block. rewrite <- (s_bytes _ _ SV), Q. cbv zeta.
  pose proof (zpad_length (2 * wb P) salt ltac:(lia)) as L1. pose proof (zpad_length (2 * wb P) persona ltac:(lia)) as L2.
  pose proof (zpad_length (2 * (2 * wb P)) [N.of_nat nn; N.of_nat kk; 1; 1] ltac:(cbn; lia)) as L3.
  rewrite (s_wb _ _ SV) in *. set (wbv := Spec.BLAKE2.wbytes V) in *.
  rewrite le_words_app; fold wbv; [|exact W|rewrite L3, Nat.mul_assoc; apply Nat.mod_mul; lia].
  rewrite le_words_app; fold wbv; [|exact W|rewrite L1; apply Nat.mod_mul; lia].
  rewrite (le_words_two V (Spec.BLAKE2.zpad (2 * wbv) salt)), (le_words_two V (Spec.BLAKE2.zpad (2 * wbv) persona)) by assumption.
  fold wbv. clear L1 L2 L3.
  assert (E : Spec.BLAKE2.le_words V (Spec.BLAKE2.zpad (2 * (2 * wbv)) [N.of_nat nn; N.of_nat kk; 1; 1])
    = [N.of_nat nn + 256 * N.of_nat kk + 65536 + 16777216; 0; 0; 0]).
  { unfold Spec.BLAKE2.le_words. fold wbv. pose proof (s_wb _ _ SV) as WB. fold wbv in WB.
    destruct (s_two _ _ SV) as [(E & _)|(E & _)]; rewrite WB in E; rewrite E;
      cbn [Spec.BLAKE2.zpad Nat.mul Nat.add Nat.sub length zeros repeat app chunks chunks_fuel Nat.leb firstn skipn map le_val];
      repeat (apply f_equal2; [lia|]); reflexivity. }
  rewrite E. rewrite p0_spec; [|destruct (s_two _ _ SV) as [(_ & -> & _)|(_ & -> & _)]; [now left|now right]| |];
    try (destruct (s_two _ _ SV) as [(_ & _ & EB & _)|(_ & _ & EB & _)]; rewrite EB in *; lia).
  set (p0 := N.of_nat nn + 256 * N.of_nat kk + 65536 + 16777216).
  pose proof (s_ivlen _ _ SV) as LI. rewrite <- (s_iv _ _ SV). unfold iv0, iv1, gather.
  set (I := IV P) in *. clearbody I. explode I. reflexivity.
Qed.
Lemma new_none P salt persona kk nn : ~ params_ok P salt persona kk nn -> new_with_params P salt persona kk nn = None.
Proof.
  intros H. unfold new_with_params, assert, params_ok in *.
  do 4 (match goal with |- context [if (?a <=? ?b)%nat then _ else _] => destruct (Nat.leb_spec a b); [|reflexivity] end; cbn [obind]).
  lia.
Qed.

(** ** Absorbing *)
Definition sfold (V : Spec.BLAKE2.variant) (bl : list bytes) (h : list N) (t : N) : list N :=
  fst (fold_left (fun ht b => (Spec.BLAKE2.F V (fst ht) (Spec.BLAKE2.le_words V b) (snd ht + N.of_nat (Spec.BLAKE2.bb V)) false,
                               snd ht + N.of_nat (Spec.BLAKE2.bb V))) bl (h, t)).
Lemma absorb_spec V bl : (0 < Spec.BLAKE2.bb V)%nat -> Forall (fun b => length b = Spec.BLAKE2.bb V) bl ->
  forall fuel h t r, (length bl < fuel)%nat -> (length r <= Spec.BLAKE2.bb V)%nat -> (bl <> [] -> r <> []) ->
  Spec.BLAKE2.absorb V fuel h t (concat bl ++ r) =
  Spec.BLAKE2.F V (sfold V bl h t) (Spec.BLAKE2.le_words V (Spec.BLAKE2.zpad (Spec.BLAKE2.bb V) r))
     (t + N.of_nat (length (concat bl ++ r))) true.
Proof.
  intros HB FL. induction bl as [|b bl IH]; intros [|fuel] h t r Hf Lr NE; cbn [length] in Hf; try lia.
  - cbn [concat app Spec.BLAKE2.absorb]. destruct (Nat.leb_spec (length r) (Spec.BLAKE2.bb V)); [|lia]. reflexivity.
  - apply Forall_cons_iff in FL. destruct FL as [Lb FL]. cbn [concat Spec.BLAKE2.absorb]. rewrite <- app_assoc.
    assert (Rn : (0 < length r)%nat) by (specialize (NE ltac:(discriminate)); destruct r; [contradiction|cbn; lia]).
    destruct (Nat.leb_spec (length (b ++ concat bl ++ r)) (Spec.BLAKE2.bb V)) as [Q|Q]; [rewrite !app_length in Q; lia|].
    rewrite firstn_app_exact, skipn_app_exact by exact Lb.
    rewrite IH; [|exact FL|lia|exact Lr|intros _ Z; rewrite Z in Rn; cbn in Rn; lia].
    unfold sfold. cbn [fold_left fst snd]. f_equal. rewrite !app_length, Lb. lia.
Qed.
Lemma update_spec P V m bl : same P V -> Forall (fun b => length b = BLOCK P) bl -> forall s,
  b_t s + N.of_nat (length (concat bl)) < 2 ^ 64 ->
  exists s', update_blocks P m s bl = Some s' /\ b_h0 s' = b_h0 s /\ b_t s' = b_t s + N.of_nat (length (concat bl)) /\
    h8 (b_h s') = sfold V bl (h8 (b_h s)) (b_t s).
Proof.
  intros SV FL. induction FL as [|b bl Lb FL IH]; intros s T.
  - exists s. cbn. repeat split. lia.
  - cbn [update_blocks concat]. cbn [concat] in T. rewrite app_length in *. unfold cadd. rewrite fit_small by lia. cbn [obind].
    destruct (IH (mkB2 (compress P (b_h s) (b_t s + N.of_nat (length b)) b 0 0) (b_t s + N.of_nat (length b)) (b_h0 s)))
      as (s' & E & E1 & E2 & E3); cbn [b_t b_h b_h0] in *; [lia|].
    exists s'. split; [exact E|]. split; [exact E1|]. split; [lia|]. rewrite E3. unfold sfold. cbn [fold_left fst snd].
    change 0 with (flag P false) at 1. rewrite (compress_spec P V) by (assumption || lia).
    rewrite <- (s_block _ _ SV), Lb. reflexivity.
Qed.
Lemma update_app P m a : forall s b, update_blocks P m s (a ++ b) = obind (update_blocks P m s a) (fun s' => update_blocks P m s' b).
Proof.
  induction a as [|x a IH]; intros s b; [reflexivity|]. cbn [app update_blocks].
  destruct (cadd m 64 (b_t s) _) as [t|]; [|reflexivity]. cbn [obind]. apply IH.
Qed.
Lemma update_h0 P m bl : forall s s', update_blocks P m s bl = Some s' -> b_h0 s' = b_h0 s.
Proof.
  induction bl as [|x bl IH]; intros s s' E; cbn [update_blocks] in E; [now injection E as <-|].
  destruct (cadd m 64 (b_t s) _) as [t|]; [|discriminate]. cbn [obind] in E. now apply IH in E.
Qed.

(** The limit: the byte counter is 64 bits wide. *)
Definition within (n len : nat) : Prop := N.of_nat (n + len) < 2 ^ 64.
Definition data (V : Spec.BLAKE2.variant) (key M : bytes) : bytes :=
  match key with [] => M | _ => Spec.BLAKE2.zpad (Spec.BLAKE2.bb V) key ++ M end.
Lemma absorb_data P V ini ibuf nn salt persona key M : same P V -> Spec.BLAKE2.init V salt persona (length key) nn = ini ->
  ibuf = match key with [] => [] | _ => Spec.BLAKE2.zpad (Spec.BLAKE2.bb V) key end ->
  Spec.BLAKE2.BLAKE2 V salt persona key nn M
  = firstn nn (concat (map (le_bytes (wb P)) (Spec.BLAKE2.absorb V (S (length (ibuf ++ M))) ini 0 (ibuf ++ M)))).
Proof.
  intros SV <- ->. unfold Spec.BLAKE2.BLAKE2. rewrite (s_wb _ _ SV). now destruct key.
Qed.
Lemma core_ok_gen P V h ibuf nn (H : bytes -> bytes) : same P V -> bytes_ok ibuf -> (length ibuf <= BLOCK P)%nat ->
  (forall M, H M = firstn nn (concat (map (le_bytes (wb P)) (Spec.BLAKE2.absorb V (S (length (ibuf ++ M))) (h8 h) 0 (ibuf ++ M))))) ->
  core_ok (blake2_core P (mkB2 h 0 h) ibuf nn) (fun s => b_h0 s = h) H (within (length ibuf)).
Proof.
  intros SV BI LI HH. assert (BP : (0 < BLOCK P)%nat) by (destruct (s_two _ _ SV) as [(_ & _ & _ & -> & _)|(_ & _ & _ & -> & _)]; lia).
  constructor; cbn [blake2_core cst c_bs c_kind c_init c_ibuf c_update c_final c_reset c_codec].
  - exact BP.
  - now apply Nat.leb_le.
  - unfold within. intros a b L W. lia.
  - reflexivity.
  - intros m s bl s' I _ _ E. apply update_h0 in E. congruence.
  - reflexivity.
  - intros m s a b _. apply update_app.
  - intros m msg W B. set (d := ibuf ++ msg). unfold within in W.
    assert (Wd : N.of_nat (length d) < 2 ^ 64) by (unfold d; now rewrite app_length).
    pose proof (kblocks_krem Lazy (BLOCK P) d BP) as KD. pose proof (kblocks_length Lazy (BLOCK P) d BP) as KL.
    pose proof (krem_tail_ok Lazy (BLOCK P) d BP) as [KT1 KT2].
    set (bl := kblocks Lazy (BLOCK P) d) in *. set (r := krem Lazy (BLOCK P) d) in *.
    assert (LD : (length (concat bl) + length r = length d)%nat) by now rewrite <- KD, app_length.
    destruct (update_spec P V m bl SV KL (mkB2 h 0 h)) as (s & E & E1 & E2 & E3); cbn [b_t b_h b_h0] in *; [lia|].
    exists s. unfold finalize_variable_core. rewrite E2. unfold cadd. rewrite fit_small by lia. cbn [obind].
    eexists. split; [exact E|]. split.
    { apply f_equal, f_equal2; [|reflexivity]. rewrite HH. fold d. do 3 f_equal.
      change (N.ones (wbits P)) with (flag P true).
      assert (T64 : 0 + N.of_nat (length (concat bl)) + N.of_nat (length r) < 2 ^ 64) by lia.
      pose proof (compress_spec P V (b_h s) _ (pad_with_zeros (BLOCK P) r) true SV T64) as CS. unfold h8 in CS at 1.
      rewrite CS, E3.
      pose proof (absorb_spec V bl ltac:(rewrite <- (s_block _ _ SV); exact BP) ltac:(rewrite <- (s_block _ _ SV); exact KL)
        (S (length d)) (h8 h) 0 r ltac:(rewrite (concat_length_blocks (BLOCK P)) in LD by exact KL; nia)
        ltac:(rewrite <- (s_block _ _ SV); exact KT1) KT2) as AS.
      rewrite KD in AS. rewrite AS. unfold pad_with_zeros, Spec.BLAKE2.zpad. rewrite <- (s_block _ _ SV). f_equal. lia. }
    unfold core_reset. cbn [b_h0]. now rewrite E1.
  - intros s I. unfold core_reset. now rewrite I.
  - exact BI.
  - discriminate.
Qed.
Lemma unkeyed_ok P V salt persona nn s : same P V -> new_with_params P salt persona 0 nn = Some s ->
  core_ok (blake2_core P s [] nn) (fun x => b_h0 x = b_h0 s)
    (Spec.BLAKE2.BLAKE2 V salt persona [] nn) (within 0).
Proof.
  intros SV E. assert (D : params_ok P salt persona 0 nn).
  { unfold new_with_params, assert in E. unfold params_ok.
    do 4 (match type of E with context [if (?a <=? ?b)%nat then _ else _] => destruct (Nat.leb_spec a b); [|discriminate] end; cbn [obind] in E).
    lia. }
  destruct (new_spec P V salt persona 0 nn SV D) as (h & E2 & E3). rewrite E2 in E. injection E as <-. cbn [b_h0].
  apply (core_ok_gen P V h [] nn); [exact SV|constructor|cbn; lia|]. intros M. rewrite E3.
  now apply (absorb_data P V _ [] nn salt persona []).
Qed.

(** ** MACs *)
Fixpoint mac_updates (P : b2p) (m : mode) (s : mac) (cs : list bytes) : option mac :=
  match cs with [] => Some s | c :: cs => let* s := mac_update P m s c in mac_updates P m s cs end.
Definition mac_tag (P : b2p) (nn : nat) (m : mode) (s : mac) (cs : list bytes) : option bytes :=
  let* s := mac_updates P m s cs in let* (out, _) := mac_finalize P nn m s in Some out.
Lemma mac_tag_core P nn m ini ibuf kb cs :
  mac_tag P nn m (mkMac ini ibuf kb) cs = h_digest (blake2_core P ini ibuf nn) m cs.
Proof.
  unfold mac_tag, h_digest, h_new. cbn [c_init c_ibuf blake2_core].
  enough (K : forall c b, (let* s := mac_updates P m (mkMac c b kb) cs in let* (out, _) := mac_finalize P nn m s in Some out)
    = let* h := h_updates (blake2_core P ini ibuf nn) m (c, b) cs in h_finalize (blake2_core P ini ibuf nn) m h) by apply K.
  induction cs as [|x cs IH]; intros c b; cbn [mac_updates h_updates obind].
  - unfold mac_finalize, h_finalize. cbn [m_core m_buf m_key fst snd c_final blake2_core].
    now destruct (finalize_variable_core P m c b) as [[out s]|].
  - unfold mac_update, h_update. cbn [m_core m_buf m_key fst snd cst c_update c_kind c_bs blake2_core].
    destruct (digest_blocks (update_blocks P m) Lazy (BLOCK P) c b x) as [[c' b']|]; [|reflexivity]. cbn [obind]. apply IH.
Qed.
Lemma copy_into_some n k : (length k <= n)%nat -> copy_into n k = Some (Spec.BLAKE2.zpad n k).
Proof. intros H. unfold copy_into. destruct (Nat.leb_spec (length k) n); [reflexivity|lia]. Qed.
Lemma zpad_ok n k : bytes_ok k -> bytes_ok (Spec.BLAKE2.zpad n k).
Proof. intros H. apply bytes_ok_app. split; [exact H|apply zeros_ok]. Qed.
Lemma bytes_le_block P V : same P V -> (BYTES P < BLOCK P)%nat.
Proof. intros SV. destruct (s_two _ _ SV) as [(_ & _ & -> & -> & _)|(_ & _ & -> & -> & _)]; lia. Qed.

(** What the constructors accept. *)
Definition mac_params (P : b2p) (nn : nat) (key : option bytes) (salt persona : bytes) : Prop :=
  (nn <= BYTES P)%nat /\ match key with None => True | Some k => (0 < length k <= BYTES P)%nat end /\
  (length salt <= BYTES P / 4)%nat /\ (length persona <= BYTES P / 4)%nat.
Definition mac_reject (P : b2p) (key : option bytes) (salt persona : bytes) : Prop :=
  match key with None => False | Some k => length k = 0%nat \/ (BLOCK P < length k)%nat end \/
  (BLOCK P / 4 < length salt)%nat \/ (BLOCK P / 4 < length persona)%nat.
Definition key_of (key : option bytes) : bytes := match key with None => [] | Some k => k end.
Lemma wsp_cond P key salt persona :
  (match key with Some _ => true | None => false end && (length (key_of key) =? 0)%nat)
     || (BLOCK P <? length (key_of key))%nat || (BLOCK P / 4 <? length salt)%nat || (BLOCK P / 4 <? length persona)%nat = true
  <-> mac_reject P key salt persona.
Proof.
  unfold mac_reject, key_of. rewrite !orb_true_iff, andb_true_iff, Nat.eqb_eq, !Nat.ltb_lt.
  destruct key as [k|]; cbn [length]; [tauto|]. split; [|tauto]. intros [[[[? ?]|?]|?]|?]; try tauto; try discriminate. lia.
Qed.
Lemma wsp_unfold P nn key salt persona : new_with_salt_and_personal P nn key salt persona =
  if (match key with Some _ => true | None => false end && (length (key_of key) =? 0)%nat)
     || (BLOCK P <? length (key_of key))%nat || (BLOCK P / 4 <? length salt)%nat || (BLOCK P / 4 <? length persona)%nat
  then Err else or_panic
    (let* buffer := match key with Some k => copy_into (BLOCK P) k | None => Some [] end in
     let* c := new_with_params P salt persona (length (key_of key)) nn in
     let* kb := match key with Some k => let* t := copy_into (BYTES P) k in Some (Some t) | None => Some None end in
     Some (mkMac c buffer kb)).
Proof. unfold new_with_salt_and_personal. now destruct key. Qed.
Lemma params_not_reject P V nn key salt persona : same P V -> mac_params P nn key salt persona -> ~ mac_reject P key salt persona.
Proof.
  intros SV (_ & HK & HS & HP) R. unfold mac_reject in R. pose proof (bytes_le_block P V SV).
  assert (Q : (BYTES P / 4 < BLOCK P / 4)%nat)
    by (destruct (s_two _ _ SV) as [(_ & _ & -> & -> & _)|(_ & _ & -> & -> & _)]; cbn; lia).
  destruct R as [R|R]; [|lia]. destruct key as [k|]; [lia|exact R].
Qed.
Lemma wsp_ok P V nn key salt persona : same P V -> mac_params P nn key salt persona ->
  exists h, new_with_salt_and_personal P nn key salt persona = Ok (mkMac (mkB2 h 0 h)
      (match key with None => [] | Some k => Spec.BLAKE2.zpad (BLOCK P) k end)
      (option_map (Spec.BLAKE2.zpad (BYTES P)) key)) /\
    h8 h = Spec.BLAKE2.init V salt persona (length (key_of key)) nn.
Proof.
  intros SV HP. pose proof (params_not_reject P V nn key salt persona SV HP) as NR.
  destruct HP as (Hn & HK & HS & HP'). pose proof (bytes_le_block P V SV) as BB.
  assert (PO : params_ok P salt persona (length (key_of key)) nn).
  { unfold params_ok. destruct key; cbn [key_of length]; lia. }
  destruct (new_spec P V salt persona _ nn SV PO) as (h & E1 & E2). exists h. split; [|exact E2].
  rewrite wsp_unfold. destruct (_ || _ || _ || _) eqn:C; [exfalso; apply NR; now apply wsp_cond in C|].
  rewrite E1. destruct key as [k|]; cbn [option_map].
  - rewrite !copy_into_some by lia. reflexivity.
  - reflexivity.
Qed.
Lemma wsp_outcome P V nn key salt persona : same P V -> (nn <= BYTES P)%nat ->
  (new_with_salt_and_personal P nn key salt persona = Err <-> mac_reject P key salt persona) /\
  (new_with_salt_and_personal P nn key salt persona = Panic <->
     ~ mac_reject P key salt persona /\ ~ mac_params P nn key salt persona).
Proof.
  intros SV Hn. pose proof (wsp_cond P key salt persona) as C.
  destruct (_ || _ || _ || _) eqn:D in C.
  - assert (R : mac_reject P key salt persona) by now apply C.
    rewrite wsp_unfold, D. repeat split; try easy. 
  - assert (R : ~ mac_reject P key salt persona) by (intros R; apply C in R; discriminate).
    assert (DEC : mac_params P nn key salt persona \/ ~ mac_params P nn key salt persona).
    { unfold mac_params. destruct key as [k|]; [|]; lia. }
    destruct DEC as [HP|HP].
    + destruct (wsp_ok P V nn key salt persona SV HP) as (h & -> & _). repeat split; try easy. 
    + assert (E : new_with_salt_and_personal P nn key salt persona = Panic).
      { rewrite wsp_unfold, D.
        destruct (match key with Some k => copy_into (BLOCK P) k | None => Some [] end); [|reflexivity]. cbn [obind].
        rewrite new_none; [reflexivity|]. intros (Q1 & Q2 & Q3 & Q4). apply HP. unfold mac_params. repeat split; try assumption.
        destruct key as [k|]; [|exact I]. cbn [key_of] in Q1. unfold mac_reject in R.
        split; [|exact Q1]. destruct (length k); [|lia]. exfalso. apply R. left. now left. }
      rewrite E. repeat split; try easy.
Qed.
Lemma nfs_outcome P V nn key : same P V -> (nn <= BYTES P)%nat ->
  (new_from_slice P nn key = Err <-> (BYTES P < length key)%nat) /\ new_from_slice P nn key <> Panic.
Proof.
  intros SV Hn. unfold new_from_slice. pose proof (bytes_le_block P V SV) as BB.
  destruct (Nat.ltb_spec (BYTES P) (length key)) as [H|H].
  - repeat split; easy.
  - rewrite !copy_into_some by lia. cbn [obind].
    destruct (new_spec P V [] [] (length key) nn SV) as (h & -> & _); [unfold params_ok; cbn [length]; lia|]. cbn [obind or_panic].
    repeat split; try easy. lia.
Qed.
Lemma nfs_ok P V nn key : same P V -> (nn <= BYTES P)%nat -> (length key <= BYTES P)%nat ->
  exists h, new_from_slice P nn key = Ok (mkMac (mkB2 h 0 h) (Spec.BLAKE2.zpad (BLOCK P) key) (Some (Spec.BLAKE2.zpad (BYTES P) key)))
   /\ h8 h = Spec.BLAKE2.init V [] [] (length key) nn.
Proof.
  intros SV Hn HK. unfold new_from_slice. pose proof (bytes_le_block P V SV) as BB.
  destruct (Nat.ltb_spec (BYTES P) (length key)) as [H|H]; [lia|].
  rewrite !copy_into_some by lia. cbn [obind].
  destruct (new_spec P V [] [] (length key) nn SV) as (h & -> & E); [unfold params_ok; cbn [length]; lia|].
  exists h. split; [reflexivity|exact E].
Qed.

(** Tags. *)
Lemma tag_gen P V nn m h ibuf kb salt persona key cs : same P V -> bytes_ok key -> (length key <= BYTES P)%nat ->
  h8 h = Spec.BLAKE2.init V salt persona (length key) nn ->
  ibuf = match key with [] => [] | _ => Spec.BLAKE2.zpad (BLOCK P) key end ->
  Forall bytes_ok cs -> N.of_nat (BLOCK P + length (concat cs)) < 2 ^ 64 ->
  mac_tag P nn m (mkMac (mkB2 h 0 h) ibuf kb) cs = Some (Spec.BLAKE2.BLAKE2 V salt persona key nn (concat cs)).
Proof.
  intros SV BK LK E EI BC W. rewrite mac_tag_core. pose proof (bytes_le_block P V SV) as BB.
  assert (LI : (length ibuf <= BLOCK P)%nat).
  { rewrite EI. destruct key; [cbn; lia|]. rewrite zpad_length; lia. }
  apply (digest_spec _ _ _ _ (core_ok_gen P V h ibuf nn (Spec.BLAKE2.BLAKE2 V salt persona key nn) SV
    ltac:(rewrite EI; destruct key; [constructor|now apply zpad_ok]) LI
    ltac:(intros M; rewrite E; apply (absorb_data P V _ ibuf nn salt persona key M SV eq_refl);
          rewrite <- (s_block _ _ SV); exact EI))); [exact BC|].
  unfold within. lia.
Qed.
Lemma wsp_tag P V nn m key salt persona s cs : same P V -> (nn <= BYTES P)%nat -> bytes_ok (key_of key) ->
  new_with_salt_and_personal P nn key salt persona = Ok s ->
  Forall bytes_ok cs -> N.of_nat (BLOCK P + length (concat cs)) < 2 ^ 64 ->
  mac_tag P nn m s cs = Some (Spec.BLAKE2.BLAKE2 V salt persona (key_of key) nn (concat cs)).
Proof.
  intros SV Hn BK E BC W.
  assert (HP : mac_params P nn key salt persona).
  { destruct (wsp_outcome P V nn key salt persona SV Hn) as [O1 O2].
    assert (DEC : mac_params P nn key salt persona \/ ~ mac_params P nn key salt persona) by (unfold mac_params; destruct key; lia).
    assert (DEC2 : mac_reject P key salt persona \/ ~ mac_reject P key salt persona).
    { unfold mac_reject. destruct key; [lia|]. lia. }
    destruct DEC as [|D1]; [assumption|exfalso]. destruct DEC2 as [D2|D2].
    - apply O1 in D2. congruence.
    - destruct O2 as [_ O2]. rewrite O2 in E by (now split). discriminate. }
  destruct (wsp_ok P V nn key salt persona SV HP) as (h & E1 & E2). rewrite E1 in E. injection E as <-.
  destruct HP as (_ & HK & _). apply (tag_gen P V); try assumption.
  - destruct key; cbn [key_of length] in *; lia.
  - destruct key as [[|k0 k]|]; cbn in *; try reflexivity. lia.
Qed.
Lemma nfs_tag P V nn m key s cs : same P V -> (nn <= BYTES P)%nat -> bytes_ok key -> key <> [] ->
  new_from_slice P nn key = Ok s ->
  Forall bytes_ok cs -> N.of_nat (BLOCK P + length (concat cs)) < 2 ^ 64 ->
  mac_tag P nn m s cs = Some (Spec.BLAKE2.BLAKE2 V [] [] key nn (concat cs)).
Proof.
  intros SV Hn BK NE E BC W.
  assert (LK : (length key <= BYTES P)%nat).
  { destruct (Nat.le_gt_cases (length key) (BYTES P)) as [|G]; [assumption|].
    destruct (nfs_outcome P V nn key SV Hn) as [[_ O] _]. rewrite O in E by exact G. discriminate. }
  destruct (nfs_ok P V nn key SV Hn LK) as (h & E1 & E2). rewrite E1 in E. injection E as <-.
  apply (tag_gen P V); try assumption. now destruct key.
Qed.
(** An empty key given to [new_from_slice] still absorbs a zero block. *)
Lemma nfs_empty P V nn m cs : same P V -> (nn <= BYTES P)%nat ->
  Forall bytes_ok cs -> N.of_nat (BLOCK P + length (concat cs)) < 2 ^ 64 ->
  exists s, new_from_slice P nn [] = Ok s /\
  mac_tag P nn m s cs = Some (Spec.BLAKE2.BLAKE2 V [] [] [] nn (zeros (BLOCK P) ++ concat cs)).
Proof.
  intros SV Hn BC W. destruct (nfs_ok P V nn [] SV Hn ltac:(cbn; lia)) as (h & E1 & E2).
  eexists. split; [exact E1|]. rewrite mac_tag_core.
  assert (EZ : Spec.BLAKE2.zpad (BLOCK P) [] = zeros (BLOCK P)) by (unfold Spec.BLAKE2.zpad; cbn [length app]; now rewrite Nat.sub_0_r).
  rewrite EZ.
  apply (digest_spec _ _ _ _ (core_ok_gen P V h (zeros (BLOCK P)) nn
    (fun M => Spec.BLAKE2.BLAKE2 V [] [] [] nn (zeros (BLOCK P) ++ M)) SV (zeros_ok _)
    ltac:(rewrite zeros_length; lia)
    ltac:(intros M; rewrite E2; apply (absorb_data P V _ [] nn [] [] [] (zeros (BLOCK P) ++ M) SV eq_refl eq_refl)))); [exact BC|].
  unfold within. rewrite zeros_length. exact W.
Qed.

(** ** Reset *)
Inductive mac_history (P : b2p) (nn : nat) (m : mode) (s0 : mac) : mac -> Prop :=
| mh_new : mac_history P nn m s0 s0
| mh_update s x s' : mac_history P nn m s0 s -> mac_update P m s x = Some s' -> mac_history P nn m s0 s'
| mh_reset s s' : mac_history P nn m s0 s -> mac_reset P s = Some s' -> mac_history P nn m s0 s'
| mh_finalize s out s' : mac_history P nn m s0 s -> mac_finalize_reset P nn m s = Some (out, s') -> mac_history P nn m s0 s'.
Lemma digest_h0 P m s b x c b' : digest_blocks (update_blocks P m) Lazy (BLOCK P) s b x = Some (c, b') -> b_h0 c = b_h0 s.
Proof.
  unfold digest_blocks. destruct (pos_ok _ _ _); [now intros [= <- _]|].
  destruct (length b =? 0)%nat.
  - cbn [obind]. destruct (_ =? 0)%nat; cbn [obind]; [now intros [= <- _]|].
    destruct (update_blocks P m s _) as [s2|] eqn:E; [|discriminate]. cbn [obind]. intros [= <- _]. now apply update_h0 in E.
  - destruct (update_blocks P m s [_]) as [s1|] eqn:E1; [|discriminate]. cbn [obind].
    destruct (_ =? 0)%nat; cbn [obind]; [intros [= <- _]; now apply update_h0 in E1|].
    destruct (update_blocks P m s1 _) as [s2|] eqn:E; [|discriminate]. cbn [obind]. intros [= <- _].
    apply update_h0 in E, E1. congruence.
Qed.
Lemma mac_finalize_keeps P nn m s out s' : mac_finalize P nn m s = Some (out, s') ->
  b_h0 (m_core s') = b_h0 (m_core s) /\ m_key s' = m_key s.
Proof.
  unfold mac_finalize, finalize_variable_core. destruct (cadd _ _ _ _); [|discriminate]. cbn [obind]. now intros [= _ <-].
Qed.
Lemma reset_gen P nn m s0 s : mac_reset P s0 = Some s0 -> mac_history P nn m s0 s ->
  b_h0 (m_core s) = b_h0 (m_core s0) /\ m_key s = m_key s0 /\ mac_reset P s = Some s0.
Proof.
  intros R0 HH.
  assert (K : forall s, b_h0 (m_core s) = b_h0 (m_core s0) -> m_key s = m_key s0 -> mac_reset P s = Some s0).
  { intros t E1 E2. rewrite <- R0. unfold mac_reset, core_reset. now rewrite E1, E2. }
  induction HH as [|s x s' HH (I1 & I2 & I3) E|s s' HH (I1 & I2 & I3) E|s out s' HH (I1 & I2 & I3) E].
  - now repeat split.
  - unfold mac_update in E. destruct (digest_blocks _ _ _ _ _ _) as [[c b]|] eqn:D; [|discriminate].
    cbn [obind] in E. injection E as <-. apply digest_h0 in D. cbn [m_core m_key].
    repeat split; try congruence. apply K; cbn [m_core m_key]; congruence.
  - rewrite I3 in E. injection E as <-. now repeat split.
  - unfold mac_finalize_reset in E. destruct (mac_finalize P nn m s) as [[o s1]|] eqn:F; [|discriminate]. cbn [obind] in E.
    apply mac_finalize_keeps in F. destruct F as [F1 F2]. rewrite (K s1) in E by congruence. cbn [obind] in E.
    injection E as _ <-. now repeat split.
Qed.
Lemma wsp_reset P V nn key salt persona s0 : same P V -> (nn <= BYTES P)%nat ->
  new_with_salt_and_personal P nn key salt persona = Ok s0 \/ (exists k, key = Some k /\ new_from_slice P nn k = Ok s0) ->
  mac_reset P s0 = Some s0.
Proof.
  intros SV Hn HC. pose proof (bytes_le_block P V SV) as BB.
  assert (ZZ : forall k, (length k <= BYTES P)%nat ->
     copy_into (BLOCK P) (Spec.BLAKE2.zpad (BYTES P) k) = Some (Spec.BLAKE2.zpad (BLOCK P) k)).
  { intros k L. rewrite copy_into_some by (rewrite zpad_length; lia). unfold Spec.BLAKE2.zpad at 1.
    rewrite zpad_length by exact L. unfold Spec.BLAKE2.zpad. rewrite <- app_assoc. unfold zeros. rewrite <- repeat_app.
    apply f_equal, f_equal, f_equal. lia. }
  destruct HC as [E|(k & -> & E)].
  - assert (HP : mac_params P nn key salt persona).
    { destruct (wsp_outcome P V nn key salt persona SV Hn) as [O1 O2].
      assert (DEC : mac_params P nn key salt persona \/ ~ mac_params P nn key salt persona) by (unfold mac_params; destruct key; lia).
      assert (DEC2 : mac_reject P key salt persona \/ ~ mac_reject P key salt persona).
      { unfold mac_reject. destruct key; [lia|]. lia. }
      destruct DEC as [|D1]; [assumption|exfalso]. destruct DEC2 as [D2|D2].
      - apply O1 in D2. congruence.
      - destruct O2 as [_ O2]. rewrite O2 in E by (now split). discriminate. }
    destruct (wsp_ok P V nn key salt persona SV HP) as (h & E1 & E2). rewrite E1 in E. injection E as <-.
    destruct HP as (_ & HK & _). unfold mac_reset. cbn [m_key m_core]. destruct key as [k|]; cbn [option_map]; [|reflexivity].
    rewrite ZZ by lia. reflexivity.
  - assert (LK : (length k <= BYTES P)%nat).
    { destruct (Nat.le_gt_cases (length k) (BYTES P)) as [|G]; [assumption|].
      destruct (nfs_outcome P V nn k SV Hn) as [[_ O] _]. rewrite O in E by exact G. discriminate. }
    destruct (nfs_ok P V nn k SV Hn LK) as (h & E1 & E2). rewrite E1 in E. injection E as <-.
    unfold mac_reset. cbn [m_key m_core]. rewrite ZZ by lia. reflexivity.
Qed.
Lemma mac_reset_fresh P V nn m key salt persona s0 s : same P V -> (nn <= BYTES P)%nat ->
  new_with_salt_and_personal P nn key salt persona = Ok s0 \/ (exists k, key = Some k /\ new_from_slice P nn k = Ok s0) ->
  mac_history P nn m s0 s ->
  mac_reset P s = Some s0 /\ forall out s', mac_finalize_reset P nn m s = Some (out, s') -> s' = s0.
Proof.
  intros SV Hn HC HH. pose proof (wsp_reset P V nn key salt persona s0 SV Hn HC) as R0.
  destruct (reset_gen P nn m s0 s R0 HH) as (_ & _ & R). split; [exact R|]. intros out s' E.
  assert (HH' : mac_history P nn m s0 s') by now apply (mh_finalize P nn m s0 s out s').
  unfold mac_finalize_reset in E. destruct (mac_finalize P nn m s) as [[o s1]|] eqn:F; [|discriminate]. cbn [obind] in E.
  apply mac_finalize_keeps in F. destruct F as [F1 F2].
  assert (R1 : mac_reset P s1 = mac_reset P s) by (unfold mac_reset, core_reset; now rewrite F1, F2).
  rewrite R1, R in E. cbn [obind] in E. now injection E as _ <-.
Qed.
Lemma var_digest P V nn m cs : same P V -> (nn <= BYTES P)%nat -> Forall bytes_ok cs ->
  N.of_nat (length (concat cs)) < 2 ^ 64 ->
  exists s, var_new P nn = Some (Some s) /\
    h_digest (blake2_core P s [] nn) m cs = Some (Spec.BLAKE2.BLAKE2 V [] [] [] nn (concat cs)).
Proof.
  intros SV L B W. unfold var_new. destruct (Nat.ltb_spec (BYTES P) nn) as [|_]; [lia|].
  destruct (new_spec P V [] [] 0 nn SV) as (h & E & _); [unfold params_ok; cbn [length]; lia|]. rewrite E.
  eexists. split; [reflexivity|]. now apply (digest_spec _ _ _ _ (unkeyed_ok P V [] [] nn _ SV E)).
Qed.
Lemma wsp_panics :
  new_with_salt_and_personal Blake2b 64 (Some (repeat 0 65)) [] [] = Panic /\
  new_with_salt_and_personal Blake2b 64 (Some [1]) (repeat 0 17) [] = Panic /\
  new_with_salt_and_personal Blake2s 32 None [] (repeat 0 9) = Panic.
Proof. repeat split; vm_compute; reflexivity. Qed.
