(** The sha1-checked crate: SHA-1 with detection of colliding blocks. *)
From Verif Require Import Base.Words Base.Bytes Base.Codec Base.BlockBuffer Base.BlockBufferFacts Base.Digest
  Base.DigestFacts Base.MDFacts Base.Sched Model.Sha1CheckedTables Model.Sha1Checked.
From Verif Require Spec.SHA1 Spec.SHA1C Model.Sha1 Proof.Sha1 Proof.Fsb.
Import Spec.SHA1 (vars, round).
Import Proof.Sha1 (vok, run, run_add, run_ok, run_S, run_0, list_of_vars).

(** ** Boolean functions *)
Lemma f1_ok x y z : x < 2 ^ 32 -> y < 2 ^ 32 -> z < 2 ^ 32 -> f1 x y z = Spec.SHA1.Ch x y z.
Proof. intros _ _ H. exact (Proof.Sha1.ch_ok x y z H). Qed.
Lemma f2_ok x y z : x < 2 ^ 32 -> y < 2 ^ 32 -> z < 2 ^ 32 -> f2 x y z = Spec.SHA1.Parity x y z.
Proof. reflexivity. Qed.
Lemma f4_ok x y z : x < 2 ^ 32 -> y < 2 ^ 32 -> z < 2 ^ 32 -> f4 x y z = Spec.SHA1.Parity x y z.
Proof. reflexivity. Qed.
Lemma f3_ok x y z : x < 2 ^ 32 -> y < 2 ^ 32 -> z < 2 ^ 32 -> f3 x y z = Spec.SHA1.Maj x y z.
Proof.
  intros Hx Hy Hz. unfold f3, add32, wadd.
  rewrite N.add_nocarry_lxor.
  - rewrite N.mod_small by (apply lxor_lt; [now apply land_lt_l|now apply land_lt_l]).
    unfold Spec.SHA1.Maj. apply N.bits_inj; intros i. rewrite ?N.lxor_spec, ?N.land_spec, ?N.lxor_spec.
    now destruct (N.testbit x i), (N.testbit y i), (N.testbit z i).
  - apply N.bits_inj; intros i. rewrite ?N.land_spec, ?N.lxor_spec, N.bits_0.
    now destruct (N.testbit x i), (N.testbit y i), (N.testbit z i).
Qed.

Definition same (fm fs : N -> N -> N -> N) : Prop :=
  forall x y z, x < 2 ^ 32 -> y < 2 ^ 32 -> z < 2 ^ 32 -> fm x y z = fs x y z.
Lemma fK1 t : (t < 20)%nat -> Spec.SHA1.f t = Spec.SHA1.Ch /\ Spec.SHA1.K t = get K 0.
Proof.
  intros H. unfold Spec.SHA1.f, Spec.SHA1.K. assert (E : (t <? 20)%nat = true) by (apply Nat.ltb_lt; lia).
  rewrite E. split; [reflexivity|]. vm_compute. reflexivity.
Qed.
Lemma fK2 t : (20 <= t < 40)%nat -> Spec.SHA1.f t = Spec.SHA1.Parity /\ Spec.SHA1.K t = get K 1.
Proof.
  intros H. unfold Spec.SHA1.f, Spec.SHA1.K. assert (E : (t <? 20)%nat = false) by (apply Nat.ltb_ge; lia).
  assert (E' : (t <? 40)%nat = true) by (apply Nat.ltb_lt; lia).
  rewrite E, E'. split; [reflexivity|]. vm_compute. reflexivity.
Qed.
Lemma fK3 t : (40 <= t < 60)%nat -> Spec.SHA1.f t = Spec.SHA1.Maj /\ Spec.SHA1.K t = get K 2.
Proof.
  intros H. unfold Spec.SHA1.f, Spec.SHA1.K. assert (E : (t <? 20)%nat = false) by (apply Nat.ltb_ge; lia).
  assert (E' : (t <? 40)%nat = false) by (apply Nat.ltb_ge; lia).
  assert (E'' : (t <? 60)%nat = true) by (apply Nat.ltb_lt; lia).
  rewrite E, E', E''. split; [reflexivity|]. vm_compute. reflexivity.
Qed.
Lemma fK4 t : (60 <= t)%nat -> Spec.SHA1.f t = Spec.SHA1.Parity /\ Spec.SHA1.K t = get K 3.
Proof.
  intros H. unfold Spec.SHA1.f, Spec.SHA1.K. assert (E : (t <? 20)%nat = false) by (apply Nat.ltb_ge; lia).
  assert (E' : (t <? 40)%nat = false) by (apply Nat.ltb_ge; lia).
  assert (E'' : (t <? 60)%nat = false) by (apply Nat.ltb_ge; lia).
  rewrite E, E', E''. split; [reflexivity|]. vm_compute. reflexivity.
Qed.
(** The function and constant in use at step [t], as the model has them. *)
Definition stage (f : N -> N -> N -> N) (k : N) (t : nat) : Prop :=
  exists g, Spec.SHA1.f t = g /\ Spec.SHA1.K t = k /\ same f g.
Lemma st1 t : (t < 20)%nat -> stage f1 (get K 0) t.
Proof. intros H. destruct (fK1 t H) as [H0 H1]. exists Spec.SHA1.Ch. exact (conj H0 (conj H1 f1_ok)). Qed.
Lemma st2 t : (20 <= t < 40)%nat -> stage f2 (get K 1) t.
Proof. intros H. destruct (fK2 t H) as [H0 H1]. exists Spec.SHA1.Parity. exact (conj H0 (conj H1 f2_ok)). Qed.
Lemma st3 t : (40 <= t < 60)%nat -> stage f3 (get K 2) t.
Proof. intros H. destruct (fK3 t H) as [H0 H1]. exists Spec.SHA1.Maj. exact (conj H0 (conj H1 f3_ok)). Qed.
Lemma st4 t : (60 <= t)%nat -> stage f4 (get K 3) t.
Proof. intros H. destruct (fK4 t H) as [H0 H1]. exists Spec.SHA1.Parity. exact (conj H0 (conj H1 f4_ok)). Qed.

(** ** Forward steps *)
Lemma fwd1 f k t W a b c d e x : stage f k t -> vok (a, b, c, d, e) ->
  x = add32 e (add32 (add32 (add32 (get W t) (rotl32 a 5)) (f b c d)) k) \/
  x = add32 e (add32 (add32 (add32 (rotl32 a 5) (f b c d)) k) (get W t)) ->
  run W t 1 (a, b, c, d, e) = (x, a, rotl32 b 30, c, d).
Proof.
  intros (g & Ef & Ek & S) (Ha & Hb & Hc & Hd & He) Hx. rewrite run_S, run_0, Ef, Ek. unfold round.
  rewrite (S b c d Hb Hc Hd) in Hx.
  assert (A : forall p q r s u, add32 p (add32 (add32 (add32 q r) s) u) = add32 (add32 (add32 (add32 r s) p) u) q) by (intros; wadd_ac).
  assert (A' : forall p q r s u, add32 p (add32 (add32 (add32 r s) u) q) = add32 (add32 (add32 (add32 r s) p) u) q) by (intros; wadd_ac).
  rewrite A, A' in Hx. destruct Hx as [-> | ->]; reflexivity.
Qed.
Definition rot1 (v : vars) : v5 := let '(p, q, r, s, u) := v in (u, p, q, r, s).

Lemma fwd4 f k t W w a b c d e : stage f k t -> stage f k (t + 1) -> stage f k (t + 2) -> stage f k (t + 3) ->
  vok (a, b, c, d, e) ->
  get w t = get W t -> get w (t + 1) = get W (t + 1) -> get w (t + 2) = get W (t + 2) -> get w (t + 3) = get W (t + 3) ->
  round_step4 f k a b c d e w t = rot1 (run W t 4 (a, b, c, d, e)).
Proof.
  intros S0 S1 S2 S3 V G0 G1 G2 G3.
  replace 4%nat with (1 + (1 + (1 + 1)))%nat by reflexivity.
  rewrite !run_add. unfold round_step4.
  rewrite (fwd1 f k t W a b c d e _ S0 V (or_introl eq_refl)). rewrite <- G0.
  set (e1 := add32 e _). set (b1 := rotl32 b 30).
  assert (V1 : vok (e1, a, b1, c, d)).
  { destruct V as (?&?&?&?&?). unfold vok, e1, b1, add32, rotl32. repeat split; auto with words. }
  rewrite (fwd1 f k (t + 1) W e1 a b1 c d _ S1 V1 (or_introl eq_refl)). rewrite <- G1.
  set (d1 := add32 d _). set (a1 := rotl32 a 30).
  assert (V2 : vok (d1, e1, a1, b1, c)).
  { destruct V1 as (?&?&?&?&?). unfold vok, d1, a1, add32, rotl32. repeat split; auto with words. }
  replace (t + 1 + 1)%nat with (t + 2)%nat by lia.
  rewrite (fwd1 f k (t + 2) W d1 e1 a1 b1 c _ S2 V2 (or_introl eq_refl)). rewrite <- G2.
  set (c1 := add32 c _). set (e2 := rotl32 e1 30).
  assert (V3 : vok (c1, d1, e2, a1, b1)).
  { destruct V2 as (?&?&?&?&?). unfold vok, c1, e2, add32, rotl32. repeat split; auto with words. }
  replace (t + 2 + 1)%nat with (t + 3)%nat by lia.
  rewrite (fwd1 f k (t + 3) W c1 d1 e2 a1 b1 _ S3 V3 (or_introl eq_refl)). rewrite <- G3.
  reflexivity.
Qed.

(** [w] holds the first [t] words of [W] *)
Definition Wok (W : list N) (t : nat) (w : list N) : Prop :=
  length w = 80%nat /\ forall i, (i < t)%nat -> get w i = get W i.
Lemma Wok_set W t w x : Wok W t w -> (t < 80)%nat -> x = get W t -> Wok W (t + 1) (upd w t x).
Proof.
  intros [L G] Ht ->. split; [rewrite upd_length; lia|]. intros i Hi. unfold get at 1.
  destruct (Nat.eq_dec i t) as [->|Ne]; [apply nth_upd_eq; lia|].
  rewrite nth_upd_neq by lia. apply G. lia.
Qed.

(** ** A run from a fixed start, advanced by the model's functions *)
Section Forward.
  Context (W : list N) (v0 : vars) (HV : vok v0).
  Let R (n : nat) : vars := run W 0 n v0.
  Lemma R_step n m : R (n + m) = run W n m (R n).
  Proof using. unfold R. now rewrite run_add. Qed.
  Lemma R_ok n : vok (R n).
  Proof using HV. apply run_ok, HV. Qed.

  Lemma adv4 f k w t a b c d e : stage f k t -> stage f k (t + 1) -> stage f k (t + 2) -> stage f k (t + 3) ->
    Wok W (t + 4) w -> R t = (a, b, c, d, e) -> round_step4 f k a b c d e w t = rot1 (R (t + 4)).
  Proof using HV.
    intros S0 S1 S2 S3 [_ G] E. rewrite R_step, E.
    apply fwd4; auto; try (apply G; lia). rewrite <- E. apply R_ok.
  Qed.
  Lemma adv_step f k t a b c d e : stage f k t -> R t = (a, b, c, d, e) ->
    exists b' e', round_step f k a b c d e (get W t) = (b', e') /\ R (t + 1) = (e', a, b', c, d).
  Proof using HV.
    intros S E. eexists _, _. split; [reflexivity|]. rewrite R_step, E.
    apply (fwd1 f k); [exact S|rewrite <- E; apply R_ok|now right].
  Qed.

  (** Expansion *)
  Hypothesis HW : forall t, (16 <= t < 80)%nat -> get W t =
    rotl32 (N.lxor (N.lxor (N.lxor (get W (t - 3)) (get W (t - 8))) (get W (t - 14))) (get W (t - 16))) 1.
  Lemma mix_ok t w : Wok W t w -> (16 <= t < 80)%nat -> mix w t = get W t.
  Proof using HW v0.
    intros [L G] Ht. unfold mix. rewrite !G by lia. symmetry. now apply HW.
  Qed.
  Lemma Wok_mix t w : Wok W t w -> (16 <= t < 80)%nat -> Wok W (t + 1) (upd w t (mix w t)).
  Proof using HW v0. intros H Ht. apply Wok_set; [exact H|lia|now apply mix_ok]. Qed.
  Lemma Wok_expand4 t w : Wok W t w -> (16 <= t)%nat -> (t + 4 <= 80)%nat -> Wok W (t + 4) (expand4 w t).
  Proof using HW v0.
    intros H H1 H2. unfold expand4. cbv zeta.
    replace (t + 4)%nat with (t + 3 + 1)%nat by lia. apply Wok_mix; [|lia].
    replace (t + 3)%nat with (t + 2 + 1)%nat at 1 by lia. apply Wok_mix; [|lia].
    replace (t + 2)%nat with (t + 1 + 1)%nat at 1 by lia. apply Wok_mix; [|lia].
    apply Wok_mix; [exact H|lia].
  Qed.
  Lemma adv_full f k t w a b c d e : stage f k t -> Wok W t w -> (16 <= t < 80)%nat -> R t = (a, b, c, d, e) ->
    exists b' e' w', full_round_step f k a b c d e w t = (b', e', w') /\ R (t + 1) = (e', a, b', c, d) /\ Wok W (t + 1) w'.
  Proof using HV HW.
    intros S Hw Ht E. eexists _, _, _. split; [reflexivity|]. pose proof (Wok_mix t w Hw Ht) as Hw'. split; [|exact Hw'].
    rewrite R_step, E. apply (fwd1 f k); [exact S|rewrite <- E; apply R_ok|left].
    destruct Hw' as [_ G]. now rewrite G by lia.
  Qed.
End Forward.

(** ** [compression_w] and [compression_states] *)
Definition dm_out (v0 v : vars) : list N :=
  let '(a0, b0, c0, d0, e0) := v0 in let '(a, b, c, d, e) := v in
  [add32 a0 a; add32 b0 b; add32 c0 c; add32 d0 d; add32 e0 e].
Ltac stg := solve [apply st1; lia | apply st2; lia | apply st3; lia | apply st4; lia].
Ltac adv t E E' V G :=
  let t' := eval compute in (t + 4)%nat in
  match goal with |- context [round1_step4 ?a ?b ?c ?d ?e ?w t] => change (round1_step4 a b c d e w t) with (round_step4 f1 (get K 0) a b c d e w t)
    | |- context [round2_step4 ?a ?b ?c ?d ?e ?w t] => change (round2_step4 a b c d e w t) with (round_step4 f2 (get K 1) a b c d e w t)
    | |- context [round3_step4 ?a ?b ?c ?d ?e ?w t] => change (round3_step4 a b c d e w t) with (round_step4 f3 (get K 2) a b c d e w t)
    | |- context [round4_step4 ?a ?b ?c ?d ?e ?w t] => change (round4_step4 a b c d e w t) with (round_step4 f4 (get K 3) a b c d e w t) end;
  match goal with |- context [round_step4 ?f ?k ?a ?b ?c ?d ?e ?w t] =>
    rewrite (adv4 w _ V f k w t a b c d e ltac:(stg) ltac:(stg) ltac:(stg) ltac:(stg) (G _) E) end;
  change (t + 4)%nat with t';
  match type of E with run ?W _ _ ?v = _ => 
  destruct (run W 0 t' v) as ((((?, ?), ?), ?), ?) eqn:E' end;
  cbv beta iota delta [rot1].
Lemma compression_w_spec v W : vok v -> length W = 80%nat ->
  compression_w (list_of_vars v) W = dm_out v (run W 0 80 v).
Proof.
  intros V L. destruct v as ((((a0, b0), c0), d0), e0). unfold compression_w, list_of_vars.
  set (v0 := (a0, b0, c0, d0, e0)) in *.
  assert (E0 : run W 0 0 v0 = (a0, b0, c0, d0, e0)) by reflexivity.
  assert (G : forall t, Wok W t W) by (intros; split; auto).
  cbv beta iota zeta delta [get nth].
  adv 0%nat E0 E4 V G.
  adv 4%nat E4 E8 V G.
  adv 8%nat E8 E12 V G.
  adv 12%nat E12 E16 V G.
  adv 16%nat E16 E20 V G.
  adv 20%nat E20 E24 V G.
  adv 24%nat E24 E28 V G.
  adv 28%nat E28 E32 V G.
  adv 32%nat E32 E36 V G.
  adv 36%nat E36 E40 V G.
  adv 40%nat E40 E44 V G.
  adv 44%nat E44 E48 V G.
  adv 48%nat E48 E52 V G.
  adv 52%nat E52 E56 V G.
  adv 56%nat E56 E60 V G.
  adv 60%nat E60 E64 V G.
  adv 64%nat E64 E68 V G.
  adv 68%nat E68 E72 V G.
  adv 72%nat E72 E76 V G.
  adv 76%nat E76 E80 V G.
  reflexivity.
Qed.

Section States.
  Context (M : list N) (LM : length M = 16%nat) (v0 : vars) (HV : vok v0).
  Let W := Spec.SHA1.schedule M.
  Let HW : forall t, (16 <= t < 80)%nat -> get W t =
    rotl32 (N.lxor (N.lxor (N.lxor (get W (t - 3)) (get W (t - 8))) (get W (t - 14))) (get W (t - 16))) 1.
  Proof using LM. exact (Proof.Sha1.sched_new M LM). Qed.
  Lemma schedule_length : length W = 80%nat.
  Proof using LM. unfold W, Spec.SHA1.schedule. rewrite Proof.Sha1.extend_g, gextend_length, LM. reflexivity. Qed.

  Lemma load_ok w t : Wok W t w -> (t + 4 <= 16)%nat ->
    Wok W (t + 4) (upd (upd (upd (upd w t (get M t)) (t + 1) (get M (t + 1))) (t + 2) (get M (t + 2))) (t + 3) (get M (t + 3))).
  Proof using LM.
    intros H Ht. assert (G : forall i, (i < 16)%nat -> get M i = get W i) by (intros; symmetry; now apply Proof.Sha1.sched_old).
    replace (t + 4)%nat with (t + 3 + 1)%nat by lia. apply Wok_set; [|lia|apply G; lia].
    replace (t + 3)%nat with (t + 2 + 1)%nat at 1 by lia. apply Wok_set; [|lia|apply G; lia].
    replace (t + 2)%nat with (t + 1 + 1)%nat at 1 by lia. apply Wok_set; [|lia|apply G; lia].
    apply Wok_set; [exact H|lia|apply G; lia].
  Qed.
  Lemma adv_load t w a b c d e : Wok W t w -> (t + 4 <= 16)%nat -> run W 0 t v0 = (a, b, c, d, e) ->
    exists w', full_round1_step_load4 a b c d e M w t = (rot1 (run W 0 (t + 4) v0), w') /\ Wok W (t + 4) w'.
  Proof using LM HV.
    intros H Ht E. eexists. unfold full_round1_step_load4. cbv zeta. pose proof (load_ok w t H Ht) as H'.
    split; [|exact H']. apply (f_equal (fun x => (x, _))).
    apply (adv4 W v0 HV f1 (get K 0)); auto; stg.
  Qed.
  Lemma adv_expand (F : N -> N -> N -> N -> N -> list N -> nat -> v5 * list N) f k t w a b c d e :
    (forall a b c d e w t, F a b c d e w t = let w := expand4 w t in (round_step4 f k a b c d e w t, w)) ->
    Wok W t w -> (16 <= t)%nat -> (t + 4 <= 80)%nat ->
    stage f k t -> stage f k (t + 1) -> stage f k (t + 2) -> stage f k (t + 3) -> run W 0 t v0 = (a, b, c, d, e) ->
    exists w', F a b c d e w t = (rot1 (run W 0 (t + 4) v0), w') /\ Wok W (t + 4) w'.
  Proof using LM HV.
    intros HF H Ht Ht' S0 S1 S2 S3 E. rewrite HF. eexists. cbv zeta.
    pose proof (Wok_expand4 W v0 HW t w H Ht Ht') as H'. split; [|exact H'].
    apply (f_equal (fun x => (x, _))). now apply (adv4 W v0 HV f k).
  Qed.

  Ltac nm t' E' :=
    match goal with |- context [run ?W 0 t' ?v] => destruct (run W 0 t' v) as ((((?, ?), ?), ?), ?) eqn:E' end;
    cbv beta iota delta [rot1].
  Ltac ld t E G :=
    let t' := eval compute in (t + 4)%nat in
    let w' := fresh "w" in let Q := fresh in
    destruct (adv_load t _ _ _ _ _ _ G ltac:(lia) E) as (w' & Q & G');
    rewrite Q; clear Q; change (t + 4)%nat with t' in *; clear G; rename G' into G.
  Ltac ex F f k t E G :=
    let t' := eval compute in (t + 4)%nat in
    let w' := fresh "w" in let Q := fresh in
    destruct (adv_expand F f k t _ _ _ _ _ _ ltac:(reflexivity) G ltac:(lia) ltac:(lia)
                ltac:(stg) ltac:(stg) ltac:(stg) ltac:(stg) E) as (w' & Q & G');
    rewrite Q; clear Q; change (t + 4)%nat with t' in *; clear G; rename G' into G.
  Ltac one F f k t E E' G :=
    let t' := eval compute in (t + 1)%nat in
    let w' := fresh "w" in let b' := fresh "b" in let e' := fresh "e" in let Q := fresh in
    destruct (adv_full W v0 HV HW f k t _ _ _ _ _ _ ltac:(stg) G ltac:(lia) E) as (b' & e' & w' & Q & E' & G');
    change (full_round_step f k) with F in Q; rewrite Q; clear Q; change (t + 1)%nat with t' in *; clear G; rename G' into G;
    cbv beta iota.

  Definition pos58 (v : vars) : list N := let '(p, q, r, s, u) := v in [s; u; p; q; r].
  Lemma compression_states_spec w : length w = 80%nat ->
    compression_states (list_of_vars v0) M w =
    (dm_out v0 (run W 0 80 v0), W, pos58 (run W 0 58 v0), list_of_vars (run W 0 65 v0)).
  Proof using LM HV.
    intros L. assert (G : Wok W 0 w) by (split; [exact L|lia]).
    destruct v0 as ((((a0, b0), c0), d0), e0) eqn:Ev.
    unfold compression_states. cbv beta iota zeta delta [get nth list_of_vars]. rewrite <- Ev in *.
    assert (E0 : run W 0 0 v0 = (a0, b0, c0, d0, e0)) by exact Ev.
    ld 0%nat E0 G. nm 4%nat E4.
    ld 4%nat E4 G. nm 8%nat E8.
    ld 8%nat E8 G. nm 12%nat E12.
    ld 12%nat E12 G. nm 16%nat E16.
    ex full_round1_step_expand4 f1 (get K 0) 16%nat E16 G. nm 20%nat E20.
    ex full_round2_step4 f2 (get K 1) 20%nat E20 G. nm 24%nat E24.
    ex full_round2_step4 f2 (get K 1) 24%nat E24 G. nm 28%nat E28.
    ex full_round2_step4 f2 (get K 1) 28%nat E28 G. nm 32%nat E32.
    ex full_round2_step4 f2 (get K 1) 32%nat E32 G. nm 36%nat E36.
    ex full_round2_step4 f2 (get K 1) 36%nat E36 G. nm 40%nat E40.
    ex full_round3_step4 f3 (get K 2) 40%nat E40 G. nm 44%nat E44.
    ex full_round3_step4 f3 (get K 2) 44%nat E44 G. nm 48%nat E48.
    ex full_round3_step4 f3 (get K 2) 48%nat E48 G. nm 52%nat E52.
    ex full_round3_step4 f3 (get K 2) 52%nat E52 G. nm 56%nat E56.
    one full_round3_step f3 (get K 2) 56%nat E56 E57 G.
    one full_round3_step f3 (get K 2) 57%nat E57 E58 G.
    one full_round3_step f3 (get K 2) 58%nat E58 E59 G.
    one full_round3_step f3 (get K 2) 59%nat E59 E60 G.
    ex full_round4_step4 f4 (get K 3) 60%nat E60 G. nm 64%nat E64.
    one full_round4_step f4 (get K 3) 64%nat E64 E65 G.
    one full_round4_step f4 (get K 3) 65%nat E65 E66 G.
    one full_round4_step f4 (get K 3) 66%nat E66 E67 G.
    one full_round4_step f4 (get K 3) 67%nat E67 E68 G.
    ex full_round4_step4 f4 (get K 3) 68%nat E68 G. nm 72%nat E72.
    ex full_round4_step4 f4 (get K 3) 72%nat E72 G. nm 76%nat E76.
    ex full_round4_step4 f4 (get K 3) 76%nat E76 G. nm 80%nat E80.
    match type of G with Wok _ _ ?w' => assert (EW : w' = W) end.
    { destruct G as [Lw G]. apply list_eq_get; [rewrite Lw; symmetry; exact schedule_length|].
      intros i Hi. apply G. lia. }
    rewrite EW. rewrite E58, E65. rewrite Ev. reflexivity.
  Qed.
End States.

(** ** Backward steps *)
Lemma round_inj v v' f k w : vok v -> vok v' -> round v f k w = round v' f k w -> v = v'.
Proof.
  destruct v as ((((a, b), c), d), e), v' as ((((a', b'), c'), d'), e').
  intros (Ha & Hb & Hc & Hd & He) (Ha' & Hb' & Hc' & Hd' & He') E. unfold round in E.
  apply (f_equal (fun '(x0, x1, x2, x3, x4) => (x0, (x1, (x2, (x3, x4)))))) in E.
  apply pair_equal_spec in E as [E0 E]. apply pair_equal_spec in E as [<- E].
  apply pair_equal_spec in E as [E2 E]. apply pair_equal_spec in E as [<- <-].
  assert (B : b = b').
  { unfold rotl32 in E2. rewrite <- (rotr_rotl_cancel 32 b 30), <- (rotr_rotl_cancel 32 b' 30) by (assumption || reflexivity).
    now rewrite E2. }
  subst b'. set (x := add32 (rotl32 a 5) (f b c d)) in *.
  assert (A : forall e, add32 (add32 (add32 x e) k) w = wadd 32 e (wadd 32 (wadd 32 x k) w)) by (intros; wadd_ac).
  rewrite !A in E0. apply (f_equal (fun y => wsub 32 y (wadd 32 (wadd 32 x k) w))) in E0.
  rewrite !wsub_wadd in E0 by assumption. now rewrite E0.
Qed.
Lemma run_inj W n : forall t v v', vok v -> vok v' -> run W t n v = run W t n v' -> v = v'.
Proof.
  induction n as [|n IH]; intros t v v' V V' E; [exact E|].
  rewrite !run_S in E. apply IH in E; [|now apply Proof.Sha1.round_ok|now apply Proof.Sha1.round_ok].
  now apply round_inj in E.
Qed.

Section Backward.
  Context (W : list N) (S : vars) (T : nat).
  (** [v] is a state from which steps [t ..] lead to [S] *)
  Definition to_S (t : nat) (v : vars) : Prop := exists n, (t + n = T)%nat /\ run W t n v = S /\ vok v.
  Lemma bw1 f k t a b c d e : stage f k t -> to_S (t + 1) (e, a, b, c, d) ->
    exists b' e', round_step_bw f k a b c d e (get W t) = (b', e') /\ to_S t (a, b', c, d, e').
  Proof using.
    intros St (n & Hn & E & (He & Ha & Hb & Hc & Hd)). eexists _, _. split; [reflexivity|].
    set (b' := rotr32 b 30). set (x := add32 _ (get W t)).
    assert (Hb' : b' < 2 ^ 32) by (unfold b', rotr32; rewrite rotr_rotl by discriminate; now apply rotl_lt).
    assert (V : vok (a, b', c, d, sub32 e x)) by (repeat split; auto; apply wsub_lt).
    exists (1 + n)%nat. split; [lia|]. split; [|exact V].
    rewrite run_add. rewrite (fwd1 f k t W a b' c d (sub32 e x) e St V).
    - unfold b', rotl32, rotr32. now rewrite rotl_rotr_cancel by (assumption || reflexivity).
    - right. symmetry. apply (wadd_wsub 32). exact He.
  Qed.
  Lemma bw4 bw f k t a b c d e : bw = round_step_bw f k -> (3 <= t)%nat ->
    stage f k t -> stage f k (t - 1) -> stage f k (t - 2) -> stage f k (t - 3) ->
    to_S (t + 1) (e, a, b, c, d) ->
    exists a' b' c' d' e', step_bw4 bw a b c d e W t = (a', b', c', d', e') /\ to_S (t - 3) (d', e', a', b', c').
  Proof using.
    intros -> Ht S0 S1 S2 S3 H. unfold step_bw4.
    destruct (bw1 f k t a b c d e S0 H) as (b1 & e1 & -> & H1).
    replace t with (t - 1 + 1)%nat in H1 at 1 by lia.
    destruct (bw1 f k (t - 1) b1 c d e1 a S1 H1) as (c1 & a1 & -> & H2).
    replace (t - 1)%nat with (t - 2 + 1)%nat in H2 by lia.
    destruct (bw1 f k (t - 2) c1 d e1 a1 b1 S2 H2) as (d1 & b2 & -> & H3).
    replace (t - 2)%nat with (t - 3 + 1)%nat in H3 by lia.
    destruct (bw1 f k (t - 3) d1 e1 a1 b2 c1 S3 H3) as (e2 & c2 & -> & H4).
    do 5 eexists. split; [reflexivity|exact H4].
  Qed.
End Backward.

Ltac bwone F f k t H H' :=
  let b' := fresh "x" in let e' := fresh "y" in let Q := fresh in
  destruct (bw1 _ _ _ f k t _ _ _ _ _ ltac:(stg) H) as (b' & e' & Q & H');
  change (round_step_bw f k) with F in Q; rewrite Q; clear Q; cbv beta iota.
Ltac bwfour F bw f k t H H' :=
  let t' := eval compute in (t - 3)%nat in
  let Q := fresh in
  destruct (bw4 _ _ _ bw f k t _ _ _ _ _ eq_refl ltac:(lia) ltac:(stg) ltac:(stg) ltac:(stg) ltac:(stg) H)
    as (? & ? & ? & ? & ? & Q & H');
  change (step_bw4 bw) with F in Q; rewrite Q; clear Q; cbv beta iota; change (t - 3)%nat with t' in H'.
Ltac fw1 F f k t E E' V :=
  let t' := eval compute in (t + 1)%nat in
  let b' := fresh "b" in let e' := fresh "e" in let Q := fresh in
  destruct (adv_step _ _ V f k t _ _ _ _ _ ltac:(stg) E) as (b' & e' & Q & E');
  change (round_step f k) with F in Q; rewrite Q; clear Q; cbv beta iota; change (t + 1)%nat with t' in E'.

Lemma recompress_58_spec W S : vok S -> length W = 80%nat ->
  exists H, vok H /\ run W 0 58 H = S /\
    recompress_fast_58 W (pos58 S) = (list_of_vars H, dm_out H (run W 0 80 H)).
Proof.
  intros VS L. destruct S as ((((c0, d0), e0), a0), b0) eqn:ES.
  assert (B58 : to_S W (c0, d0, e0, a0, b0) 58 58 (c0, d0, e0, a0, b0)).
  { exists 0%nat. repeat split; auto; apply VS. }
  unfold recompress_fast_58, pos58. 
  change (get [a0; b0; c0; d0; e0] 0) with a0.
  change (get [a0; b0; c0; d0; e0] 1) with b0.
  change (get [a0; b0; c0; d0; e0] 2) with c0.
  change (get [a0; b0; c0; d0; e0] 3) with d0.
  change (get [a0; b0; c0; d0; e0] 4) with e0.
  cbv beta iota zeta.
  bwone round3_step_bw f3 (get K 2) 57%nat B58 B57.
  bwone round3_step_bw f3 (get K 2) 56%nat B57 B56.
  bwfour round3_step_bw4 round3_step_bw f3 (get K 2) 55%nat B56 B52.
  bwfour round3_step_bw4 round3_step_bw f3 (get K 2) 51%nat B52 B48.
  bwfour round3_step_bw4 round3_step_bw f3 (get K 2) 47%nat B48 B44.
  bwfour round3_step_bw4 round3_step_bw f3 (get K 2) 43%nat B44 B40.
  bwfour round2_step_bw4 round2_step_bw f2 (get K 1) 39%nat B40 B36.
  bwfour round2_step_bw4 round2_step_bw f2 (get K 1) 35%nat B36 B32.
  bwfour round2_step_bw4 round2_step_bw f2 (get K 1) 31%nat B32 B28.
  bwfour round2_step_bw4 round2_step_bw f2 (get K 1) 27%nat B28 B24.
  bwfour round2_step_bw4 round2_step_bw f2 (get K 1) 23%nat B24 B20.
  bwfour round1_step_bw4 round1_step_bw f1 (get K 0) 19%nat B20 B16.
  bwfour round1_step_bw4 round1_step_bw f1 (get K 0) 15%nat B16 B12.
  bwfour round1_step_bw4 round1_step_bw f1 (get K 0) 11%nat B12 B8.
  bwfour round1_step_bw4 round1_step_bw f1 (get K 0) 7%nat B8 B4.
  bwfour round1_step_bw4 round1_step_bw f1 (get K 0) 3%nat B4 B0.
  match type of B0 with to_S _ _ _ _ ?v => set (H := v) in * end.
  destruct B0 as (n & Hn & EH & VH). replace n with 58%nat in EH by lia. clear n Hn.
  exists H. split; [exact VH|]. split; [exact EH|].
  clear B58 B57 B56 B52 B48 B44 B40 B36 B32 B28 B24 B20 B16 B12 B8 B4.
  assert (G : forall t, Wok W t W) by (intros; split; auto).
  pose proof EH as E58.
  fw1 round3_step f3 (get K 2) 58%nat E58 E59 VH.
  fw1 round3_step f3 (get K 2) 59%nat E59 E60 VH.
  adv 60%nat E60 E64 VH G.
  adv 64%nat E64 E68 VH G.
  adv 68%nat E68 E72 VH G.
  adv 72%nat E72 E76 VH G.
  adv 76%nat E76 E80 VH G.
  reflexivity.
Qed.
Lemma recompress_65_spec W S : vok S -> length W = 80%nat ->
  exists H, vok H /\ run W 0 65 H = S /\
    recompress_fast_65 W (list_of_vars S) = (list_of_vars H, dm_out H (run W 0 80 H)).
Proof.
  intros VS L. destruct S as ((((a0, b0), c0), d0), e0) eqn:ES.
  assert (B65 : to_S W (a0, b0, c0, d0, e0) 65 65 (a0, b0, c0, d0, e0)).
  { exists 0%nat. repeat split; auto; apply VS. }
  unfold recompress_fast_65, list_of_vars. 
  change (get [a0; b0; c0; d0; e0] 0) with a0.
  change (get [a0; b0; c0; d0; e0] 1) with b0.
  change (get [a0; b0; c0; d0; e0] 2) with c0.
  change (get [a0; b0; c0; d0; e0] 3) with d0.
  change (get [a0; b0; c0; d0; e0] 4) with e0.
  cbv beta iota zeta.
  bwone round4_step_bw f4 (get K 3) 64%nat B65 B64.
  bwfour round4_step_bw4 round4_step_bw f4 (get K 3) 63%nat B64 B60.
  bwfour round3_step_bw4 round3_step_bw f3 (get K 2) 59%nat B60 B56.
  bwfour round3_step_bw4 round3_step_bw f3 (get K 2) 55%nat B56 B52.
  bwfour round3_step_bw4 round3_step_bw f3 (get K 2) 51%nat B52 B48.
  bwfour round3_step_bw4 round3_step_bw f3 (get K 2) 47%nat B48 B44.
  bwfour round3_step_bw4 round3_step_bw f3 (get K 2) 43%nat B44 B40.
  bwfour round2_step_bw4 round2_step_bw f2 (get K 1) 39%nat B40 B36.
  bwfour round2_step_bw4 round2_step_bw f2 (get K 1) 35%nat B36 B32.
  bwfour round2_step_bw4 round2_step_bw f2 (get K 1) 31%nat B32 B28.
  bwfour round2_step_bw4 round2_step_bw f2 (get K 1) 27%nat B28 B24.
  bwfour round2_step_bw4 round2_step_bw f2 (get K 1) 23%nat B24 B20.
  bwfour round1_step_bw4 round1_step_bw f1 (get K 0) 19%nat B20 B16.
  bwfour round1_step_bw4 round1_step_bw f1 (get K 0) 15%nat B16 B12.
  bwfour round1_step_bw4 round1_step_bw f1 (get K 0) 11%nat B12 B8.
  bwfour round1_step_bw4 round1_step_bw f1 (get K 0) 7%nat B8 B4.
  bwfour round1_step_bw4 round1_step_bw f1 (get K 0) 3%nat B4 B0.
  match type of B0 with to_S _ _ _ _ ?v => set (H := v) in * end.
  destruct B0 as (n & Hn & EH & VH). replace n with 65%nat in EH by lia. clear n Hn.
  exists H. split; [exact VH|]. split; [exact EH|].
  clear B65 B64 B60 B56 B52 B48 B44 B40 B36 B32 B28 B24 B20 B16 B12 B8 B4.
  assert (G : forall t, Wok W t W) by (intros; split; auto).
  pose proof EH as E65.
  fw1 round4_step f4 (get K 3) 65%nat E65 E66 VH.
  fw1 round4_step f4 (get K 3) 66%nat E66 E67 VH.
  fw1 round4_step f4 (get K 3) 67%nat E67 E68 VH.
  adv 68%nat E68 E72 VH G.
  adv 72%nat E72 E76 VH G.
  adv 76%nat E76 E80 VH G.
  reflexivity.
Qed.

(** ** The partner block of a disturbance vector *)
Lemma rotl32_lxor x y : x < 2 ^ 32 -> y < 2 ^ 32 -> rotl32 (N.lxor x y) 1 = N.lxor (rotl32 x 1) (rotl32 y 1).
Proof.
  intros Hx Hy. apply (word_ext 32); try (apply rotl_lt || apply lxor_lt; try apply rotl_lt; auto using lxor_lt).
  intros i Hi. unfold rotl32. rewrite N.lxor_spec, !testbit_rotl by (auto using lxor_lt; reflexivity || discriminate).
  apply N.lxor_spec.
Qed.
Lemma get_xor a b i : length a = length b -> (i < length a)%nat -> get (xor_bytes a b) i = N.lxor (get a i) (get b i).
Proof.
  revert b i. induction a as [|x a IH]; intros [|y b] i L H; try discriminate; [cbn in H; lia|].
  destruct i as [|i]; [reflexivity|]. apply (IH b i); [now injection L|cbn in H; lia].
Qed.
Lemma schedule_lt M t : length M = 16%nat -> words_ok 32 M -> get (Spec.SHA1.schedule M) t < 2 ^ 32.
Proof.
  intros L HM. induction t as [t IH] using lt_wf_ind.
  destruct (Nat.lt_ge_cases t 16) as [H|H].
  - rewrite Proof.Sha1.sched_old by assumption. apply get_ok; [exact HM|reflexivity].
  - destruct (Nat.lt_ge_cases t 80) as [H'|H'].
    + rewrite Proof.Sha1.sched_new by (assumption || lia). cbv zeta. apply rotl_lt.
      repeat apply lxor_lt; apply IH; lia.
    + unfold get. rewrite nth_overflow; [now apply oob_lt|].
      unfold Spec.SHA1.schedule. rewrite Proof.Sha1.extend_g, gextend_length, L. lia.
Qed.
Lemma lt_words_ok w l : (forall i, get l i < 2 ^ w) -> words_ok w l.
Proof.
  intros H. apply Forall_forall. intros x Hx. destruct (In_nth _ _ oob Hx) as (i & _ & <-). exact (H i).
Qed.
Lemma schedule_ok M : length M = 16%nat -> words_ok 32 M -> words_ok 32 (Spec.SHA1.schedule M).
Proof. intros L HM. apply lt_words_ok. intros i. now apply schedule_lt. Qed.

(** Differences that follow the message recurrence *)
Definition linear (dm : list N) : bool :=
  (length dm =? 80)%nat && forallb (fun x => x <? 2 ^ 32) dm &&
  forallb (fun t => get dm t =? rotl32 (N.lxor (N.lxor (N.lxor (get dm (t - 3)) (get dm (t - 8))) (get dm (t - 14))) (get dm (t - 16))) 1)
    (seq 16 64).
Lemma linear_spec dm : linear dm = true -> length dm = 80%nat /\ words_ok 32 dm /\
  forall t, (16 <= t < 80)%nat -> get dm t =
    rotl32 (N.lxor (N.lxor (N.lxor (get dm (t - 3)) (get dm (t - 8))) (get dm (t - 14))) (get dm (t - 16))) 1.
Proof.
  unfold linear. rewrite !andb_true_iff, !forallb_forall, Nat.eqb_eq. intros [[L B] R]. split; [exact L|]. split.
  - apply Forall_forall. intros x Hx. apply N.ltb_lt, B, Hx.
  - intros t Ht. apply N.eqb_eq, R, in_seq. lia.
Qed.
Lemma DVS_linear : forallb (fun d => linear (i_dm d)) SHA1_DVS = true.
Proof. vm_compute. reflexivity. Qed.
Lemma DVS_nonzero : forallb (fun d => negb (forallb (fun x => x =? 0) (firstn 16 (i_dm d)))) SHA1_DVS = true.
Proof. vm_compute. reflexivity. Qed.
(** The table of the crate holds the disturbance vectors it should. *)
Definition t_num (t : testt) : nat := match t with T58 => 58 | T65 => 65 end.
Lemma DVS_table : map (fun d => (t_num (i_testt d), i_dm d)) SHA1_DVS = map Spec.SHA1C.dv_of (seq 0 32).
Proof. vm_compute. reflexivity. Qed.
Lemma DVS_maskb : map i_maskb SHA1_DVS = map N.of_nat (seq 0 32).
Proof. vm_compute. reflexivity. Qed.

Lemma xor_words_ok n a b : words_ok 32 a -> words_ok 32 b -> words_ok 32 (firstn n (xor_bytes a b)).
Proof.
  intros Ha. revert n b. induction Ha as [|x a Hx Ha IH]; intros n b Hb; [destruct n; constructor|].
  destruct Hb as [|y b Hy Hb]; [destruct n; constructor|]. destruct n as [|n]; [constructor|].
  constructor; [now apply lxor_lt|]. now apply IH.
Qed.
Lemma words_of_to_be ws : words_ok 32 ws -> Spec.SHA1C.words_of (words_to_be 4 ws) = ws.
Proof.
  intros O. unfold Spec.SHA1C.words_of, words_to_be. rewrite chunks_concat.
  - rewrite map_map. rewrite <- (map_id ws) at 2. apply map_ext_in. intros x Hx.
    rewrite be_val_bytes. apply N.mod_small. unfold words_ok in O. rewrite Forall_forall in O. exact (O x Hx).
  - lia.
  - apply Forall_forall. intros x Hx. apply in_map_iff in Hx as (y & <- & _). apply be_bytes_length.
Qed.
Section Partner.
  Context (M dm : list N) (LM : length M = 16%nat) (HM : words_ok 32 M) (LD : linear dm = true).
  Let W := Spec.SHA1.schedule M.
  Let M2 := firstn 16 (xor_bytes W dm).
  Lemma M2_length : length M2 = 16%nat.
  Proof using LM LD.
    apply linear_spec in LD as (L & _ & _). unfold M2. rewrite firstn_length, xor_bytes_length, L.
    unfold W. rewrite schedule_length by exact LM. reflexivity.
  Qed.
  Lemma xor_schedule : Spec.SHA1.schedule M2 = xor_bytes W dm.
  Proof using LM HM LD.
    pose proof (linear_spec dm LD) as (L & B & R). pose proof M2_length as L2.
    pose proof (schedule_length M LM) as LW. fold W in LW.
    apply list_eq_get; [rewrite schedule_length, xor_bytes_length by exact L2; rewrite L, LW; reflexivity|].
    rewrite schedule_length by exact L2.
    assert (BW : forall t, get W t < 2 ^ 32) by (intros; now apply schedule_lt).
    assert (BD : forall t, get dm t < 2 ^ 32) by (intros; now apply get_ok).
    intros t. induction t as [t IH] using lt_wf_ind. intros Ht.
    destruct (Nat.lt_ge_cases t 16) as [H|H].
    - rewrite Proof.Sha1.sched_old by assumption. unfold M2, get. now rewrite Proof.Fsb.nth_firstn by lia.
    - rewrite Proof.Sha1.sched_new by (assumption || lia). cbv zeta.
      rewrite !IH by lia. rewrite !get_xor by lia.
      assert (EW := Proof.Sha1.sched_new M LM t (conj H Ht)). fold W in EW. cbv zeta in EW. rewrite EW, (R t (conj H Ht)).
      rewrite <- rotl32_lxor by (repeat apply lxor_lt; auto). f_equal.
      apply N.bits_inj; intros i. rewrite ?N.lxor_spec.
      repeat match goal with |- context [N.testbit ?x i] => destruct (N.testbit x i) end; reflexivity.
  Qed.
  Lemma M2_ok : words_ok 32 M2.
  Proof using LM HM LD.
    pose proof (linear_spec dm LD) as (L & B & _).
    apply xor_words_ok; [|exact B]. exact (schedule_ok M LM HM).
  Qed.
  Definition block2 : bytes := words_to_be 4 M2.
  Lemma block2_length : length block2 = 64%nat.
  Proof using LM LD. unfold block2. rewrite words_to_be_length, M2_length. reflexivity. Qed.
  Lemma block2_ok : bytes_ok block2.
  Proof using. apply words_to_be_ok. Qed.
  Lemma block2_words : Spec.SHA1C.words_of block2 = M2.
  Proof using LM HM LD. exact (words_of_to_be M2 M2_ok). Qed.
End Partner.

Lemma words_of_ok block : length block = 64%nat -> bytes_ok block ->
  length (Spec.SHA1C.words_of block) = 16%nat /\ words_ok 32 (Spec.SHA1C.words_of block).
Proof.
  intros L B. unfold Spec.SHA1C.words_of. split; [rewrite map_length, chunks_length, L by lia; reflexivity|].
  apply Forall_forall. intros x Hx. apply in_map_iff in Hx as (c & <- & Hc).
  pose proof (chunks_block_length 4 block ltac:(lia)) as Lc. pose proof (chunks_ok 4 block ltac:(lia) B) as Oc.
  rewrite Forall_forall in Lc, Oc. pose proof (be_val_lt c (Oc c Hc)) as Hlt. rewrite (Lc c Hc) in Hlt. exact Hlt.
Qed.
Lemma dm_out_compress v block : list_of_vars (Spec.SHA1.compress v block) =
  dm_out v (run (Spec.SHA1.schedule (Spec.SHA1C.words_of block)) 0 80 v).
Proof.
  unfold Spec.SHA1.compress. change (map be_val (chunks 4 block)) with (Spec.SHA1C.words_of block). cbv zeta.
  change (Spec.SHA1.rounds (Spec.SHA1.schedule (Spec.SHA1C.words_of block)) v)
    with (run (Spec.SHA1.schedule (Spec.SHA1C.words_of block)) 0 80 v).
  destruct v as ((((a0, b0), c0), d0), e0). destruct (run _ 0 80 _) as ((((a, b), c), d), e).
  unfold list_of_vars, dm_out, add32.
  now rewrite (wadd_comm 32 a0), (wadd_comm 32 b0), (wadd_comm 32 c0), (wadd_comm 32 d0), (wadd_comm 32 e0).
Qed.
Lemma list_of_vars_inj v v' : list_of_vars v = list_of_vars v' -> v = v'.
Proof.
  destruct v as ((((a, b), c), d), e), v' as ((((a', b'), c'), d'), e'). unfold list_of_vars. intros E.
  injection E as -> -> -> -> ->. reflexivity.
Qed.
Lemma xor_zero v v' : (0 =? xor (list_of_vars v) (list_of_vars v')) = true <-> v = v'.
Proof.
  rewrite N.eqb_eq. unfold xor.
  destruct v as ((((a, b), c), d), e), v' as ((((a', b'), c'), d'), e').
  cbv beta iota delta [list_of_vars get nth]. split.
  - intros E. symmetry in E. apply N.lor_eq_0_iff in E as [E E4]. apply N.lor_eq_0_iff in E as [E E3].
    apply N.lor_eq_0_iff in E as [E E2]. apply N.lor_eq_0_iff in E as [E0 E1].
    apply N.lxor_eq in E0, E1, E2, E3, E4. now subst.
  - intros E. injection E as -> -> -> -> ->. rewrite !N.lxor_nilpotent. reflexivity.
Qed.

(** What one iteration of the loop over the vectors decides *)
Definition dv_found (reduced : bool) (ihv1 m1 s58 s65 state : list N) (dv : info) : bool :=
  let '(ihv2, ihvtmp) := recompression_step (i_testt dv) (xor_bytes m1 (i_dm dv))
    (match i_testt dv with T58 => s58 | T65 => s65 end) in
  (0 =? xor ihvtmp state) || (reduced && (0 =? xor ihv1 ihv2)).
Lemma dv_found_spec reduced v block dv i : vok v -> length block = 64%nat -> bytes_ok block ->
  linear (i_dm dv) = true -> Spec.SHA1C.dv_of i = (t_num (i_testt dv), i_dm dv) ->
  let W := Spec.SHA1.schedule (Spec.SHA1C.words_of block) in
  dv_found reduced (list_of_vars v) W (pos58 (run W 0 58 v)) (list_of_vars (run W 0 65 v))
    (dm_out v (run W 0 80 v)) dv = true <->
  exists H2 block2, Spec.SHA1C.partner (Spec.SHA1C.dv_of i) v block H2 block2 /\
    (Spec.SHA1.compress H2 block2 = Spec.SHA1.compress v block \/ (reduced = true /\ H2 = v)).
Proof.
  intros V L B LD Ei W. rewrite Ei. unfold dv_found.
  destruct (words_of_ok block L B) as [LM HM]. set (M := Spec.SHA1C.words_of block) in *.
  set (W2 := xor_bytes W (i_dm dv)).
  pose proof (linear_spec _ LD) as (Ldm & _ & _). pose proof (schedule_length M LM) as LW. fold W in LW.
  assert (LW2 : length W2 = 80%nat) by (unfold W2; rewrite xor_bytes_length; lia).
  assert (Q : exists H, vok H /\ run W2 0 (t_num (i_testt dv)) H = run W 0 (t_num (i_testt dv)) v /\
    recompression_step (i_testt dv) W2 (match i_testt dv with T58 => pos58 (run W 0 58 v) | T65 => list_of_vars (run W 0 65 v) end)
    = (list_of_vars H, dm_out H (run W2 0 80 H))).
  { destruct (i_testt dv); cbn [t_num recompression_step].
    - apply recompress_58_spec; [now apply run_ok|exact LW2].
    - apply recompress_65_spec; [now apply run_ok|exact LW2]. }
  destruct Q as (H & VH & RH & ->).
  set (bl2 := block2 M (i_dm dv)).
  assert (S2 : Spec.SHA1.schedule (Spec.SHA1C.words_of bl2) = W2).
  { unfold bl2. rewrite block2_words by assumption. now apply xor_schedule. }
  assert (D1 : dm_out v (run W 0 80 v) = list_of_vars (Spec.SHA1.compress v block)) by (symmetry; apply dm_out_compress).
  rewrite D1.
  assert (D2 : forall b, Spec.SHA1.schedule (Spec.SHA1C.words_of b) = W2 ->
    dm_out H (run W2 0 80 H) = list_of_vars (Spec.SHA1.compress H b)).
  { intros b Hb. rewrite dm_out_compress, Hb. reflexivity. }
  rewrite orb_true_iff, andb_true_iff. split.
  - intros X. exists H, bl2. split.
    + unfold Spec.SHA1C.partner. fold M W. rewrite S2. cbn [fst snd].
      refine (conj VH (conj _ (conj _ (conj eq_refl RH)))).
      * unfold bl2. now apply block2_length.
      * apply block2_ok.
    + rewrite (D2 bl2 S2) in X. destruct X as [X|[X1 X2]].
      * left. now apply xor_zero.
      * right. split; [exact X1|]. symmetry. now apply xor_zero.
  - intros (H2 & b2 & (VH2 & Lb2 & Bb2 & SW & SR) & X). cbn [fst snd] in SW, SR. fold M W W2 in SW, SR.
    assert (EH : H = H2).
    { apply (run_inj W2 (t_num (i_testt dv)) 0); [exact VH|exact VH2|]. rewrite RH. symmetry. rewrite <- SW at 1. exact SR. }
    subst H2. rewrite (D2 b2 SW). destruct X as [X|[X1 X2]].
    + left. now apply xor_zero.
    + right. split; [exact X1|]. now apply xor_zero.
Qed.

(** ** The loop over the vectors *)
Definition dv_hit (mask : N) (ctx : DetectionState) (state : list N) (dv : info) : bool :=
  negb (N.land mask (wshl 32 1 (i_maskb dv)) =? 0)
  && dv_found (reduced_round_collision ctx) (ihv1 ctx) (m1 ctx) (state_58 ctx) (state_65 ctx) state dv.
Definition cfg (ctx : DetectionState) : bool * bool * bool :=
  (safe_hash ctx, use_ubc ctx, reduced_round_collision ctx).
Lemma dv_loop_spec dvs mask state : forall ctx,
  let h := existsb (dv_hit mask ctx state) dvs in
  exists ctx', dv_loop dvs mask state ctx
    = (if h && safe_hash ctx then compression_w (compression_w state (m1 ctx)) (m1 ctx) else state, ctx')
  /\ cfg ctx' = cfg ctx /\ m1 ctx' = m1 ctx /\ found_collision ctx' = found_collision ctx || h.
Proof.
  induction dvs as [|dv dvs IH]; intros ctx h.
  - exists ctx. unfold h. cbn [existsb dv_loop andb]. now rewrite orb_false_r.
  - cbn [dv_loop]. unfold h. cbn [existsb]. set (h' := dv_hit mask ctx state dv).
    assert (E : h' = dv_hit mask ctx state dv) by reflexivity. unfold dv_hit, dv_found in E.
    destruct (negb (N.land mask (wshl 32 1 (i_maskb dv)) =? 0)).
    + destruct (recompression_step (i_testt dv) (xor_bytes (m1 ctx) (i_dm dv))
        (match i_testt dv with T58 => state_58 ctx | T65 => state_65 ctx end)) as [i2 it].
      cbn [andb] in E. rewrite <- E. cbn [safe_hash]. destruct h'.
      * eexists. split; [reflexivity|]. cbn [cfg safe_hash use_ubc reduced_round_collision m1 found_collision orb].
        now rewrite !orb_true_r.
      * match goal with |- context [dv_loop dvs mask state ?c] => destruct (IH c) as (ctx' & E' & C & M & F) end.
        cbn [cfg safe_hash use_ubc reduced_round_collision m1 found_collision orb] in E', C, M, F.
        exists ctx'. rewrite E'. cbn [orb]. rewrite orb_false_r in F.
        exact (conj eq_refl (conj C (conj M F))).
    + cbn [andb] in E. rewrite E. cbn [orb]. apply IH.
Qed.

Lemma mask_bit mask n : n < 32 -> negb (N.land mask (wshl 32 1 n) =? 0) = N.testbit mask n.
Proof.
  intros H. assert (E : wshl 32 1 n = 2 ^ n).
  { unfold wshl. rewrite N.shiftl_1_l. apply N.mod_small. apply N.pow_lt_mono_r; lia. }
  rewrite E. destruct (N.testbit mask n) eqn:T.
  - apply negb_true_iff, N.eqb_neq. intros Z. apply (f_equal (fun x => N.testbit x n)) in Z.
    rewrite N.land_spec, T, N.pow2_bits_true, N.bits_0 in Z. discriminate.
  - apply negb_false_iff, N.eqb_eq. apply N.bits_inj. intros i. rewrite N.land_spec, N.pow2_bits_eqb, N.bits_0.
    destruct (N.eqb_spec n i) as [->|]; [now rewrite T|apply andb_false_r].
Qed.
Lemma DVS_length : length SHA1_DVS = 32%nat.
Proof. reflexivity. Qed.
Lemma DVS_nth i d : (i < 32)%nat -> let dv := nth i SHA1_DVS d in
  linear (i_dm dv) = true /\ Spec.SHA1C.dv_of i = (t_num (i_testt dv), i_dm dv) /\ i_maskb dv = N.of_nat i.
Proof.
  intros H dv. assert (Hl : (i < length SHA1_DVS)%nat) by (rewrite DVS_length; exact H).
  split; [|split].
  - pose proof DVS_linear as L. rewrite forallb_forall in L. apply L. now apply nth_In.
  - pose proof (f_equal (fun l => nth i l (t_num (i_testt d), i_dm d)) DVS_table) as E. cbv beta in E.
    rewrite (map_nth (fun d => (t_num (i_testt d), i_dm d))) in E. fold dv in E. rewrite E.
    rewrite (nth_indep _ _ (Spec.SHA1C.dv_of 0)) by (rewrite map_length, seq_length; exact H).
    rewrite map_nth, seq_nth by exact H. reflexivity.
  - pose proof (f_equal (fun l => nth i l (i_maskb d)) DVS_maskb) as E. cbv beta in E.
    rewrite map_nth in E. fold dv in E. rewrite E.
    rewrite (nth_indep _ _ (N.of_nat 0)) by (rewrite map_length, seq_length; exact H).
    rewrite map_nth, seq_nth by exact H. reflexivity.
Qed.
#[local] Opaque SHA1_DVS ubc_check.

(** ** One block *)
(** the vectors looked at: all, or those the unavoidable bit conditions leave *)
Definition filter (ubc : bool) (W : list N) (i : nat) : bool := if ubc then N.testbit (ubc_check W) (N.of_nat i) else true.
Definition hit (ubc reduced : bool) : vars -> bytes -> Prop := Spec.SHA1C.hit (filter ubc) reduced.
Definition thrice (v : vars) (b : bytes) : vars := Spec.SHA1.compress (Spec.SHA1.compress (Spec.SHA1.compress v b) b) b.
Definition Cfg (safe ubc reduced : bool) (ctx : DetectionState) : Prop :=
  cfg ctx = (safe, ubc, reduced) /\ length (m1 ctx) = 80%nat.

Lemma compress_ok v b : vok v -> length b = 64%nat -> vok (Spec.SHA1.compress v b).
Proof. intros V L. exact (proj2 (Proof.Sha1.compress_block_spec v b V L)). Qed.

Lemma hits_spec (ubc reduced : bool) (v : vars) (block : bytes) (ctx : DetectionState) (mask : N) :
  vok v -> length block = 64%nat -> bytes_ok block ->
  let W := Spec.SHA1.schedule (Spec.SHA1C.words_of block) in
  reduced_round_collision ctx = reduced -> ihv1 ctx = list_of_vars v -> m1 ctx = W ->
  state_58 ctx = pos58 (run W 0 58 v) -> state_65 ctx = list_of_vars (run W 0 65 v) ->
  mask = (if ubc then ubc_check W else 0xFFFFFFFF) ->
  existsb (dv_hit mask ctx (dm_out v (run W 0 80 v))) SHA1_DVS = true <-> hit ubc reduced v block.
Proof.
  intros V L B W Er E1 Em E58 E65 Emask. rewrite existsb_exists. unfold hit, Spec.SHA1C.hit. fold W.
  assert (Hm : forall i, (i < 32)%nat -> N.testbit mask (N.of_nat i) = filter ubc W i).
  { intros i Hi. unfold filter. rewrite Emask. destruct ubc; [reflexivity|].
    change 0xFFFFFFFF with (N.ones 32). apply N.ones_spec_low. lia. }
  split.
  - intros (dv & Hin & Hd). set (d0 := mkInfo T58 0 []). destruct (In_nth _ _ d0 Hin) as (i & Hi & En).
    rewrite DVS_length in Hi. subst dv.
    destruct (DVS_nth i d0 Hi) as (D1 & D2 & D3). set (d := nth i SHA1_DVS d0) in *.
    unfold dv_hit in Hd. apply andb_true_iff in Hd as [Hd1 Hd2].
    rewrite D3, mask_bit, Hm in Hd1 by lia. rewrite Er, E1, Em, E58, E65 in Hd2.
    exists i. split; [exact Hi|]. split; [exact Hd1|]. now apply (dv_found_spec reduced v block d i V L B D1 D2).
  - intros (i & Hi & Hf & Hp). set (d0 := mkInfo T58 0 []). destruct (DVS_nth i d0 Hi) as (D1 & D2 & D3).
    set (d := nth i SHA1_DVS d0) in *. exists d. split; [apply nth_In; now rewrite DVS_length|].
    unfold dv_hit. apply andb_true_iff. split; [now rewrite D3, mask_bit, Hm by lia|].
    rewrite Er, E1, Em, E58, E65. now apply (dv_found_spec reduced v block d i V L B D1 D2).
Qed.

Lemma compress_block_gen s ctx block out W s58 s65 out3 :
  compression_states s (words_of_be 4 block) (m1 ctx) = (out, W, s58, s65) ->
  compression_w (compression_w out W) W = out3 ->
  let mask := if use_ubc ctx then ubc_check W else 0xFFFFFFFF in
  let ctx1 := mkDS (safe_hash ctx) (use_ubc ctx) (reduced_round_collision ctx) (found_collision ctx)
               s (ihv2 ctx) W (m2 ctx) s58 s65 in
  exists ctx', compress_block (s, ctx) block
    = (if existsb (dv_hit mask ctx1 out) SHA1_DVS && safe_hash ctx then out3 else out, ctx')
  /\ cfg ctx' = cfg ctx /\ m1 ctx' = W
  /\ found_collision ctx' = found_collision ctx || existsb (dv_hit mask ctx1 out) SHA1_DVS.
Proof.
  intros E E3 mask ctx1. unfold compress_block. rewrite E. clear E. cbn [use_ubc m1]. fold mask. fold ctx1.
  destruct (N.eqb_spec mask 0) as [Z|Z]; cbn [negb].
  - assert (Eh : existsb (dv_hit mask ctx1 out) SHA1_DVS = false).
    { destruct (existsb _ _) eqn:Eh; [|reflexivity]. exfalso. apply existsb_exists in Eh as (d & _ & Hd).
      unfold dv_hit in Hd. rewrite Z, N.land_0_l in Hd. discriminate Hd. }
    rewrite Eh. cbn [andb]. exists ctx1. rewrite orb_false_r. auto.
  - destruct (dv_loop_spec SHA1_DVS mask out ctx1) as (ctx' & E & Cc & Cm & F).
    exists ctx'. rewrite E. unfold ctx1 at 2 3 4. cbn [safe_hash m1]. rewrite E3. auto.
Qed.

(** The compression function with detection on one block: the chaining value
    (computed three times on a reported block in safe mode) and whether it is reported. *)
Lemma compress_block_spec safe ubc reduced v ctx block :
  vok v -> length block = 64%nat -> bytes_ok block -> Cfg safe ubc reduced ctx ->
  exists (h : bool) ctx', compress_block (list_of_vars v, ctx) block
    = (list_of_vars (if h && safe then thrice v block else Spec.SHA1.compress v block), ctx')
  /\ Cfg safe ubc reduced ctx' /\ found_collision ctx' = found_collision ctx || h
  /\ (h = true <-> hit ubc reduced v block).
Proof.
  intros V L B [C Lm]. destruct (words_of_ok block L B) as [LM HM].
  pose proof (compression_states_spec (Spec.SHA1C.words_of block) LM v V (m1 ctx) Lm) as CS.
  pose proof (dm_out_compress v block) as D0.
  pose proof (schedule_length _ LM) as LW.
  pose proof (compress_ok v block V L) as V1. pose proof (compress_ok _ block V1 L) as V2.
  assert (CW : forall u, vok u -> compression_w (list_of_vars u) (Spec.SHA1.schedule (Spec.SHA1C.words_of block))
    = list_of_vars (Spec.SHA1.compress u block)).
  { intros u Vu. rewrite (compression_w_spec u _ Vu LW). symmetry. apply dm_out_compress. }
  pose proof (fun c mask => hits_spec ubc reduced v block c mask V L B) as HS. cbv zeta in HS.
  cbv zeta in CS. rewrite <- D0 in CS.
  rewrite <- D0 in HS. clear D0.
  set (W := Spec.SHA1.schedule (Spec.SHA1C.words_of block)) in *.
  set (s58 := pos58 (run W 0 58 v)) in *. set (s65 := list_of_vars (run W 0 65 v)) in *. clearbody s58 s65 W.
  unfold cfg in C. injection C as C1 C2 C3.
  destruct (compress_block_gen (list_of_vars v) ctx block _ W s58 s65 (list_of_vars (thrice v block)) CS) as (ctx' & E & Cc & Cm & F).
  { unfold thrice. now rewrite (CW _ V1), (CW _ V2). }
  eexists. exists ctx'. refine (conj _ (conj (conj _ _) (conj F _))).
  - rewrite E, C1. now destruct (_ && safe).
  - rewrite Cc. unfold cfg. now rewrite C1, C2, C3.
  - now rewrite Cm.
  - apply HS; try reflexivity; [exact C3|]. now rewrite C2.
Qed.

#[local] Opaque compress_block Spec.SHA1.compress.
(** ** Any number of blocks *)
Definition somewhere (hit : vars -> bytes -> Prop) (v : vars) (blocks : list bytes) : Prop :=
  exists pre b post, blocks = pre ++ b :: post /\ hit (fold_left Spec.SHA1.compress pre v) b.
Lemma sel_true {A} (x y : A) : (if true && true then x else y) = x.
Proof. reflexivity. Qed.
Lemma sel_false1 {A} s (x y : A) : (if false && s then x else y) = y.
Proof. reflexivity. Qed.
Lemma sel_false2 {A} h (x y : A) : (if h && false then x else y) = y.
Proof. now rewrite andb_false_r. Qed.
Lemma thrice_eq v b : thrice v b = Spec.SHA1.compress (Spec.SHA1.compress (Spec.SHA1.compress v b) b) b.
Proof. reflexivity. Qed.
Lemma fold_cons {A B} (f : A -> B -> A) x l a : fold_left f (x :: l) a = fold_left f l (f a x).
Proof. reflexivity. Qed.
Lemma compress_cons s ctx b l s1 ctx1 : compress_block (s, ctx) b = (s1, ctx1) ->
  compress s ctx (b :: l) = compress s1 ctx1 l.
Proof. intros E. unfold compress. rewrite fold_cons, E. reflexivity. Qed.
Lemma compress_spec safe ubc reduced blocks : forall v ctx,
  vok v -> Forall (fun b => length b = 64%nat) blocks -> Forall bytes_ok blocks -> Cfg safe ubc reduced ctx ->
  exists (any : bool) v' ctx', compress (list_of_vars v) ctx blocks = (list_of_vars v', ctx')
  /\ vok v' /\ Cfg safe ubc reduced ctx' /\ found_collision ctx' = found_collision ctx || any
  /\ (safe = true -> Spec.SHA1C.safe_chain (hit ubc reduced) v blocks v')
  /\ (safe = false \/ any = false -> v' = fold_left Spec.SHA1.compress blocks v)
  /\ (any = true <-> somewhere (hit ubc reduced) v blocks).
Proof.
  induction blocks as [|b blocks IH]; intros v ctx V L B C.
  - exists false, v, ctx. refine (conj eq_refl (conj V (conj C (conj _ (conj _ (conj _ _)))))).
    + now rewrite orb_false_r.
    + intros _. constructor.
    + reflexivity.
    + split; [discriminate|]. intros (pre & x & post & E & _). destruct pre; discriminate E.
  - inversion L as [|? ? Lb L']; inversion B as [|? ? Bb B']; subst.
    destruct (compress_block_spec safe ubc reduced v ctx b V Lb Bb C) as (h & ctx1 & E1 & C1 & F1 & H1).
    rewrite (compress_cons _ _ _ blocks _ _ E1).
    remember (if h && safe then thrice v b else Spec.SHA1.compress v b) as v1 eqn:Ev.
    assert (V1 : vok v1).
    { subst v1. destruct (h && safe); [rewrite thrice_eq|]; repeat apply compress_ok; assumption. }
    destruct (IH _ ctx1 V1 L' B' C1) as (any & v' & ctx' & E2 & V2 & C2 & F2 & S2 & R2 & H2).
    exists (h || any), v', ctx'.
    refine (conj E2 (conj V2 (conj C2 (conj _ (conj _ (conj _ _)))))).
    + rewrite F2, F1. now rewrite orb_assoc.
    + intros ->. specialize (S2 eq_refl). destruct h.
      * rewrite sel_true, thrice_eq in Ev. subst v1. apply Spec.SHA1C.safe_hit; [apply H1; reflexivity|exact S2].
      * rewrite sel_false1 in Ev. subst v1. apply Spec.SHA1C.safe_skip; [|exact S2]. intros X. apply H1 in X. discriminate X.
    + intros X. rewrite R2.
      * rewrite fold_cons. f_equal. destruct X as [->|X]; [rewrite sel_false2 in Ev; exact Ev|].
        apply orb_false_iff in X as [-> _]. rewrite sel_false1 in Ev. exact Ev.
      * destruct X as [X|X]; [left; exact X|right]. apply orb_false_iff in X as [_ X]. exact X.
    + rewrite orb_true_iff. destruct h.
      * split; [|intros _; left; reflexivity]. intros _. exists [], b, blocks. split; [reflexivity|]. apply H1; reflexivity.
      * rewrite sel_false1 in Ev. subst v1. split.
        -- intros [X|X]; [discriminate X|]. apply H2 in X as (pre & x & post & -> & Hx).
           exists (b :: pre), x, post. split; [reflexivity|]. rewrite fold_cons. exact Hx.
        -- intros (pre & x & post & E & Hx). right. destruct pre as [|p pre].
           ++ cbn in E. injection E as <- _. cbn [fold_left] in Hx. apply H1 in Hx. discriminate Hx.
           ++ injection E as <- ->. apply H2. exists pre, x, post. split; [reflexivity|]. rewrite fold_cons in Hx. exact Hx.
Qed.

(** ** Padding *)
Lemma be_bytes_8 t : be_bytes 8 t = [N.shiftr t 56 mod 256; N.shiftr t 48 mod 256; N.shiftr t 40 mod 256;
  N.shiftr t 32 mod 256; N.shiftr t 24 mod 256; N.shiftr t 16 mod 256; N.shiftr t 8 mod 256; t mod 256].
Proof.
  unfold be_bytes. cbn [le_bytes rev app]. rewrite !N.shiftr_div_pow2, !N.div_div by discriminate. reflexivity.
Qed.
Lemma set_len (A : bytes) t : length A = 64%nat ->
  upd (upd (upd (upd (upd (upd (upd (upd A 56 (N.shiftr t 56 mod 256)) 57 (N.shiftr t 48 mod 256)) 58 (N.shiftr t 40 mod 256))
    59 (N.shiftr t 32 mod 256)) 60 (N.shiftr t 24 mod 256)) 61 (N.shiftr t 16 mod 256)) 62 (N.shiftr t 8 mod 256)) 63 (t mod 256)
  = firstn 56 A ++ be_bytes 8 t.
Proof.
  intros L. rewrite be_bytes_8.
  rewrite <- (firstn_skipn 56 A) at 1. assert (Lf : length (firstn 56 A) = 56%nat) by (rewrite firstn_length; lia).
  assert (Ls : length (skipn 56 A) = 8%nat) by (rewrite skipn_length; lia).
  remember (firstn 56 A) as F. remember (skipn 56 A) as T.
  assert (Q : forall i X x, upd (F ++ X) (56 + i) x = F ++ upd X i x).
  { intros i X x. rewrite upd_app_r by lia. rewrite Lf. do 2 f_equal. lia. }
  rewrite (Q 0%nat), (Q 1%nat), (Q 2%nat), (Q 3%nat), (Q 4%nat), (Q 5%nat), (Q 6%nat), (Q 7%nat).
  f_equal. clear HeqT HeqF. explode T. reflexivity.
Qed.
Lemma firstn_zeros n k : (n <= k)%nat -> firstn n (zeros k) = zeros n.
Proof. revert k. induction n as [|n IH]; intros [|k] H; try reflexivity; [lia|]. cbn. f_equal. apply IH. lia. Qed.
Lemma skipn_zeros n k : skipn n (zeros k) = zeros (k - n).
Proof. revert k. induction n as [|n IH]; intros [|k]; try reflexivity. cbn [skipn zeros repeat]. apply IH. Qed.
Lemma pad_prefix n : (1 <= n <= 64)%nat -> firstn n SHA1_PADDING = 0x80 :: zeros (n - 1).
Proof.
  intros H. unfold SHA1_PADDING. destruct n; [lia|]. cbn [firstn]. f_equal. replace (S n - 1)%nat with n by lia.
  apply firstn_zeros. lia.
Qed.
Lemma blit_0 a b : blit a 0 b = b ++ skipn (length b) a.
Proof. reflexivity. Qed.
Lemma finalize_spec m state total last ctx t : (length last < 64)%nat ->
  cadd m 64 total (N.of_nat (length last)) = Some t ->
  finalize m state total last ctx = Some (compress state ctx (pad_blocks 64 0x80 (be_bytes 8 (wshl 64 t 3)) last)).
Proof.
  intros L E. unfold finalize. rewrite E. cbn [obind]. f_equal.
  unfold pad_blocks. rewrite be_bytes_length.
  assert (Z1 : blit (zeros 64) 0 last = last ++ zeros (64 - length last)).
  { unfold blit. cbn [firstn app Nat.add]. f_equal. apply skipn_zeros. }
  rewrite Z1. set (n := length last) in *.
  destruct (Nat.leb_spec 56 n) as [H|H].
  - assert (H' : (64 - n - 1 <? 8)%nat = true) by (apply Nat.ltb_lt; lia). rewrite H'.
    rewrite pad_prefix by lia.
    assert (F : firstn (64 - n) (0x80 :: zeros (120 - n - 1)) = 0x80 :: zeros (64 - n - 1)).
    { destruct (64 - n)%nat eqn:En; [lia|]. cbn [firstn]. f_equal. rewrite firstn_zeros by lia. f_equal. lia. }
    assert (G : skipn (64 - n) (0x80 :: zeros (120 - n - 1)) = zeros 56).
    { destruct (64 - n)%nat eqn:En; [lia|]. cbn [skipn]. rewrite skipn_zeros. f_equal. lia. }
    rewrite F, G.
    assert (B1 : blit (last ++ zeros (64 - n)) n (0x80 :: zeros (64 - n - 1)) = last ++ 0x80 :: zeros (64 - n - 1)).
    { unfold blit. rewrite firstn_app_exact by reflexivity. f_equal.
      rewrite skipn_all2; [apply app_nil_r|]. rewrite app_length, zeros_length. cbn [length]. rewrite zeros_length. fold n. lia. }
    rewrite B1. set (b1 := last ++ 0x80 :: zeros (64 - n - 1)).
    assert (Lb : length b1 = 64%nat).
    { unfold b1. rewrite app_length. cbn [length]. rewrite zeros_length. fold n. lia. }
    destruct (compress_block (state, ctx) b1) as [s1 c1] eqn:Ec. rewrite !(compress_cons _ _ _ _ _ _ Ec).
    change (compress s1 c1 []) with (s1, c1). cbv beta iota zeta.
    rewrite set_len.
    + rewrite blit_0, (firstn_app_exact 56) by apply zeros_length. reflexivity.
    + rewrite blit_0, app_length, zeros_length, skipn_length, Lb. reflexivity.
  - assert (H' : (64 - n - 1 <? 8)%nat = false) by (apply Nat.ltb_ge; lia). rewrite H'.
    rewrite pad_prefix by lia.
    assert (B1 : blit (last ++ zeros (64 - n)) n (0x80 :: zeros (56 - n - 1)) = last ++ 0x80 :: zeros (64 - n - 1)).
    { unfold blit. rewrite firstn_app_exact by reflexivity. f_equal. cbn [length app]. rewrite zeros_length. f_equal.
      rewrite skipn_app. fold n. rewrite skipn_all2 by (fold n; lia). cbn [app].
      replace (n + S (56 - n - 1) - n)%nat with (56 - n)%nat by lia. rewrite skipn_zeros.
      unfold zeros. rewrite <- repeat_app. f_equal. lia. }
    rewrite B1. cbv beta iota zeta. rewrite set_len; [reflexivity|]. rewrite app_length. cbn [length]. rewrite zeros_length. fold n. lia.
Qed.

(** ** The hasher *)
Definition hstate := (list N * option DetectionState)%type.
Definition blk (s : hstate) (b : bytes) : hstate :=
  match snd s with
  | Some ctx => (fst (compress_block (fst s, ctx) b), Some (snd (compress_block (fst s, ctx) b)))
  | None => (Model.Sha1.compress_block (fst s) b, None)
  end.
Lemma blk_some l : forall h ctx,
  fold_left blk l (h, Some ctx) = (fst (compress h ctx l), Some (snd (compress h ctx l))).
Proof.
  induction l as [|b l IH]; intros h ctx; [reflexivity|].
  rewrite fold_cons. destruct (compress_block (h, ctx) b) as [h1 c1] eqn:E.
  rewrite (compress_cons _ _ _ _ _ _ E). unfold blk at 2. cbn [fst snd]. rewrite E. cbn [fst snd]. apply IH.
Qed.
Lemma blk_none l : forall h, fold_left blk l (h, None) = (Model.Sha1.compress h l, None).
Proof.
  induction l as [|b l IH]; intros h; [reflexivity|].
  rewrite fold_cons. unfold blk at 2. cbn [fst snd]. rewrite IH. unfold Model.Sha1.compress. rewrite fold_cons. reflexivity.
Qed.
Definition start (b : Builder) : hstate := (INITIAL_H, into_detection_state b).
Definition P (b : Builder) (s : hstate) : Prop :=
  (exists v, vok v /\ fst s = list_of_vars v) /\
  match snd s with
  | None => b_detect b = false
  | Some ctx => b_detect b = true /\ Cfg (b_safe b) (b_ubc b) (b_reduced b) ctx
  end.
Lemma start_P b : P b (start b).
Proof.
  split; [exists Spec.SHA1.iv; split; [exact Proof.Sha1.iv_ok|reflexivity]|].
  unfold start, into_detection_state. cbn [snd]. destruct (b_detect b); [|reflexivity].
  split; [reflexivity|]. split; reflexivity.
Qed.
Lemma blk_P b s x : P b s -> length x = 64%nat -> bytes_ok x -> P b (blk s x).
Proof.
  destruct s as [h [ctx|]]; intros [(v & V & E) C] L B; cbn [fst snd] in *; subst h; unfold blk; cbn [fst snd].
  - destruct C as [D C].
    destruct (compress_block_spec _ _ _ v ctx x V L B C) as (h & ctx' & -> & C' & _ & _). cbn [fst snd].
    split; [|exact (conj D C')]. cbn [fst]. eexists. split; [|reflexivity].
    destruct (h && b_safe b); [rewrite thrice_eq|]; repeat apply compress_ok; assumption.
  - destruct (Proof.Sha1.compress_block_spec v x V L) as [-> V']. split; [|exact C]. eexists. split; [exact V'|reflexivity].
Qed.
(** the digest of a new hasher on a padded message *)
Definition final_state (b : Builder) (msg : bytes) : hstate :=
  fold_left blk (chunks 64 (Spec.SHA1.pad msg)) (start b).
Definition digest_of (b : Builder) (msg : bytes) : bytes := words_to_be 4 (fst (final_state b msg)).
Definition within (n : nat) : Prop := 8 * N.of_nat n < 2 ^ 64.

Lemma pad_chunks msg : chunks 64 (Spec.SHA1.pad msg)
  = chunks 64 msg ++ pad_blocks 64 0x80 (be_bytes 8 (8 * blen msg)) (remainder 64 msg).
Proof. apply chunks_padded; [lia|rewrite be_bytes_length; lia]. Qed.
Lemma finalize_inner_spec b m msg : within (length msg) -> bytes_ok msg ->
  finalize_inner m (fold_left blk (chunks 64 msg) (start b), N.of_nat (length msg / 64)) (remainder 64 msg)
  = Some (digest_of b msg, (final_state b msg, N.of_nat (length msg / 64))).
Proof.
  intros W B. unfold digest_of, final_state. rewrite pad_chunks, fold_left_app.
  set (s := fold_left blk (chunks 64 msg) (start b)).
  assert (Lr : (length (remainder 64 msg) < 64)%nat) by (rewrite remainder_length by lia; apply Nat.mod_upper_bound; lia).
  assert (E8 : wshl 64 (N.of_nat (length msg)) 3 = 8 * blen msg).
  { unfold wshl, blen. rewrite N.shiftl_mul_pow2. change (2 ^ 3) with 8. rewrite N.mul_comm. now apply N.mod_small. }
  clearbody s. destruct s as [h [ctx|]]; unfold finalize_inner.
  - pose proof (byte_len_ok m 64 64 (length msg) 64 ltac:(lia) eq_refl) as E.
    assert (W' : N.of_nat (length msg) < 2 ^ 64) by (unfold within in W; lia). specialize (E W').
    destruct (cmul m 64 64 _) as [t|]; [|discriminate E]. cbn [obind] in E |- *.
    rewrite (finalize_spec m h t (remainder 64 msg) ctx (N.of_nat (length msg)) Lr).
    + rewrite E8, blk_some. cbn [fst snd]. destruct (compress h ctx _) as [h' c']. reflexivity.
    + rewrite remainder_length by lia. rewrite <- E. unfold cadd. now rewrite N.add_comm.
  - rewrite remainder_length by lia. rewrite (bit_len_ok m 64 64 (length msg)); [|lia|reflexivity|exact W].
    rewrite blk_none. reflexivity.
Qed.
Lemma reset_start b st : P b (fst st) -> sha1c_reset st = ((start b, 0), []).
Proof.
  destruct st as [[h d] n]. intros [_ C]. cbn [fst snd] in C. unfold sha1c_reset, start. do 3 f_equal.
  destruct d as [ctx|]; unfold into_detection_state.
  - destruct C as [-> [C _]]. unfold cfg in C. injection C as C1 C2 C3. unfold ds_reset. now rewrite C1, C2, C3.
  - now rewrite C.
Qed.
Lemma final_P b msg : bytes_ok msg -> P b (final_state b msg).
Proof.
  intros B. unfold final_state. apply (fold_P 64 blk (P b)).
  - intros. now apply blk_P.
  - apply chunks_block_length. lia.
  - apply chunks_ok; [lia|]. unfold Spec.SHA1.pad, md_pad. apply bytes_ok_app; split; [exact B|].
    apply bytes_ok_app; split; [repeat constructor|]. apply bytes_ok_app; split; [apply zeros_ok|apply be_bytes_ok].
  - apply start_P.
Qed.
Definition inv (b : Builder) (st : hstate * N) : Prop := P b (fst st) /\ snd st < 2 ^ 64.
Lemma update_eq m st bl : sha1c_update m st bl = counted_update 64 blk m st bl.
Proof.
  destruct st as [[h [ctx|]] n]; unfold counted_update, sha1c_update; cbn [fst snd].
  - destruct (cadd m 64 n _) as [n'|]; [|reflexivity]. cbn [obind]. rewrite blk_some.
    destruct (compress h ctx bl); reflexivity.
  - destruct (cadd m 64 n _) as [n'|]; [|reflexivity]. cbn [obind]. rewrite blk_none. reflexivity.
Qed.
Lemma Sha1Checked_ok b : core_ok (Sha1Checked b) (inv b) (digest_of b) within.
Proof.
  apply (counted_core_ok 64 64 blk (start b) (P b)).
  - lia.
  - apply start_P.
  - intros s x H L B. now apply blk_P.
  - unfold within. intros. lia.
  - intros len W. now apply (count_lt 64 8).
  - exact update_eq.
  - intros st H _. now apply reset_start.
  - intros m msg W B. eexists. split; [apply finalize_inner_spec; assumption|].
    apply reset_start. cbn [fst]. now apply final_P.
  - discriminate.
Qed.

(** ** Outcomes *)
Definition bhit (b : Builder) : vars -> bytes -> Prop := hit (b_ubc b) (b_reduced b).
Lemma pad_blocks_good msg : bytes_ok msg ->
  Forall (fun x => length x = 64%nat) (chunks 64 (Spec.SHA1.pad msg)) /\ Forall bytes_ok (chunks 64 (Spec.SHA1.pad msg)).
Proof.
  intros B. split; [apply chunks_block_length; lia|].
  apply chunks_ok; [lia|]. unfold Spec.SHA1.pad, md_pad. apply bytes_ok_app; split; [exact B|].
  apply bytes_ok_app; split; [repeat constructor|]. apply bytes_ok_app; split; [apply zeros_ok|apply be_bytes_ok].
Qed.
Lemma output_words v : words_to_be 4 (list_of_vars v) = Spec.SHA1.output v.
Proof. destruct v as ((((a, b), c), d), e). reflexivity. Qed.
Lemma plain_fold blocks : forall v, vok v -> Forall (fun x => length x = 64%nat) blocks ->
  Model.Sha1.compress (list_of_vars v) blocks = list_of_vars (fold_left Spec.SHA1.compress blocks v).
Proof.
  induction blocks as [|x l IH]; intros v V L; [reflexivity|]. inversion L; subst.
  unfold Model.Sha1.compress. rewrite !fold_cons. destruct (Proof.Sha1.compress_block_spec v x V) as [-> V']; [assumption|].
  now apply IH.
Qed.
Definition result (b : Builder) (msg : bytes) : CollisionResult :=
  match snd (final_state b msg) with
  | Some ctx => if found_collision ctx then if safe_hash ctx then RMitigated (digest_of b msg) else RCollision (digest_of b msg)
                else ROk (digest_of b msg)
  | None => ROk (digest_of b msg)
  end.
Lemma r_hash_result b msg : r_hash (result b msg) = digest_of b msg.
Proof. unfold result. destruct (snd (final_state b msg)) as [ctx|]; [|reflexivity]. now destruct (found_collision ctx), (safe_hash ctx). Qed.
Lemma try_digest_spec b m cs : Forall bytes_ok cs -> within (length (concat cs)) ->
  try_digest b m cs = Some (result b (concat cs)).
Proof.
  intros B W. destruct (updates_spec _ _ _ _ (Sha1Checked_ok b) m cs (h_new _) [] (Forall_nil _) B (reached_new _ _ _ _ (Sha1Checked_ok b) m) W)
    as (h & E & R1 & R2 & R3).
  unfold try_digest. rewrite E. cbn [obind].
  assert (Bm : bytes_ok (concat cs)) by now apply bytes_ok_concat.
  cbn [Sha1Checked c_bs c_kind c_ibuf c_init c_update app cst] in R1, R2.
  rewrite kblocks_eager in R1 by lia. rewrite krem_eager in R2 by lia.
  rewrite update_eq in R1. change (INITIAL_H, into_detection_state b) with (start b) in R1.
  rewrite (counted_update_chunks 64 64 blk (start b)) in R1; [|lia|now apply (count_lt 64 8)].
  apply (f_equal (fun o => match o with Some x => x | None => fst h end)) in R1. cbv beta iota in R1.
  destruct h as [h0 hb]. cbn [fst snd] in *. subst h0 hb. unfold try_finalize. rewrite finalize_inner_spec by assumption.
  cbn [obind fst]. unfold result. destruct (snd (final_state b (concat cs))) as [ctx|]; [|reflexivity].
  destruct (found_collision ctx); [|reflexivity]. now destruct (safe_hash ctx).
Qed.

Lemma result_spec b msg : bytes_ok msg ->
  match result b msg with
  | ROk d => d = Spec.SHA1.SHA1 msg /\ (b_detect b = true -> ~ Spec.SHA1C.reported (bhit b) msg)
  | RCollision d => d = Spec.SHA1.SHA1 msg /\ b_detect b = true /\ b_safe b = false /\ Spec.SHA1C.reported (bhit b) msg
  | RMitigated d => b_detect b = true /\ b_safe b = true /\ Spec.SHA1C.reported (bhit b) msg /\
      exists v, Spec.SHA1C.safe_chain (bhit b) Spec.SHA1.iv (chunks 64 (Spec.SHA1.pad msg)) v /\ d = Spec.SHA1.output v
  end.
Proof.
  intros B. destruct (pad_blocks_good msg B) as [L O].
  assert (E0 : INITIAL_H = list_of_vars Spec.SHA1.iv) by reflexivity.
  unfold result, digest_of, final_state, start, into_detection_state. rewrite E0.
  destruct (b_detect b) eqn:D.
  - rewrite blk_some. cbn [fst snd]. set (ctx0 := mkDS _ _ _ _ _ _ _ _ _ _).
    assert (C0 : Cfg (b_safe b) (b_ubc b) (b_reduced b) ctx0) by (split; reflexivity).
    destruct (compress_spec _ _ _ _ Spec.SHA1.iv ctx0 Proof.Sha1.iv_ok L O C0)
      as (any & v' & ctx' & E & V & [C _] & F & S & R & H).
    rewrite E. cbn [fst snd]. cbn [ctx0 found_collision orb] in F. rewrite F.
    unfold cfg in C. injection C as C1 _ _. rewrite C1, output_words.
    change (somewhere (hit (b_ubc b) (b_reduced b)) Spec.SHA1.iv (chunks 64 (Spec.SHA1.pad msg)))
      with (Spec.SHA1C.reported (bhit b) msg) in H.
    assert (Q : b_safe b = false \/ any = false -> Spec.SHA1.output v' = Spec.SHA1.SHA1 msg).
    { intros X. rewrite (R X). reflexivity. }
    destruct any; [destruct (b_safe b) eqn:Sf|].
    + refine (conj eq_refl (conj eq_refl (conj _ _))); [now apply H|]. exists v'. split; [apply S|]; reflexivity.
    + refine (conj _ (conj eq_refl (conj eq_refl _))); [apply Q; now left|now apply H].
    + split; [apply Q; now right|]. intros _ X. apply H in X. discriminate X.
  - rewrite blk_none. cbn [fst snd]. split; [|discriminate].
    rewrite plain_fold by (exact Proof.Sha1.iv_ok || exact L). apply output_words.
Qed.

(** A reported block, its partner. *)
Lemma dv_nonzero i : (i < 32)%nat -> exists j, (j < 16)%nat /\ get (snd (Spec.SHA1C.dv_of i)) j <> 0.
Proof.
  intros Hi. set (d0 := mkInfo T58 0 []). destruct (DVS_nth i d0 Hi) as (_ & E & _). rewrite E. cbn [snd].
  pose proof DVS_nonzero as Z. rewrite forallb_forall in Z.
  specialize (Z (nth i SHA1_DVS d0)). assert (Hin : In (nth i SHA1_DVS d0) SHA1_DVS) by (apply nth_In; now rewrite DVS_length).
  specialize (Z Hin). apply negb_true_iff in Z. set (dm := i_dm _) in *. clearbody dm.
  assert (Q : forall l : list N, forallb (fun x => x =? 0) l = false -> exists j, (j < length l)%nat /\ get l j <> 0).
  { clear. induction l as [|x l IH]; [discriminate|]. cbn [forallb]. destruct (N.eqb_spec x 0) as [->|H].
    - cbn [andb]. intros X. destruct (IH X) as (j & Hj & Hn). exists (S j). cbn. split; [lia|exact Hn].
    - intros _. exists 0%nat. cbn. split; [lia|exact H]. }
  destruct (Q _ Z) as (j & Hj & Hn). rewrite firstn_length in Hj. exists j. split; [lia|].
  unfold get in Hn. rewrite Proof.Fsb.nth_firstn in Hn by lia. exact Hn.
Qed.
Lemma partner_differs i v block H2 block2 : (i < 32)%nat -> length block = 64%nat -> bytes_ok block ->
  Spec.SHA1C.partner (Spec.SHA1C.dv_of i) v block H2 block2 -> block2 <> block.
Proof.
  intros Hi L B (_ & _ & _ & E & _) ->. destruct (dv_nonzero i Hi) as (j & Hj & Hn). apply Hn.
  destruct (words_of_ok block L B) as [LM _]. pose proof (schedule_length _ LM) as LW.
  set (d0 := mkInfo T58 0 []). destruct (DVS_nth i d0 Hi) as (Ld & Ed & _).
  apply linear_spec in Ld as (Ld & _ & _). rewrite Ed in E |- *. cbn [snd] in *.
  apply (f_equal (fun l => get l j)) in E. rewrite get_xor in E by lia.
  rewrite <- (N.lxor_0_r (get _ j)) in E at 1. apply (f_equal (N.lxor (get (Spec.SHA1.schedule (Spec.SHA1C.words_of block)) j))) in E.
  rewrite <- !N.lxor_assoc, N.lxor_nilpotent, !N.lxor_0_l in E. symmetry. exact E.
Qed.
