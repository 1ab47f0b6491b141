(** Facts about the FIPS 180-4 specification. *)
From Verif Require Import Base.Words Base.Bytes Spec.SHA2.

Section Family.
  Variable P : params.
  Notation w := (p_w P).

  Lemma extend_length n W : length (extend P n W) = (length W + n)%nat.
  Proof.
    revert W; induction n as [|n IH]; intros W; cbn [extend]; [lia|].
    rewrite IH, app_length. cbn [length]. lia.
  Qed.
  Lemma extend_old n W t : (t < length W)%nat -> get (extend P n W) t = get W t.
  Proof.
    revert W; induction n as [|n IH]; intros W H; cbn [extend]; [reflexivity|].
    rewrite IH by (rewrite app_length; cbn [length]; lia). unfold get. now rewrite app_nth1.
  Qed.
  Lemma extend_new n W t : (16 <= length W)%nat -> (length W <= t < length W + n)%nat ->
    let E := extend P n W in
    get E t = wadd w (wadd w (wadd w (p_s1 P (get E (t - 2))) (get E (t - 7))) (p_s0 P (get E (t - 15)))) (get E (t - 16)).
  Proof.
    revert W; induction n as [|n IH]; intros W H Ht; cbn zeta; [lia|].
    cbn [extend]. destruct (Nat.eq_dec t (length W)) as [->|Hne].
    - assert (L : (length W < length (W ++ [next_w P W]))%nat) by (rewrite app_length; cbn [length]; lia).
      rewrite !extend_old by lia. unfold get.
      rewrite app_nth2, Nat.sub_diag by lia. cbn [nth].
      rewrite !app_nth1 by lia. reflexivity.
    - apply IH; rewrite app_length; cbn [length]; lia.
  Qed.

  Section Sched.
    Variable M : list N.
    Hypothesis LM : length M = 16%nat.
    Let W := schedule P M.
    Lemma sched_old t : (t < 16)%nat -> get W t = get M t.
    Proof using LM. intros H. apply extend_old. lia. Qed.
    Lemma sched_new t : (16 <= t < p_rounds P)%nat ->
      get W t = wadd w (wadd w (wadd w (p_s1 P (get W (t - 2))) (get W (t - 7))) (p_s0 P (get W (t - 15)))) (get W (t - 16)).
    Proof using LM. intros H. apply extend_new; lia. Qed.
  End Sched.

  Definition vars_ok (v : vars) : Prop :=
    let '(a, b, c, d, e, f, g, h) := v in
    a < 2 ^ w /\ b < 2 ^ w /\ c < 2 ^ w /\ d < 2 ^ w /\ e < 2 ^ w /\ f < 2 ^ w /\ g < 2 ^ w /\ h < 2 ^ w.
  Lemma round_ok v k x : vars_ok v -> vars_ok (round P v k x).
  Proof.
    destruct v as (((((((a, b), c), d), e), f), g), h). unfold vars_ok, round.
    intros (?&?&?&?&?&?&?&?). repeat split; auto; apply wadd_lt.
  Qed.

  (** The state after the first [n] rounds, started from round [s]. *)
  Definition run_rounds (W : list N) (s n : nat) (v : vars) : vars :=
    fold_left (fun v t => round P v (get (p_K P) t) (get W t)) (seq s n) v.
  Lemma rounds_run W v : rounds P W v = run_rounds W 0 (p_rounds P) v.
  Proof. reflexivity. Qed.
  Lemma run_rounds_ok W s n v : vars_ok v -> vars_ok (run_rounds W s n v).
  Proof.
    revert s v; induction n as [|n IH]; intros s v H; cbn; [exact H|]. apply IH, round_ok, H.
  Qed.
  Lemma run_rounds_add W s n k v : run_rounds W s (n + k) v = run_rounds W (s + n) k (run_rounds W s n v).
  Proof. unfold run_rounds. now rewrite seq_app, fold_left_app. Qed.

  Lemma list_of_vars_of_list l : length l = 8%nat -> list_of_vars (vars_of_list l) = l.
  Proof. intros H. do 9 (destruct l as [|? l]; cbn in H; try lia). reflexivity. Qed.
  Lemma vars_of_list_ok l : length l = 8%nat -> words_ok w l -> vars_ok (vars_of_list l).
  Proof. intros L H. cbn. repeat split; apply get_in; try exact H; lia. Qed.
  Lemma list_of_vars_ok v : vars_ok v -> words_ok w (list_of_vars v).
  Proof.
    destruct v as (((((((a, b), c), d), e), f), g), h). cbn. intros (?&?&?&?&?&?&?&?).
    repeat constructor; assumption.
  Qed.
  Lemma vars_of_list_of v : vars_of_list (list_of_vars v) = v.
  Proof. now destruct v as (((((((a, b), c), d), e), f), g), h). Qed.
  Lemma compress_ok H b : vars_ok H -> vars_ok (compress P H b).
  Proof.
    intros _. unfold compress. destruct H as (((((((a, b'), c), d), e), f), g), h).
    destruct (rounds _ _ _) as (((((((a2, b2), c2), d2), e2), f2), g2), h2).
    cbn. repeat split; apply wadd_lt.
  Qed.
End Family.

(** The other form of Ch used by implementations. *)
Lemma ch_alt w x y z : z < 2 ^ w -> N.lxor z (N.land x (N.lxor y z)) = Ch w x y z.
Proof.
  intros Hz. unfold Ch. apply N.bits_inj. intros i.
  rewrite !N.lxor_spec, !N.land_spec, !N.lxor_spec, testbit_wnot.
  destruct (N.ltb_spec i w) as [L|L].
  - destruct (N.testbit x i), (N.testbit y i), (N.testbit z i); reflexivity.
  - rewrite (proj1 (lt_pow2_bits z w) Hz i L).
    destruct (N.testbit x i), (N.testbit y i); reflexivity.
Qed.
