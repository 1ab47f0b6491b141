(** Two representations used by the register-rotating back ends: the working
    variables stay in place while their names rotate, and the message schedule
    lives in a sixteen-word window. *)
From Verif Require Import Base.Words Base.Bytes Proof.Sha2Spec.
From Verif Require Spec.SHA2.
Import Spec.SHA2 (params, vars, vars_of_list, list_of_vars, round, p_K, p_w, p_s0, p_s1, p_S0, p_S1, p_rounds).

(** [lay r v]: position [j] holds variable number [j + r mod 8] of [v]. *)
Definition lay (r : nat) (v : vars) : list N :=
  map (fun j => get (list_of_vars v) ((j + r) mod 8)) (seq 0 8).
Lemma lay_length r v : length (lay r v) = 8%nat.
Proof. reflexivity. Qed.
Lemma lay_mod r v : lay r v = lay (r mod 8) v.
Proof.
  unfold lay. apply map_ext. intros j. f_equal. rewrite (Nat.add_mod j (r mod 8)), Nat.mod_mod, <- Nat.add_mod; lia.
Qed.
Lemma lay_full q v : lay (8 * q) v = list_of_vars v.
Proof.
  rewrite lay_mod, Nat.mul_comm, Nat.mod_mul by lia.
  destruct v as (((((((a, b), c), d), e), f), g), h). reflexivity.
Qed.
Lemma rot_index n r m : (n mod 8 = 0)%nat -> (r <= n)%nat ->
  ((n - r + m) mod 8 = (8 - r mod 8 + m) mod 8)%nat.
Proof.
  intros Hn Hr.
  pose proof (Nat.div_mod n 8 ltac:(lia)). pose proof (Nat.div_mod r 8 ltac:(lia)).
  pose proof (Nat.mod_upper_bound r 8 ltac:(lia)).
  set (q := (n / 8)%nat) in *. set (p := (r / 8)%nat) in *. set (s := (r mod 8)%nat) in *.
  assert (E : (8 * 1 + (n - r + m) = 8 * (q - p) + (8 - s + m))%nat) by nia.
  replace ((n - r + m) mod 8)%nat with ((n - r + m + 1 * 8) mod 8)%nat by (apply Nat.mod_add; lia).
  replace (n - r + m + 1 * 8)%nat with (8 - s + m + (q - p) * 8)%nat by lia.
  apply Nat.mod_add. lia.
Qed.

(** [window W lo hi blk]: the sixteen-word buffer holds W_lo .. W_(hi-1). *)
Definition window (W : list N) (lo hi : nat) (blk : list N) : Prop :=
  length blk = 16%nat /\ forall t, (lo <= t < hi)%nat -> get blk (t mod 16) = get W t.
Lemma window_get W lo hi blk t : window W lo hi blk -> (lo <= t < hi)%nat -> get blk (t mod 16) = get W t.
Proof. intros [_ H]. apply H. Qed.
Lemma window_weaken W lo lo' hi blk : window W lo hi blk -> (lo <= lo')%nat -> window W lo' hi blk.
Proof. intros [L H] Hl. split; [exact L|]. intros t Ht. apply H. lia. Qed.
Lemma window_upd W lo hi blk x : window W lo hi blk -> (hi <= lo + 15)%nat -> x = get W hi ->
  window W lo (S hi) (upd blk (hi mod 16) x).
Proof.
  intros [L H] Hw ->. split; [rewrite upd_length; [exact L|]; rewrite L; apply Nat.mod_upper_bound; lia|]. intros t Ht. unfold get.
  destruct (Nat.eq_dec t hi) as [->|Hne].
  - rewrite nth_upd_eq; [reflexivity|]. rewrite L. apply Nat.mod_upper_bound. lia.
  - rewrite nth_upd_neq; [apply H; lia| |rewrite L; apply Nat.mod_upper_bound; lia]. intros E.
    pose proof (Nat.div_mod t 16 ltac:(lia)). pose proof (Nat.div_mod hi 16 ltac:(lia)).
    pose proof (Nat.mod_upper_bound t 16 ltac:(lia)). nia.
Qed.
Lemma window_start W M : length M = 16%nat -> (forall t, (t < 16)%nat -> get W t = get M t) -> window W 0 16 M.
Proof. intros L H. split; [exact L|]. intros t Ht. rewrite Nat.mod_small by lia. symmetry. apply H. lia. Qed.
