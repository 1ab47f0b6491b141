(** Message schedules built by appending words computed from the earlier ones. *)
From Verif Require Import Base.Words.

Fixpoint gextend (next : list N -> N) (n : nat) (W : list N) : list N :=
  match n with O => W | S k => gextend next k (W ++ [next W]) end.

Lemma gextend_length next n W : length (gextend next n W) = (length W + n)%nat.
Proof. revert W; induction n as [|n IH]; intros W; cbn [gextend]; [lia|]. rewrite IH, app_length. cbn. lia. Qed.
Lemma gextend_prefix next n W : firstn (length W) (gextend next n W) = W.
Proof.
  revert W; induction n as [|n IH]; intros W; cbn [gextend]; [apply firstn_all|].
  specialize (IH (W ++ [next W])). rewrite app_length in IH. cbn in IH.
  assert (E : firstn (length W) (firstn (length W + 1) (gextend next n (W ++ [next W]))) = firstn (length W) (W ++ [next W])) by now rewrite IH.
  rewrite firstn_firstn in E. replace (Nat.min (length W) (length W + 1)) with (length W) in E by lia.
  rewrite E. now rewrite firstn_app, firstn_all, Nat.sub_diag, firstn_O, app_nil_r.
Qed.
Lemma gextend_old next n W t : (t < length W)%nat -> get (gextend next n W) t = get W t.
Proof.
  intros H. rewrite <- (gextend_prefix next n W) at 2. unfold get.
  rewrite <- (firstn_skipn (length W) (gextend next n W)) at 1.
  apply app_nth1. rewrite firstn_length, gextend_length. lia.
Qed.
Lemma gextend_new next n W t : (length W <= t < length W + n)%nat ->
  get (gextend next n W) t = next (firstn t (gextend next n W)).
Proof.
  revert W; induction n as [|n IH]; intros W H; [lia|]. cbn [gextend].
  destruct (Nat.eq_dec t (length W)) as [->|Hne].
  - rewrite gextend_old by (rewrite app_length; cbn; lia).
    unfold get at 1. rewrite app_nth2, Nat.sub_diag by lia. cbn [nth]. f_equal. symmetry.
    exact (gextend_prefix next (S n) W).
  - apply IH. rewrite app_length. cbn. lia.
Qed.
Lemma get_firstn l n i : (i < n)%nat -> get (firstn n l) i = get l i.
Proof.
  intros H. destruct (Nat.lt_ge_cases i (length l)) as [L|L].
  - unfold get. rewrite <- (firstn_skipn n l) at 2. rewrite app_nth1; [reflexivity|]. rewrite firstn_length. lia.
  - unfold get. rewrite !nth_overflow; [reflexivity|lia|rewrite firstn_length; lia].
Qed.
Lemma gextend_ok w next n W : (forall l, words_ok w l -> next l < 2 ^ w) -> words_ok w W ->
  words_ok w (gextend next n W).
Proof.
  intros H. revert W; induction n as [|n IH]; intros W HW; cbn [gextend]; [exact HW|].
  apply IH. apply Forall_app. split; [exact HW|]. repeat constructor. now apply H.
Qed.
