(** Bytes of a word as bit fields. *)
From Verif Require Import Base.Words Base.Bytes.

Lemma land_ones_8 x : N.land x 255 = x mod 256.
Proof. change 255 with (N.ones 8). now rewrite N.land_ones. Qed.
Lemma get_le_bytes n x k : (k < n)%nat -> get (le_bytes n x) k = N.land (N.shiftr x (8 * N.of_nat k)) 255.
Proof.
  revert x k. induction n as [|n IH]; intros x k H; [lia|]. destruct k as [|k]; cbn [le_bytes].
  - change (8 * N.of_nat 0) with 0. rewrite N.shiftr_0_r, land_ones_8. reflexivity.
  - change (get (x mod 256 :: le_bytes n (x / 256)) (S k)) with (get (le_bytes n (x / 256)) k).
    rewrite IH by lia. f_equal. change 256 with (2 ^ 8). rewrite <- N.shiftr_div_pow2, N.shiftr_shiftr. f_equal. lia.
Qed.
Lemma le_bytes_app a b x : le_bytes (a + b) x = le_bytes a x ++ le_bytes b (x / 256 ^ N.of_nat a).
Proof.
  revert x. induction a as [|a IH]; intros x.
  - cbn [Nat.add le_bytes app]. change (256 ^ N.of_nat 0) with 1. now rewrite N.div_1_r.
  - cbn [Nat.add le_bytes app]. rewrite IH. do 3 f_equal.
    rewrite Nat2N.inj_succ, N.pow_succ_r', N.div_div; [reflexivity|lia|]. apply N.pow_nonzero. lia.
Qed.
Lemma be_bytes_app a b x : be_bytes (a + b) x = be_bytes a (x / 256 ^ N.of_nat b) ++ be_bytes b x.
Proof. unfold be_bytes. rewrite Nat.add_comm, le_bytes_app. apply rev_app_distr. Qed.
Lemma get_map_seq (f : nat -> N) n i : (i < n)%nat -> get (map f (seq 0 n)) i = f i.
Proof.
  intros H. unfold get. rewrite (nth_indep _ oob (f 0%nat)) by (rewrite map_length, seq_length; exact H).
  rewrite map_nth, seq_nth by exact H. reflexivity.
Qed.
Lemma nth_map_seq {A} (f : nat -> A) n i d : (i < n)%nat -> nth i (map f (seq 0 n)) d = f i.
Proof.
  intros H. rewrite (nth_indep _ d (f 0%nat)) by (rewrite map_length, seq_length; exact H).
  rewrite map_nth, seq_nth by exact H. reflexivity.
Qed.
