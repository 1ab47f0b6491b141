(** States of the AES-like hash functions: lists of columns of 8 bytes, and their encoding
    as big-endian words. *)
From Verif Require Import Base.Words Base.Bytes Base.ByteFacts Base.Codec Base.BlockBufferFacts Base.MDFacts Spec.GF Proof.GF.
From Verif Require Spec.Groestl.
Import Spec.Groestl (matrix, at_, build, sum).

(** ** States as words *)
Definition mok (n : nat) (A : matrix) : Prop := length A = n /\ Forall (fun r => length r = 8%nat /\ bytes_ok r) A.
Definition enc (A : matrix) : list N := map be_val A.
Lemma mok_col n A j : mok n A -> (j < n)%nat -> length (nth j A []) = 8%nat /\ bytes_ok (nth j A []).
Proof. intros [L F] H. apply (proj1 (Forall_forall _ _) F). apply nth_In. lia. Qed.
Lemma get_enc A j : (j < length A)%nat -> get (enc A) j = be_val (nth j A []).
Proof. intros H. unfold get, enc. rewrite (nth_indep _ oob (be_val [])) by now rewrite map_length. apply map_nth. Qed.
Lemma byte_of r i : length r = 8%nat -> bytes_ok r -> (i < 8)%nat ->
  N.land (N.shiftr (be_val r) (8 * (7 - N.of_nat i))) 255 = get r i.
Proof.
  intros L B H. unfold be_val. replace (7 - N.of_nat i) with (N.of_nat (7 - i)) by lia.
  rewrite <- (get_le_bytes 8) by lia. rewrite <- L at 1. rewrite <- rev_length, le_bytes_val by now apply Forall_rev.
  unfold get. rewrite rev_nth by lia. f_equal. lia.
Qed.
Lemma map_get (l : list N) : map (get l) (seq 0 (length l)) = l.
Proof. apply (list_eq_get); [now rewrite map_length, seq_length|]. intros i Hi. rewrite map_length, seq_length in Hi. now apply get_map_seq. Qed.
Lemma build_ok n f : (forall i j, (i < 8)%nat -> (j < n)%nat -> f i j < 256) -> mok n (build n f).
Proof.
  intros H. unfold build. split; [now rewrite map_length, seq_length|]. apply Forall_forall. intros c Hc.
  apply in_map_iff in Hc as (j & <- & Hj). apply in_seq in Hj. split; [now rewrite map_length, seq_length|].
  apply Forall_forall. intros x Hx. apply in_map_iff in Hx as (i & <- & Hi). apply in_seq in Hi. apply H; lia.
Qed.
Lemma at_build n f i j : (i < 8)%nat -> (j < n)%nat -> at_ (build n f) i j = f i j.
Proof. intros Hi Hj. unfold at_, build. rewrite (nth_map_seq _ n j) by exact Hj. now apply (get_map_seq (fun i => f i j)). Qed.
Lemma at_lt n A i j : mok n A -> at_ A i j < 256.
Proof.
  intros [L F]. unfold at_. change 256 with (2 ^ 8). apply get_ok; [|reflexivity].
  destruct (Nat.lt_ge_cases j (length A)) as [H|H].
  - apply (proj1 (Forall_forall _ _) F). now apply nth_In.
  - rewrite nth_overflow by exact H. constructor.
Qed.
Lemma enc_eq n (f : nat -> N) A : mok n A -> (forall j, (j < n)%nat -> f j = be_val (nth j A [])) -> map f (seq 0 n) = enc A.
Proof.
  intros [L F] H. apply list_eq_get.
  - unfold enc. now rewrite !map_length, seq_length.
  - intros i Hi. rewrite map_length, seq_length in Hi. rewrite get_map_seq, get_enc by lia. now apply H.
Qed.

Lemma sum_spec n X Y : mok n X -> mok n Y -> mok n (sum X Y) /\
  forall j, (j < n)%nat -> be_val (nth j (sum X Y) []) = N.lxor (be_val (nth j X [])) (be_val (nth j Y [])).
Proof.
  intros OX OY. assert (N : forall j, (j < n)%nat -> nth j (sum X Y) [] = xor_bytes (nth j X []) (nth j Y [])).
  { intros j Hj. unfold sum. change [] with ((fun p : list N * list N => xor_bytes (fst p) (snd p)) ([], [])) at 1.
    rewrite map_nth, combine_nth by (destruct OX, OY; congruence). reflexivity. }
  assert (L : length (sum X Y) = n) by (unfold sum; rewrite map_length, combine_length; destruct OX, OY; lia).
  split.
  - split; [exact L|]. apply Forall_forall. intros c Hc. apply (In_nth _ _ []) in Hc as (j & Hj & <-). rewrite L in Hj.
    rewrite N by exact Hj. destruct (mok_col n X j OX Hj) as [LX BX], (mok_col n Y j OY Hj) as [LY BY].
    split; [rewrite xor_bytes_length; lia|now apply xor_bytes_ok].
  - intros j Hj. rewrite N by exact Hj. destruct (mok_col n X j OX Hj) as [LX BX], (mok_col n Y j OY Hj) as [LY BY].
    apply be_val_xor; congruence || assumption.
Qed.
Lemma enc_sum2 n X Y (f : nat -> N) : mok n X -> mok n Y ->
  (forall j, (j < n)%nat -> f j = N.lxor (be_val (nth j X [])) (be_val (nth j Y []))) ->
  map f (seq 0 n) = enc (sum X Y).
Proof. intros OX OY H. destruct (sum_spec n X Y OX OY) as [O E]. apply enc_eq; [exact O|]. intros j Hj. rewrite E by exact Hj. now apply H. Qed.

Lemma block_ok n b : length b = (8 * n)%nat -> bytes_ok b -> mok n (chunks 8 b).
Proof.
  intros L B. split; [rewrite chunks_length, L, Nat.mul_comm, Nat.div_mul by lia; reflexivity|].
  apply Forall_and; [apply chunks_block_length; lia|]. now apply chunks_ok; [lia|].
Qed.
Lemma skipn_skipn {A} a b (l : list A) : skipn a (skipn b l) = skipn (b + a) l.
Proof. revert l. induction b as [|b IH]; intros l; [reflexivity|]. destruct l; [now rewrite !skipn_nil|]. apply IH. Qed.
Lemma concat_skipn k (A : matrix) : Forall (fun r => length r = 8%nat) A -> concat (skipn k A) = skipn (8 * k) (concat A).
Proof.
  revert A. induction k as [|k IH]; intros A F; [reflexivity|]. destruct A as [|c A]; [now rewrite !skipn_nil|].
  inversion F as [|? ? L F']; subst. cbn [skipn concat]. rewrite (IH A F'), skipn_app, L.
  rewrite (skipn_all2 c) by lia. cbn [app]. f_equal. lia.
Qed.
Lemma enc_bytes n A : mok n A -> words_to_be 8 (enc A) = concat A.
Proof.
  intros [_ F]. unfold words_to_be, enc. rewrite map_map. f_equal. rewrite <- (map_id A) at 2.
  apply map_ext_in. intros r Hr. rewrite Forall_forall in F. destruct (F r Hr) as [L B]. rewrite <- L at 1. now apply be_bytes_val.
Qed.
Lemma concat_length8 (A : matrix) : Forall (fun r => length r = 8%nat) A -> length (concat A) = (8 * length A)%nat.
Proof. intros F. induction F as [|c A L F IH]; [reflexivity|]. cbn [concat length]. rewrite app_length, IH, L. lia. Qed.
Lemma fold_rounds n (f : list N -> nat -> list N) (g : matrix -> nat -> matrix) :
  (forall A r, mok n A -> (r < 14)%nat -> f (enc A) r = enc (g A r) /\ mok n (g A r)) ->
  forall k a A, (a + k <= 14)%nat -> mok n A ->
  fold_left f (seq a k) (enc A) = enc (fold_left g (seq a k) A) /\ mok n (fold_left g (seq a k) A).
Proof.
  intros H k. induction k as [|k IH]; intros a A L OK; [split; [reflexivity|exact OK]|].
  cbn [seq fold_left]. destruct (H A a OK ltac:(lia)) as [-> O]. apply IH; [lia|exact O].
Qed.
