(** Words as bytes: the [chunks_exact(k)] / [from_le_bytes] / [to_le_bytes]
    loops that every crate uses. *)
From Verif Require Import Base.Words Base.Bytes.

(** [for (chunk, v) in out.chunks_exact_mut(k).zip(words) { chunk.copy_from_slice(&v.to_le_bytes()) }]
    on an [out] that has room for exactly these words. *)
Definition words_to_le (k : nat) (ws : list N) : bytes := concat (map (le_bytes k) ws).
Definition words_to_be (k : nat) (ws : list N) : bytes := concat (map (be_bytes k) ws).
(** [for (v, chunk) in words.iter_mut().zip(bytes.chunks_exact(k)) { *v = from_le_bytes(chunk) }] *)
Definition words_of_le (k : nat) (b : bytes) : list N := map le_val (chunks k b).
Definition words_of_be (k : nat) (b : bytes) : list N := map be_val (chunks k b).

Lemma words_to_le_length k ws : length (words_to_le k ws) = (k * length ws)%nat.
Proof.
  unfold words_to_le. rewrite (concat_length_blocks k), map_length; [reflexivity|].
  apply Forall_forall. intros x Hx. apply in_map_iff in Hx. destruct Hx as (y & <- & _). apply le_bytes_length.
Qed.
Lemma words_to_be_length k ws : length (words_to_be k ws) = (k * length ws)%nat.
Proof.
  unfold words_to_be. rewrite (concat_length_blocks k), map_length; [reflexivity|].
  apply Forall_forall. intros x Hx. apply in_map_iff in Hx. destruct Hx as (y & <- & _). apply be_bytes_length.
Qed.
Lemma words_to_le_ok k ws : bytes_ok (words_to_le k ws).
Proof.
  apply bytes_ok_concat, Forall_forall. intros x Hx. apply in_map_iff in Hx.
  destruct Hx as (y & <- & _). apply le_bytes_ok.
Qed.
Lemma words_to_be_ok k ws : bytes_ok (words_to_be k ws).
Proof.
  apply bytes_ok_concat, Forall_forall. intros x Hx. apply in_map_iff in Hx.
  destruct Hx as (y & <- & _). apply be_bytes_ok.
Qed.

Lemma words_of_le_length k b : (0 < k)%nat -> length (words_of_le k b) = (length b / k)%nat.
Proof. intros H. unfold words_of_le. now rewrite map_length, chunks_length. Qed.
Lemma words_of_be_length k b : (0 < k)%nat -> length (words_of_be k b) = (length b / k)%nat.
Proof. intros H. unfold words_of_be. now rewrite map_length, chunks_length. Qed.

Lemma words_of_le_ok k b : (0 < k)%nat -> bytes_ok b -> words_ok (8 * N.of_nat k) (words_of_le k b).
Proof.
  intros H B. unfold words_of_le, words_ok. apply Forall_forall. intros x Hx.
  apply in_map_iff in Hx. destruct Hx as (c & <- & Hc).
  pose proof (chunks_ok k b H B) as O. pose proof (chunks_block_length k b H) as L.
  rewrite Forall_forall in O, L. rewrite <- pow256, <- (L c Hc). apply le_val_lt, O, Hc.
Qed.
Lemma words_of_be_ok k b : (0 < k)%nat -> bytes_ok b -> words_ok (8 * N.of_nat k) (words_of_be k b).
Proof.
  intros H B. unfold words_of_be, words_ok. apply Forall_forall. intros x Hx.
  apply in_map_iff in Hx. destruct Hx as (c & <- & Hc).
  pose proof (chunks_ok k b H B) as O. pose proof (chunks_block_length k b H) as L.
  rewrite Forall_forall in O, L. rewrite <- pow256, <- (L c Hc). apply be_val_lt, O, Hc.
Qed.

Lemma words_le_roundtrip k ws : (0 < k)%nat -> words_ok (8 * N.of_nat k) ws ->
  words_of_le k (words_to_le k ws) = ws.
Proof.
  intros H B. unfold words_of_le, words_to_le. rewrite chunks_concat.
  - rewrite map_map. rewrite <- (map_id ws) at 2. apply map_ext_in. intros x Hx.
    rewrite le_val_bytes, pow256. apply N.mod_small. unfold words_ok in B. rewrite Forall_forall in B. auto.
  - exact H.
  - apply Forall_forall. intros x Hx. apply in_map_iff in Hx. destruct Hx as (y & <- & _). apply le_bytes_length.
Qed.

Lemma words_le_canonical k n b : (0 < k)%nat -> bytes_ok b -> length b = (k * n)%nat ->
  words_to_le k (words_of_le k b) = b.
Proof.
  intros H B L. unfold words_of_le, words_to_le. rewrite map_map.
  rewrite <- (concat_chunks_rem k b H) at 2.
  assert (R : remainder k b = []).
  { apply length_zero_iff_nil. rewrite remainder_length by exact H. rewrite L, Nat.mul_comm.
    apply Nat.mod_mul. lia. }
  rewrite R, app_nil_r. f_equal. rewrite <- (map_id (chunks k b)) at 2.
  pose proof (chunks_ok k b H B) as O. pose proof (chunks_block_length k b H) as Lb.
  rewrite Forall_forall in O, Lb. apply map_ext_in. intros c Hc.
  rewrite <- (Lb c Hc). apply le_bytes_val, O, Hc.
Qed.
Lemma words_be_canonical k n b : (0 < k)%nat -> bytes_ok b -> length b = (k * n)%nat ->
  words_to_be k (words_of_be k b) = b.
Proof.
  intros H B L. unfold words_of_be, words_to_be. rewrite map_map.
  rewrite <- (concat_chunks_rem k b H) at 2.
  assert (R : remainder k b = []).
  { apply length_zero_iff_nil. rewrite remainder_length by exact H. rewrite L, Nat.mul_comm.
    apply Nat.mod_mul. lia. }
  rewrite R, app_nil_r. f_equal. rewrite <- (map_id (chunks k b)) at 2.
  pose proof (chunks_ok k b H B) as O. pose proof (chunks_block_length k b H) as Lb.
  rewrite Forall_forall in O, Lb. apply map_ext_in. intros c Hc.
  rewrite <- (Lb c Hc). apply be_bytes_val, O, Hc.
Qed.

Lemma firstn_app_exact {A} n (a b : list A) : length a = n -> firstn n (a ++ b) = a.
Proof. intros <-. now rewrite firstn_app, firstn_all, Nat.sub_diag, firstn_O, app_nil_r. Qed.
Lemma skipn_app_exact {A} n (a b : list A) : length a = n -> skipn n (a ++ b) = b.
Proof. intros <-. now rewrite skipn_app, skipn_all, Nat.sub_diag, skipn_O. Qed.

(** The common format: state words, little endian, then a block counter. *)
Definition ser_counted (k c : nat) (st : list N * N) : bytes :=
  words_to_le k (fst st) ++ le_bytes c (snd st).
Definition deser_counted (k n : nat) (b : bytes) : option (list N * N) :=
  Some (words_of_le k (firstn (k * n) b), le_val (skipn (k * n) b)).

Lemma counted_roundtrip k n c st : (0 < k)%nat -> length (fst st) = n ->
  words_ok (8 * N.of_nat k) (fst st) -> snd st < 2 ^ (8 * N.of_nat c) ->
  length (ser_counted k c st) = (k * n + c)%nat /\
  deser_counted k n (ser_counted k c st) = Some st.
Proof.
  intros H L B C. unfold ser_counted, deser_counted. split.
  - now rewrite app_length, words_to_le_length, le_bytes_length, L.
  - assert (L' : length (words_to_le k (fst st)) = (k * n)%nat) by now rewrite words_to_le_length, L.
    rewrite (firstn_app_exact _ _ _ L'), (skipn_app_exact _ _ _ L').
    rewrite words_le_roundtrip by assumption. rewrite le_val_bytes, pow256, N.mod_small by assumption.
    now destruct st.
Qed.

Lemma counted_canonical k n c b st : (0 < k)%nat -> bytes_ok b -> length b = (k * n + c)%nat ->
  deser_counted k n b = Some st -> ser_counted k c st = b.
Proof.
  intros H B L E. injection E as <-. unfold ser_counted. cbn [fst snd].
  rewrite (words_le_canonical k n); [|exact H|now apply bytes_ok_firstn|rewrite firstn_length; lia].
  assert (Ls : length (skipn (k * n) b) = c) by (rewrite skipn_length; lia).
  rewrite <- Ls at 1. rewrite le_bytes_val by now apply bytes_ok_skipn. apply firstn_skipn.
Qed.
