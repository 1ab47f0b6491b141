(** Length encodings: minimality and unique decoding. *)
From Verif Require Import Base.Words Base.Bytes Model.Sha3 Proof.Sha3.
From Verif Require Spec.Keccak Spec.K12 Model.K12 Proof.K12.

Lemma app_inv_len (A : Type) (a b c d : list A) : length a = length b -> a ++ c = b ++ d -> a = b /\ c = d.
Proof.
  revert b. induction a as [|x a IH]; intros [|y b] L E; try discriminate L; [now split|].
  cbn [app] in E. injection E as -> E. injection L as L. destruct (IH b L E) as [-> ->]. now split.
Qed.
Lemma be_val_min d n : bytes_ok d -> 256 ^ N.of_nat n <= be_val d -> (n < length d)%nat.
Proof.
  intros H L. pose proof (be_val_lt d H) as U. destruct (Nat.lt_ge_cases n (length d)) as [|G]; [assumption|].
  assert (256 ^ N.of_nat (length d) <= 256 ^ N.of_nat n) by (apply N.pow_le_mono_r; [discriminate|lia]). lia.
Qed.
Lemma enc_len_bounds x : x < 2 ^ 64 -> (1 <= Spec.Keccak.enc_len x <= 8)%nat /\ x < 256 ^ N.of_nat (Spec.Keccak.enc_len x) /\
  (Spec.Keccak.enc_len x = 1%nat \/ 256 ^ N.of_nat (Spec.Keccak.enc_len x - 1) <= x).
Proof.
  intros H. destruct (N.eq_dec x 0) as [->|Z]; [split; [cbn; lia|]; split; [reflexivity|now left]|].
  pose proof (enc_len_le x 8 H ltac:(lia)) as L. destruct (enc_len_spec x ltac:(lia)) as [A B].
  split; [exact L|]. split; [exact B|now right].
Qed.
Lemma left_minimal x b : x < 2 ^ 64 -> length b = 9%nat ->
  exists d, fst (left_encode x b) = N.of_nat (length d) :: d /\ bytes_ok d /\ be_val d = x /\ (0 < length d)%nat /\
    forall d', bytes_ok d' -> be_val d' = x -> (0 < length d')%nat -> (length d <= length d')%nat.
Proof.
  intros H L. destruct (left_encode_spec x b H L) as [-> _]. destruct (enc_len_bounds x H) as (A & B & D).
  exists (be_bytes (Spec.Keccak.enc_len x) x). rewrite be_bytes_length. split; [reflexivity|].
  split; [apply be_bytes_ok|]. split; [rewrite be_val_bytes; now apply N.mod_small|]. split; [lia|].
  intros d' O V P. destruct D as [D|D]; [lia|]. rewrite <- V in D at 2. apply be_val_min in D; [lia|exact O].
Qed.
Lemma left_inj x y b c t u : x < 2 ^ 64 -> y < 2 ^ 64 -> length b = 9%nat -> length c = 9%nat ->
  fst (left_encode x b) ++ t = fst (left_encode y c) ++ u -> x = y /\ t = u.
Proof.
  intros Hx Hy Lb Lc E.
  destruct (left_minimal x b Hx Lb) as (d & X & _ & V & _). destruct (left_minimal y c Hy Lc) as (d' & Y & _ & V' & _).
  rewrite X, Y in E.
  cbn [app] in E. injection E as E1 E2. apply app_inv_len in E2; [|lia]. destruct E2 as [-> ->]. split; congruence.
Qed.

(** [encode_string] with the crate's [left_encode]. *)
Definition estring (s : bytes) : bytes := fst (left_encode (8 * N.of_nat (length s)) (zeros 9)) ++ s.
Lemma estring_inj s s' t t' : 8 * N.of_nat (length s) < 2 ^ 64 -> 8 * N.of_nat (length s') < 2 ^ 64 ->
  estring s ++ t = estring s' ++ t' -> s = s' /\ t = t'.
Proof.
  intros H H' E. unfold estring in E. rewrite <- !app_assoc in E. apply left_inj in E; try assumption; try reflexivity.
  destruct E as [L E]. apply app_inv_len in E; [exact E|lia].
Qed.
Lemma strings_inj n s n' s' t t' :
  Forall (fun x => 8 * N.of_nat (length x) < 2 ^ 64) [n; s; n'; s'] ->
  estring n ++ estring s ++ t = estring n' ++ estring s' ++ t' -> n = n' /\ s = s' /\ t = t'.
Proof.
  intros H E. inversion_clear H as [|? ? H1 HH]. inversion_clear HH as [|? ? H2 HH'].
  inversion_clear HH' as [|? ? H3 HH]. inversion_clear HH as [|? ? H4 _].
  apply estring_inj in E; [|assumption..]. destruct E as [-> E]. apply estring_inj in E; [|assumption..].
  destruct E as [-> ->]. repeat split.
Qed.

(** ** KangarooTwelve *)
Lemma right_minimal x : x < 2 ^ 64 ->
  exists d, Model.K12.length_encode x = Some (d ++ [N.of_nat (length d)]) /\ bytes_ok d /\ be_val d = x /\
    forall d', bytes_ok d' -> be_val d' = x -> (length d <= length d')%nat.
Proof.
  intros H. rewrite Proof.K12.length_encode_spec by exact H. destruct (Proof.K12.nbytes_le x H) as (A & B & D).
  exists (be_bytes (Spec.K12.nbytes x) x). rewrite be_bytes_length. split; [reflexivity|].
  split; [apply be_bytes_ok|]. split; [rewrite be_val_bytes; now apply N.mod_small|].
  intros d' O V. destruct D as [D|D]; [lia|]. rewrite <- V in D at 2. apply be_val_min in D; [lia|exact O].
Qed.
Lemma right_inj x y t u ex ey : x < 2 ^ 64 -> y < 2 ^ 64 -> Model.K12.length_encode x = Some ex ->
  Model.K12.length_encode y = Some ey -> t ++ ex = u ++ ey -> x = y /\ t = u.
Proof.
  intros Hx Hy Ex Ey E.
  destruct (right_minimal x Hx) as (d & X & _ & V & _). destruct (right_minimal y Hy) as (d' & Y & _ & V' & _).
  rewrite Ex in X. rewrite Ey in Y. injection X as ->. injection Y as ->.
  rewrite !app_assoc in E. apply app_inj_tail in E as [E L]. assert (LL : length d = length d') by lia.
  apply (f_equal (@rev N)) in E. rewrite !rev_app_distr in E. apply app_inv_len in E; [|now rewrite !rev_length].
  destruct E as [E1 E2]. apply (f_equal (@rev N)) in E1, E2. rewrite !rev_involutive in E1, E2. subst.
  now split.
Qed.
(** The string KangarooTwelve hashes determines message and customization. *)
Lemma k12_input_inj M C M' C' e e' : N.of_nat (length C) < 2 ^ 64 -> N.of_nat (length C') < 2 ^ 64 ->
  Model.K12.length_encode (N.of_nat (length C)) = Some e -> Model.K12.length_encode (N.of_nat (length C')) = Some e' ->
  M ++ C ++ e = M' ++ C' ++ e' -> M = M' /\ C = C'.
Proof.
  intros H H' E E' Q. rewrite !app_assoc in Q. apply (right_inj _ _ _ _ e e' H H' E E') in Q as [L Q].
  apply (f_equal (@rev N)) in Q. rewrite !rev_app_distr in Q. apply app_inv_len in Q; [|rewrite !rev_length; lia].
  destruct Q as [Q1 Q2]. apply (f_equal (@rev N)) in Q1, Q2. rewrite !rev_involutive in Q1, Q2. now split.
Qed.
