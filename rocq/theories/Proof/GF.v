(** Table look-ups that combine an S-box with a matrix over GF(2^8). *)
From Verif Require Import Base.Words Base.Bytes Base.ByteFacts Spec.GF.

Lemma xors_app a b : xors (a ++ b) = N.lxor (xors a) (xors b).
Proof.
  induction a as [|x a IH]; cbn [app xors fold_right]; [now rewrite N.lxor_0_l|].
  change (N.lxor x (xors (a ++ b)) = N.lxor (N.lxor x (xors a)) (xors b)). now rewrite IH, N.lxor_assoc.
Qed.
Lemma xors_cons x l : xors (x :: l) = N.lxor x (xors l).
Proof. reflexivity. Qed.
Lemma xors_lt w l : Forall (fun x => x < 2 ^ w) l -> xors l < 2 ^ w.
Proof.
  induction 1 as [|x l H _ IH]; cbn [xors fold_right]; [apply pow2_pos|]. now apply lxor_lt.
Qed.
Lemma xtime_lt poly x : 256 <= poly < 512 -> x < 256 -> xtime poly x < 256.
Proof.
  intros P H. unfold xtime. cbv zeta. destruct (N.ltb_spec (2 * x) 256) as [L|L]; [exact L|].
  change 256 with (2 ^ 8). apply lt_pow2_bits. intros i Hi. rewrite N.lxor_spec.
  destruct (N.eq_dec i 8) as [->|Ne].
  - assert (B : forall y, 256 <= y < 512 -> N.testbit y 8 = true).
    { intros y Hy. rewrite N.testbit_true. change (2 ^ 8) with 256. now replace (y / 256) with 1 by (apply (N.div_unique _ _ _ (y - 256)); lia). }
    now rewrite !B by lia.
  - assert (B : forall y, y < 512 -> N.testbit y i = false).
    { intros y Hy. apply (proj1 (lt_pow2_bits y 9)); [exact Hy|lia]. }
    now rewrite !B by lia.
Qed.
Lemma gmul_lt poly a b : 256 <= poly < 512 -> a < 256 -> gmul poly a b < 256.
Proof.
  intros P H. unfold gmul. change 256 with (2 ^ 8). apply xors_lt, Forall_forall. intros x Hx.
  apply in_map_iff in Hx as (i & <- & _). destruct (N.testbit b _); [|reflexivity].
  unfold Nat.iter. induction i as [|i IH]; cbn [nat_rect]; [exact H|]. now apply xtime_lt.
Qed.

(** [le_val] and [be_val] are linear. *)
Lemma le_bytes_lxor n x y : le_bytes n (N.lxor x y) = xor_bytes (le_bytes n x) (le_bytes n y).
Proof.
  revert x y. induction n as [|n IH]; intros x y; [reflexivity|]. cbn [le_bytes]. unfold xor_bytes. cbn [combine map fst snd].
  apply f_equal2.
  - rewrite <- !land_ones_8. bitblast.
  - fold (xor_bytes (le_bytes n (x / 256)) (le_bytes n (y / 256))). rewrite <- IH. f_equal.
    change 256 with (2 ^ 8). rewrite <- !N.shiftr_div_pow2. apply shiftr_lxor.
Qed.
Lemma le_val_xor a b : bytes_ok a -> bytes_ok b -> length a = length b ->
  le_val (xor_bytes a b) = N.lxor (le_val a) (le_val b).
Proof.
  intros Ba Bb L. assert (Lx : length (xor_bytes a b) = length a) by (rewrite xor_bytes_length; lia).
  apply (le_bytes_inj (length a)).
  - rewrite <- Lx. apply le_val_lt. now apply xor_bytes_ok.
  - rewrite pow256. apply lxor_lt; rewrite <- pow256; [now apply le_val_lt|]. rewrite L. now apply le_val_lt.
  - rewrite le_bytes_lxor, <- Lx at 1. rewrite le_bytes_val by now apply xor_bytes_ok.
    rewrite le_bytes_val by assumption. now rewrite L, le_bytes_val.
Qed.
Lemma combine_snoc {A B} (a : list A) (b : list B) x y : length a = length b ->
  combine (a ++ [x]) (b ++ [y]) = combine a b ++ [(x, y)].
Proof.
  revert b. induction a as [|u a IH]; intros [|v b] L; try discriminate L; cbn; [reflexivity|]. now rewrite IH by now injection L.
Qed.
Lemma xor_bytes_rev a b : length a = length b -> xor_bytes (rev a) (rev b) = rev (xor_bytes a b).
Proof.
  revert b. induction a as [|x a IH]; intros [|y b] L; try discriminate L; cbn [rev]; [reflexivity|].
  injection L as L. unfold xor_bytes in *. rewrite combine_snoc by now rewrite !rev_length.
  rewrite map_app, IH by exact L. reflexivity.
Qed.
Lemma be_val_xor a b : bytes_ok a -> bytes_ok b -> length a = length b ->
  be_val (xor_bytes a b) = N.lxor (be_val a) (be_val b).
Proof.
  intros Ba Bb L. unfold be_val. rewrite <- xor_bytes_rev by exact L.
  apply le_val_xor; [now apply Forall_rev|now apply Forall_rev|now rewrite !rev_length].
Qed.
Lemma le_val_zeros n : le_val (zeros n) = 0.
Proof. induction n as [|n IH]; cbn; [reflexivity|]. change (0 + 256 * le_val (zeros n) = 0). now rewrite IH. Qed.
Lemma be_val_zeros n : be_val (zeros n) = 0.
Proof.
  unfold be_val. replace (rev (zeros n)) with (zeros n); [apply le_val_zeros|].
  induction n as [|n IH]; [reflexivity|]. change (zeros (S n)) with (0 :: zeros n). cbn [rev]. rewrite <- IH.
  clear IH. induction n as [|n IH]; [reflexivity|]. cbn [zeros repeat app]. now f_equal.
Qed.

(** An encoding of byte vectors as words that is linear. *)
Definition linear (enc : list N -> N) : Prop :=
  (forall a b, bytes_ok a -> bytes_ok b -> length a = length b -> enc (xor_bytes a b) = N.lxor (enc a) (enc b)) /\
  (forall n, enc (zeros n) = 0).
Lemma le_linear : linear le_val.
Proof. split; [exact le_val_xor|exact le_val_zeros]. Qed.
Lemma be_linear : linear be_val.
Proof. split; [exact be_val_xor|exact be_val_zeros]. Qed.

Lemma map_zero {A} (l : list A) : map (fun _ => 0) l = zeros (length l).
Proof. induction l as [|x l IH]; cbn; [reflexivity|]. now rewrite IH. Qed.
Lemma map_xor {A} (f g : A -> N) l : map (fun x => N.lxor (f x) (g x)) l = xor_bytes (map f l) (map g l).
Proof. unfold xor_bytes. induction l as [|x l IH]; cbn; [reflexivity|]. now rewrite IH. Qed.

Lemma enc_sum {A} enc (g : A -> nat -> N) (M : list A) ks : linear enc -> (forall r k, g r k < 256) ->
  enc (map (fun r => xors (map (g r) ks)) M) = xors (map (fun k => enc (map (fun r => g r k) M)) ks).
Proof.
  intros [LX LZ] B. induction ks as [|k ks IH]; cbn [map].
  - change (xors []) with 0. rewrite map_zero. apply LZ.
  - rewrite xors_cons, <- IH. erewrite map_ext; [|intros r; apply xors_cons]. rewrite (map_xor (fun r => g r k) (fun r => xors (map (g r) ks))). apply LX.
    + apply Forall_forall. intros x Hx. apply in_map_iff in Hx as (r & <- & _). apply B.
    + apply Forall_forall. intros x Hx. apply in_map_iff in Hx as (r & <- & _). change 256 with (2 ^ 8).
      apply xors_lt, Forall_forall. intros y Hy. apply in_map_iff in Hy as (k' & <- & _). apply B.
    + now rewrite !map_length.
Qed.
(** Look-ups in tables of S-box outputs multiplied with the columns of a matrix. *)
Lemma ttable enc poly M (S : N -> N) (tab : nat -> N -> N) v : linear enc -> 256 <= poly < 512 ->
  Forall bytes_ok M -> bytes_ok v -> length v = 8%nat ->
  (forall k x, (k < 8)%nat -> x < 256 -> tab k x = enc (map (fun r => gmul poly (get r k) (S x)) M)) ->
  xors (map (fun k => tab k (get v k)) (seq 0 8)) = enc (mat_vec poly M (map S v)).
Proof.
  intros LE P MB VB LV T.
  assert (E : mat_vec poly M (map S v) = map (fun r => xors (map (fun k => gmul poly (get r k mod 256) (get (map S v) k)) (seq 0 8))) M).
  { unfold mat_vec, dot. apply map_ext_in. intros r Hr. f_equal. apply map_ext. intros k.
    rewrite (N.mod_small (get r k)); [reflexivity|]. change 256 with (2 ^ 8). apply get_ok; [|reflexivity].
    exact (proj1 (Forall_forall _ _) MB r Hr). }
  rewrite E. rewrite (enc_sum enc (fun r k => gmul poly (get r k mod 256) (get (map S v) k))); [|exact LE|].
  - f_equal. apply map_ext_in. intros k Hk. apply in_seq in Hk. rewrite T; [|lia|change 256 with (2 ^ 8); now apply get_ok].
    f_equal. apply map_ext_in. intros r Hr. rewrite (N.mod_small (get r k)).
    + f_equal. unfold get. rewrite (nth_indep (map S v) oob (S oob)) by (rewrite map_length; lia). now rewrite map_nth.
    + change 256 with (2 ^ 8). apply get_ok; [|reflexivity]. exact (proj1 (Forall_forall _ _) MB r Hr).
  - intros r k. apply gmul_lt; [exact P|]. apply N.mod_lt. discriminate.
Qed.

(** Check the tables entry by entry. *)
Definition check_tables enc poly M (S : N -> N) (tabs : list (list N)) : bool :=
  forallb (fun k => forallb (fun x => get (nth k tabs []) x =? enc (map (fun r => gmul poly (get r k) (S (N.of_nat x))) M))
    (seq 0 256)) (seq 0 8).
Lemma check_tables_ok enc poly M S tabs : check_tables enc poly M S tabs = true ->
  forall k x, (k < 8)%nat -> x < 256 ->
  get (nth k tabs []) (N.to_nat x) = enc (map (fun r => gmul poly (get r k) (S x)) M).
Proof.
  intros C k x Hk Hx. unfold check_tables in C. rewrite forallb_forall in C.
  specialize (C k ltac:(apply in_seq; lia)). rewrite forallb_forall in C.
  specialize (C (N.to_nat x) ltac:(apply in_seq; lia)). apply N.eqb_eq in C. rewrite C. now rewrite N2Nat.id.
Qed.
