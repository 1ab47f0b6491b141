(** Byte strings: little/big endian conversions and splitting into blocks. *)
From Verif Require Import Base.Words.

Notation bytes := (list N).
Definition bytes_ok (l : bytes) : Prop := Forall (fun b => b < 256) l.

(** [x.to_le_bytes()], [x.to_be_bytes()] for an [n]-byte integer. *)
Fixpoint le_bytes (n : nat) (x : N) : bytes :=
  match n with
  | O => []
  | S k => x mod 256 :: le_bytes k (x / 256)
  end.
Definition be_bytes (n : nat) (x : N) : bytes := rev (le_bytes n x).
(** [from_le_bytes], [from_be_bytes]. *)
Fixpoint le_val (l : bytes) : N :=
  match l with
  | [] => 0
  | b :: t => b + 256 * le_val t
  end.
Definition be_val (l : bytes) : N := le_val (rev l).

(** [l.chunks_exact(n)] and its remainder. *)
Fixpoint chunks_fuel {A} (fuel n : nat) (l : list A) : list (list A) :=
  match fuel with
  | O => []
  | S f => if (n <=? length l)%nat then firstn n l :: chunks_fuel f n (skipn n l) else []
  end.
Definition chunks {A} (n : nat) (l : list A) : list (list A) := chunks_fuel (length l) n l.
Definition remainder {A} (n : nat) (l : list A) : list A := skipn (n * (length l / n)) l.

Definition zeros (n : nat) : bytes := repeat 0 n.
Definition xor_bytes (a b : bytes) : bytes := map (fun p => N.lxor (fst p) (snd p)) (combine a b).

(** ** Endianness lemmas *)
Lemma le_bytes_length n x : length (le_bytes n x) = n.
Proof. revert x. induction n as [|n IH]; intros x; cbn; auto. Qed.
Lemma be_bytes_length n x : length (be_bytes n x) = n.
Proof. unfold be_bytes. now rewrite rev_length, le_bytes_length. Qed.
Lemma le_bytes_ok n x : bytes_ok (le_bytes n x).
Proof.
  revert x. induction n as [|n IH]; intros x; cbn [le_bytes]; constructor.
  - apply N.mod_lt; discriminate.
  - apply IH.
Qed.
Lemma be_bytes_ok n x : bytes_ok (be_bytes n x).
Proof. apply Forall_rev, le_bytes_ok. Qed.

Lemma le_val_bytes n x : le_val (le_bytes n x) = x mod 256 ^ N.of_nat n.
Proof.
  revert x. induction n as [|n IH]; intros x; cbn [le_bytes le_val].
  - now rewrite N.mod_1_r.
  - rewrite IH, Nnat.Nat2N.inj_succ, N.pow_succ_r'.
    rewrite N.mod_mul_r; [reflexivity|discriminate|].
    apply N.pow_nonzero; discriminate.
Qed.
Lemma be_val_bytes n x : be_val (be_bytes n x) = x mod 256 ^ N.of_nat n.
Proof. unfold be_val, be_bytes. rewrite rev_involutive. apply le_val_bytes. Qed.

Lemma le_bytes_val l : bytes_ok l -> le_bytes (length l) (le_val l) = l.
Proof.
  induction 1 as [|b t Hb Ht IH]; cbn [length le_bytes le_val]; [reflexivity|].
  replace ((b + 256 * le_val t) mod 256) with b; [replace ((b + 256 * le_val t) / 256) with (le_val t)|].
  - now rewrite IH.
  - apply (N.div_unique _ _ _ b); lia.
  - apply (N.mod_unique _ _ (le_val t)); lia.
Qed.
Lemma be_bytes_val l : bytes_ok l -> be_bytes (length l) (be_val l) = l.
Proof.
  intros H. unfold be_bytes, be_val. rewrite <- (rev_length l), le_bytes_val.
  - apply rev_involutive.
  - now apply Forall_rev.
Qed.
Lemma le_val_lt l : bytes_ok l -> le_val l < 256 ^ N.of_nat (length l).
Proof.
  induction 1 as [|b t Hb Ht IH]; cbn [length le_val].
  - reflexivity.
  - rewrite Nnat.Nat2N.inj_succ, N.pow_succ_r'. lia.
Qed.
Lemma be_val_lt l : bytes_ok l -> be_val l < 256 ^ N.of_nat (length l).
Proof. intros H. unfold be_val. rewrite <- rev_length. apply le_val_lt. now apply Forall_rev. Qed.

Lemma le_bytes_inj n x y : x < 256 ^ N.of_nat n -> y < 256 ^ N.of_nat n ->
  le_bytes n x = le_bytes n y -> x = y.
Proof.
  intros Hx Hy H. apply (f_equal le_val) in H. rewrite !le_val_bytes in H.
  now rewrite !N.mod_small in H.
Qed.
Lemma be_bytes_inj n x y : x < 256 ^ N.of_nat n -> y < 256 ^ N.of_nat n ->
  be_bytes n x = be_bytes n y -> x = y.
Proof.
  intros Hx Hy H. apply (f_equal be_val) in H. rewrite !be_val_bytes in H.
  now rewrite !N.mod_small in H.
Qed.

Lemma pow256 n : 256 ^ N.of_nat n = 2 ^ (8 * N.of_nat n).
Proof. now rewrite N.pow_mul_r. Qed.

Lemma bytes_ok_app a b : bytes_ok (a ++ b) <-> bytes_ok a /\ bytes_ok b.
Proof. apply Forall_app. Qed.
Lemma bytes_ok_firstn n l : bytes_ok l -> bytes_ok (firstn n l).
Proof.
  intros H. rewrite <- (firstn_skipn n l) in H. now apply bytes_ok_app in H.
Qed.
Lemma bytes_ok_skipn n l : bytes_ok l -> bytes_ok (skipn n l).
Proof.
  intros H. rewrite <- (firstn_skipn n l) in H. now apply bytes_ok_app in H.
Qed.
Lemma bytes_ok_concat ls : bytes_ok (concat ls) <-> Forall bytes_ok ls.
Proof.
  induction ls as [|l ls IH]; cbn.
  - split; constructor.
  - rewrite bytes_ok_app, IH. split; [intros []; now constructor | intros H; now inversion H].
Qed.
Lemma zeros_ok n : bytes_ok (zeros n).
Proof. unfold zeros. apply Forall_forall. intros x H. apply repeat_spec in H. subst. lia. Qed.
Lemma zeros_length n : length (zeros n) = n.
Proof. apply repeat_length. Qed.
Global Hint Resolve le_bytes_ok be_bytes_ok zeros_ok bytes_ok_firstn bytes_ok_skipn : words.

(** ** Splitting lemmas *)
Lemma chunks_fuel_enough {A} n (l : list A) f1 f2 :
  (0 < n)%nat -> (length l <= f1)%nat -> (length l <= f2)%nat ->
  chunks_fuel f1 n l = chunks_fuel f2 n l.
Proof.
  intros Hn. revert l f2. induction f1 as [|f1 IH]; intros l [|f2] H1 H2; cbn [chunks_fuel]; try reflexivity.
  - destruct l; cbn in *; [|lia]. destruct (Nat.leb_spec n 0); [lia|reflexivity].
  - destruct l; cbn in *; [|lia]. destruct (Nat.leb_spec n 0); [lia|reflexivity].
  - destruct (Nat.leb_spec n (length l)); [|reflexivity]. f_equal.
    apply IH; rewrite skipn_length; lia.
Qed.
Lemma chunks_step {A} n (l : list A) : (0 < n)%nat ->
  chunks n l = if (n <=? length l)%nat then firstn n l :: chunks n (skipn n l) else [].
Proof.
  intros Hn. unfold chunks. destruct l as [|x l].
  - cbn. destruct (Nat.leb_spec n 0); [lia|reflexivity].
  - cbn [chunks_fuel length]. destruct (Nat.leb_spec n (S (length l))); [|reflexivity].
    f_equal. apply chunks_fuel_enough; [exact Hn| |lia].
    rewrite skipn_length. cbn [length]. lia.
Qed.
Lemma chunks_short {A} n (l : list A) : (length l < n)%nat -> chunks n l = [].
Proof.
  intros H. rewrite chunks_step by lia. destruct (Nat.leb_spec n (length l)); [lia|reflexivity].
Qed.
Lemma chunks_cons {A} n (b l : list A) : (0 < n)%nat -> length b = n ->
  chunks n (b ++ l) = b :: chunks n l.
Proof.
  intros Hn Hb. rewrite chunks_step by exact Hn. rewrite app_length, Hb.
  destruct (Nat.leb_spec n (n + length l)); [|lia].
  rewrite <- Hb. rewrite firstn_app, Nat.sub_diag, firstn_all, firstn_O, app_nil_r.
  rewrite skipn_app, Nat.sub_diag, skipn_all, skipn_O. reflexivity.
Qed.
Lemma chunks_length {A} n (l : list A) : (0 < n)%nat -> length (chunks n l) = (length l / n)%nat.
Proof.
  intros Hn. remember (length l) as k eqn:E. revert l E.
  induction k as [k IH] using (well_founded_induction lt_wf). intros l ->.
  rewrite chunks_step by exact Hn. destruct (Nat.leb_spec n (length l)) as [H|H].
  - cbn [length]. rewrite (IH (length l - n)%nat); [|lia|now rewrite skipn_length].
    replace (length l) with ((length l - n) + 1 * n)%nat at 2 by lia.
    rewrite Nat.div_add by lia. lia.
  - cbn. now rewrite Nat.div_small.
Qed.
Lemma chunks_block_length {A} n (l : list A) : (0 < n)%nat -> Forall (fun b => length b = n) (chunks n l).
Proof.
  intros Hn. remember (length l) as k eqn:E. revert l E.
  induction k as [k IH] using (well_founded_induction lt_wf). intros l ->.
  rewrite chunks_step by exact Hn. destruct (Nat.leb_spec n (length l)) as [H|H]; constructor.
  - rewrite firstn_length. lia.
  - apply (IH (length l - n)%nat); [lia | now rewrite skipn_length].
Qed.
Lemma chunks_concat {A} n (bs : list (list A)) : (0 < n)%nat ->
  Forall (fun b => length b = n) bs -> chunks n (concat bs) = bs.
Proof.
  intros Hn. induction 1 as [|b bs Hb Hbs IH]; cbn [concat].
  - reflexivity.
  - now rewrite chunks_cons, IH.
Qed.
Lemma concat_chunks_rem {A} n (l : list A) : (0 < n)%nat -> concat (chunks n l) ++ remainder n l = l.
Proof.
  intros Hn. remember (length l) as k eqn:E. revert l E.
  induction k as [k IH] using (well_founded_induction lt_wf). intros l ->.
  destruct (Nat.leb_spec n (length l)) as [H|H].
  - assert (Hl : length (firstn n l) = n) by (rewrite firstn_length; lia).
    assert (Hs : length (skipn n l) = (length l - n)%nat) by apply skipn_length.
    specialize (IH (length (skipn n l)) ltac:(lia) _ eq_refl).
    rewrite <- (firstn_skipn n l). revert Hl Hs IH.
    generalize (firstn n l) (skipn n l). intros p q Hl Hs IH.
    rewrite chunks_cons by assumption. cbn [concat]. rewrite <- app_assoc. f_equal.
    rewrite <- IH at 3. f_equal. unfold remainder. rewrite app_length, Hl.
    replace (n + length q)%nat with (length q + 1 * n)%nat by lia.
    rewrite Nat.div_add, Nat.mul_add_distr_l, Nat.mul_1_r by lia. rewrite skipn_app.
    rewrite skipn_all2 by (rewrite Hl; apply Nat.le_add_l). cbn [app]. f_equal. rewrite Hl. apply Nat.add_sub.
  - rewrite chunks_short by exact H. unfold remainder. rewrite Nat.div_small by exact H.
    now rewrite Nat.mul_0_r.
Qed.
Lemma remainder_length {A} n (l : list A) : (0 < n)%nat -> length (remainder n l) = (length l mod n)%nat.
Proof.
  intros Hn. unfold remainder. rewrite skipn_length.
  pose proof (Nat.div_mod (length l) n). lia.
Qed.
Lemma chunks_app {A} n (a b : list A) : (0 < n)%nat -> (length a mod n = 0)%nat ->
  chunks n (a ++ b) = chunks n a ++ chunks n b.
Proof.
  intros Hn Ha.
  assert (Hr : remainder n a = []).
  { apply length_zero_iff_nil. now rewrite remainder_length. }
  rewrite <- (concat_chunks_rem n a) at 1 by exact Hn. rewrite Hr, app_nil_r.
  pose proof (chunks_block_length n a Hn) as Hb.
  induction Hb as [|c cs Hc Hcs IH]; cbn [concat app]; [reflexivity|].
  rewrite <- app_assoc, chunks_cons by assumption. now rewrite IH.
Qed.
(** Uniqueness of the decomposition into full blocks and a short tail. *)
Lemma chunks_rem_unique {A} n (bs : list (list A)) t : (0 < n)%nat ->
  Forall (fun b => length b = n) bs -> (length t < n)%nat ->
  chunks n (concat bs ++ t) = bs /\ remainder n (concat bs ++ t) = t.
Proof.
  intros Hn Hbs Ht.
  assert (E : chunks n (concat bs ++ t) = bs).
  { induction Hbs as [|b bs Hb Hbs IH]; cbn [concat app].
    - now apply chunks_short.
    - rewrite <- app_assoc, chunks_cons by assumption. now rewrite IH. }
  split; [exact E|].
  pose proof (concat_chunks_rem n (concat bs ++ t) Hn) as H. rewrite E in H.
  now apply app_inv_head in H.
Qed.
Lemma chunks_ok n l : (0 < n)%nat -> bytes_ok l -> Forall bytes_ok (chunks n l).
Proof.
  intros Hn H. apply bytes_ok_concat.
  rewrite <- (concat_chunks_rem n l Hn) in H. now apply bytes_ok_app in H.
Qed.
Lemma remainder_ok n l : bytes_ok l -> bytes_ok (remainder n l).
Proof. apply bytes_ok_skipn. Qed.
Lemma concat_length_blocks {A} n (bs : list (list A)) :
  Forall (fun b => length b = n) bs -> length (concat bs) = (n * length bs)%nat.
Proof.
  induction 1 as [|b bs Hb Hbs IH]; cbn; [lia|]. rewrite app_length, IH, Hb. lia.
Qed.

Lemma xor_bytes_length a b : length (xor_bytes a b) = Nat.min (length a) (length b).
Proof. unfold xor_bytes. now rewrite map_length, combine_length. Qed.
Lemma xor_bytes_ok a b : bytes_ok a -> bytes_ok b -> bytes_ok (xor_bytes a b).
Proof.
  intros Ha. revert b. induction Ha as [|x a Hx Ha IH]; intros b Hb; cbn; [constructor|].
  destruct Hb as [|y b Hy Hb]; cbn; constructor.
  - change 256 with (2 ^ 8) in *. now apply lxor_lt.
  - now apply IH.
Qed.
