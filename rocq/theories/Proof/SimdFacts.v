(** Facts about the vector instructions and about the message-schedule loop
    common to the vector back ends. *)
From Verif Require Import Base.Words Base.Bytes Base.Codec Model.Simd Proof.Loads.

(** ** Lanes and bytes *)
Definition ok4 (v : v4) : Prop := let '(a, b, c, d) := v in a < 2 ^ 32 /\ b < 2 ^ 32 /\ c < 2 ^ 32 /\ d < 2 ^ 32.
Definition ok2 (v : v2) : Prop := let '(a, b) := v in a < 2 ^ 64 /\ b < 2 ^ 64.
Lemma val4 x : x < 2 ^ 32 -> le_val (le_bytes 4 x) = x.
Proof. intros H. rewrite le_val_bytes. now apply N.mod_small. Qed.
Lemma val8 x : x < 2 ^ 64 -> le_val (le_bytes 8 x) = x.
Proof. intros H. rewrite le_val_bytes. now apply N.mod_small. Qed.
Lemma alignr4_4 a b : ok4 a -> ok4 b ->
  alignr_epi8_4 a b 4 = (let '(a0, _, _, _) := a in let '(_, b1, b2, b3) := b in (b1, b2, b3, a0)).
Proof.
  destruct a as (((a0, a1), a2), a3), b as (((b0, b1), b2), b3). intros (?&?&?&?) (?&?&?&?).
  change (alignr_epi8_4 _ _ 4) with (le_val (le_bytes 4 b1), le_val (le_bytes 4 b2), le_val (le_bytes 4 b3), le_val (le_bytes 4 a0)).
  now rewrite !val4.
Qed.
Lemma alignr4_8 a b : ok4 a -> ok4 b ->
  alignr_epi8_4 a b 8 = (let '(a0, a1, _, _) := a in let '(_, _, b2, b3) := b in (b2, b3, a0, a1)).
Proof.
  destruct a as (((a0, a1), a2), a3), b as (((b0, b1), b2), b3). intros (?&?&?&?) (?&?&?&?).
  change (alignr_epi8_4 _ _ 8) with (le_val (le_bytes 4 b2), le_val (le_bytes 4 b3), le_val (le_bytes 4 a0), le_val (le_bytes 4 a1)).
  now rewrite !val4.
Qed.
Lemma blend_F0 a b : ok4 a -> ok4 b ->
  blend_epi16 a b 0xF0 = (let '(a0, a1, _, _) := a in let '(_, _, b2, b3) := b in (a0, a1, b2, b3)).
Proof.
  destruct a as (((a0, a1), a2), a3), b as (((b0, b1), b2), b3). intros (?&?&?&?) (?&?&?&?).
  change (blend_epi16 _ _ 0xF0) with (le_val (le_bytes 4 a0), le_val (le_bytes 4 a1), le_val (le_bytes 4 b2), le_val (le_bytes 4 b3)).
  now rewrite !val4.
Qed.
Lemma alignr2_8 a b : ok2 a -> ok2 b -> alignr_epi8_2 a b 8 = (snd b, fst a).
Proof.
  destruct a as (a0, a1), b as (b0, b1). intros (?&?) (?&?).
  change (alignr_epi8_2 _ _ 8) with (le_val (le_bytes 8 b1), le_val (le_bytes 8 a0)).
  now rewrite !val8.
Qed.

(** ** Loads of big-endian words *)
Lemma sixteen (m : bytes) : length m = 16%nat -> exists b0 b1 b2 b3 b4 b5 b6 b7 b8 b9 b10 b11 b12 b13 b14 b15,
  m = [b0; b1; b2; b3; b4; b5; b6; b7; b8; b9; b10; b11; b12; b13; b14; b15].
Proof. intros H. do 17 (destruct m as [|? m]; try discriminate H). now do 16 eexists. Qed.
Definition be4 (m : bytes) : v4 := (be_val (slice 4 0 m), be_val (slice 4 4 m), be_val (slice 4 8 m), be_val (slice 4 12 m)).
Definition be2 (m : bytes) : v2 := (be_val (slice 8 0 m), be_val (slice 8 8 m)).
Definition rev4 (v : v4) : v4 := let '(a, b, c, d) := v in (d, c, b, a).
Lemma v4_load m : length m = 16%nat -> bytes_ok m -> v4_bytes (v4_of_bytes m) = m.
Proof.
  intros L O. destruct (sixteen m L) as (b0&b1&b2&b3&b4&b5&b6&b7&b8&b9&b10&b11&b12&b13&b14&b15&->).
  transitivity (le_bytes 4 (le_val [b0; b1; b2; b3]) ++ le_bytes 4 (le_val [b4; b5; b6; b7]) ++
    le_bytes 4 (le_val [b8; b9; b10; b11]) ++ le_bytes 4 (le_val [b12; b13; b14; b15])).
  { unfold v4_bytes, words_to_le, v4_of_bytes. cbv [v4_of_list list_of_v4 words_of_le map concat]. reflexivity. }
  unfold bytes_ok in O. repeat match goal with H : Forall _ (_ :: _) |- _ => inversion_clear H end.
  rewrite !(le_bytes_val [_; _; _; _] : _ -> le_bytes 4 _ = _); [reflexivity|..]; repeat constructor; assumption.
Qed.
Lemma v2_load m : length m = 16%nat -> bytes_ok m -> v2_bytes (v2_of_bytes m) = m.
Proof.
  intros L O. destruct (sixteen m L) as (b0&b1&b2&b3&b4&b5&b6&b7&b8&b9&b10&b11&b12&b13&b14&b15&->).
  transitivity (le_bytes 8 (le_val [b0; b1; b2; b3; b4; b5; b6; b7]) ++ le_bytes 8 (le_val [b8; b9; b10; b11; b12; b13; b14; b15])).
  { unfold v2_bytes, words_to_le, v2_of_bytes. cbv [v2_of_list list_of_v2 words_of_le map concat]. reflexivity. }
  unfold bytes_ok in O. repeat match goal with H : Forall _ (_ :: _) |- _ => inversion_clear H end.
  rewrite !(le_bytes_val [_; _; _; _; _; _; _; _] : _ -> le_bytes 8 _ = _); [reflexivity|..]; repeat constructor; assumption.
Qed.
Ltac explicit16 m L := destruct (sixteen m L) as (b0&b1&b2&b3&b4&b5&b6&b7&b8&b9&b10&b11&b12&b13&b14&b15&->).
Lemma vrev32_be m : length m = 16%nat -> v4_of_bytes (vrev32 m) = be4 m.
Proof. intros L. explicit16 m L. reflexivity. Qed.
Lemma vrev64_be m : length m = 16%nat -> v2_of_bytes (vrev64 m) = be2 m.
Proof. intros L. explicit16 m L. reflexivity. Qed.
Lemma wasm32_be m : length m = 16%nat ->
  v4_of_bytes (i8x16_shuffle [3;2;1;0;7;6;5;4;11;10;9;8;15;14;13;12]%nat m m) = be4 m.
Proof. intros L. explicit16 m L. reflexivity. Qed.
Lemma wasm64_be m : length m = 16%nat ->
  v2_of_bytes (i8x16_shuffle [7;6;5;4;3;2;1;0;15;14;13;12;11;10;9;8]%nat m m) = be2 m.
Proof. intros L. explicit16 m L. reflexivity. Qed.
Lemma ni_mask_be m : length m = 16%nat -> bytes_ok m ->
  shuffle_epi8_4 (v4_of_bytes m) (set_epi64x 0x0C0D0E0F08090A0B 0x0405060700010203) = be4 m.
Proof. intros L O. unfold shuffle_epi8_4. rewrite v4_load by assumption. clear O. explicit16 m L. reflexivity. Qed.
Lemma ni1_mask_be m : length m = 16%nat -> bytes_ok m ->
  shuffle_epi8_4 (v4_of_bytes m) (set_epi64x 0x0001020304050607 0x08090A0B0C0D0E0F) = rev4 (be4 m).
Proof. intros L O. unfold shuffle_epi8_4. rewrite v4_load by assumption. clear O. explicit16 m L. reflexivity. Qed.
Lemma avx_mask_be m : length m = 16%nat -> bytes_ok m ->
  shuffle_epi8_2 (v2_of_bytes m) (setr_epi32 0x04050607 0x00010203 0x0c0d0e0f 0x08090a0b) = be2 m.
Proof. intros L O. unfold shuffle_epi8_2. rewrite v2_load by assumption. clear O. explicit16 m L. reflexivity. Qed.
Lemma avx2_mask_be m : length m = 16%nat -> bytes_ok m ->
  shuffle_epi8_2 (v2_of_bytes m) (set_epi64x 0x08090A0B0C0D0E0F 0x0001020304050607) = be2 m.
Proof. intros L O. unfold shuffle_epi8_2. rewrite v2_load by assumption. clear O. explicit16 m L. reflexivity. Qed.

Lemma mem16_length i mem : (16 * i + 16 <= length mem)%nat -> length (mem16 i mem) = 16%nat.
Proof. intros H. unfold mem16. rewrite firstn_length_le; [reflexivity|]. rewrite skipn_length. lia. Qed.
Lemma mem16_ok i mem : bytes_ok mem -> bytes_ok (mem16 i mem).
Proof. intros H. now apply bytes_ok_firstn, bytes_ok_skipn. Qed.
Lemma slice_mem16 k s i mem : (s + k <= 16)%nat -> slice k s (mem16 i mem) = slice k (16 * i + s) mem.
Proof.
  intros H. unfold slice, mem16. rewrite skipn_firstn_comm, firstn_firstn, skipn_skipn'.
  f_equal. lia.
Qed.
Lemma get_be k n l i : (0 < k)%nat -> length l = (k * n)%nat -> (i < n)%nat ->
  get (map be_val (chunks k l)) i = be_val (slice k (k * i) l).
Proof.
  intros Hk Hl Hi. rewrite (chunks_slices k n) by assumption. unfold get.
  rewrite map_map, (nth_indep _ oob (be_val (slice k (k * 0) l))) by (rewrite map_length, seq_length; exact Hi).
  now rewrite (map_nth (fun i => be_val (slice k (k * i) l)) (seq 0 n) 0%nat i), seq_nth.
Qed.
Definition Wl4 (W : list N) (i : nat) : v4 := (get W (4 * i), get W (4 * i + 1), get W (4 * i + 2), get W (4 * i + 3)).
Definition Wl2 (W : list N) (i : nat) : v2 := (get W (2 * i), get W (2 * i + 1)).
Lemma be4_block block i : length block = 64%nat -> (i < 4)%nat ->
  be4 (mem16 i block) = Wl4 (map be_val (chunks 4 block)) i.
Proof.
  intros L Hi. unfold be4, Wl4. rewrite !(get_be 4 16) by lia. rewrite !slice_mem16 by lia.
  replace (4 * (4 * i))%nat with (16 * i + 0)%nat by lia. replace (4 * (4 * i + 1))%nat with (16 * i + 4)%nat by lia.
  replace (4 * (4 * i + 2))%nat with (16 * i + 8)%nat by lia. replace (4 * (4 * i + 3))%nat with (16 * i + 12)%nat by lia.
  reflexivity.
Qed.
Lemma be2_block block i : length block = 128%nat -> (i < 8)%nat ->
  be2 (mem16 i block) = Wl2 (map be_val (chunks 8 block)) i.
Proof.
  intros L Hi. unfold be2, Wl2. rewrite !(get_be 8 16) by lia. rewrite !slice_mem16 by lia.
  replace (8 * (2 * i))%nat with (16 * i + 0)%nat by lia. replace (8 * (2 * i + 1))%nat with (16 * i + 8)%nat by lia.
  reflexivity.
Qed.

(** ** Shifts and rotations *)
Lemma rotr_xor w x n : x < 2 ^ w -> n <= w -> rotr w x n = N.lxor (N.shiftr x n) (wshl w x (w - n)).
Proof.
  intros Hx Hn. unfold rotr. apply N.bits_inj. intros i. rewrite N.lor_spec, N.lxor_spec, testbit_shiftr, testbit_wshl.
  destruct (N.ltb_spec i w) as [L|L]; [|now rewrite andb_false_l, orb_false_r, xorb_false_r].
  destruct (N.leb_spec (w - n) i) as [G|G].
  - rewrite (proj1 (lt_pow2_bits x w) Hx (i + n)) by lia. now rewrite orb_false_l, xorb_false_l.
  - rewrite ?andb_false_r. now rewrite orb_false_r, xorb_false_r.
Qed.
Lemma wshl_wshl w x a b : wshl w (wshl w x a) b = wshl w x (a + b).
Proof.
  apply N.bits_inj. intros i. rewrite !testbit_wshl.
  destruct (N.ltb_spec i w) as [L|L]; [|reflexivity]. cbn [andb].
  destruct (N.leb_spec b i) as [G|G]; destruct (N.leb_spec (a + b) i) as [G2|G2]; try lia; cbn [andb].
  - replace (i - b <? w) with true by (symmetry; apply N.ltb_lt; lia).
    replace (a <=? i - b) with true by (symmetry; apply N.leb_le; lia).
    cbn. f_equal. lia.
Qed.

(** ** The loop over [ms] and [x] *)
Section Loop.
  Variables (V : Type) (z : V) (G : nat) (g gk k : nat -> V).
  Variable R : list N -> V -> list N.
  Variable update_x : list V -> V -> list V * V.
  Variable st : nat -> list N.
  Variable total : nat.
  Hypothesis HG : (0 < G)%nat.
  Hypothesis HR : forall i, (i < total)%nat -> R (st i) (gk i) = st (S i).
  Hypothesis HU : forall n, (n + G < total)%nat ->
    update_x (map g (seq n G)) (k (n + G)) = (map g (seq (S n) G), gk (n + G)%nat).
  Definition lstep (s : list N * list V * list V) (n : nat) : list N * list V * list V :=
    let '(s, x, ms) := s in
    let '(x, y) := update_x x (k (G + n)) in
    let j := (n mod G)%nat in
    let s := R s (nth j ms z) in
    (s, x, upd ms j y).
  Lemma loop_run n : (n + G <= total)%nat -> exists ms,
    fold_left lstep (seq 0 n) (st 0, map g (seq 0 G), map gk (seq 0 G)) = (st n, map g (seq n G), ms) /\
    length ms = G /\ forall t, (n <= t < n + G)%nat -> nth (t mod G) ms z = gk t.
  Proof using HG HR HU.
    induction n as [|n IH]; intros Hn.
    { exists (map gk (seq 0 G)). split; [reflexivity|]. split; [now rewrite map_length, seq_length|].
      intros t Ht. rewrite Nat.mod_small by lia.
      rewrite (nth_indep _ z (gk 0%nat)) by (rewrite map_length, seq_length; lia).
      now rewrite map_nth, seq_nth. }
    destruct (IH ltac:(lia)) as (ms & E & L & H). clear IH.
    rewrite seq_S, fold_left_app, E. cbn [fold_left Nat.add]. unfold lstep.
    rewrite (Nat.add_comm G n), HU by lia. cbv zeta. rewrite (H n), HR by lia.
    assert (Lu : (n mod G < length ms)%nat) by (rewrite L; apply Nat.mod_upper_bound; lia).
    eexists. split; [reflexivity|]. split; [now rewrite upd_length|].
    intros t Ht. pose proof (Nat.mod_upper_bound n G ltac:(lia)).
    destruct (Nat.eq_dec t (n + G)) as [->|N].
    - replace ((n + G) mod G)%nat with (n mod G)%nat.
      2:{ rewrite <- (Nat.mod_add n 1 G) by lia. f_equal. lia. }
      apply nth_upd_eq. lia.
    - rewrite nth_upd_neq; [apply H; lia| |rewrite L; apply Nat.mod_upper_bound; lia]. intros Q.
      assert (t - n = 0)%nat; [|lia].
      rewrite <- (Nat.mod_small (t - n) G) by lia.
      pose proof (Nat.div_mod n G ltac:(lia)). pose proof (Nat.div_mod t G ltac:(lia)).
      assert (Hq : (t - n = G * (t / G - n / G))%nat).
      { rewrite Nat.mul_sub_distr_l. lia. }
      rewrite Hq, Nat.mul_comm. apply Nat.mod_mul. lia.
  Qed.
  Lemma loop_end n : (n + G = total)%nat -> (n mod G = 0)%nat ->
    (let '(s, _, ms) := fold_left lstep (seq 0 n) (st 0, map g (seq 0 G), map gk (seq 0 G)) in
     fold_left R (map (fun i => nth i ms z) (seq 0 G)) s) = st total.
  Proof using HG HR HU.
    intros Ht Hm. destruct (loop_run n ltac:(lia)) as (ms & E & L & H). rewrite E. clear E.
    replace (map (fun i => nth i ms z) (seq 0 G)) with (map gk (seq n G)).
    2:{ transitivity (map (fun i => gk (n + i)%nat) (seq 0 G)).
        - clear. replace n with (n + 0)%nat at 1 by lia. generalize 0%nat. generalize G. intros m.
          induction m as [|m IH]; intros s; [reflexivity|].
          cbn [seq map]. f_equal. rewrite <- IH. f_equal. f_equal. lia.
        - apply map_ext_in. intros i Hi. apply in_seq in Hi. rewrite <- (H (n + i)%nat) by lia.
          f_equal. rewrite <- Nat.add_mod_idemp_l, Hm by lia. now apply Nat.mod_small. }
    subst total. clear - HR. replace (n + G)%nat with (G + n)%nat in * by lia.
    assert (Q : forall m a, (m + a <= G + n)%nat -> fold_left R (map gk (seq a m)) (st a) = st (m + a)%nat).
    { induction m as [|m IH]; intros a Ha; [reflexivity|]. cbn [seq map fold_left].
      rewrite HR, IH by lia. f_equal. lia. }
    now apply Q.
  Qed.
End Loop.
