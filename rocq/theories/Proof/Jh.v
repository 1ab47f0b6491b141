(** The jh crate computes JH. *)
From Verif Require Import Base.Words Base.Bytes Base.ByteFacts Base.Codec Base.BlockBuffer Base.BlockBufferFacts Base.Digest
  Base.DigestFacts Base.MDFacts Proof.GF Model.JhTables Model.Jh.
From Verif Require Spec.JH.
Import Spec.JH (num, bit, group, degroup, cbit, constants).

Ltac nia_div := Z.to_euclidean_division_equations; lia.
(** ** Bits of bytes and words *)
Lemma chunks_nth n (a : bytes) i : (0 < n)%nat -> (n * S i <= length a)%nat ->
  nth i (chunks n a) [] = map (fun t => get a (n * i + t)) (seq 0 n).
Proof.
  intros Hn. revert a. induction i as [|i IH]; intros a H; rewrite chunks_step by exact Hn;
    (destruct (Nat.leb_spec n (length a)) as [Q|Q]; [|lia]); cbn [nth].
  - rewrite Nat.mul_0_r. cbn [Nat.add]. apply list_eq_get.
    + rewrite firstn_length, map_length, seq_length. lia.
    + intros k Hk. rewrite firstn_length in Hk. rewrite get_map_seq by lia. unfold get. rewrite <- (firstn_skipn n a) at 2.
      rewrite app_nth1 by (rewrite firstn_length; lia). reflexivity.
  - rewrite IH by (rewrite skipn_length; lia). apply map_ext. intros t. unfold get. rewrite <- (firstn_skipn n a) at 2.
    rewrite app_nth2 by (rewrite firstn_length; lia). f_equal. rewrite firstn_length. lia.
Qed.
Lemma get_words k (a : bytes) i : (0 < k)%nat -> (k * S i <= length a)%nat ->
  get (words_of_le k a) i = le_val (map (fun t => get a (k * i + t)) (seq 0 k)).
Proof.
  intros Hk H. unfold get at 1, words_of_le. rewrite (nth_indep _ oob (le_val [])).
  - rewrite map_nth. now rewrite chunks_nth.
  - rewrite map_length, chunks_length by exact Hk. apply Nat.div_le_lower_bound; lia.
Qed.
Lemma byte_bit (bs : bytes) k u : bytes_ok bs -> (k < length bs)%nat -> (u < 8)%nat ->
  N.testbit (get bs k) (N.of_nat u) = N.testbit (le_val bs) (N.of_nat (8 * k + u)).
Proof.
  intros B Hk Hu. rewrite <- (le_bytes_val bs B) at 1. rewrite get_le_bytes by exact Hk.
  rewrite N.land_spec, testbit_shiftr. change 255 with (N.ones 8). rewrite N.ones_spec_low by lia. rewrite andb_true_r.
  f_equal. lia.
Qed.
Lemma word_bit (a : bytes) w k u : bytes_ok a -> (16 * S w <= length a)%nat -> (k < 16)%nat -> (u < 8)%nat ->
  N.testbit (get (words_of_le 16 a) w) (N.of_nat (8 * k + u)) = N.testbit (get a (16 * w + k)) (N.of_nat u).
Proof.
  intros B H Hk Hu. rewrite get_words by lia. rewrite <- byte_bit.
  - now rewrite get_map_seq.
  - apply Forall_map, Forall_forall. intros t _. change 256 with (2 ^ 8). now apply get_ok.
  - now rewrite map_length, seq_length.
  - exact Hu.
Qed.
Lemma num8 f u : (u < 8)%nat -> N.testbit (num (map f (seq 0 8))) (N.of_nat u) = f (7 - u)%nat.
Proof.
  intros H. cbn [seq map].
  do 8 (destruct u as [|u]; [cbn [Nat.sub]; destruct (f 0%nat), (f 1%nat), (f 2%nat), (f 3%nat), (f 4%nat), (f 5%nat), (f 6%nat), (f 7%nat); reflexivity|]).
  lia.
Qed.
Lemma num4 f k : (k < 4)%nat -> N.testbit (num (map f (seq 0 4))) (N.of_nat (3 - k)) = f k.
Proof.
  intros H. cbn [seq map].
  do 4 (destruct k as [|k]; [destruct (f 0%nat), (f 1%nat), (f 2%nat), (f 3%nat); reflexivity|]). lia.
Qed.
Lemma num_lt l : num l < 2 ^ N.of_nat (length l).
Proof.
  unfold num. assert (G : forall x k, x < 2 ^ k -> fold_left (fun x b => 2 * x + N.b2n b) l x < 2 ^ (k + N.of_nat (length l))).
  { induction l as [|b l IH]; intros x k H; cbn [fold_left length]; [now rewrite N.add_0_r|].
    replace (k + N.of_nat (S (length l))) with (k + 1 + N.of_nat (length l)) by lia. apply IH.
    rewrite N.pow_add_r, N.pow_1_r. destruct b; cbn [N.b2n]; lia. }
  exact (G 0 0 eq_refl).
Qed.

(** ** The relation between the bit-sliced state and the array of nibbles *)
Definition rel (mu : nat -> nat) (Y Q : list N) : Prop :=
  length Y = 8%nat /\ words_ok 128 Y /\ length Q = 256%nat /\ words_ok 4 Q /\
  forall p b k, (p < 128)%nat -> (b < 2)%nat -> (k < 4)%nat ->
    N.testbit (get Y (2 * k + b)) (N.of_nat p) = N.testbit (get Q (2 * mu p + b)) (N.of_nat (3 - k)).
Definition nu (p : nat) : nat := (8 * (p / 8) + 7 - p mod 8)%nat.
Lemma group_rel (a : bytes) : length a = 128%nat -> bytes_ok a -> rel nu (words_of_le 16 a) (group a).
Proof.
  intros L B. refine (conj _ (conj _ (conj _ (conj _ _)))).
  - rewrite words_of_le_length by lia. now rewrite L.
  - exact (words_of_le_ok 16 a ltac:(lia) B).
  - unfold group. now rewrite map_length, seq_length.
  - unfold group. apply Forall_map, Forall_forall. intros e _.
    match goal with |- num ?l < _ => exact (num_lt l) end.
  - intros p b k Hp Hb Hk. unfold group.
    assert (E : exists p1 u, p = (8 * p1 + u)%nat /\ (p1 < 16)%nat /\ (u < 8)%nat).
    { exists (p / 8)%nat, (p mod 8)%nat. nia_div. }
    destruct E as (p1 & u & -> & H1 & Hu).
    assert (EN : nu (8 * p1 + u) = (8 * p1 + (7 - u))%nat) by (unfold nu; nia_div). rewrite EN.
    rewrite get_map_seq by lia. rewrite num4 by exact Hk. rewrite word_bit by (assumption || lia).
    replace ((2 * (8 * p1 + (7 - u)) + b) / 2)%nat with (8 * p1 + (7 - u))%nat by nia_div.
    replace ((2 * (8 * p1 + (7 - u)) + b) mod 2)%nat with b by nia_div.
    unfold bit. f_equal; [f_equal|]; nia_div.
Qed.
Lemma rel_degroup Y Q : rel nu Y Q -> words_to_le 16 Y = degroup Q.
Proof.
  intros (LY & OY & LQ & OQ & H).
  assert (LO : length (words_to_le 16 Y) = 128%nat) by (rewrite words_to_le_length, LY; reflexivity).
  pose proof (words_to_le_ok 16 Y) as BO.
  apply list_eq_get; [rewrite LO; unfold degroup; now rewrite map_length, seq_length|].
  rewrite LO. intros s Hs. unfold degroup. cbv zeta. rewrite get_map_seq by exact Hs.
  apply (word_ext 8); [now apply get_ok| |].
  - match goal with |- num ?l < _ => exact (num_lt l) end.
  - intros i Hi. rewrite <- (N2Nat.id i). set (u := N.to_nat i). assert (Hu : (u < 8)%nat) by lia. clearbody u. clear i Hi.
    rewrite num8 by exact Hu.
    assert (E : exists w s1 k b, s = (16 * w + s1)%nat /\ (s1 < 16)%nat /\ w = (2 * k + b)%nat /\ (k < 4)%nat /\ (b < 2)%nat).
    { exists (s / 16)%nat, (s mod 16)%nat, (s / 32)%nat, ((s / 16) mod 2)%nat. nia_div. }
    destruct E as (w & s1 & k & b & -> & H1 & -> & Hk & Hb).
    rewrite <- word_bit by (assumption || lia).
    rewrite words_le_roundtrip by (lia || assumption).
    rewrite H by lia.
    replace ((8 * (16 * (2 * k + b) + s1) + (7 - u)) mod 128)%nat with (8 * s1 + (7 - u))%nat by nia_div.
    replace (((8 * (16 * (2 * k + b) + s1) + (7 - u)) / 128) mod 2)%nat with b by nia_div.
    replace ((8 * (16 * (2 * k + b) + s1) + (7 - u)) / 256)%nat with k by nia_div.
    replace (nu (8 * s1 + u)) with (8 * s1 + (7 - u))%nat by (unfold nu; nia_div). reflexivity.
Qed.

(** ** One lane of the S-box and linear layers *)
(** The straight-line programs over any algebra with the bitwise operations, and their naturality. *)
Section Bitwise.
  Context {T : Type} (xor and or : T -> T -> T) (not : T -> T).
  Definition gss (m0 m1 m2 m3 k : T) : T * T * T * T :=
    let m3 := not m3 in
    let m0 := xor m0 (and (not m2) k) in
    let k := xor k (and m0 m1) in
    let m0 := xor m0 (and m3 m2) in
    let m3 := xor m3 (and (not m1) m2) in
    let m1 := xor m1 (and m0 m2) in
    let m2 := xor m2 (and (not m3) m0) in
    let m0 := xor m0 (or m1 m3) in
    let m3 := xor m3 (and m1 m2) in
    let m2 := xor m2 k in
    let m1 := xor m1 (and k m0) in
    (m0, m1, m2, m3).
  Definition gl (y0 y1 y2 y3 y4 y5 y6 y7 : T) : list T :=
    let y1 := xor y1 y2 in
    let y3 := xor y3 y4 in
    let y5 := xor y5 (xor y6 y0) in
    let y7 := xor y7 y0 in
    let y0 := xor y0 y3 in
    let y2 := xor y2 y5 in
    let y4 := xor y4 (xor y7 y1) in
    let y6 := xor y6 y1 in
    [y0; y1; y2; y3; y4; y5; y6; y7].
End Bitwise.
Section Hom.
  Context {T U : Type} (xor and or : T -> T -> T) (not : T -> T) (xor' and' or' : U -> U -> U) (not' : U -> U) (h : T -> U).
  Context (Hx : forall a b, h (xor a b) = xor' (h a) (h b)) (Ha : forall a b, h (and a b) = and' (h a) (h b))
    (Ho : forall a b, h (or a b) = or' (h a) (h b)) (Hn : forall a, h (not a) = not' (h a)).
  Definition h4 (m : T * T * T * T) : U * U * U * U := let '(a, b, c, d) := m in (h a, h b, h c, h d).
  Ltac step := match goal with |- (let x := ?e in @?F x) = ?g (let y := ?e' in @?G y) =>
    change (F e = g (G e')); replace e with (h e') by (rewrite ?Hx, ?Ha, ?Ho, ?Hn; reflexivity); generalize e'; intro; cbv beta end.
  Lemma gss_hom m0 m1 m2 m3 k :
    gss xor' and' or' not' (h m0) (h m1) (h m2) (h m3) (h k) = h4 (gss xor and or not m0 m1 m2 m3 k).
  Proof using Hx Ha Ho Hn. cbv beta delta [gss]. do 11 step. reflexivity. Qed.
  Lemma gl_hom y0 y1 y2 y3 y4 y5 y6 y7 :
    gl xor' (h y0) (h y1) (h y2) (h y3) (h y4) (h y5) (h y6) (h y7) = map h (gl xor y0 y1 y2 y3 y4 y5 y6 y7).
  Proof using Hx. cbv beta delta [gl]. do 8 step. reflexivity. Qed.
End Hom.

Definition bss := gss xorb andb orb negb.
Definition bl := gl xorb.
Definition bsl (y : list bool) (k0 k1 : bool) : list bool :=
  let '(a0, a1, a2, a3) := bss (nth 0 y false) (nth 2 y false) (nth 4 y false) (nth 6 y false) k0 in
  let '(b0, b1, b2, b3) := bss (nth 1 y false) (nth 3 y false) (nth 5 y false) (nth 7 y false) k1 in
  bl a0 b0 a1 b1 a2 b2 a3 b3.
Definition lane (Y : list N) (p : N) : list bool := map (fun y => N.testbit y p) Y.
Lemma ss_gss Y k : ss Y k = let '(a, b, c, d) := gss v2xor v2and v2or v2not (get Y 0, get Y 1) (get Y 2, get Y 3) (get Y 4, get Y 5) (get Y 6, get Y 7) k in
  [fst a; snd a; fst b; snd b; fst c; snd c; fst d; snd d].
Proof. reflexivity. Qed.
Lemma l_gl Y : l Y = gl N.lxor (get Y 0) (get Y 1) (get Y 2) (get Y 3) (get Y 4) (get Y 5) (get Y 6) (get Y 7).
Proof. reflexivity. Qed.
Lemma lane_ss_l Y k p : length Y = 8%nat -> p < 128 ->
  lane (l (ss Y k)) p = bsl (lane Y p) (N.testbit (fst k) p) (N.testbit (snd k) p).
Proof.
  intros L Hp.
  assert (Pb : (p <? 128) = true) by now apply N.ltb_lt.
  assert (NB : forall z, N.testbit (wnot 128 z) p = negb (N.testbit z p)) by (intros z; now rewrite testbit_wnot, Pb).
  set (f0 := fun x : v2 => N.testbit (fst x) p). set (f1 := fun x : v2 => N.testbit (snd x) p).
  assert (LG : forall j, (j < 8)%nat -> nth j (lane Y p) false = N.testbit (get Y j) p).
  { intros j Hj. unfold lane, get. rewrite <- (map_nth (fun y => N.testbit y p)). apply nth_indep. now rewrite map_length, L. }
  rewrite ss_gss. unfold bsl. rewrite !LG by lia.
  set (A := (get Y 0, get Y 1)). set (B := (get Y 2, get Y 3)). set (C := (get Y 4, get Y 5)). set (D := (get Y 6, get Y 7)).
  change (N.testbit (get Y 0) p) with (f0 A). change (N.testbit (get Y 2) p) with (f0 B).
  change (N.testbit (get Y 4) p) with (f0 C). change (N.testbit (get Y 6) p) with (f0 D).
  change (N.testbit (get Y 1) p) with (f1 A). change (N.testbit (get Y 3) p) with (f1 B).
  change (N.testbit (get Y 5) p) with (f1 C). change (N.testbit (get Y 7) p) with (f1 D).
  change (N.testbit (fst k) p) with (f0 k). change (N.testbit (snd k) p) with (f1 k).
  unfold bss. rewrite (gss_hom v2xor v2and v2or v2not xorb andb orb negb f0), (gss_hom v2xor v2and v2or v2not xorb andb orb negb f1);
    try (intros; apply N.lxor_spec); try (intros; apply N.land_spec); try (intros; apply N.lor_spec); try (intros; apply NB).
  destruct (gss v2xor v2and v2or v2not A B C D k) as [[[a b] c] d]. cbn [h4]. rewrite l_gl. cbn [get nth]. unfold bl, lane.
  symmetry. apply (gl_hom N.lxor xorb (fun y => N.testbit y p)). intros. apply N.lxor_spec.
Qed.
Definition nib (a b c d : bool) : N := num [a; b; c; d].
Lemma nib_of q : q < 2 ^ 4 -> q = nib (N.testbit q 3) (N.testbit q 2) (N.testbit q 1) (N.testbit q 0).
Proof.
  intros H. assert (E : forallb (fun x => N.of_nat x =? nib (N.testbit (N.of_nat x) 3) (N.testbit (N.of_nat x) 2) (N.testbit (N.of_nat x) 1) (N.testbit (N.of_nat x) 0)) (seq 0 16) = true) by (vm_compute; reflexivity).
  rewrite forallb_forall in E. specialize (E (N.to_nat q) ltac:(apply in_seq; lia)). rewrite N2Nat.id in E. now apply N.eqb_eq in E.
Qed.
(** The specification on a pair of elements. *)
Definition spair (q0 q1 : N) (k0 k1 : bool) : N * N := Spec.JH.L (Spec.JH.S k0 q0, Spec.JH.S k1 q1).
Definition bits_pair (q : N * N) : list bool :=
  [N.testbit (fst q) 3; N.testbit (snd q) 3; N.testbit (fst q) 2; N.testbit (snd q) 2;
   N.testbit (fst q) 1; N.testbit (snd q) 1; N.testbit (fst q) 0; N.testbit (snd q) 0].
Definition tf : list bool := [true; false].
Lemma all2 (f : nat -> nat -> bool) n m : forallb (fun j => forallb (f j) (seq 0 m)) (seq 0 n) = true ->
  forall j p, (j < n)%nat -> (p < m)%nat -> f j p = true.
Proof.
  intros E j p Hj Hp. rewrite forallb_forall in E. specialize (E j ltac:(apply in_seq; lia)). rewrite forallb_forall in E.
  apply E. apply in_seq. lia.
Qed.
Definition lane_ok (q0 q1 : nat) : bool :=
  forallb (fun k0 => forallb (fun k1 =>
    let q := spair (N.of_nat q0) (N.of_nat q1) k0 k1 in
    (fst q <? 16) && (snd q <? 16) &&
    forallb (fun x => Bool.eqb (fst x) (snd x)) (combine (bsl (bits_pair (N.of_nat q0, N.of_nat q1)) k0 k1) (bits_pair q)))
    tf) tf.
Lemma lane_check : forallb (fun q0 => forallb (lane_ok q0) (seq 0 16)) (seq 0 16) = true.
Proof. vm_compute. reflexivity. Qed.
Lemma bsl_length y k0 k1 : length (bsl y k0 k1) = 8%nat.
Proof. unfold bsl, bss, bl. reflexivity. Qed.
Lemma combine_eqb (a b : list bool) : length a = length b -> forallb (fun x => Bool.eqb (fst x) (snd x)) (combine a b) = true -> a = b.
Proof.
  revert b. induction a as [|x a IH]; intros [|y b] L; try discriminate; [reflexivity|]. cbn [combine forallb fst snd].
  intros H. apply andb_true_iff in H as [H1 H2]. apply eqb_prop in H1. subst y. f_equal. apply IH; [now injection L|exact H2].
Qed.
Lemma spair_spec q0 q1 k0 k1 : q0 < 2 ^ 4 -> q1 < 2 ^ 4 ->
  fst (spair q0 q1 k0 k1) < 2 ^ 4 /\ snd (spair q0 q1 k0 k1) < 2 ^ 4 /\
  bsl (bits_pair (q0, q1)) k0 k1 = bits_pair (spair q0 q1 k0 k1).
Proof.
  intros H0 H1. pose proof (all2 lane_ok 16 16 lane_check (N.to_nat q0) (N.to_nat q1) ltac:(lia) ltac:(lia)) as E. unfold lane_ok in E. rewrite forallb_forall in E.
  specialize (E k0 ltac:(destruct k0; cbn; auto)). rewrite forallb_forall in E.
  specialize (E k1 ltac:(destruct k1; cbn; auto)). rewrite !N2Nat.id in E. cbv zeta in E.
  apply andb_true_iff in E as [E E3]. apply andb_true_iff in E as [E1 E2].
  apply N.ltb_lt in E1, E2. split; [exact E1|]. split; [exact E2|].
  apply combine_eqb; [now rewrite bsl_length|exact E3].
Qed.

(** ** The permutations *)
Definition fpi (i : nat) : nat := nth (i mod 4) [i; i; i + 1; i - 1]%nat 0%nat.
Definition fP (i : nat) : nat := (if i <? 128 then 2 * i else 2 * (i - 128) + 1)%nat.
Definition fphi (i : nat) : nat := (if i <? 128 then i else if Nat.even i then i + 1 else i - 1)%nat.
Definition src (i : nat) : nat := fpi (fP (fphi i)).
Lemma perm_check : forallb (fun i => (fphi i <? 256) && (fP (fphi i) <? 256))%nat (seq 0 256) = true.
Proof. vm_compute. reflexivity. Qed.
Lemma P_src w i : (i < 256)%nat -> get (Spec.JH.P 8 w) i = get w (src i).
Proof.
  intros H. pose proof (proj1 (forallb_forall _ _) perm_check i ltac:(apply in_seq; lia)) as E. cbv beta in E.
  apply andb_true_iff in E as [E1 E2]. apply Nat.ltb_lt in E1, E2.
  unfold Spec.JH.P, Spec.JH.phi. rewrite get_map_seq by exact H. fold (fphi i).
  change (get (Spec.JH.P' 8 (Spec.JH.pi_ 8 w)) (fphi i) = get w (src i)).
  unfold Spec.JH.P'. rewrite get_map_seq by exact E1. change (get (Spec.JH.pi_ 8 w) (fP (fphi i)) = get w (src i)).
  unfold Spec.JH.pi_. rewrite get_map_seq by exact E2. reflexivity.
Qed.
(** The position of the elements before round j mod 7. *)
Definition dest_list : list nat := map (fun k => match find (fun i => (src i =? k)%nat) (seq 0 256) with Some i => i | None => 0%nat end) (seq 0 256).
Definition mus : list (list nat) :=
  rev (fold_left (fun l (_ : nat) => map (fun m => nth (2 * m) dest_list 0%nat / 2)%nat (hd [] l) :: l) (seq 0 6) [map nu (seq 0 128)]).
Definition mu (j p : nat) : nat := nth p (nth j mus []) 0%nat.
Definition flip (b j p : nat) : nat := if (b =? 0)%nat then p else N.to_nat (N.lxor (N.of_nat p) (2 ^ N.of_nat j)).
Definition mu_ok (j p : nat) : bool := (mu j p <? 128)%nat && (flip 1 j p <? 128)%nat && forallb (fun b =>
    (src (2 * mu (S j mod 7) p + b) =? 2 * mu j (flip b j p) + b)%nat) [0; 1]%nat.
Lemma mu_check_ok : forallb (fun j => forallb (mu_ok j) (seq 0 128)) (seq 0 7) = true.
Proof. vm_compute. reflexivity. Qed.
Lemma mu_spec j p : (j < 7)%nat -> (p < 128)%nat -> (mu j p < 128)%nat /\ (forall b, (b < 2)%nat -> (flip b j p < 128)%nat /\
  src (2 * mu (S j mod 7) p + b) = (2 * mu j (flip b j p) + b)%nat).
Proof.
  intros Hj Hp. pose proof (all2 mu_ok 7 128 mu_check_ok j p Hj Hp) as E. unfold mu_ok in E.
  apply andb_true_iff in E as [E E3]. apply andb_true_iff in E as [E1 E2]. apply Nat.ltb_lt in E1, E2. split; [exact E1|].
  intros b Hb. rewrite forallb_forall in E3. specialize (E3 b ltac:(destruct b as [|[|b]]; cbn; auto; lia)).
  apply Nat.eqb_eq in E3. split; [|exact E3]. destruct b as [|[|b]]; [exact Hp|exact E2|lia].
Qed.
Lemma mu_0 p : (p < 128)%nat -> mu 0 p = nu p.
Proof. intros H. unfold mu. change (nth 0 mus []) with (map nu (seq 0 128)). now apply nth_map_seq. Qed.

(** Exchanging adjacent groups of bits flips one bit of the position. *)
Definition swap_ok (j p : nat) : bool :=
  let k := 2 ^ N.of_nat j in let i := N.of_nat p in
  if N.testbit (swapmask k) i then (N.of_nat (flip 1 j p) =? i + k) && negb ((k <=? i) && N.testbit (swapmask k) (i - k))
  else (k <=? i) && N.testbit (swapmask k) (i - k) && (N.of_nat (flip 1 j p) =? i - k).
Lemma swap_check_ok : forallb (fun j => forallb (swap_ok j) (seq 0 128)) (seq 0 7) = true.
Proof. vm_compute. reflexivity. Qed.
Lemma swap_bit j p x : (j < 7)%nat -> (p < 128)%nat ->
  N.testbit (swap (2 ^ N.of_nat j) x) (N.of_nat p) = N.testbit x (N.of_nat (flip 1 j p)).
Proof.
  intros Hj Hp. pose proof (all2 swap_ok 7 128 swap_check_ok j p Hj Hp) as E. unfold swap_ok in E.
  set (f := flip 1 j p) in *. clearbody f. set (k := 2 ^ N.of_nat j) in *. clearbody k.
  unfold swap. set (M := swapmask k) in *. clearbody M. rewrite N.lor_spec, testbit_wshl, !N.land_spec, testbit_shiftr.
  assert (Pb : (N.of_nat p <? 128) = true) by (apply N.ltb_lt; lia). rewrite Pb.
  destruct (N.testbit M (N.of_nat p)) eqn:EM.
  - apply andb_true_iff in E as [E1 E2]. apply N.eqb_eq in E1. rewrite E1. apply negb_true_iff in E2.
    rewrite andb_true_r. destruct (k <=? N.of_nat p); cbn [andb orb] in *; [|reflexivity].
    rewrite E2, andb_false_r. reflexivity.
  - apply andb_true_iff in E as [E E3]. apply andb_true_iff in E as [E1 E2]. apply N.eqb_eq in E3. rewrite E3, E1, E2.
    cbn [andb]. now rewrite andb_true_r, andb_false_r, orb_false_r.
Qed.
Lemma swap_lt k x : x < 2 ^ 128 -> swap k x < 2 ^ 128.
Proof. intros H. unfold swap. apply lor_lt; [apply wshl_lt|]. apply land_lt_l. now apply shiftr_lt. Qed.
Global Opaque mus swapmask.

(** ** Rounds *)
Lemma flat_map2 {A} (f g : nat -> A) d n s m b : (m < n)%nat -> (b < 2)%nat ->
  nth (2 * m + b) (flat_map (fun i => [f i; g i]) (seq s n)) d = if (b =? 0)%nat then f (s + m)%nat else g (s + m)%nat.
Proof.
  revert s m. induction n as [|n IH]; intros s m Hm Hb; [lia|]. cbn [seq flat_map app]. destruct m as [|m].
  - rewrite Nat.add_0_r. destruct b as [|[|b]]; [reflexivity|reflexivity|lia].
  - replace (2 * S m + b)%nat with (S (S (2 * m + b))) by lia. cbn [nth]. rewrite IH by lia.
    now replace (S s + m)%nat with (s + S m)%nat by lia.
Qed.
Definition sl (Q : list N) (c : nat -> bool) (e : nat) : N :=
  let q := spair (get Q (2 * (e / 2))) (get Q (2 * (e / 2) + 1)) (c (2 * (e / 2))%nat) (c (2 * (e / 2) + 1)%nat) in
  if (e mod 2 =? 0)%nat then fst q else snd q.
Lemma R_spec Q c i : length Q = 256%nat -> (i < 256)%nat -> (src i < 256)%nat ->
  get (Spec.JH.R 8 Q c) i = sl Q c (src i).
Proof.
  intros L Hi Hs. unfold Spec.JH.R. cbv zeta. rewrite P_src by exact Hi. set (e := src i) in *. clearbody e.
  unfold sl. assert (E : exists m b, e = (2 * m + b)%nat /\ (m < 128)%nat /\ (b < 2)%nat) by (exists (e / 2)%nat, (e mod 2)%nat; nia_div).
  destruct E as (m & b & -> & Hm & Hb). replace ((2 * m + b) / 2)%nat with m by nia_div. replace ((2 * m + b) mod 2)%nat with b by nia_div.
  change (2 ^ (8 - 1))%nat with 128%nat. change (2 ^ 8)%nat with 256%nat.
  set (v := map (fun i => Spec.JH.S (c i) (get Q i)) (seq 0 256)).
  unfold get at 1. erewrite (flat_map_ext _ (fun i => [fst (Spec.JH.L (get v (2 * i), get v (2 * i + 1))); snd (Spec.JH.L (get v (2 * i), get v (2 * i + 1)))])).
  2:{ intros a. destruct (Spec.JH.L _). reflexivity. }
  rewrite (flat_map2 (fun i => fst (Spec.JH.L (get v (2 * i), get v (2 * i + 1)))) (fun i => snd (Spec.JH.L (get v (2 * i), get v (2 * i + 1))))) by assumption.
  cbn [Nat.add]. unfold v. rewrite !get_map_seq by lia. reflexivity.
Qed.
Lemma lane_bits Y Q m p b k : length Y = 8%nat -> (b < 2)%nat -> (k < 4)%nat -> lane Y p = bits_pair (get Q (2 * m), get Q (2 * m + 1)) ->
  N.testbit (get Y (2 * k + b)) p = N.testbit (get Q (2 * m + b)) (N.of_nat (3 - k)).
Proof.
  intros L Hb Hk E.
  assert (G : get Q (2 * m + b) = if (b =? 0)%nat then get Q (2 * m) else get Q (2 * m + 1)).
  { destruct b as [|[|b]]; [now rewrite Nat.add_0_r|reflexivity|lia]. }
  rewrite G. clear G. generalize dependent (get Q (2 * m)). generalize (get Q (2 * m + 1)). intros q1 q0 E.
  explode Y. unfold bits_pair, lane in E. cbn [map fst snd] in E. injection E as E0 E1 E2 E3 E4 E5 E6 E7.
  destruct b as [|[|b]]; [| |clear - Hb; lia]; cbn [Nat.eqb]; (destruct k as [|[|[|[|k]]]]; [..|clear - Hk; lia]);
    cbn [Nat.mul Nat.add get nth]; first [exact E0|exact E1|exact E2|exact E3|exact E4|exact E5|exact E6|exact E7].
Qed.
Lemma bits_lane Y Q m p : length Y = 8%nat ->
  (forall b k, (b < 2)%nat -> (k < 4)%nat -> N.testbit (get Y (2 * k + b)) p = N.testbit (get Q (2 * m + b)) (N.of_nat (3 - k))) ->
  lane Y p = bits_pair (get Q (2 * m), get Q (2 * m + 1)).
Proof.
  intros L H.
  assert (G : forall b k, (b <? 2)%nat = true -> (k <? 4)%nat = true -> N.testbit (get Y (2 * k + b)) p = N.testbit (get Q (2 * m + b)) (N.of_nat (3 - k))).
  { intros b k Hb Hk. apply H; now apply Nat.ltb_lt. }
  pose proof (G 0%nat) as A0. pose proof (G 1%nat) as A1. rewrite Nat.add_0_r in A0. clear G H.
  generalize dependent (get Q (2 * m)). generalize dependent (get Q (2 * m + 1)). intros q1 A1 q0 A0.
  explode Y. unfold lane, bits_pair. cbn [map fst snd].
  rewrite <- (A0 0%nat eq_refl eq_refl : _ = N.testbit q0 3), <- (A0 1%nat eq_refl eq_refl : _ = N.testbit q0 2),
    <- (A0 2%nat eq_refl eq_refl : _ = N.testbit q0 1), <- (A0 3%nat eq_refl eq_refl : _ = N.testbit q0 0),
    <- (A1 0%nat eq_refl eq_refl : _ = N.testbit q1 3), <- (A1 1%nat eq_refl eq_refl : _ = N.testbit q1 2),
    <- (A1 2%nat eq_refl eq_refl : _ = N.testbit q1 1), <- (A1 3%nat eq_refl eq_refl : _ = N.testbit q1 0).
  reflexivity.
Qed.
Definition const_ok (j : nat) (rc : v2) (c : list N) : bool :=
  forallb (fun p => Bool.eqb (N.testbit (fst rc) (N.of_nat p)) (cbit c (2 * mu j p)) &&
    Bool.eqb (N.testbit (snd rc) (N.of_nat p)) (cbit c (2 * mu j p + 1))) (seq 0 128).
Lemma ss_l_length Y k : length (l (ss Y k)) = 8%nat.
Proof. reflexivity. Qed.
Lemma ss_l_ok Y k : words_ok 128 Y -> fst k < 2 ^ 128 -> snd k < 2 ^ 128 -> words_ok 128 (l (ss Y k)).
Proof.
  intros O K0 K1. set (ok := fun x : v2 => fst x < 2 ^ 128 /\ snd x < 2 ^ 128).
  assert (Hx : forall a b, ok a -> ok b -> ok (v2xor a b)) by (intros a b [A0 A1] [B0 B1]; split; now apply lxor_lt).
  assert (Ha : forall a b, ok a -> ok b -> ok (v2and a b)) by (intros a b [A0 A1] [B0 B1]; split; now apply land_lt_l).
  assert (Ho : forall a b, ok a -> ok b -> ok (v2or a b)) by (intros a b [A0 A1] [B0 B1]; split; now apply lor_lt).
  assert (Hn : forall a, ok (v2not a)) by (intros a; split; apply wnot_lt).
  rewrite ss_gss.
  assert (G : forall m0 m1 m2 m3 k, ok m0 -> ok m1 -> ok m2 -> ok m3 -> ok k ->
    let '(a, b, c, d) := gss v2xor v2and v2or v2not m0 m1 m2 m3 k in ok a /\ ok b /\ ok c /\ ok d).
  { clear - Hx Ha Ho Hn. intros m0 m1 m2 m3 k H0 H1 H2 H3 Hk. cbv beta delta [gss].
    do 11 match goal with |- match (let x := ?e in @?F x) with _ => _ end => let z := fresh in assert (z : ok e) by auto 10; revert z; 
      match goal with |- ok e -> ?g => idtac end; 
      let t := constr:(fun v => match F v with (a, b, c, d) => ok a /\ ok b /\ ok c /\ ok d end) in change (ok e -> t e); generalize e; intro; intro; cbv beta end.
    auto. }
  specialize (G (get Y 0, get Y 1) (get Y 2, get Y 3) (get Y 4, get Y 5) (get Y 6, get Y 7) k).
  destruct (gss v2xor v2and v2or v2not _ _ _ _ k) as [[[a b] c] d].
  destruct G as ([A0 A1] & [B0 B1] & [C0 C1] & [D0 D1]); try (split; now apply get_ok || assumption).
  rewrite l_gl. cbn [get nth].
  clear - A0 A1 B0 B1 C0 C1 D0 D1. cbv beta delta [gl].
  do 8 match goal with |- words_ok 128 (let x := ?e in @?F x) => change (words_ok 128 (F e)); let z := fresh in assert (z : e < 2 ^ 128) by auto 10 using lxor_lt; generalize dependent e; intros ? ?; cbv beta end.
  repeat (constructor; [assumption|]). constructor.
Qed.
Lemma R_length Q c : length (Spec.JH.R 8 Q c) = 256%nat.
Proof. unfold Spec.JH.R, Spec.JH.P, Spec.JH.phi. cbv zeta. rewrite map_length, seq_length. reflexivity. Qed.
Lemma src_check : forallb (fun i => src i <? 256)%nat (seq 0 256) = true.
Proof. vm_compute. reflexivity. Qed.
Lemma src_lt i : (i < 256)%nat -> (src i < 256)%nat.
Proof. intros H. apply Nat.ltb_lt. apply (proj1 (forallb_forall _ _) src_check i). apply in_seq. lia. Qed.
Lemma get_words_ok w l : (forall i, (i < length l)%nat -> get l i < 2 ^ w) -> words_ok w l.
Proof.
  intros H. apply Forall_forall. intros x Hx. apply (In_nth _ _ oob) in Hx as (i & Hi & <-). now apply H.
Qed.
Lemma round_rel j rc c Y Q : (j < 7)%nat -> const_ok j rc c = true -> fst rc < 2 ^ 128 -> snd rc < 2 ^ 128 ->
  rel (mu j) Y Q -> rel (mu (S j mod 7)) (round Y (j, rc)) (Spec.JH.R 8 Q (cbit c)).
Proof.
  intros Hj HC K0 K1 (LY & OY & LQ & OQ & H).
  assert (HL : forall p, (p < 128)%nat -> lane (l (ss Y rc)) (N.of_nat p) =
    bits_pair (spair (get Q (2 * mu j p)) (get Q (2 * mu j p + 1)) (cbit c (2 * mu j p)) (cbit c (2 * mu j p + 1)))).
  { intros p Hp. rewrite lane_ss_l by (assumption || lia).
    pose proof (proj1 (forallb_forall _ _) HC p ltac:(apply in_seq; lia)) as E. cbv beta in E. apply andb_true_iff in E as [E0 E1].
    apply eqb_prop in E0, E1. rewrite E0, E1.
    replace (lane Y (N.of_nat p)) with (bits_pair (get Q (2 * mu j p), get Q (2 * mu j p + 1))).
    - apply spair_spec; now apply get_ok.
    - symmetry. apply bits_lane; [exact LY|]. intros b k Hb Hk. now apply H. }
  assert (SL : forall e, (e < 256)%nat -> sl Q (cbit c) e < 2 ^ 4).
  { intros e He. unfold sl. cbv zeta. destruct (spair_spec (get Q (2 * (e / 2))) (get Q (2 * (e / 2) + 1)) (cbit c (2 * (e / 2))%nat) (cbit c (2 * (e / 2) + 1)%nat)) as (S0 & S1 & _);
      try now apply get_ok. destruct (_ =? _)%nat; assumption. }
  refine (conj eq_refl (conj _ (conj _ (conj _ _)))).
  - unfold round. cbv zeta.
    assert (O : words_ok 128 (l (ss Y rc))) by now apply ss_l_ok.
    repeat (apply Forall_cons; [first [now apply get_ok | apply swap_lt; now apply get_ok]|]). constructor.
  - apply R_length.
  - apply get_words_ok. intros i Hi. rewrite R_length in Hi. pose proof (src_lt i Hi) as Hs. rewrite R_spec by assumption. now apply SL.
  - intros p b k Hp Hb Hk. destruct (mu_spec j p Hj Hp) as [_ MS]. destruct (MS b Hb) as [Hf ES].
    destruct (mu_spec (S j mod 7) p (Nat.mod_upper_bound (S j) 7 ltac:(discriminate)) Hp) as [Hm' _].
    destruct (mu_spec j (flip b j p) Hj Hf) as [Hm _].
    rewrite R_spec; [|exact LQ|lia|apply src_lt; lia]. rewrite ES.
    transitivity (N.testbit (get (l (ss Y rc)) (2 * k + b)) (N.of_nat (flip b j p))).
    + unfold round. cbv zeta. destruct b as [|[|b]]; [| |lia]; (destruct k as [|[|[|[|k]]]]; [..|lia]);
      cbn [Nat.mul Nat.add get nth flip Nat.eqb]; try reflexivity; apply swap_bit; assumption.
    + rewrite (lane_bits _ [fst (spair (get Q (2 * mu j (flip b j p))) (get Q (2 * mu j (flip b j p) + 1)) (cbit c (2 * mu j (flip b j p))) (cbit c (2 * mu j (flip b j p) + 1)));
         snd (spair (get Q (2 * mu j (flip b j p))) (get Q (2 * mu j (flip b j p) + 1)) (cbit c (2 * mu j (flip b j p))) (cbit c (2 * mu j (flip b j p) + 1)))] 0 _ b k); try assumption.
      * f_equal. unfold sl. replace ((2 * mu j (flip b j p) + b) / 2)%nat with (mu j (flip b j p)) by nia_div.
        replace ((2 * mu j (flip b j p) + b) mod 2)%nat with b by nia_div. cbv zeta.
        destruct b as [|[|b]]; [reflexivity|reflexivity|lia].
      * apply ss_l_length.
      * rewrite HL by exact Hf. reflexivity.
Qed.

(** ** E_8 and F_8 *)
Fixpoint rounds_ok (j : nat) (jr : list (nat * v2)) (cs : list (list N)) : bool :=
  match jr, cs with
  | [], [] => true
  | (j', rc) :: jr, c :: cs =>
      (j' =? j)%nat && const_ok j rc c && (fst rc <? 2 ^ 128) && (snd rc <? 2 ^ 128) && rounds_ok (S j mod 7) jr cs
  | _, _ => false
  end.
Definition jrcs : list (nat * v2) := concat (map (combine (seq 0 7)) (chunks 7 E8_BITSLICE_ROUNDCONSTANT)).
Lemma rounds_check : rounds_ok 0 jrcs constants = true.
Proof. vm_compute. reflexivity. Qed.
Lemma rounds_rel jr cs j Y Q : (j < 7)%nat -> rounds_ok j jr cs = true -> rel (mu j) Y Q ->
  rel (mu ((j + length cs) mod 7)) (fold_left round jr Y) (fold_left (fun q c => Spec.JH.R 8 q (cbit c)) cs Q).
Proof.
  revert cs j Y Q. induction jr as [|[j' rc] jr IH]; intros [|c cs] j Y Q Hj HC HR; try discriminate HC.
  - cbn [length fold_left]. rewrite Nat.add_0_r, Nat.mod_small by exact Hj. exact HR.
  - cbn [rounds_ok] in HC. apply andb_true_iff in HC as [HC H5]. apply andb_true_iff in HC as [HC H4]. apply andb_true_iff in HC as [HC H3].
    apply andb_true_iff in HC as [H1 H2]. apply Nat.eqb_eq in H1. subst j'. apply N.ltb_lt in H3, H4.
    cbn [fold_left length]. replace ((j + S (length cs)) mod 7)%nat with ((S j mod 7 + length cs) mod 7)%nat.
    + apply IH; [apply Nat.mod_upper_bound; discriminate|exact H5|]. now apply round_rel.
    + rewrite Nat.add_mod_idemp_l by discriminate. f_equal. lia.
Qed.
Lemma fold_concat {A B} (f : A -> B -> A) (ls : list (list B)) a : fold_left f (concat ls) a = fold_left (fun a l => fold_left f l a) ls a.
Proof. revert a. induction ls as [|x ls IH]; intros a; cbn [concat fold_left]; [reflexivity|]. now rewrite fold_left_app, IH. Qed.
Lemma fold_map {A B C} (f : A -> B -> A) (g : C -> B) (l : list C) a : fold_left f (map g l) a = fold_left (fun a x => f a (g x)) l a.
Proof. revert a. induction l as [|x l IH]; intros a; cbn [map fold_left]; auto. Qed.
Lemma constants_length : length constants = 42%nat.
Proof. vm_compute. reflexivity. Qed.
Lemma rel_ext m m' Y Q : (forall p, (p < 128)%nat -> m p = m' p) -> rel m Y Q -> rel m' Y Q.
Proof.
  intros E (H1 & H2 & H3 & H4 & H5). refine (conj H1 (conj H2 (conj H3 (conj H4 _)))). intros p b k Hp Hb Hk.
  rewrite <- E by exact Hp. now apply H5.
Qed.
Global Opaque constants.
Definition vok (a : bytes) : Prop := length a = 128%nat /\ bytes_ok a.
Lemma rel_out Y Q : rel nu Y Q -> Y = words_of_le 16 (degroup Q) /\ vok (degroup Q).
Proof.
  intros H. rewrite <- (rel_degroup Y Q H). destruct H as (L & O & _). split.
  - symmetry. apply words_le_roundtrip; [lia|exact O].
  - split; [rewrite words_to_le_length, L; reflexivity|apply words_to_le_ok].
Qed.
Lemma E8_spec a : vok a ->
  fold_left (fun y rc => fold_left round (combine (seq 0 7) rc) y) (chunks 7 E8_BITSLICE_ROUNDCONSTANT) (words_of_le 16 a)
  = words_of_le 16 (Spec.JH.E8 a) /\ vok (Spec.JH.E8 a).
Proof.
  intros [L B]. rewrite <- (fold_map (fun y l => fold_left round l y) (combine (seq 0 7))), <- fold_concat. fold jrcs.
  pose proof (rounds_rel jrcs constants 0 (words_of_le 16 a) (group a) ltac:(lia) rounds_check) as H.
  rewrite constants_length in H. change ((0 + 42) mod 7)%nat with 0%nat in H.
  assert (H' : rel nu (words_of_le 16 a) (group a)) by now apply group_rel.
  apply (rel_ext nu (mu 0)) in H'; [|intros p Hp; symmetry; now apply mu_0].
  specialize (H H'). apply (rel_ext (mu 0) nu) in H; [|exact mu_0]. exact (rel_out _ _ H).
Qed.
Lemma get_xor a b i : length a = length b -> (i < length a)%nat -> get (xor_bytes a b) i = N.lxor (get a i) (get b i).
Proof.
  revert b i. induction a as [|x a IH]; intros [|y b] i E H; try discriminate; [cbn in H; lia|]. injection E as E.
  destruct i as [|i]; [reflexivity|]. unfold get, xor_bytes in *. cbn [combine map nth fst snd length] in *. apply IH; [exact E|lia].
Qed.
Lemma get_app1 (a b : bytes) i : (i < length a)%nat -> get (a ++ b) i = get a i.
Proof. intros H. unfold get. now apply app_nth1. Qed.
Lemma get_app2 (a b : bytes) i : (length a <= i)%nat -> get (a ++ b) i = get b (i - length a).
Proof. intros H. unfold get. now apply app_nth2. Qed.
Lemma get_firstn (a : bytes) n i : (i < n)%nat -> (n <= length a)%nat -> get (firstn n a) i = get a i.
Proof. intros H L. rewrite <- (firstn_skipn n a) at 2. rewrite get_app1 by (rewrite firstn_length; lia). reflexivity. Qed.
Lemma get_skipn (a : bytes) n i : (n <= length a)%nat -> get (skipn n a) i = get a (n + i).
Proof. intros L. rewrite <- (firstn_skipn n a) at 2. rewrite get_app2 by (rewrite firstn_length; lia). f_equal. rewrite firstn_length. lia. Qed.
Lemma row_ok (a : bytes) (f : nat -> nat) : bytes_ok a -> bytes_ok (map (fun t => get a (f t)) (seq 0 16)).
Proof. intros B. apply Forall_map, Forall_forall. intros t _. change 256 with (2 ^ 8). now apply get_ok. Qed.
Lemma F8_spec h m : vok h -> length m = 64%nat -> bytes_ok m ->
  f8_impl (words_of_le 16 h) m = words_of_le 16 (Spec.JH.F8 h m) /\ vok (Spec.JH.F8 h m).
Proof.
  intros [Lh Bh] Lm Bm. unfold f8_impl, Spec.JH.F8. cbv zeta.
  assert (E1 : map (fun i => if (i <? 4)%nat then N.lxor (get (words_of_le 16 h) i) (get (words_of_le 16 m) i) else get (words_of_le 16 h) i) (seq 0 8)
    = words_of_le 16 (xor_bytes (firstn 64 h) m ++ skipn 64 h)).
  { assert (LX : length (xor_bytes (firstn 64 h) m) = 64%nat) by (rewrite xor_bytes_length, firstn_length; lia).
    apply list_eq_get; rewrite map_length, seq_length.
    - rewrite words_of_le_length by lia. rewrite app_length, LX, skipn_length, Lh. reflexivity.
    - intros i Hi. rewrite get_map_seq by exact Hi. rewrite (get_words 16 (_ ++ _)) by (lia || (rewrite app_length, LX, skipn_length; lia)).
      rewrite (get_words 16 h) by lia. destruct (Nat.ltb_spec i 4) as [H4|H4].
      + rewrite (get_words 16 m) by lia. rewrite <- le_val_xor; try (apply row_ok; assumption); [|reflexivity].
        rewrite <- map_xor. f_equal. apply map_ext_in. intros t Ht. apply in_seq in Ht.
        rewrite get_app1 by lia. rewrite get_xor by (rewrite firstn_length; lia). rewrite get_firstn by lia. reflexivity.
      + f_equal. apply map_ext_in. intros t Ht. apply in_seq in Ht. rewrite get_app2 by lia. rewrite get_skipn by lia. f_equal. lia. }
  rewrite E1.
  assert (VA : vok (xor_bytes (firstn 64 h) m ++ skipn 64 h)).
  { split; [rewrite app_length, xor_bytes_length, firstn_length, skipn_length; lia|]. apply bytes_ok_app.
    split; [apply xor_bytes_ok; [now apply bytes_ok_firstn|exact Bm]|now apply bytes_ok_skipn]. }
  set (a := xor_bytes (firstn 64 h) m ++ skipn 64 h) in *. clearbody a. destruct (E8_spec a VA) as [-> [Lb Bb]].
  set (b := Spec.JH.E8 a) in *. clearbody b. clear E1 VA a.
  assert (LX : length (xor_bytes (skipn 64 b) m) = 64%nat) by (rewrite xor_bytes_length, skipn_length; lia).
  assert (LF : length (firstn 64 b) = 64%nat) by (rewrite firstn_length; lia).
  split.
  - apply list_eq_get; rewrite map_length, seq_length.
    + rewrite words_of_le_length by lia. rewrite app_length, LX, LF. reflexivity.
    + intros i Hi. rewrite get_map_seq by exact Hi. rewrite (get_words 16 (_ ++ _)) by (lia || (rewrite app_length, LX, LF; lia)).
      rewrite (get_words 16 b) by lia. destruct (Nat.leb_spec 4 i) as [H4|H4].
      * rewrite (get_words 16 m) by lia. rewrite <- le_val_xor; try (apply row_ok; assumption); [|reflexivity].
        rewrite <- map_xor. f_equal. apply map_ext_in. intros t Ht. apply in_seq in Ht.
        rewrite get_app2 by lia. rewrite LF, get_xor by (rewrite skipn_length; lia). rewrite get_skipn by lia.
        f_equal; f_equal; lia.
      * f_equal. apply map_ext_in. intros t Ht. apply in_seq in Ht. rewrite get_app1 by lia. rewrite get_firstn by lia. reflexivity.
  - split; [rewrite app_length, LX, LF; reflexivity|]. apply bytes_ok_app. split; [now apply bytes_ok_firstn|].
    apply xor_bytes_ok; [now apply bytes_ok_skipn|exact Bm].
Qed.

(** ** Padding *)
Lemma blocks_spec bl h : Forall (fun b => length b = 64%nat /\ bytes_ok b) bl -> vok h ->
  fold_left f8_impl bl (words_of_le 16 h) = words_of_le 16 (fold_left Spec.JH.F8 bl h) /\ vok (fold_left Spec.JH.F8 bl h).
Proof.
  intros F. revert h. induction F as [|b bl [Lb Bb] F IH]; intros h V; cbn [fold_left]; [now split|].
  destruct (F8_spec h b V Lb Bb) as [-> V']. now apply IH.
Qed.
Definition last_blocks (r : bytes) (n : N) : list bytes :=
  if (length r =? 0)%nat then len64_padding_be 64 n r else pad_blocks 64 0x80 [] r ++ pad_blocks 64 0 (be_bytes 8 n) [].
Lemma be_bytes_16 x : x < 2 ^ 64 -> be_bytes 16 x = zeros 8 ++ be_bytes 8 x.
Proof.
  intros H. change 16%nat with (8 + 8)%nat. rewrite be_bytes_app. f_equal. rewrite N.div_small by exact H. reflexivity.
Qed.
Lemma zeros_plus a b : zeros (a + b) = zeros a ++ zeros b.
Proof. unfold zeros. apply repeat_app. Qed.
Lemma last_blocks_ok r n : (length r < 64)%nat -> bytes_ok r -> n < 2 ^ 64 ->
  Forall (fun b => length b = 64%nat /\ bytes_ok b) (last_blocks r n) /\
  concat (last_blocks r n) = r ++ [0x80] ++ zeros (47 + (64 - length r) mod 64) ++ be_bytes 16 n.
Proof.
  intros L B H. rewrite be_bytes_16 by exact H. unfold last_blocks. destruct (Nat.eqb_spec (length r) 0) as [E|E].
  - apply length_zero_iff_nil in E. subst r. cbn [length].
    assert (EB : len64_padding_be 64 n [] = [[128] ++ zeros 47 ++ zeros 8 ++ be_bytes 8 n]).
    { unfold len64_padding_be, pad_blocks. rewrite be_bytes_length. reflexivity. }
    rewrite EB. split; [|cbn [concat app]; now rewrite app_nil_r].
    constructor; [|constructor]. split; [rewrite !app_length, be_bytes_length; reflexivity|].
    apply bytes_ok_app. split; [repeat constructor|]. apply bytes_ok_app. split; [apply zeros_ok|]. apply bytes_ok_app. split; [apply zeros_ok|apply be_bytes_ok].
  - assert (E1 : pad_blocks 64 128 [] r = [r ++ 128 :: zeros (63 - length r)]).
    { unfold pad_blocks. cbn [length]. replace (64 - length r - 1)%nat with (63 - length r)%nat by lia.
      destruct (Nat.ltb_spec (63 - length r) 0) as [Q|Q]; [lia|].
      rewrite firstn_all2 by (rewrite app_length; cbn [length]; rewrite zeros_length; lia). now rewrite app_nil_r. }
    assert (E2 : pad_blocks 64 0 (be_bytes 8 n) [] = [zeros 48 ++ zeros 8 ++ be_bytes 8 n]).
    { unfold pad_blocks. rewrite be_bytes_length. reflexivity. }
    rewrite E1, E2. split.
    + constructor; [split|constructor; [split|constructor]].
      * rewrite app_length. cbn [length]. rewrite zeros_length. lia.
      * apply bytes_ok_app. split; [exact B|]. constructor; [reflexivity|apply zeros_ok].
      * rewrite !app_length, be_bytes_length. reflexivity.
      * apply bytes_ok_app. split; [apply zeros_ok|]. apply bytes_ok_app. split; [apply zeros_ok|apply be_bytes_ok].
    + rewrite Nat.mod_small by lia. replace (47 + (64 - length r))%nat with (63 - length r + 48)%nat by lia. rewrite zeros_plus.
      cbn [app concat]. rewrite <- !app_assoc. cbn [app]. rewrite app_nil_r, <- ?app_assoc. reflexivity.
Qed.
Lemma pad_split msg : bytes_ok msg -> 8 * N.of_nat (length msg) < 2 ^ 64 ->
  chunks 64 (Spec.JH.pad msg) = chunks 64 msg ++ last_blocks (remainder 64 msg) (8 * N.of_nat (length msg)).
Proof.
  intros B H. pose proof (Nat.mod_upper_bound (length msg) 64 ltac:(lia)) as EU.
  assert (LR : length (remainder 64 msg) = (length msg mod 64)%nat) by (apply remainder_length; lia).
  destruct (last_blocks_ok (remainder 64 msg) (8 * N.of_nat (length msg)) ltac:(lia) (remainder_ok _ _ B) H) as [F E].
  rewrite <- (chunks_concat 64 (chunks 64 msg ++ last_blocks (remainder 64 msg) (8 * N.of_nat (length msg)))); [|lia|].
  - f_equal. rewrite concat_app, E. unfold Spec.JH.pad. rewrite LR. rewrite <- (concat_chunks_rem 64 msg) at 1 by lia. now rewrite <- app_assoc.
  - apply Forall_app. split; [apply chunks_block_length; lia|]. eapply Forall_impl; [|exact F]. now intros ? [].
Qed.

(** ** The hashers *)
Definition Pst (s : list N) : Prop := exists h, vok h /\ s = words_of_le 16 h.
Definition within (len : nat) : Prop := 8 * N.of_nat len < 2 ^ 64.
Lemma core_jh_ok h0 k : (k <= 64)%nat -> h0 = words_of_le 16 (Spec.JH.H0 k) -> vok (Spec.JH.H0 k) ->
  core_ok (jh_core h0 k) (fun st => Pst (fst st) /\ snd st < 2 ^ 64) (Spec.JH.JH k) within.
Proof.
  intros Hk EI VI. apply (wcounted_core_ok 64 64 f8_impl h0 Pst).
  - lia.
  - exists (Spec.JH.H0 k). now split.
  - intros s b (h & V & ->) L B. destruct (F8_spec h b V L B) as [-> V']. eexists. split; [exact V'|reflexivity].
  - unfold within. lia.
  - reflexivity.
  - reflexivity.
  - intros m msg W B. unfold within in W. unfold jh_finalize. cbn [fst snd].
    pose proof (len_split 64 (length msg) ltac:(lia)) as ES. change (N.of_nat 64) with 64 in ES.
    assert (LR : length (remainder 64 msg) = (length msg mod 64)%nat) by (apply remainder_length; lia).
    assert (EB : wmul 64 (wadd 64 (wmul 64 (N.of_nat (length msg / 64) mod 2 ^ 64) 64) (N.of_nat (length (remainder 64 msg)))) 8 = 8 * N.of_nat (length msg)).
    { unfold wmul, wadd. rewrite LR. rewrite (N.mod_small (N.of_nat (length msg / 64))) by lia.
      rewrite (N.mod_small (_ * 64)) by lia. rewrite (N.mod_small (_ + _)) by lia. rewrite N.mod_small by lia. lia. }
    rewrite EB. eexists. split; [|reflexivity]. apply f_equal, f_equal2; [|reflexivity].
    set (n := 8 * N.of_nat (length msg)) in *.
    assert (EF : forall st, (if (length (remainder 64 msg) =? 0)%nat then fold_left f8_impl (len64_padding_be 64 n (remainder 64 msg)) st
      else fold_left f8_impl (pad_blocks 64 0 (be_bytes 8 n) []) (fold_left f8_impl (pad_blocks 64 128 [] (remainder 64 msg)) st))
      = fold_left f8_impl (last_blocks (remainder 64 msg) n) st).
    { intros st. unfold last_blocks. destruct (_ =? _)%nat; [reflexivity|]. symmetry. apply fold_left_app. }
    rewrite EF, <- fold_left_app. subst n. rewrite <- pad_split by assumption. rewrite EI.
    destruct (blocks_spec (chunks 64 (Spec.JH.pad msg)) (Spec.JH.H0 k)) as [-> [LV BV]].
    + rewrite pad_split by assumption. apply Forall_app. split.
      * apply Forall_forall. intros c Hc. split.
        -- exact (proj1 (Forall_forall _ _) (chunks_block_length 64 msg ltac:(lia)) c Hc).
        -- exact (proj1 (Forall_forall _ _) (chunks_ok 64 msg ltac:(lia) B) c Hc).
      * apply last_blocks_ok; [|now apply remainder_ok|exact W]. rewrite LR. apply Nat.mod_upper_bound. lia.
    + exact VI.
    + rewrite (words_le_canonical 16 8) by (lia || assumption). unfold Spec.JH.JH.
      rewrite <- (firstn_skipn 64 (fold_left Spec.JH.F8 _ _)) at 2. rewrite skipn_app.
      rewrite (skipn_all2 (n := 128 - k) (firstn 64 _)) by (rewrite firstn_length; lia). rewrite firstn_length. cbn [app]. f_equal. lia.
  - intros cd st H. discriminate H.
Qed.
Lemma H0_model k h : f8_impl (words_of_le 16 (be_bytes 2 (8 * N.of_nat k) ++ zeros 126)) (zeros 64) = h ->
  h = words_of_le 16 (Spec.JH.H0 k) /\ vok (Spec.JH.H0 k).
Proof.
  intros <-. apply F8_spec; [|reflexivity|apply zeros_ok]. split; [rewrite app_length, be_bytes_length; reflexivity|].
  apply bytes_ok_app. split; [apply be_bytes_ok|apply zeros_ok].
Qed.
Lemma H0_224 : JH224_H0 = words_of_le 16 (Spec.JH.H0 28) /\ vok (Spec.JH.H0 28).
Proof. apply H0_model. vm_compute. reflexivity. Qed.
Lemma H0_256 : JH256_H0 = words_of_le 16 (Spec.JH.H0 32) /\ vok (Spec.JH.H0 32).
Proof. apply H0_model. vm_compute. reflexivity. Qed.
Lemma H0_384 : JH384_H0 = words_of_le 16 (Spec.JH.H0 48) /\ vok (Spec.JH.H0 48).
Proof. apply H0_model. vm_compute. reflexivity. Qed.
Lemma H0_512 : JH512_H0 = words_of_le 16 (Spec.JH.H0 64) /\ vok (Spec.JH.H0 64).
Proof. apply H0_model. vm_compute. reflexivity. Qed.
Lemma Jh224_ok : core_ok Jh224 (fun st => Pst (fst st) /\ snd st < 2 ^ 64) (Spec.JH.JH 28) within.
Proof. destruct H0_224. apply core_jh_ok; [lia|assumption|assumption]. Qed.
Lemma Jh256_ok : core_ok Jh256 (fun st => Pst (fst st) /\ snd st < 2 ^ 64) (Spec.JH.JH 32) within.
Proof. destruct H0_256. apply core_jh_ok; [lia|assumption|assumption]. Qed.
Lemma Jh384_ok : core_ok Jh384 (fun st => Pst (fst st) /\ snd st < 2 ^ 64) (Spec.JH.JH 48) within.
Proof. destruct H0_384. apply core_jh_ok; [lia|assumption|assumption]. Qed.
Lemma Jh512_ok : core_ok Jh512 (fun st => Pst (fst st) /\ snd st < 2 ^ 64) (Spec.JH.JH 64) within.
Proof. destruct H0_512. apply core_jh_ok; [lia|assumption|assumption]. Qed.
Lemma Jh_digest m cs : Forall bytes_ok cs -> 8 * N.of_nat (length (concat cs)) < 2 ^ 64 ->
  h_digest Jh224 m cs = Some (Spec.JH.JH 28 (concat cs)) /\ h_digest Jh256 m cs = Some (Spec.JH.JH 32 (concat cs)) /\
  h_digest Jh384 m cs = Some (Spec.JH.JH 48 (concat cs)) /\ h_digest Jh512 m cs = Some (Spec.JH.JH 64 (concat cs)).
Proof.
  intros B W. refine (conj _ (conj _ (conj _ _))).
  - exact (digest_spec _ _ _ _ Jh224_ok m cs B W).
  - exact (digest_spec _ _ _ _ Jh256_ok m cs B W).
  - exact (digest_spec _ _ _ _ Jh384_ok m cs B W).
  - exact (digest_spec _ _ _ _ Jh512_ok m cs B W).
Qed.
Lemma f8_bytes h b : length h = 128%nat -> bytes_ok h -> length b = 64%nat -> bytes_ok b ->
  words_to_le 16 (f8_impl (words_of_le 16 h) b) = Spec.JH.F8 h b.
Proof.
  intros Lh Bh Lb Bb. destruct (F8_spec h b (conj Lh Bh) Lb Bb) as [-> [L B]]. apply (words_le_canonical 16 8); [lia|exact B|exact L].
Qed.
