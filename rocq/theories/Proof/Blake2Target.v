(** The blake2 crate computes the same on every target. *)
From Coq Require Import Lia.
From Verif Require Import Base.Words Base.Bytes Base.Codec Base.BlockBuffer Base.BlockBufferFacts
  Base.Digest Base.DigestFacts Base.Agree Spec.Target Model.Blake2 Model.Blake2Target Proof.Blake2.
From Verif Require Spec.BLAKE2 Proof.Loads Proof.Ascon.

Definition bits (l : bytes) : N := 8 * N.of_nat (length l).
Lemma pow_bits l : 256 ^ N.of_nat (length l) = 2 ^ bits l.
Proof. unfold bits. now rewrite N.pow_mul_r. Qed.
(** Moving the first bytes of a word to its end is a rotation to the right. *)
Lemma rot_bytes w n lo hi : bytes_ok lo -> bytes_ok hi -> w = bits lo + bits hi -> n = bits lo ->
  le_val (hi ++ lo) = rotr w (le_val (lo ++ hi)) n.
Proof.
  intros Bl Bh -> ->. rewrite !Proof.Ascon.le_val_app.
  apply le_val_lt in Bl. apply le_val_lt in Bh. rewrite pow_bits in *. fold (bits lo) (bits hi).
  revert Bl Bh. generalize (le_val lo) (le_val hi) (bits lo) (bits hi). intros x y a b X Y.
  unfold rotr, wshl. replace (a + b - a) with b by lia. rewrite N.shiftr_div_pow2, N.shiftl_mul_pow2.
  assert (P : forall k, 2 ^ k <> 0) by (intros; apply N.pow_nonzero; discriminate).
  replace ((x + 2 ^ a * y) / 2 ^ a) with y by (rewrite N.mul_comm, N.div_add, N.div_small by auto; reflexivity).
  replace (((x + 2 ^ a * y) * 2 ^ b) mod 2 ^ (a + b)) with (2 ^ b * x).
  - symmetry. now apply Proof.Loads.lor_disjoint.
  - replace ((x + 2 ^ a * y) * 2 ^ b) with (2 ^ b * x + y * 2 ^ (a + b)) by (rewrite N.pow_add_r; lia).
    rewrite N.mod_add by auto. symmetry. apply N.mod_small. rewrite N.pow_add_r. nia.
Qed.

(** ** Byte order *)
Lemma swap_swap k x : x < 256 ^ N.of_nat k -> be_bytes k (swap_bytes k x) = le_bytes k x.
Proof.
  intros _. unfold swap_bytes. pose proof (be_bytes_val (le_bytes k x) (le_bytes_ok k x)) as E.
  now rewrite le_bytes_length in E.
Qed.
Lemma from_le_ne e k c : length c = k -> bytes_ok c -> from_le e k (ne_val e c) = le_val c.
Proof.
  intros <- B. destruct e; [reflexivity|]. cbn [from_le ne_val]. unfold swap_bytes, be_val.
  assert (B' : bytes_ok (rev c)) by now apply Forall_rev.
  pose proof (le_bytes_val _ B') as E. rewrite rev_length in E. now rewrite E, rev_involutive.
Qed.
Lemma from_le_0 e k : from_le e k 0 = 0.
Proof.
  destruct e; [reflexivity|]. cbn [from_le]. unfold swap_bytes, be_val.
  assert (Z : forall n, rev (le_bytes n 0) = zeros n).
  { induction n as [|n IH]; [reflexivity|]. cbn [le_bytes rev]. change (0 / 256) with 0. rewrite IH.
    unfold zeros. change [0 mod 256] with (repeat 0 1). rewrite <- repeat_app. f_equal. lia. }
  rewrite Z. clear. induction k as [|k IH]; [reflexivity|]. unfold zeros in *. cbn [repeat le_val]. now rewrite IH.
Qed.
Lemma ne_bytes_to_le e k x : ne_bytes e k (from_le e k x) = le_bytes k x.
Proof.
  destruct e; [reflexivity|]. cbn [ne_bytes from_le]. unfold swap_bytes.
  pose proof (be_bytes_val (le_bytes k x) (le_bytes_ok k x)) as E. now rewrite le_bytes_length in E.
Qed.
Lemma ne_bytes_val e c : bytes_ok c -> ne_bytes e (length c) (ne_val e c) = c.
Proof. intros B. destruct e; cbn [ne_bytes ne_val]; [now apply le_bytes_val|now apply be_bytes_val]. Qed.
Lemma ne_bytes_len e k x : length (ne_bytes e k x) = k.
Proof. destruct e; cbn [ne_bytes]; [apply le_bytes_length|apply be_bytes_length]. Qed.
Lemma ne_bytes_ok e k x : bytes_ok (ne_bytes e k x).
Proof. destruct e; cbn [ne_bytes]; [apply le_bytes_ok|apply be_bytes_ok]. Qed.
Lemma ne_val_bytes e k x : x < 256 ^ N.of_nat k -> ne_val e (ne_bytes e k x) = x.
Proof. intros H. destruct e; cbn [ne_val ne_bytes]; rewrite ?le_val_bytes, ?be_val_bytes; now apply N.mod_small. Qed.

(** ** Shuffles *)
Definition mem (e : endian) (k : nat) (v : v4) : bytes := concat (map (ne_bytes e k) (v4_list v)).
Lemma shuffle_bytes e k j idx v : (0 < j)%nat -> (length (mem e k v) mod j = 0)%nat ->
  Forall (fun i => i < length (chunks j (mem e k v)))%nat idx ->
  transmute_shuffle e k j idx v = v4_of_list (map (ne_val e) (chunks k (concat (map (fun i => nth i (chunks j (mem e k v)) []) idx)))).
Proof.
  intros J D F. unfold transmute_shuffle, transmute at 1. do 3 f_equal. unfold transmute. fold (mem e k v).
  assert (B : bytes_ok (mem e k v)).
  { unfold mem. apply Forall_concat, Forall_map. apply Forall_forall. intros x _. apply ne_bytes_ok. }
  unfold simd_shuffle. rewrite map_map. f_equal. apply map_ext_in. intros i I. rewrite Forall_forall in F. specialize (F i I).
  unfold get. rewrite app_nth1 by now rewrite map_length.
  rewrite (nth_indep _ oob (ne_val e [])) by now rewrite map_length. rewrite map_nth.
  assert (N1 : In (nth i (chunks j (mem e k v)) []) (chunks j (mem e k v))) by now apply nth_In.
  pose proof (chunks_block_length j (mem e k v) J) as L. rewrite Forall_forall in L. apply L in N1 as L1.
  pose proof (chunks_ok j (mem e k v) J B) as L2. rewrite Forall_forall in L2.
  rewrite <- L1 at 1. apply ne_bytes_val, L2, N1.
Qed.

Definition lanes_ok (w : N) (v : v4) : Prop := Forall (fun x => x < 2 ^ w) (v4_list v).
Lemma any_rot w v n : 0 < n -> n < w -> lanes_ok w v -> rotate_right_any w v n = vrotr w n v.
Proof.
  intros Hn Hw Ok. destruct v as (((a, b), c), d). unfold lanes_ok in Ok. cbn [v4_list] in Ok.
  repeat (apply Forall_cons_iff in Ok as [? Ok]). clear Ok.
  unfold rotate_right_any, vshr, vshl, v4map, vxor, vmap2, vrotr.
  assert (G : forall x, x < 2 ^ w -> N.lxor (N.shiftr x n) (wshl w x (w - n)) = rotr w x n).
  { intros x Hx. unfold rotr. rewrite lt_pow2_bits in Hx. apply N.bits_inj. intros i.
    rewrite N.lxor_spec, N.lor_spec, testbit_shiftr, testbit_wshl.
    destruct (N.leb_spec (w - n) i); [|now rewrite !andb_false_r, orb_false_r, xorb_false_r].
    rewrite (Hx (i + n)) by lia. now rewrite orb_false_l, xorb_false_l. }
  now rewrite !G.
Qed.
Lemma rot_at w n b l : bytes_ok l -> w = bits l -> n = 8 * N.of_nat b -> (b <= length l)%nat ->
  le_val (skipn b l ++ firstn b l) = rotr w (le_val l) n.
Proof.
  intros O -> -> L. rewrite <- (firstn_skipn b l) in O. apply Forall_app in O as [O1 O2].
  rewrite <- (firstn_skipn b l) at 4. apply rot_bytes; [exact O1|exact O2| |];
    unfold bits; rewrite ?firstn_length, ?skipn_length; lia.
Qed.
(** Swapping the halves, on any machine. *)
Lemma rot_half e w n b l : bytes_ok l -> w = bits l -> n = 8 * N.of_nat b -> length l = (b + b)%nat ->
  ne_val e (skipn b l ++ firstn b l) = rotr w (ne_val e l) n.
Proof.
  intros O Hw Hn L. destruct e; cbn [ne_val]; [apply rot_at; try assumption; lia|].
  unfold be_val. rewrite rev_app_distr.
  rewrite <- (firstn_skipn b l) at 3. rewrite rev_app_distr.
  pose proof (Forall_rev O) as O'. rewrite <- (firstn_skipn b l), rev_app_distr in O'. apply Forall_app in O' as [O1 O2].
  apply rot_bytes; [exact O1|exact O2| |]; subst; unfold bits; rewrite ?rev_length, ?firstn_length, ?skipn_length; lia.
Qed.
Lemma vext_rot b x : (b <= 8)%nat -> x < 2 ^ 64 -> vext b x = rotr 64 x (8 * N.of_nat b).
Proof.
  intros Hb Hx. unfold vext. rewrite (rot_at 64 (8 * N.of_nat b) b).
  - rewrite le_val_bytes. f_equal. now apply N.mod_small.
  - apply le_bytes_ok.
  - unfold bits. now rewrite le_bytes_length.
  - reflexivity.
  - now rewrite le_bytes_length.
Qed.

Ltac expl n l L :=
  lazymatch n with
  | O => destruct l; [|discriminate L]; clear L
  | S ?m => destruct l as [|? l]; [discriminate L|]; expl m l L
  end.
Lemma mem_length e k v : length (mem e k v) = (4 * k)%nat.
Proof.
  destruct v as (((x0, x1), x2), x3). unfold mem. cbn [v4_list map concat]. rewrite !app_length, !ne_bytes_len. cbn. lia.
Qed.
Lemma lane_bytes e k x : x < 256 ^ N.of_nat k -> exists l, length l = k /\ bytes_ok l /\ ne_bytes e k x = l /\ x = ne_val e l.
Proof.
  intros H. exists (ne_bytes e k x). split; [apply ne_bytes_len|]. split; [apply ne_bytes_ok|].
  split; [reflexivity|]. symmetry. now apply ne_val_bytes.
Qed.
(** A shuffle that moves bytes the same way in every lane. *)
Section Lanes.
  Variables (e : endian) (w : N) (k j b : nat) (idx : list nat).
  Hypothesis Hw : 2 ^ w = 256 ^ N.of_nat k.
  Hypothesis Hj : (0 < j)%nat.
  Hypothesis Hm : (4 * k mod j = 0)%nat.
  Hypothesis Hi : forallb (fun i => i <? 4 * k / j)%nat idx = true.
  Hypothesis moves : forall l0 l1 l2 l3 : bytes, length l0 = k -> length l1 = k -> length l2 = k -> length l3 = k ->
    chunks k (concat (map (fun i => nth i (chunks j (l0 ++ l1 ++ l2 ++ l3)) []) idx))
    = map (fun l => skipn b l ++ firstn b l) [l0; l1; l2; l3].
  Hypothesis rotates : forall l, length l = k -> bytes_ok l ->
    ne_val e (skipn b l ++ firstn b l) = rotr w (ne_val e l) (8 * N.of_nat b).
  Lemma shuffle_rot v : lanes_ok w v -> transmute_shuffle e k j idx v = vrotr w (8 * N.of_nat b) v.
  Proof using All.
    intros Ok. rewrite shuffle_bytes; [|exact Hj|now rewrite mem_length|].
    2:{ rewrite chunks_length, mem_length by exact Hj. apply Forall_forall. intros i I.
        rewrite forallb_forall in Hi. apply Nat.ltb_lt. now apply Hi. }
    destruct v as (((x0, x1), x2), x3). unfold lanes_ok in Ok. cbn [v4_list] in Ok. rewrite Hw in Ok.
    apply Forall_cons_iff in Ok as [H0 Ok]. apply Forall_cons_iff in Ok as [H1 Ok].
    apply Forall_cons_iff in Ok as [H2 Ok]. apply Forall_cons_iff in Ok as [H3 _].
    destruct (lane_bytes e k x0 H0) as (l0 & L0 & B0 & E0 & V0), (lane_bytes e k x1 H1) as (l1 & L1 & B1 & E1 & V1),
      (lane_bytes e k x2 H2) as (l2 & L2 & B2 & E2 & V2), (lane_bytes e k x3 H3) as (l3 & L3 & B3 & E3 & V3).
    unfold mem. cbn [v4_list map concat]. rewrite E0, E1, E2, E3, app_nil_r, moves by assumption.
    rewrite V0, V1, V2, V3. cbn [map]. unfold v4_of_list, vrotr. cbn [get nth].
    now rewrite !rotates.
  Qed.
End Lanes.

Ltac moves_tac k := intros l0 l1 l2 l3 L0 L1 L2 L3;
  expl k l0 L0; expl k l1 L1; expl k l2 L2; expl k l3 L3; reflexivity.
Ltac lane_tac := intros l L O; apply rot_at; [exact O|unfold bits; now rewrite L|reflexivity|rewrite L; lia].
Ltac half_tac := intros l L O; apply rot_half; [exact O|unfold bits; now rewrite L|reflexivity|rewrite L; lia].
Lemma rot16_32_8 v : lanes_ok 32 v ->
  transmute_shuffle Little 4 1 [2; 3; 0; 1; 6; 7; 4; 5; 10; 11; 8; 9; 14; 15; 12; 13]%nat v = vrotr 32 16 v.
Proof. apply (shuffle_rot Little 32 4 1 2); [reflexivity|lia|reflexivity|reflexivity|moves_tac 4%nat|lane_tac]. Qed.
Lemma rot16_32_16 e v : lanes_ok 32 v -> transmute_shuffle e 4 2 [1; 0; 3; 2; 5; 4; 7; 6]%nat v = vrotr 32 16 v.
Proof. apply (shuffle_rot e 32 4 2 2); [reflexivity|lia|reflexivity|reflexivity|moves_tac 4%nat|half_tac]. Qed.
Lemma rot8_32_8 v : lanes_ok 32 v ->
  transmute_shuffle Little 4 1 [1; 2; 3; 0; 5; 6; 7; 4; 9; 10; 11; 8; 13; 14; 15; 12]%nat v = vrotr 32 8 v.
Proof. apply (shuffle_rot Little 32 4 1 1); [reflexivity|lia|reflexivity|reflexivity|moves_tac 4%nat|lane_tac]. Qed.
Lemma rot32_64_32 e v : lanes_ok 64 v -> transmute_shuffle e 8 4 [1; 0; 3; 2; 5; 4; 7; 6]%nat v = vrotr 64 32 v.
Proof. apply (shuffle_rot e 64 8 4 4); [reflexivity|lia|reflexivity|reflexivity|moves_tac 8%nat|half_tac]. Qed.
Lemma rot24_64_8 v : lanes_ok 64 v -> transmute_shuffle Little 8 1
  [3; 4; 5; 6; 7; 0; 1; 2; 11; 12; 13; 14; 15; 8; 9; 10; 19; 20; 21; 22; 23; 16; 17; 18; 27; 28; 29; 30; 31; 24; 25; 26]%nat v
  = vrotr 64 24 v.
Proof. apply (shuffle_rot Little 64 8 1 3); [reflexivity|lia|reflexivity|reflexivity|moves_tac 8%nat|lane_tac]. Qed.
Lemma rot16_64_8 v : lanes_ok 64 v -> transmute_shuffle Little 8 1
  [2; 3; 4; 5; 6; 7; 0; 1; 10; 11; 12; 13; 14; 15; 8; 9; 18; 19; 20; 21; 22; 23; 16; 17; 26; 27; 28; 29; 30; 31; 24; 25]%nat v
  = vrotr 64 16 v.
Proof. apply (shuffle_rot Little 64 8 1 2); [reflexivity|lia|reflexivity|reflexivity|moves_tac 8%nat|lane_tac]. Qed.
Lemma rot16_64_16 v : lanes_ok 64 v ->
  transmute_shuffle Little 8 2 [1; 2; 3; 0; 5; 6; 7; 4; 9; 10; 11; 8; 13; 14; 15; 12]%nat v = vrotr 64 16 v.
Proof. apply (shuffle_rot Little 64 8 2 2); [reflexivity|lia|reflexivity|reflexivity|moves_tac 8%nat|lane_tac]. Qed.
Lemma vext_rot4 b v : (b <= 8)%nat -> lanes_ok 64 v -> rotate_right_vext v b = vrotr 64 (8 * N.of_nat b) v.
Proof.
  intros Hb Ok. destruct v as (((x0, x1), x2), x3). unfold lanes_ok in Ok. cbn [v4_list] in Ok.
  repeat (apply Forall_cons_iff in Ok as [? Ok]). unfold rotate_right_vext, v4map, vrotr. now rewrite !vext_rot.
Qed.

Lemma rotate_ok t P n v : exists_target t -> wb P = 8%nat /\ wbits P = 64 \/ wb P = 4%nat /\ wbits P = 32 ->
  0 < n -> n < wbits P -> lanes_ok (wbits P) v -> rotate_right_const t P n v = vrotr (wbits P) n v.
Proof.
  intros T [[E1 E2]|[E1 E2]] Hn Hw Ok; rewrite E2 in *; unfold rotate_right_const; rewrite E1, ?E2; destruct (simd t); try reflexivity;
    cbn [Nat.eqb]; unfold exists_target in T.
  - unfold rotate_right_const_64. destruct (simd_opt t); [|now apply any_rot].
    destruct (N.eqb_spec n 32) as [->|_].
    { unfold rotate_right_32_64. destruct (sse2 t || neon t); [now apply rot32_64_32|now apply any_rot]. }
    destruct (N.eqb_spec n 24) as [->|_].
    { unfold rotate_right_24_64. destruct (simd_asm t && neon t && arm t); [now apply (vext_rot4 3); [lia|]|].
      destruct (ssse3 t); [|now apply any_rot]. rewrite T by apply orb_true_r. now apply rot24_64_8. }
    destruct (N.eqb_spec n 16) as [->|_]; [|now apply any_rot].
    unfold rotate_right_16_64. destruct (simd_asm t && neon t && arm t); [now apply (vext_rot4 2); [lia|]|].
    destruct (ssse3 t); [rewrite T by apply orb_true_r; now apply rot16_64_8|].
    destruct (sse2 t); [rewrite T by reflexivity; now apply rot16_64_16|now apply any_rot].
  - unfold rotate_right_const_32. destruct (simd_opt t); [|now apply any_rot].
    destruct (N.eqb_spec n 16) as [->|_].
    { unfold rotate_right_16_32. destruct (ssse3 t); [rewrite T by apply orb_true_r; now apply rot16_32_8|].
      destruct (sse2 t || neon t); [now apply rot16_32_16|now apply any_rot]. }
    destruct (N.eqb_spec n 8) as [->|_]; [|now apply any_rot].
    unfold rotate_right_8_32. destruct (ssse3 t); [rewrite T by apply orb_true_r; now apply rot8_32_8|now apply any_rot].
Qed.

(** ** The compression function *)
Lemma shuffle_left_ok t v : shuffle_left_1_t t v = shuffle_left_1 v /\ shuffle_left_2_t t v = shuffle_left_2 v /\
  shuffle_left_3_t t v = shuffle_left_3 v.
Proof.
  destruct v as (((a, b), c), d). unfold shuffle_left_1_t, shuffle_left_2_t, shuffle_left_3_t, shuffle_left.
  destruct (simd t); repeat split.
Qed.
Lemma shuffle_ok t v : shuffle_t t v = shuffle v.
Proof.
  destruct v as (((a, b), c), d). unfold shuffle_t, shuffle.
  destruct (shuffle_left_ok t b) as (-> & _), (shuffle_left_ok t c) as (_ & -> & _), (shuffle_left_ok t d) as (_ & _ & ->). reflexivity.
Qed.
Lemma unshuffle_ok t v : unshuffle_t t v = unshuffle v.
Proof.
  destruct v as (((a, b), c), d). unfold unshuffle_t, unshuffle.
  destruct (shuffle_left_ok t b) as (_ & _ & ->), (shuffle_left_ok t c) as (_ & -> & _), (shuffle_left_ok t d) as (-> & _). reflexivity.
Qed.

Definition state_ok (w : N) (v : v4 * v4 * v4 * v4) : Prop :=
  let '(a, b, c, d) := v in lanes_ok w a /\ lanes_ok w b /\ lanes_ok w c /\ lanes_ok w d.
Ltac four := match goal with v : v4 |- _ => destruct v as [[[? ?] ?] ?] end.
Ltac unlanes := repeat match goal with H : lanes_ok _ (_, _, _, _) |- _ => unfold lanes_ok in H; cbn [v4_list] in H;
  repeat (apply Forall_cons_iff in H as [? H]); clear H end.
Ltac relanes := unfold lanes_ok; cbn [v4_list vadd vxor vmap2 vrotr]; repeat constructor; auto with words.
Lemma vadd_ok w a b : lanes_ok w (vadd w a b).
Proof. do 2 four. unfold vadd, vmap2. relanes. Qed.
Lemma vxor_ok w a b : lanes_ok w a -> lanes_ok w b -> lanes_ok w (vxor a b).
Proof. do 2 four. intros. unlanes. unfold vxor, vmap2. relanes. Qed.
Lemma vrotr_ok w n a : n <= w -> lanes_ok w a -> lanes_ok w (vrotr w n a).
Proof. four. intros. unlanes. unfold vrotr. relanes. Qed.
Lemma shuffles_ok w v : state_ok w v -> state_ok w (shuffle v) /\ state_ok w (unshuffle v).
Proof.
  destruct v as (((a, b), c), d). intros (A & B & C & D). do 4 four. unlanes. split; repeat split; relanes.
Qed.

Definition good (P : b2p) : Prop :=
  (wb P = 8%nat /\ wbits P = 64 \/ wb P = 4%nat /\ wbits P = 32) /\
  Forall (fun n => 0 < n /\ n < wbits P) [ROT1 P; ROT2 P; ROT3 P; ROT4 P] /\ lanes_ok (wbits P) (iv0 P) /\ lanes_ok (wbits P) (iv1 P).
Lemma good_b : good Blake2b.
Proof. repeat split; try (left; repeat split; fail); unfold lanes_ok; repeat constructor. Qed.
Lemma good_s : good Blake2s.
Proof. repeat split; try (right; repeat split; fail); unfold lanes_ok; repeat constructor. Qed.

Section Compress.
  Variables (t : target) (P : b2p).
  Hypothesis T : exists_target t.
  Hypothesis G : good P.
  Notation w := (wbits P).
  Lemma quarter_ok v rd rb m : state_ok w v -> 0 < rd /\ rd < w -> 0 < rb /\ rb < w ->
    quarter_round_t t P v rd rb m = quarter_round P v rd rb (vfrom_le t P m) /\
    state_ok w (quarter_round_t t P v rd rb m).
  Proof using T G.
    destruct v as (((a, b), c), d). intros (A & B & C & D) [R1 R2] [R3 R4]. unfold quarter_round_t, quarter_round.
    set (a' := vadd w (vadd w a b) (vfrom_le t P m)). assert (A' : lanes_ok w a') by apply vadd_ok.
    assert (DA : lanes_ok w (vxor d a')) by now apply vxor_ok.
    rewrite (rotate_ok t P rd (vxor d a') T (proj1 G) R1 R2 DA).
    set (d' := vrotr w rd (vxor d a')). assert (D' : lanes_ok w d') by (apply vrotr_ok; [lia|exact DA]).
    set (c' := vadd w c d'). assert (C' : lanes_ok w c') by apply vadd_ok.
    assert (BC : lanes_ok w (vxor b c')) by now apply vxor_ok.
    rewrite (rotate_ok t P rb (vxor b c') T (proj1 G) R3 R4 BC). split; [reflexivity|].
    repeat split; try assumption. apply vrotr_ok; [lia|exact BC].
  Qed.
  Definition from (m : list N) : list N := map (from_le (order t) (wb P)) m.
  Lemma gather_from m s : length m = 16%nat -> Forall (fun i => i < 16)%nat s -> forall k0 k1 k2 k3,
    vfrom_le t P (gather m (nth k0 s 0%nat) (nth k1 s 0%nat) (nth k2 s 0%nat) (nth k3 s 0%nat))
    = gather (from m) (nth k0 s 0%nat) (nth k1 s 0%nat) (nth k2 s 0%nat) (nth k3 s 0%nat).
  Proof using.
    intros L I k0 k1 k2 k3. unfold vfrom_le, gather, v4map, from, get.
    assert (E : forall k, from_le (order t) (wb P) (nth (nth k s 0%nat) m oob) = nth (nth k s 0%nat) (map (from_le (order t) (wb P)) m) oob).
    { intros k. rewrite (nth_indep (map _ m) oob (from_le (order t) (wb P) oob)); [now rewrite map_nth|]. rewrite map_length, L.
      destruct (Nat.lt_ge_cases k (length s)) as [H|H]; [apply (proj1 (Forall_forall _ _) I), nth_In, H|].
      rewrite nth_overflow by exact H. lia. }
    now rewrite !E.
  Qed.
  Lemma round_ok m v s : length m = 16%nat -> Forall (fun i => i < 16)%nat s -> state_ok w v ->
    round_t t P m v s = round P (from m) v s /\ state_ok w (round_t t P m v s).
  Proof using T G.
    intros Lm Is V. destruct G as (_ & R & _). apply Forall_cons_iff in R as [R1 R]. apply Forall_cons_iff in R as [R2 R].
    apply Forall_cons_iff in R as [R3 R]. apply Forall_cons_iff in R as [R4 _].
    unfold round_t, round. cbv zeta.
    destruct (quarter_ok v (ROT1 P) (ROT2 P) (gather m (nth 0 s 0%nat) (nth 2 s 0%nat) (nth 4 s 0%nat) (nth 6 s 0%nat)) V R1 R2) as [E1 V1].
    rewrite E1 in *. rewrite (gather_from m s Lm Is) in *. clear E1. revert V1. generalize (quarter_round P v (ROT1 P) (ROT2 P)
      (gather (from m) (nth 0 s 0%nat) (nth 2 s 0%nat) (nth 4 s 0%nat) (nth 6 s 0%nat))). clear v V. intros v V.
    destruct (quarter_ok v (ROT3 P) (ROT4 P) (gather m (nth 1 s 0%nat) (nth 3 s 0%nat) (nth 5 s 0%nat) (nth 7 s 0%nat)) V R3 R4) as [E1 V1].
    rewrite E1 in *. rewrite (gather_from m s Lm Is) in *. clear E1. revert V1. generalize (quarter_round P v (ROT3 P) (ROT4 P)
      (gather (from m) (nth 1 s 0%nat) (nth 3 s 0%nat) (nth 5 s 0%nat) (nth 7 s 0%nat))). clear v V. intros v V.
    rewrite shuffle_ok. apply shuffles_ok, proj1 in V. revert V. generalize (shuffle v). clear v. intros v V.
    destruct (quarter_ok v (ROT1 P) (ROT2 P) (gather m (nth 8 s 0%nat) (nth 10 s 0%nat) (nth 12 s 0%nat) (nth 14 s 0%nat)) V R1 R2) as [E1 V1].
    rewrite E1 in *. rewrite (gather_from m s Lm Is) in *. clear E1. revert V1. generalize (quarter_round P v (ROT1 P) (ROT2 P)
      (gather (from m) (nth 8 s 0%nat) (nth 10 s 0%nat) (nth 12 s 0%nat) (nth 14 s 0%nat))). clear v V. intros v V.
    destruct (quarter_ok v (ROT3 P) (ROT4 P) (gather m (nth 9 s 0%nat) (nth 11 s 0%nat) (nth 13 s 0%nat) (nth 15 s 0%nat)) V R3 R4) as [E1 V1].
    rewrite E1 in *. rewrite (gather_from m s Lm Is) in *. clear E1. revert V1. generalize (quarter_round P v (ROT3 P) (ROT4 P)
      (gather (from m) (nth 9 s 0%nat) (nth 11 s 0%nat) (nth 13 s 0%nat) (nth 15 s 0%nat))). clear v V. intros v V.
    rewrite unshuffle_ok. split; [reflexivity|now apply shuffles_ok].
  Qed.
  Lemma rounds_ok m rows : length m = 16%nat -> Forall (Forall (fun i => i < 16)%nat) rows -> forall v, state_ok w v ->
    fold_left (round_t t P m) rows v = fold_left (round P (from m)) rows v /\ state_ok w (fold_left (round_t t P m) rows v).
  Proof using T G.
    intros Lm Is. induction Is as [|s rows I _ IH]; intros v V; [now split|]. cbn [fold_left]. destruct (round_ok m v s Lm I V) as [<- V'].
    now apply IH.
  Qed.
  Definition hash_ok (h : v4 * v4) : Prop := lanes_ok w (fst h) /\ lanes_ok w (snd h).
  Lemma sigma_ok i : Forall (fun i => i < 16)%nat (nth i SIGMA []).
  Proof using.
    assert (C : forallb (forallb (fun i => i <? 16)%nat) SIGMA = true) by reflexivity.
    destruct (Nat.lt_ge_cases i (length SIGMA)) as [H|H]; [|rewrite nth_overflow by exact H; constructor].
    rewrite forallb_forall in C. specialize (C _ (nth_In _ [] H)). rewrite forallb_forall in C.
    apply Forall_forall. intros x Hx. now apply Nat.ltb_lt, C.
  Qed.
  Lemma compress_ok h c block f0 f1 : hash_ok h -> length block = (16 * wb P)%nat -> bytes_ok block -> f0 < 2 ^ w -> f1 < 2 ^ w ->
    compress_t t P h c block f0 f1 = compress P h c block f0 f1 /\ hash_ok (compress_t t P h c block f0 f1).
  Proof using T G.
    intros [H0 H1] LB B F0 F1. unfold compress_t, compress. cbv zeta.
    set (t1 := if (BYTES P =? 64)%nat then 0 else N.shiftr c 32 mod 2 ^ w). set (rows := map (fun i => nth i SIGMA []) _).
    assert (W0 : 2 ^ w <> 0) by (apply N.pow_nonzero; discriminate).
    assert (T1 : t1 < 2 ^ w) by (unfold t1; destruct (BYTES P =? 64)%nat; [lia|now apply N.mod_lt]).
    assert (V : state_ok w (fst h, snd h, iv0 P, vxor (iv1 P) (c mod 2 ^ w, t1, f0, f1))).
    { destruct G as (_ & _ & I0 & I1). repeat split; try assumption. apply vxor_ok; [exact I1|].
      unfold lanes_ok. cbn [v4_list]. repeat constructor; try assumption. now apply N.mod_lt. }
    assert (IR : Forall (Forall (fun i => i < 16)%nat) rows).
    { apply Forall_forall. intros r Hr. unfold rows in Hr. apply in_map_iff in Hr as (i & <- & _). apply sigma_ok. }
    assert (LM : length (map (ne_val (order t)) (chunks (wb P) block)) = 16%nat).
    { assert (wb P <> 0)%nat by (destruct G as ([[-> _]|[-> _]] & _); lia). rewrite map_length, chunks_length by lia. rewrite LB. now apply Nat.div_mul. }
    destruct (rounds_ok (map (ne_val (order t)) (chunks (wb P) block)) rows LM IR _ V) as [E V'].
    assert (M : from (map (ne_val (order t)) (chunks (wb P) block)) = map le_val (chunks (wb P) block)).
    { unfold from. rewrite map_map. apply map_ext_in. intros x I.
      assert (WP : (0 < wb P)%nat) by (destruct G as ([[-> _]|[-> _]] & _); lia).
      pose proof (chunks_block_length (wb P) block WP) as L. rewrite Forall_forall in L.
      pose proof (chunks_ok (wb P) block WP B) as O. rewrite Forall_forall in O. apply from_le_ne; auto. }
    rewrite M in E. rewrite E in *. clear E M.
    destruct (fold_left _ _ _) as (((a, b), c'), d). destruct V' as (VA & VB & VC & VD). split; [reflexivity|].
    split; cbn [fst snd]; repeat apply vxor_ok; assumption.
  Qed.

  Lemma update_ok m bl : Forall (fun b => length b = (16 * wb P)%nat) bl -> Forall bytes_ok bl -> forall s, hash_ok (b_h s) ->
    update_blocks_t t P m s bl = update_blocks P m s bl /\
    forall s', update_blocks P m s bl = Some s' -> hash_ok (b_h s').
  Proof using T G.
    induction bl as [|b bl IH]; intros LB' B' s V; cbn [update_blocks_t update_blocks].
    { split; [reflexivity|]. now intros s' [= <-]. }
    apply Forall_cons_iff in B' as [B B'], LB' as [LB LB'].
    destruct (cadd m 64 (b_t s) (N.of_nat (length b))) as [c|]; cbn [obind]; [|now split].
    assert (W0 : 0 < 2 ^ w) by (apply N.neq_0_lt_0, N.pow_nonzero; discriminate).
    destruct (compress_ok (b_h s) c b 0 0 V LB B W0 W0) as [E V']. rewrite E in *. now apply IH.
  Qed.
  Lemma final_ok m s buf : BLOCK P = (16 * wb P)%nat -> (length buf <= BLOCK P)%nat -> hash_ok (b_h s) -> bytes_ok buf ->
    finalize_variable_core_t t P m s buf = finalize_variable_core P m s buf.
  Proof using T G.
    intros EB LB V B. unfold finalize_variable_core_t, finalize_variable_core.
    destruct (cadd m 64 (b_t s) (N.of_nat (length buf))) as [c|]; cbn [obind]; [|reflexivity]. cbv zeta.
    assert (W0 : 0 < 2 ^ w) by (apply N.neq_0_lt_0, N.pow_nonzero; discriminate).
    assert (O : N.ones w < 2 ^ w) by (rewrite N.ones_equiv; lia).
    assert (B' : bytes_ok (pad_with_zeros (BLOCK P) buf)).
    { unfold pad_with_zeros. apply Forall_app. split; [exact B|]. apply Forall_forall. intros x I. apply repeat_spec in I. subst. lia. }
    assert (LP : length (pad_with_zeros (BLOCK P) buf) = (16 * wb P)%nat).
    { unfold pad_with_zeros. rewrite app_length. unfold zeros. rewrite repeat_length. lia. }
    destruct (compress_ok (b_h s) c (pad_with_zeros (BLOCK P) buf) (N.ones w) 0 V LP B' O W0) as [-> _].
    apply f_equal, f_equal2; [|reflexivity].
    destruct (compress P (b_h s) c _ _ _) as [[[[a0 a1] a2] a3] [[[b0 b1] b2] b3]].
    unfold vto_le, v4map. cbn [fst snd v4_list app map concat]. now rewrite !ne_bytes_to_le.
  Qed.
End Compress.

(** ** The hashers *)
Lemma le_word P s x : good P -> bytes_ok s -> word_of P s = Some x -> x < 2 ^ wbits P.
Proof.
  intros G B. unfold word_of. destruct (Nat.eqb_spec (length s) (wb P)) as [E|]; [|discriminate]. intros [= <-].
  pose proof (le_val_lt s B) as L. rewrite E in L. destruct G as ([[H1 H2]|[H1 H2]] & _); rewrite H1 in L; rewrite H2; exact L.
Qed.
Lemma two_words_ok P len s a b : good P -> bytes_ok s -> two_words P len s = Some (a, b) -> a < 2 ^ wbits P /\ b < 2 ^ wbits P.
Proof.
  intros G B. unfold two_words.
  assert (K : forall n l, bytes_ok l -> (let* x := word_of P (firstn n l) in let* y := word_of P (skipn n l) in Some (x, y)) = Some (a, b) ->
    a < 2 ^ wbits P /\ b < 2 ^ wbits P).
  { intros n l BL. destruct (word_of P (firstn n l)) as [x|] eqn:X; [|discriminate].
    destruct (word_of P (skipn n l)) as [y|] eqn:Y; [|discriminate]. intros [= <- <-].
    split; [apply (le_word P (firstn n l))|apply (le_word P (skipn n l))]; auto using bytes_ok_firstn, bytes_ok_skipn. }
  destruct (length s <? len)%nat; apply K; [|exact B]. apply bytes_ok_app. split; [exact B|apply zeros_ok].
Qed.
Lemma new_ok P V salt persona kk nn s : same P V -> good P -> bytes_ok salt -> bytes_ok persona ->
  new_with_params P salt persona kk nn = Some s -> hash_ok P (b_h s) /\ hash_ok P (b_h0 s).
Proof.
  intros SV G BS BP. unfold new_with_params, assert.
  do 4 (match goal with |- context [if (?a <=? ?b)%nat then _ else _] => destruct (Nat.leb_spec a b); [|discriminate] end; cbn [obind]).
  destruct (two_words P _ salt) as [[p4 p5]|] eqn:E1; [|discriminate]. cbn [obind].
  destruct (two_words P _ persona) as [[p6 p7]|] eqn:E2; [|discriminate]. cbn [obind]. intros [= <-]. cbn [b_h b_h0].
  apply two_words_ok in E1 as [? ?]; [|exact G|exact BS]. apply two_words_ok in E2 as [? ?]; [|exact G|exact BP].
  assert (K : hash_ok P (vxor (iv0 P) (N.lxor (N.lxor 0x01010000 (wshl (wbits P) (N.of_nat kk) 8)) (N.of_nat nn), 0, 0, 0),
    vxor (iv1 P) (p4, p5, p6, p7))); [|now split].
  destruct G as (W & _ & I0 & I1). split; cbn [fst snd]; apply vxor_ok; try assumption; unfold lanes_ok; cbn [v4_list].
  - assert (0 < 2 ^ wbits P) by (apply N.neq_0_lt_0, N.pow_nonzero; discriminate).
    repeat constructor; try assumption. apply lxor_lt; [apply lxor_lt|].
    + destruct W as [[_ ->]|[_ ->]]; reflexivity.
    + auto with words.
    + destruct (s_two _ _ SV) as [(_ & Q & B & _)|(_ & Q & B & _)]; rewrite Q; rewrite B in *; apply N.lt_trans with 65; lia.
  - repeat constructor; assumption.
Qed.
Lemma blake2_agree t P V ini ibuf nn : exists_target t -> good P -> same P V -> hash_ok P (b_h ini) -> hash_ok P (b_h0 ini) ->
  bytes_ok ibuf -> (length ibuf <= BLOCK P)%nat ->
  agree (blake2_core P ini ibuf nn) (fun s => hash_ok P (b_h s) /\ hash_ok P (b_h0 s)) (update_blocks_t t P)
    (fun m s buf => let* (out, s') := finalize_variable_core_t t P m s buf in Some (firstn nn out, s')).
Proof.
  intros T G SV H0 H1 BI LI.
  assert (EB : BLOCK P = (16 * wb P)%nat) by (destruct (s_two _ _ SV) as [(-> & _ & _ & -> & _)|(-> & _ & _ & -> & _)]; reflexivity).
  constructor; cbn [blake2_core cst c_bs c_kind c_init c_ibuf c_update c_final c_reset c_codec].
  - destruct (s_two _ _ SV) as [(_ & _ & _ & -> & _)|(_ & _ & _ & -> & _)]; lia.
  - repeat split; try apply H0; try apply H1; try exact BI. now apply Nat.leb_le.
  - intros m s bl [I J] LB B. rewrite EB in LB. destruct (update_ok t P T G m bl LB B s I) as [E K]. split; [exact E|].
    intros s' E'. split; [now apply K|]. apply update_h0 in E'. now rewrite E'.
  - intros m s b [I J] B LB. rewrite (final_ok t P T G m s b EB (proj1 (Nat.leb_le _ _) LB) I B). split; [reflexivity|].
    intros out s'. unfold finalize_variable_core. destruct (cadd m 64 (b_t s) _) as [c|]; cbn [obind]; [|discriminate].
    intros [= _ <-]. repeat split; try apply J; try exact BI. now apply Nat.leb_le.
  - intros s [I J]. repeat split; try apply J; try exact BI. now apply Nat.leb_le.
  - discriminate.
Qed.

Lemma target_history t P V salt persona kk nn s ibuf m ops : same P V -> good P -> exists_target t -> bytes_ok salt -> bytes_ok persona ->
  new_with_params P salt persona kk nn = Some s -> bytes_ok ibuf -> (length ibuf <= BLOCK P)%nat -> ops_ok ops ->
  run_history (blake2_core_t t P s ibuf nn) m ops = run_history (blake2_core P s ibuf nn) m ops.
Proof.
  intros SV G T BS BP E BI LI O. destruct (new_ok P V salt persona kk nn s SV G BS BP E) as [H0 H1].
  exact (agree_history _ _ _ _ (blake2_agree t P V s ibuf nn T G SV H0 H1 BI LI) m ops O).
Qed.
Lemma target_tag t P V nn m key salt persona s cs : same P V -> good P -> exists_target t -> (nn <= BYTES P)%nat ->
  bytes_ok (key_of key) -> bytes_ok salt -> bytes_ok persona ->
  new_with_salt_and_personal P nn key salt persona = Ok s ->
  Forall bytes_ok cs -> N.of_nat (BLOCK P + length (concat cs)) < 2 ^ 64 ->
  h_digest (blake2_core_t t P (m_core s) (m_buf s) nn) m cs = Some (Spec.BLAKE2.BLAKE2 V salt persona (key_of key) nn (concat cs)).
Proof.
  intros SV G T Hn BK BS BP E BC W. rewrite <- (wsp_tag P V nn m key salt persona s cs SV Hn BK E BC W).
  assert (X : exists kk, new_with_params P salt persona kk nn = Some (m_core s) /\ bytes_ok (m_buf s) /\ (length (m_buf s) <= BLOCK P)%nat).
  { unfold new_with_salt_and_personal in E. destruct (_ || _); [discriminate|].
    unfold or_panic in E.
    destruct key as [k|].
    - unfold copy_into in E. destruct (Nat.leb_spec (length k) (BLOCK P)); [|discriminate]. cbn [obind] in E.
      destruct (new_with_params P salt persona (length k) nn) as [c|] eqn:N; [|discriminate]. cbn [obind] in E.
      destruct (length k <=? BYTES P)%nat; [|discriminate]. injection E as <-. cbn [m_core m_buf]. exists (length k). split; [exact N|].
      split; [apply bytes_ok_app; split; [exact BK|apply zeros_ok]|]. rewrite app_length. unfold zeros. rewrite repeat_length. lia.
    - cbn [obind] in E. destruct (new_with_params P salt persona 0 nn) as [c|] eqn:N; [|discriminate].
      injection E as <-. exists 0%nat. cbn [m_core m_buf length]. repeat split; [exact N|constructor|lia]. }
  destruct X as (kk & N & BI & LI). destruct (new_ok P V salt persona kk nn _ SV G BS BP N) as [H0 H1].
  destruct s as [ini ibuf kb]. cbn [m_core m_buf] in *. rewrite mac_tag_core.
  exact (agree_digest _ _ _ _ (blake2_agree t P V ini ibuf nn T G SV H0 H1 BI LI) m cs BC).
Qed.

(** ** Tiger *)
Lemma chunks_map {A B} (f : A -> B) n l : (0 < n)%nat -> chunks n (map f l) = map (map f) (chunks n l).
Proof.
  intros N. remember (length l) as k eqn:K. revert l K. induction k as [k IH] using lt_wf_ind. intros l ->.
  rewrite (chunks_step n (map f l)), (chunks_step n l) by exact N. rewrite map_length.
  destruct (Nat.leb_spec n (length l)); [|reflexivity]. cbn [map].
  rewrite firstn_map, skipn_map. f_equal. apply (IH (length (skipn n l))); [rewrite skipn_length; lia|reflexivity].
Qed.
Lemma tiger_tables_ok e file : bytes_ok file -> tiger_tables e file = chunks 256 (map le_val (chunks 8 file)).
Proof.
  intros B. destruct e; [reflexivity|]. unfold tiger_tables. rewrite <- chunks_map by lia. rewrite map_map.
  f_equal. apply map_ext_in. intros x I.
  pose proof (chunks_block_length 8 file ltac:(lia)) as L. rewrite Forall_forall in L.
  pose proof (chunks_ok 8 file ltac:(lia) B) as O. rewrite Forall_forall in O.
  exact (from_le_ne Big 8 x (L x I) (O x I)).
Qed.

(** ** For both functions *)
Lemma both P : P = Blake2b \/ P = Blake2s -> exists V, same P V /\ good P.
Proof. intros [-> | ->]; eexists; [exact (conj same_b good_b)|exact (conj same_s good_s)]. Qed.
Lemma rotations t P n v : exists_target t -> P = Blake2b \/ P = Blake2s -> 0 < n -> n < wbits P ->
  Forall (fun x => x < 2 ^ wbits P) (v4_list v) ->
  v4_list (rotate_right_const t P n v) = map (fun x => rotr (wbits P) x n) (v4_list v).
Proof.
  intros T B N0 N1 O. destruct (both P B) as (V & _ & G). rewrite (rotate_ok t P n v T (proj1 G) N0 N1 O).
  now destruct v as [[[a b] c] d].
Qed.
Lemma target_tag_b t nn m key salt persona s cs : exists_target t -> (nn <= 64)%nat ->
  bytes_ok (key_of key) -> bytes_ok salt -> bytes_ok persona ->
  new_with_salt_and_personal Blake2b nn key salt persona = Ok s ->
  Forall bytes_ok cs -> N.of_nat (128 + length (concat cs)) < 2 ^ 64 ->
  h_digest (blake2_core_t t Blake2b (m_core s) (m_buf s) nn) m cs
  = Some (Spec.BLAKE2.BLAKE2 Spec.BLAKE2.BLAKE2b salt persona (key_of key) nn (concat cs)).
Proof. exact (target_tag t Blake2b _ nn m key salt persona s cs same_b good_b). Qed.
Lemma target_tag_s t nn m key salt persona s cs : exists_target t -> (nn <= 32)%nat ->
  bytes_ok (key_of key) -> bytes_ok salt -> bytes_ok persona ->
  new_with_salt_and_personal Blake2s nn key salt persona = Ok s ->
  Forall bytes_ok cs -> N.of_nat (64 + length (concat cs)) < 2 ^ 64 ->
  h_digest (blake2_core_t t Blake2s (m_core s) (m_buf s) nn) m cs
  = Some (Spec.BLAKE2.BLAKE2 Spec.BLAKE2.BLAKE2s salt persona (key_of key) nn (concat cs)).
Proof. exact (target_tag t Blake2s _ nn m key salt persona s cs same_s good_s). Qed.
Lemma target_histories t t' P salt persona kk nn s ibuf m ops :
  exists_target t -> exists_target t' -> P = Blake2b \/ P = Blake2s -> bytes_ok salt -> bytes_ok persona ->
  new_with_params P salt persona kk nn = Some s -> bytes_ok ibuf -> (length ibuf <= BLOCK P)%nat -> ops_ok ops ->
  run_history (blake2_core_t t P s ibuf nn) m ops = run_history (blake2_core_t t' P s ibuf nn) m ops.
Proof.
  intros T T' B BS BP E BI LI O. destruct (both P B) as (V & SV & G).
  transitivity (run_history (blake2_core P s ibuf nn) m ops);
    [|symmetry]; now apply (target_history _ P V salt persona kk).
Qed.
