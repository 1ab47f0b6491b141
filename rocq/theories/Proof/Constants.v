(** The tables of the crates follow the rules. *)
From Verif Require Import Base.Words Base.Bytes Base.Codec Spec.GF Spec.Constants Proof.GF.
From Verif Require Model.Blake2 Model.Sha2Consts Model.Sha1 Model.Sha1Checked Model.Md4 Model.Belt Model.Ripemd Model.Md5.
From Verif Require Spec.Belt Spec.Groestl Spec.Whirlpool Spec.Streebog Model.GroestlTable Model.WhirlpoolTables Model.Streebog
  Proof.Groestl Proof.Whirlpool Proof.Streebog.

(** ** Primes *)
Definition primeb (p : N) : bool :=
  (2 <=? p) && forallb (fun d => (p <=? d) || negb (p mod d =? 0))
    [2; 3; 4; 5; 6; 7; 8; 9; 10; 11; 12; 13; 14; 15; 16; 17; 18; 19; 20].
Lemma small_in d : 2 <= d <= 20 -> In d [2; 3; 4; 5; 6; 7; 8; 9; 10; 11; 12; 13; 14; 15; 16; 17; 18; 19; 20].
Proof.
  intros H.
  assert (I : In (N.of_nat (N.to_nat d)) (map N.of_nat (seq 2 19))) by (apply in_map, in_seq; lia).
  rewrite N2Nat.id in I. exact I.
Qed.
Lemma primeb_ok p : p < 441 -> (primeb p = true <-> prime p).
Proof.
  intros L. unfold primeb, prime. rewrite andb_true_iff, N.leb_le, forallb_forall. split.
  - intros [L2 F]. split; [exact L2|].
    assert (F' : forall d, 2 <= d <= 20 -> d < p -> p mod d <> 0).
    { intros d Hd Hp E. specialize (F d (small_in d Hd)). rewrite E in F. apply orb_true_iff in F as [F|F]; [apply N.leb_le in F; lia|discriminate F]. }
    intros d Hd E. apply N.mod_divide in E as [q Eq]; [|lia].
    destruct (N.le_gt_cases d 20) as [Hs|Hs]; [apply (F' d); [lia|lia|]; apply N.mod_divide; [lia|now exists q]|].
    assert (2 <= q /\ q <= 20 /\ q < p) as (Q1 & Q2 & Q3) by nia.
    apply (F' q); [lia|lia|]. apply N.mod_divide; [lia|]. exists d. lia.
  - intros [L2 F]. split; [exact L2|]. intros d Hd. destruct (N.leb_spec p d) as [|H]; [reflexivity|]. cbn [orb].
    apply negb_true_iff, N.eqb_neq, F. split; [|exact H]. cbn in Hd. intuition lia.
Qed.
Definition below : list N := map N.of_nat (seq 0 420).
Definition table : list N := Eval vm_compute in filter primeb below.
Lemma table_eq : filter primeb below = table.
Proof. vm_compute. reflexivity. Qed.
Lemma table_in p : In p table <-> p < 420 /\ prime p.
Proof.
  rewrite <- table_eq, filter_In. unfold below. rewrite in_map_iff. split.
  - intros [(x & <- & Hx) H]. apply in_seq in Hx. apply primeb_ok in H; [|lia]. split; [lia|exact H].
  - intros [H P]. split; [|apply primeb_ok; [lia|exact P]]. exists (N.to_nat p). split; [apply N2Nat.id|apply in_seq; lia].
Qed.
(** strictly increasing *)
Fixpoint incr (lo : N) (l : list N) : bool := match l with [] => true | x :: l => (lo <=? x) && incr (x + 1) l end.
Lemma incr_lo lo l : incr lo l = true -> forall x, In x l -> lo <= x.
Proof.
  revert lo. induction l as [|y l IH]; intros lo H x Hx; [contradiction|]. cbn in H. apply andb_true_iff in H as [H1 H2]. apply N.leb_le in H1.
  destruct Hx as [->|Hx]; [exact H1|]. specialize (IH _ H2 x Hx). lia.
Qed.
Lemma incr_nodup lo l : incr lo l = true -> NoDup l.
Proof.
  revert lo. induction l as [|y l IH]; intros lo H; [constructor|]. cbn in H. apply andb_true_iff in H as [_ H2].
  constructor; [|now apply (IH _ H2)]. intros Hy. pose proof (incr_lo _ _ H2 y Hy). lia.
Qed.
Lemma incr_below lo l i : incr lo l = true -> (i < length l)%nat -> forall x, In x (firstn i l) <-> In x l /\ x < nth i l 0.
Proof.
  revert lo i. induction l as [|y l IH]; intros lo i H L x; [cbn in L; lia|]. cbn in H. apply andb_true_iff in H as [_ H2].
  destruct i as [|i].
  - cbn. split; [contradiction|]. intros [[->|Hx] Hl]; [lia|]. pose proof (incr_lo _ _ H2 x Hx). lia.
  - cbn [firstn nth In]. cbn in L. rewrite (IH _ i H2 ltac:(lia) x).
    assert (In (nth i l 0) l) as Hi by (apply nth_In; lia). pose proof (incr_lo _ _ H2 _ Hi). intuition lia.
Qed.
Lemma incr_firstn lo l i : incr lo l = true -> incr lo (firstn i l) = true.
Proof.
  revert lo i. induction l as [|y l IH]; intros lo [|i] H; try reflexivity. cbn in *. apply andb_true_iff in H as [-> H2]. now apply IH.
Qed.
Lemma table_incr : incr 0 table = true.
Proof. vm_compute. reflexivity. Qed.
Lemma table_nth i : (i < 80)%nat -> nth_prime i (nth i table 0).
Proof.
  intros H. assert (L : length table = 81%nat) by reflexivity.
  assert (I : In (nth i table 0) table) by (apply nth_In; lia). apply table_in in I as [I1 I2]. split; [exact I2|].
  exists (firstn i table). split; [rewrite firstn_length; lia|]. split.
  - apply (incr_nodup 0), incr_firstn, table_incr.
  - intros q. rewrite (incr_below 0 table i table_incr ltac:(lia)), table_in. intuition lia.
Qed.

(** ** Roots: the integer part [q] of the root is below [b] *)
Definition scaled_b (r w p c : N) : bool := (c ^ r <=? p * 2 ^ (r * w)) && (p * 2 ^ (r * w) <? (c + 1) ^ r).
Lemma scaled_ok r w p c : scaled_b r w p c = true -> scaled_root r w p c.
Proof. unfold scaled_b, scaled_root. rewrite andb_true_iff, N.leb_le, N.ltb_lt. auto. Qed.
Fixpoint ipart (n : nat) (r p : N) : N :=
  match n with O => 0 | S n => if N.of_nat n ^ r <=? p then N.of_nat n else ipart n r p end.
Definition root_b (r w p c : N) : bool := (c <? 2 ^ w) && scaled_b r w p (2 ^ w * ipart 21 r p + c).
Lemma root_ok r w p c : root_b r w p c = true -> root_bits r w p c.
Proof.
  unfold root_b. rewrite andb_true_iff, N.ltb_lt. intros [L H]. exists (2 ^ w * ipart 21 r p + c). split; [now apply scaled_ok|].
  rewrite N.mul_comm, N.add_comm, N.mod_add by (apply N.pow_nonzero; discriminate). symmetry. now apply N.mod_small.
Qed.
Definition roots_b (r w : N) (off n : nat) (l : list N) : bool :=
  forallb (fun i => root_b r w (nth (off + i) table 0) (get l i)) (seq 0 n).
Lemma roots_ok r w off n l : (off + n <= 80)%nat -> roots_b r w off n l = true ->
  forall i, (i < n)%nat -> exists p, nth_prime (off + i) p /\ root_bits r w p (get l i).
Proof.
  intros L H i Hi. unfold roots_b in H. rewrite forallb_forall in H. specialize (H i ltac:(apply in_seq; lia)).
  eexists. split; [apply table_nth; lia|now apply root_ok].
Qed.

Import Model.Sha2Consts.
Lemma k32_roots : forall i, (i < 64)%nat -> exists p, nth_prime i p /\ root_bits 3 32 p (get K32 i).
Proof. apply (roots_ok 3 32 0 64); [lia|vm_compute; reflexivity]. Qed.
Lemma k64_roots : forall i, (i < 80)%nat -> exists p, nth_prime i p /\ root_bits 3 64 p (get K64 i).
Proof. apply (roots_ok 3 64 0 80); [lia|vm_compute; reflexivity]. Qed.
Lemma h256_roots : forall i, (i < 8)%nat -> exists p, nth_prime i p /\ root_bits 2 32 p (get H256_256 i).
Proof. apply (roots_ok 2 32 0 8); [lia|vm_compute; reflexivity]. Qed.
Lemma h512_roots : forall i, (i < 8)%nat -> exists p, nth_prime i p /\ root_bits 2 64 p (get H512_512 i).
Proof. apply (roots_ok 2 64 0 8); [lia|vm_compute; reflexivity]. Qed.
Lemma h384_roots : forall i, (i < 8)%nat -> exists p, nth_prime (8 + i) p /\ root_bits 2 64 p (get H512_384 i).
Proof. apply (roots_ok 2 64 8 8); [lia|vm_compute; reflexivity]. Qed.
Lemma h224_roots : forall i, (i < 8)%nat -> exists p x, nth_prime (8 + i) p /\ root_bits 2 64 p x /\ get H256_224 i = x mod 2 ^ 32.
Proof.
  intros i Hi. destruct (h384_roots i Hi) as (p & P & R). exists p, (get H512_384 i). split; [exact P|]. split; [exact R|].
  assert (E : forallb (fun i => get H256_224 i =? get H512_384 i mod 2 ^ 32) (seq 0 8) = true) by (vm_compute; reflexivity).
  rewrite forallb_forall in E. apply N.eqb_eq, E, in_seq. lia.
Qed.
Lemma blake2b_roots : forall i, (i < 8)%nat -> exists p, nth_prime i p /\ root_bits 2 64 p (get Model.Blake2.BLAKE2B_IV i).
Proof. apply (roots_ok 2 64 0 8); [lia|vm_compute; reflexivity]. Qed.
Lemma blake2s_roots : forall i, (i < 8)%nat -> exists p, nth_prime i p /\ root_bits 2 32 p (get Model.Blake2.BLAKE2S_IV i).
Proof. apply (roots_ok 2 32 0 8); [lia|vm_compute; reflexivity]. Qed.
Lemma sha1_roots : forall i, (i < 4)%nat -> scaled_root 2 30 (nth i [2; 3; 5; 10] 0) (get Model.Sha1.K i) /\
  get Model.Sha1Checked.K i = get Model.Sha1.K i.
Proof. intros i Hi. do 4 (destruct i as [|i]; [split; [apply scaled_ok; vm_compute; reflexivity|reflexivity]|]). lia. Qed.
Lemma md4_roots : scaled_root 2 30 2 Model.Md4.K1 /\ scaled_root 2 30 3 Model.Md4.K2.
Proof. split; apply scaled_ok; vm_compute; reflexivity. Qed.

(** ** belt *)
Definition belt_b (H : list N) : bool :=
  forallb (fun x => get H ((x + 1) mod 256) =? Nat.iter 116 belt_shift (get H (x mod 256))) (seq 11 254).
Lemma belt_check : belt_b Spec.Belt.H = true.
Proof. vm_compute. reflexivity. Qed.
Lemma belt_H : belt_table Spec.Belt.H.
Proof.
  split; [reflexivity|]. split; [reflexivity|]. split; [reflexivity|]. pose proof belt_check as E. revert E.
  generalize Spec.Belt.H. intros H E x Hx. unfold belt_b in E.
  pose proof (proj1 (forallb_forall _ _) E x ltac:(apply in_seq; lia)) as Q. cbv beta in Q. now apply N.eqb_eq in Q.
Qed.

(** ** Initial values by counting *)
Lemma counted_ivs :
  let four := words_of_le 4 counting in let five := words_of_le 4 (counting ++ fifth) in
  Model.Md4.S0 = four /\ Model.Md5.STATE_INIT = four /\ Model.Ripemd.H0_128 = four /\
  Model.Sha1.H0 = five /\ Model.Sha1Checked.INITIAL_H = five /\ Model.Ripemd.H0_160 = five /\
  Model.Ripemd.H0_256 = four ++ words_of_le 4 (swapped counting) /\
  Model.Ripemd.H0_320 = five ++ words_of_le 4 (swapped (counting ++ fifth)).
Proof. vm_compute. repeat split. Qed.

(** ** The schedule of BLAKE2 *)
Lemma sigma_perms : length Model.Blake2.SIGMA = 12%nat /\
  (forall r, (r < 12)%nat -> forall k, (k < 16)%nat -> count_occ Nat.eq_dec (nth r Model.Blake2.SIGMA []) k = 1%nat) /\
  nth 10 Model.Blake2.SIGMA [] = nth 0 Model.Blake2.SIGMA [] /\ nth 11 Model.Blake2.SIGMA [] = nth 1 Model.Blake2.SIGMA [].
Proof.
  split; [reflexivity|]. split; [|split; reflexivity]. intros r Hr k Hk.
  assert (E : forallb (fun r => forallb (fun k => (count_occ Nat.eq_dec (nth r Model.Blake2.SIGMA []) k =? 1)%nat) (seq 0 16)) (seq 0 12) = true)
    by (vm_compute; reflexivity).
  rewrite forallb_forall in E. specialize (E r ltac:(apply in_seq; lia)). rewrite forallb_forall in E.
  apply Nat.eqb_eq, E, in_seq. lia.
Qed.

(** ** Tables of multiples *)
Definition aes_b : bool := forallb (fun x => let y := Spec.Groestl.inverse (N.of_nat x) in let s := Spec.Groestl.S (N.of_nat x) in
  (y <? 256) && (if (x =? 0)%nat then y =? 0 else gmul 0x11b (N.of_nat x) y =? 1) && (s <? 256) &&
  forallb (fun i => Bool.eqb (N.testbit s i)
    (xorb (N.testbit 0x63 i) (xorb (N.testbit y i) (xorb (N.testbit y ((i + 4) mod 8)) (xorb (N.testbit y ((i + 5) mod 8))
      (xorb (N.testbit y ((i + 6) mod 8)) (N.testbit y ((i + 7) mod 8)))))))) [0; 1; 2; 3; 4; 5; 6; 7]) (seq 0 256).
Lemma aes_check : aes_b = true.
Proof. vm_compute. reflexivity. Qed.
#[local] Opaque Spec.Groestl.inverse Spec.Groestl.S Spec.Groestl.SBOX gmul.
Lemma aes_ok : aes_sbox Spec.Groestl.S.
Proof.
  intros x Hx. exists (Spec.Groestl.inverse x). pose proof aes_check as E. unfold aes_b in E. rewrite forallb_forall in E.
  specialize (E (N.to_nat x) ltac:(apply in_seq; lia)). cbv beta zeta in E. rewrite N2Nat.id in E. apply andb_true_iff in E as [E E4]. apply andb_true_iff in E as [E E3].
  apply andb_true_iff in E as [E1 E2]. apply N.ltb_lt in E1, E3. split; [exact E1|].
  split; [intros ->; now apply N.eqb_eq|]. split.
  - intros H. destruct (Nat.eqb_spec (N.to_nat x) 0) as [H0|_]; [lia|]. now apply N.eqb_eq.
  - split; [exact E3|]. intros i Hi. apply eqb_prop. apply (proj1 (forallb_forall _ _) E4).
    assert (I : In (N.of_nat (N.to_nat i)) (map N.of_nat (seq 0 8))) by (apply in_map, in_seq; lia). rewrite N2Nat.id in I. exact I.
Qed.
Lemma groestl_table k x : (k < 8)%nat -> x < 256 ->
  get (nth k Model.GroestlTable.TABLE []) (N.to_nat x) =
  be_val (map (fun i => gmul 0x11b (get (nth i (circulant [2; 2; 3; 4; 5; 3; 5; 7]) []) k) (Spec.Groestl.S x)) (seq 0 8)).
Proof. intros Hk Hx. exact (check_tables_ok _ _ _ _ _ Proof.Groestl.table_check k x Hk Hx). Qed.
Lemma whirlpool_table k x : (k < 8)%nat -> x < 256 ->
  get (nth k [Model.WhirlpoolTables.C0; Model.WhirlpoolTables.C1; Model.WhirlpoolTables.C2; Model.WhirlpoolTables.C3;
              Model.WhirlpoolTables.C4; Model.WhirlpoolTables.C5; Model.WhirlpoolTables.C6; Model.WhirlpoolTables.C7] []) (N.to_nat x) =
  le_val (map (fun j => gmul 0x11d (get (nth k (circulant [1; 1; 4; 1; 8; 5; 2; 9]) []) j) (Spec.Whirlpool.S x)) (seq 0 8)).
Proof.
  intros Hk Hx. pose proof (check_tables_ok _ _ _ _ _ Proof.Whirlpool.tabs_check k x Hk Hx) as E.
  unfold Proof.Whirlpool.TABS in E. rewrite E. f_equal. do 8 (destruct k as [|k]; [reflexivity|]). lia.
Qed.
Lemma gmul_0 poly a : gmul poly a 0 = 0.
Proof. Transparent gmul. reflexivity. Qed.
Lemma dot_unit poly r k x : (k < 8)%nat -> dot poly r (upd (zeros 8) k x) = gmul poly (get r k) x.
Proof.
  intros H. do 8 (destruct k as [|k]; [unfold dot; cbn [map seq get nth upd zeros repeat]; rewrite ?gmul_0; unfold xors; cbn [fold_right];
    rewrite ?N.lxor_0_l, ?N.lxor_0_r; reflexivity|]). lia.
Qed.
Lemma unit_rev k x : (k < 8)%nat -> map Spec.Streebog.rev8 (rev (upd (zeros 8) k x)) = upd (zeros 8) (7 - k) (Spec.Streebog.rev8 x).
Proof. intros H. do 8 (destruct k as [|k]; [reflexivity|]). lia. Qed.
Lemma streebog_table k x : (k < 8)%nat -> x < 256 ->
  get (nth k Model.Streebog.SHUFFLED_LIN_TABLE []) (N.to_nat x) = le_val (Spec.Streebog.l (upd (zeros 8) k (Spec.Streebog.pi x))).
Proof.
  intros Hk Hx. rewrite (check_tables_ok _ _ _ _ _ Proof.Streebog.tabs_check k x Hk Hx), <- Proof.Streebog.pi_piP.
  unfold Proof.Streebog.enc, Spec.Streebog.l. rewrite unit_rev by exact Hk. f_equal. unfold Proof.Streebog.M', mat_vec.
  rewrite map_rev, map_rev, map_map, map_map, map_map. f_equal. apply map_ext_in. intros r Hr. f_equal. rewrite dot_unit by lia. f_equal.
  assert (L : length r = 8%nat) by (repeat (destruct Hr as [<-|Hr]; [reflexivity|]); contradiction).
  unfold get. rewrite rev_nth by lia. rewrite L. reflexivity.
Qed.
