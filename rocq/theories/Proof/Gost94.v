(** The gost94 crate computes GOST R 34.11-94 over any S-box with 4-bit entries. *)
From Verif Require Import Base.Words Base.Bytes Base.ByteFacts Base.Codec Base.BlockBuffer Base.BlockBufferFacts Base.Digest Base.DigestFacts Base.MDFacts Base.Limit.
From Verif Require Import Spec.MD Proof.GF Model.Gost94.
From Verif Require Spec.GOST94.
Import Spec.GOST94 (part, cat).

(** ** Numbers and bytes *)
Lemma part_S w n y : part w (S n) y = y mod 2 ^ w :: part w n (y / 2 ^ w).
Proof.
  unfold part. cbn [seq map]. rewrite N.mul_0_r, N.pow_0_r, N.div_1_r. f_equal.
  rewrite <- seq_shift, map_map. apply map_ext. intros i.
  rewrite N.div_div by (apply N.pow_nonzero; discriminate). rewrite <- N.pow_add_r. do 3 f_equal. lia.
Qed.
Lemma le_val_app b c : le_val (b ++ c) = le_val b + 2 ^ (8 * N.of_nat (length b)) * le_val c.
Proof.
  induction b as [|y b IH]; [cbn; lia|]. cbn [app le_val length]. rewrite IH.
  replace (8 * N.of_nat (S (length b))) with (8 + 8 * N.of_nat (length b)) by lia. rewrite N.pow_add_r. change (2 ^ 8) with 256. lia.
Qed.
Lemma part_bytes k n : (0 < k)%nat -> forall b, length b = (k * n)%nat -> bytes_ok b -> part (8 * N.of_nat k) n (le_val b) = words_of_le k b.
Proof.
  intros Hk. induction n as [|n IH]; intros b L B.
  - destruct b; [reflexivity|]. cbn in L. lia.
  - rewrite part_S.
    assert (Lc : length (firstn k b) = k) by (rewrite firstn_length; lia).
    assert (Ld : length (skipn k b) = (k * n)%nat) by (rewrite skipn_length; lia).
    pose proof (bytes_ok_firstn k b B) as Bc. pose proof (bytes_ok_skipn k b B) as Bd.
    rewrite <- (firstn_skipn k b). set (c := firstn k b) in *. set (d := skipn k b) in *. clearbody c d.
    unfold words_of_le. rewrite chunks_cons by assumption. cbn [map]. rewrite le_val_app, Lc.
    pose proof (le_val_lt c Bc) as Hc. rewrite pow256, Lc in Hc.
    rewrite N.mul_comm, N.mod_add, N.mod_small, N.div_add, N.div_small by (exact Hc || apply N.pow_nonzero; discriminate).
    rewrite N.add_0_l. f_equal. now apply IH.
Qed.
Lemma cat_words k ws : words_ok (8 * N.of_nat k) ws -> cat (8 * N.of_nat k) ws = le_val (words_to_le k ws).
Proof.
  induction 1 as [|w ws H F IH]; [reflexivity|]. unfold words_to_le. cbn [map concat cat fold_right]. rewrite le_val_app, le_bytes_length, le_val_bytes.
  rewrite pow256, N.mod_small by exact H. f_equal. f_equal. exact IH.
Qed.

(** Vectors of 32 bytes. *)
Definition vok (b : bytes) : Prop := length b = 32%nat /\ bytes_ok b.
Lemma vok_val b : vok b -> le_bytes 32 (le_val b) = b.
Proof. intros [L B]. rewrite <- L. now apply le_bytes_val. Qed.
Lemma le_bytes_vok v : vok (le_bytes 32 v).
Proof. split; [apply le_bytes_length|apply le_bytes_ok]. Qed.
Lemma words_vok ws : length ws = 4%nat -> vok (words_to_le 8 ws).
Proof. intros L. split; [now rewrite words_to_le_length, L|apply words_to_le_ok]. Qed.

Lemma x_xor b c : length b = 32%nat -> length c = 32%nat -> x b c = xor_bytes b c.
Proof. intros Lb Lc. explode b. explode c. reflexivity. Qed.
Lemma x_ok b c : vok b -> vok c -> vok (x b c) /\ le_val (x b c) = N.lxor (le_val b) (le_val c).
Proof.
  intros [Lb Bb] [Lc Bc]. rewrite x_xor by assumption. split.
  - split; [rewrite xor_bytes_length; lia|now apply xor_bytes_ok].
  - apply le_val_xor; congruence.
Qed.
Lemma four (b : bytes) : vok b -> exists b0 b1 b2 b3, b = b0 ++ b1 ++ b2 ++ b3 /\
  (length b0 = 8 /\ length b1 = 8 /\ length b2 = 8 /\ length b3 = 8)%nat /\ bytes_ok b0 /\ bytes_ok b1 /\ bytes_ok b2 /\ bytes_ok b3 /\
  part 64 4 (le_val b) = [le_val b0; le_val b1; le_val b2; le_val b3].
Proof.
  intros [L B]. exists (firstn 8 b), (firstn 8 (skipn 8 b)), (firstn 8 (skipn 16 b)), (skipn 24 b).
  change 64 with (8 * N.of_nat 8) at 1. rewrite (part_bytes 8 4 ltac:(lia) b L B). explode b.
  refine (conj eq_refl (conj _ _)); [repeat split|]. cbn [firstn skipn].
  repeat (apply Forall_cons_iff in B as [? B]). refine (conj _ (conj _ (conj _ (conj _ eq_refl)))); repeat (constructor; [assumption|]); constructor.
Qed.
Lemma le_val_8 b : length b = 8%nat -> bytes_ok b -> le_val b < 2 ^ 64.
Proof. intros L B. pose proof (le_val_lt b B) as H. rewrite L in H. exact H. Qed.
Lemma cat_64 b0 b1 b2 b3 : length b0 = 8%nat -> length b1 = 8%nat -> length b2 = 8%nat ->
  cat 64 [le_val b0; le_val b1; le_val b2; le_val b3] = le_val (b0 ++ b1 ++ b2 ++ b3).
Proof.
  intros L0 L1 L2. rewrite !le_val_app, L0, L1, L2. change (8 * N.of_nat 8) with 64. cbn [cat fold_right]. now rewrite N.mul_0_r, N.add_0_r.
Qed.
Lemma a_ok b : vok b -> vok (a b) /\ le_val (a b) = Spec.GOST94.A (le_val b).
Proof.
  intros V. destruct (four b V) as (b0 & b1 & b2 & b3 & -> & (L0 & L1 & L2 & L3) & B0 & B1 & B2 & B3 & E).
  unfold Spec.GOST94.A. rewrite E. rewrite <- (le_val_xor b0 b1 B0 B1) by congruence.
  assert (E1 : a (b0 ++ b1 ++ b2 ++ b3) = b1 ++ b2 ++ b3 ++ xor_bytes b0 b1).
  { unfold a. rewrite skipn_app_exact by exact L0. rewrite <- !app_assoc. do 3 f_equal. clear - L0 L1. explode b0. explode b1. reflexivity. }
  rewrite E1, cat_64 by assumption. split; [|reflexivity]. split.
  - rewrite !app_length, xor_bytes_length. lia.
  - repeat (apply bytes_ok_app; split; [assumption|]). now apply xor_bytes_ok.
Qed.
Lemma part_8 b : vok b -> part 8 32 (le_val b) = b.
Proof.
  intros [L B]. change 8 with (8 * N.of_nat 1). rewrite (part_bytes 1 32 ltac:(lia) b L B). explode b. cbv -[N.mul N.add]. rewrite !N.mul_0_r, !N.add_0_r. reflexivity.
Qed.
Lemma cat_8 b : cat 8 b = le_val b.
Proof. induction b as [|y b IH]; [reflexivity|]. change (y + 256 * cat 8 b = y + 256 * le_val b). now rewrite IH. Qed.
Lemma p_ok b : vok b -> vok (p b) /\ le_val (p b) = Spec.GOST94.P (le_val b).
Proof.
  intros V. unfold Spec.GOST94.P. rewrite (part_8 b V). match goal with |- _ /\ _ = cat 8 ?l => rewrite (cat_8 l) end. destruct V as [L B].
  assert (E : p b = map (fun j => get b (Spec.GOST94.phi j - 1)) (seq 1 32)) by (explode b; reflexivity).
  rewrite E. split; [|reflexivity]. split; [reflexivity|].
  apply Forall_map. apply Forall_forall. intros j _. exact (get_ok 8 b _ B eq_refl).
Qed.
Lemma psi_ok b : vok b -> vok (psi b) /\ le_val (psi b) = Spec.GOST94.psi (le_val b).
Proof.
  intros [L B]. unfold Spec.GOST94.psi. assert (EP : part 16 16 (le_val b) = words_of_le 2 b) by exact (part_bytes 2 16 ltac:(lia) b L B). rewrite EP. clear EP.
  explode b. unfold bytes_ok in B. repeat (apply Forall_cons_iff in B as [? B]).
  cbv beta iota zeta delta [psi words_of_le chunks chunks_fuel length Nat.leb firstn skipn map get nth app upd].
  split.
  - split; [reflexivity|]. repeat (constructor; [first [assumption | repeat (apply (lxor_lt 8); [|assumption]); assumption]|]). constructor.
  - assert (X : forall u v u' v', u < 256 -> v < 256 -> u' < 256 -> v' < 256 ->
      N.lxor (le_val [u; v]) (le_val [u'; v']) = le_val [N.lxor u u'; N.lxor v v']).
    { intros. symmetry. apply (le_val_xor [u; v] [u'; v']); [repeat constructor; assumption|repeat constructor; assumption|reflexivity]. }
    rewrite !X by (repeat (apply (lxor_lt 8); [|assumption]); assumption).
    match goal with |- _ = cat _ ?ws => transitivity (cat (8 * N.of_nat 2) ws); [|reflexivity] end.
    rewrite cat_words.
    + unfold words_to_le. cbn [map].
      assert (Y : forall u v, u < 256 -> v < 256 -> le_bytes 2 (le_val [u; v]) = [u; v]).
      { intros. apply (le_bytes_val [u; v]). repeat constructor; assumption. }
      rewrite !Y by (repeat (apply (lxor_lt 8); [|assumption]); assumption). reflexivity.
    + assert (Z : forall u v, u < 256 -> v < 256 -> le_val [u; v] < 2 ^ (8 * N.of_nat 2)).
      { intros. change (2 ^ (8 * N.of_nat 2)) with (256 ^ N.of_nat 2). apply (le_val_lt [u; v]). repeat constructor; assumption. }
      repeat (constructor; [apply Z; repeat (apply (lxor_lt 8); [|assumption]); assumption|]). constructor.
Qed.
Lemma psis_ok n b : vok b -> vok (Nat.iter n psi b) /\ le_val (Nat.iter n psi b) = Spec.GOST94.psis n (le_val b).
Proof.
  intros V. unfold Spec.GOST94.psis. induction n as [|n [V' E]]; [now split|]. change (vok (psi (Nat.iter n psi b)) /\ le_val (psi (Nat.iter n psi b)) = Spec.GOST94.psi (Nat.iter n Spec.GOST94.psi (le_val b))).
  rewrite <- E. now apply psi_ok.
Qed.

(** ** The block cipher *)
Definition table_ok (S : list (list N)) : Prop := length S = 8%nat /\ Forall (fun r => Forall (fun e => e < 16) r) S.
Lemma row_lt (r : list N) k : Forall (fun e => e < 16) r -> get r k < 16.
Proof. intros H. exact (get_ok 4 r k H eq_refl). Qed.
Lemma nib y s : s < 32 -> N.shiftr (N.land y (N.shiftl 15 s)) s = (y / 2 ^ s) mod 2 ^ 4.
Proof.
  intros Hs. rewrite N.shiftr_land, N.shiftr_shiftl_l, N.sub_diag by lia. rewrite N.shiftr_div_pow2.
  change (N.shiftl 15 0) with (N.ones 4). now rewrite N.land_ones.
Qed.
Lemma sbox_spec m y S : table_ok S -> sbox m y S = Some (Spec.GOST94.sub S y) /\ Spec.GOST94.sub S y < 2 ^ 32.
Proof.
  intros [L F]. explode S. repeat (apply Forall_cons_iff in F as [? F]).
  unfold sbox, Spec.GOST94.sub, part. cbn [seq fold_left nth map combine fst snd cat fold_right].
  repeat match goal with |- context [wshl 32 15 ?s] => change (wshl 32 15 s) with (N.shiftl 15 s) end.
  rewrite !nib by reflexivity.
  change (4 * N.of_nat 0) with 0. change (4 * N.of_nat 1) with 4. change (4 * N.of_nat 2) with 8. change (4 * N.of_nat 3) with 12.
  change (4 * N.of_nat 4) with 16. change (4 * N.of_nat 5) with 20. change (4 * N.of_nat 6) with 24. change (4 * N.of_nat 7) with 28.
  repeat match goal with |- context [get ?r ?k] => 
    let H := fresh in assert (H : get r k < 16) by (apply row_lt; assumption); let e := fresh "e" in set (e := get r k) in *; clearbody e end.
  assert (Sh : forall z s, z < 16 -> s <= 28 -> wshl 32 z s = z * 2 ^ s).
  { intros z s He Hs. unfold wshl. rewrite N.shiftl_mul_pow2. apply N.mod_small. 
    apply N.lt_le_trans with (16 * 2 ^ s); [apply N.mul_lt_mono_pos_r; [apply pow2_pos|exact He]|].
    change 16 with (2 ^ 4). rewrite <- N.pow_add_r. apply N.pow_le_mono_r; lia. }
  rewrite !Sh by (assumption || discriminate).
  change (2 ^ 0) with 1. change (2 ^ 4) with 16. change (2 ^ 8) with 256. change (2 ^ 12) with 4096. change (2 ^ 16) with 65536.
  change (2 ^ 20) with 1048576. change (2 ^ 24) with 16777216. change (2 ^ 28) with 268435456.
  unfold cadd. cbn [obind]. do 8 (rewrite fit_small by (change (2 ^ 32) with 4294967296; lia); cbn [obind]).
  change (2 ^ 32) with 4294967296. split; [f_equal; lia|lia].
Qed.

Lemma round_spec m S ab k : table_ok S -> enc_round m S (Some ab) k = Some (Spec.GOST94.round S ab k).
Proof.
  intros T. destruct ab as [a b]. unfold enc_round, g. cbn [obind]. destruct (sbox_spec m (add32 a k) S T) as [-> _]. reflexivity.
Qed.
Lemma rounds_spec m S k l : table_ok S -> forall ab,
  fold_left (fun ab i => enc_round m S ab (get k i)) l (Some ab) = Some (fold_left (Spec.GOST94.round S) (map (get k) l) ab).
Proof. intros T. induction l as [|i l IH]; intros ab; [reflexivity|]. cbn [fold_left map]. rewrite round_spec by exact T. apply IH. Qed.
Lemma rounds_lt S l : table_ok S -> forall ab, fst ab < 2 ^ 32 -> snd ab < 2 ^ 32 ->
  fst (fold_left (Spec.GOST94.round S) l ab) < 2 ^ 32 /\ snd (fold_left (Spec.GOST94.round S) l ab) < 2 ^ 32.
Proof.
  intros T. induction l as [|k l IH]; intros ab Ha Hb; [now split|]. cbn [fold_left]. apply IH; cbn [Spec.GOST94.round fst snd]; [|exact Ha].
  apply lxor_lt; [exact Hb|]. apply rotl_lt. apply (sbox_spec Checked _ S T).
Qed.
Lemma encrypt_spec m S msg key : table_ok S -> length msg = 8%nat -> bytes_ok msg -> vok key ->
  encrypt m msg key S = Some (le_bytes 8 (Spec.GOST94.E S (le_val key) (le_val msg))).
Proof.
  intros T L B [Lk Bk]. unfold encrypt, Spec.GOST94.E. cbv zeta.
  assert (EP : part 32 8 (le_val key) = words_of_le 4 key) by exact (part_bytes 4 8 ltac:(lia) key Lk Bk). rewrite EP. clear EP.
  pose proof (words_of_le_length 4 key ltac:(lia)) as LW. rewrite Lk in LW. change (32 / 4)%nat with 8%nat in LW.
  set (k := words_of_le 4 key) in *. clearbody k.
  assert (EK : map (get k) (seq 0 8) = k) by (explode k; reflexivity).
  assert (ER : map (get k) (rev (seq 0 8)) = rev k) by (rewrite map_rev; now rewrite EK).
  set (ab := (le_val (firstn 4 msg), le_val (skipn 4 msg))).
  assert (Eab : (le_val msg mod 2 ^ 32, le_val msg / 2 ^ 32) = ab /\ fst ab < 2 ^ 32 /\ snd ab < 2 ^ 32).
  { pose proof (le_val_lt _ (bytes_ok_firstn 4 msg B)) as H1. pose proof (le_val_lt _ (bytes_ok_skipn 4 msg B)) as H2.
    rewrite firstn_length in H1. rewrite skipn_length in H2. rewrite L in H1, H2.
    change (256 ^ N.of_nat (Nat.min 4 8)) with (2 ^ 32) in H1. change (256 ^ N.of_nat (8 - 4)) with (2 ^ 32) in H2.
    split; [|now split]. rewrite <- (firstn_skipn 4 msg) at 1 2. rewrite le_val_app, firstn_length, L.
    change (8 * N.of_nat (Nat.min 4 8)) with 32. unfold ab. f_equal.
    - rewrite N.mul_comm, N.mod_add by discriminate. now apply N.mod_small.
    - rewrite N.mul_comm, N.div_add by discriminate. rewrite N.div_small by exact H1. apply N.add_0_l. }
  destruct Eab as (-> & Ha & Hb).
  assert (E3 : forall y, fold_left (fun ab (_ : nat) => fold_left (fun ab i => enc_round m S ab (get k i)) (seq 0 8) ab) (seq 0 3) (Some y)
    = Some (fold_left (Spec.GOST94.round S) (k ++ k ++ k) y)).
  { intros y. change (seq 0 3) with [0; 1; 2]%nat. cbn [fold_left]. rewrite !rounds_spec, EK by exact T. now rewrite !fold_left_app. }
  rewrite E3, rounds_spec, ER by exact T. rewrite <- fold_left_app, <- !app_assoc. cbn [obind].
  pose proof (rounds_lt S (k ++ k ++ k ++ rev k) T ab Ha Hb) as [Ha' Hb'].
  destruct (fold_left _ _ ab) as [a' b']. cbn [fst snd] in Ha', Hb'.
  change 32 with (8 * N.of_nat 4). rewrite cat_words by (repeat constructor; assumption).
  unfold words_to_le. cbn [map concat]. rewrite app_nil_r. f_equal. symmetry.
  exact (le_bytes_val (le_bytes 4 b' ++ le_bytes 4 a') (proj2 (bytes_ok_app _ _) (conj (le_bytes_ok 4 b') (le_bytes_ok 4 a')))).
Qed.

(** ** The step function *)
Lemma C_ok : vok C /\ le_val C = Spec.GOST94.C3.
Proof. split; [split; [reflexivity|repeat constructor]|reflexivity]. Qed.
Lemma E_lt S K h : table_ok S -> h < 2 ^ 64 -> Spec.GOST94.E S K h < 2 ^ 64.
Proof.
  intros T Hh. unfold Spec.GOST94.E. cbv zeta.
  assert (H1 : h mod 2 ^ 32 < 2 ^ 32) by (apply N.mod_lt; discriminate).
  assert (H2 : h / 2 ^ 32 < 2 ^ 32) by (apply N.div_lt_upper_bound; [discriminate|exact Hh]).
  match goal with |- context [fold_left ?f ?l ?i] => pose proof (rounds_lt S l T i H1 H2) as [Ha Hb]; destruct (fold_left f l i) as [a b] end.
  cbn [fst snd] in Ha, Hb. cbn [cat fold_right]. change (2 ^ 64) with (2 ^ 32 * 2 ^ 32). set (M := 2 ^ 32) in *. nia.
Qed.
Lemma f_spec Pr m h mm : table_ok (S_BOX Pr) -> vok h -> vok mm ->
  f Pr m h mm = Some (le_bytes 32 (Spec.GOST94.chi (S_BOX Pr) (le_val mm) (le_val h))) /\
  Spec.GOST94.chi (S_BOX Pr) (le_val mm) (le_val h) < 2 ^ 256.
Proof.
  intros T Vh Vm. unfold f, Spec.GOST94.chi, Spec.GOST94.keys, Spec.GOST94.key, Spec.GOST94.next. cbv zeta. cbn [fst snd].
  destruct (x_ok h mm Vh Vm) as [V1 E1]. destruct (p_ok _ V1) as [K1 F1]. rewrite E1 in F1.
  destruct (a_ok h Vh) as [Vu2 Eu2]. destruct (a_ok mm Vm) as [Va Ea]. destruct (a_ok _ Va) as [Vv2 Ev2]. rewrite Ea in Ev2.
  destruct (x_ok _ _ Vu2 Vv2) as [V2 E2]. destruct (p_ok _ V2) as [K2 F2]. rewrite E2, Eu2, Ev2 in F2.
  destruct (a_ok _ Vu2) as [Vu3' Eu3']. rewrite Eu2 in Eu3'. destruct C_ok as [VC EC]. destruct (x_ok _ _ Vu3' VC) as [Vu3 Eu3]. rewrite Eu3', EC in Eu3.
  destruct (a_ok _ Vv2) as [Vb Eb]. rewrite Ev2 in Eb. destruct (a_ok _ Vb) as [Vv3 Ev3]. rewrite Eb in Ev3.
  destruct (x_ok _ _ Vu3 Vv3) as [V3 E3]. destruct (p_ok _ V3) as [K3 F3]. rewrite E3, Eu3, Ev3 in F3.
  destruct (a_ok _ Vu3) as [Vu4 Eu4]. rewrite Eu3 in Eu4.
  destruct (a_ok _ Vv3) as [Vc Ec]. rewrite Ev3 in Ec. destruct (a_ok _ Vc) as [Vv4 Ev4]. rewrite Ec in Ev4.
  destruct (x_ok _ _ Vu4 Vv4) as [V4 E4]. destruct (p_ok _ V4) as [K4 F4]. rewrite E4, Eu4, Ev4 in F4.
  set (k1 := p (x h mm)) in *. set (k2 := p (x (a h) (a (a mm)))) in *.
  set (k3 := p (x (x (a (a h)) C) (a (a (a (a mm)))))) in *. set (k4 := p (x (a (x (a (a h)) C)) (a (a (a (a (a (a mm)))))))) in *.
  rewrite !N.lxor_0_r. rewrite <- F1, <- F2, <- F3, <- F4. clear - T Vh Vm K1 K2 K3 K4. clearbody k1 k2 k3 k4.
  destruct (four h Vh) as (b0 & b1 & b2 & b3 & Eh & (L0 & L1 & L2 & L3) & B0 & B1 & B2 & B3 & EP). rewrite EP. clear EP.
  assert (X : firstn 8 h = b0 /\ firstn 8 (skipn 8 h) = b1 /\ firstn 8 (skipn 16 h) = b2 /\ firstn 8 (skipn 24 h) = b3).
  { rewrite Eh. clear - L0 L1 L2 L3. explode b0. explode b1. explode b2. explode b3. repeat split. }
  destruct X as (-> & -> & -> & ->). cbn [combine map fst snd].
  rewrite !encrypt_spec by assumption. cbn [obind].
  set (e0 := Spec.GOST94.E (S_BOX Pr) (le_val k1) (le_val b0)). set (e1 := Spec.GOST94.E (S_BOX Pr) (le_val k2) (le_val b1)).
  set (e2 := Spec.GOST94.E (S_BOX Pr) (le_val k3) (le_val b2)). set (e3 := Spec.GOST94.E (S_BOX Pr) (le_val k4) (le_val b3)).
  assert (W : words_ok 64 [e0; e1; e2; e3]) by (repeat (constructor; [apply E_lt; [exact T|now apply le_val_8]|]); constructor).
  clearbody e0 e1 e2 e3. clear - W Vh Vm.
  assert (Es : le_bytes 8 e0 ++ le_bytes 8 e1 ++ le_bytes 8 e2 ++ le_bytes 8 e3 = words_to_le 8 [e0; e1; e2; e3])
    by (unfold words_to_le; cbn [map concat]; now rewrite app_nil_r).
  assert (Ec : cat 64 [e0; e1; e2; e3] = le_val (words_to_le 8 [e0; e1; e2; e3])) by exact (cat_words 8 _ W).
  rewrite Es, Ec. pose proof (words_vok [e0; e1; e2; e3] eq_refl) as Vs. set (s := words_to_le 8 [e0; e1; e2; e3]) in *. clearbody s.
  unfold shuffle. cbv zeta. destruct (psis_ok 12 s Vs) as [P1 Q1]. destruct (x_ok _ mm P1 Vm) as [P2 Q2]. rewrite Q1 in Q2.
  destruct (psis_ok 1 _ P2) as [P3 Q3]. rewrite Q2 in Q3. change (Nat.iter 1 psi ?y) with (psi y) in P3, Q3.
  destruct (x_ok h _ Vh P3) as [P4 Q4]. rewrite Q3 in Q4. destruct (psis_ok 61 _ P4) as [P5 Q5]. rewrite Q4 in Q5.
  rewrite (N.lxor_comm (le_val mm)). rewrite <- Q5. split.
  - f_equal. symmetry. exact (vok_val _ P5).
  - destruct P5 as [L5 B5]. pose proof (le_val_lt _ B5) as H. rewrite L5 in H. exact H.
Qed.

(** ** Length and checksum *)
Definition nl (v : N) : list N := part 64 4 v.
Definition nval (n : list N) : N := get n 0 + 2 ^ 64 * (get n 1 + 2 ^ 64 * (get n 2 + 2 ^ 64 * get n 3)).
Lemma nl_ok v : length (nl v) = 4%nat /\ words_ok 64 (nl v).
Proof.
  split; [reflexivity|]. unfold nl, part. apply Forall_map, Forall_forall. intros i _. apply N.mod_lt. discriminate.
Qed.
Lemma div_step B p q : B <> 0 -> (p + B * q) mod B = p mod B /\ (p + B * q) / B = p / B + q.
Proof. intros H. rewrite N.mul_comm. split; [now apply N.mod_add|now apply N.div_add]. Qed.
Lemma carry4 (n0 n1 n2 n3 x0 x1 x2 x3 : N) :
  (let '(y0, c) := adc n0 x0 0 in let '(y1, c) := adc n1 x1 c in let '(y2, c) := adc n2 x2 c in let '(y3, _) := adc n3 x3 c in [y0; y1; y2; y3])
  = nl (n0 + 2 ^ 64 * (n1 + 2 ^ 64 * (n2 + 2 ^ 64 * n3)) + (x0 + 2 ^ 64 * (x1 + 2 ^ 64 * (x2 + 2 ^ 64 * x3)))).
Proof.
  unfold adc. rewrite !N.shiftr_div_pow2. unfold nl. rewrite !part_S. change (part 64 0 ?v) with (@nil N).
  assert (HB : 2 ^ 64 <> 0) by discriminate. set (B := 2 ^ 64) in *. clearbody B.
  replace (n0 + B * (n1 + B * (n2 + B * n3)) + (x0 + B * (x1 + B * (x2 + B * x3))))
    with (n0 + x0 + 0 + B * (n1 + B * (n2 + B * n3) + (x1 + B * (x2 + B * x3)))) by lia.
  destruct (div_step B (n0 + x0 + 0) (n1 + B * (n2 + B * n3) + (x1 + B * (x2 + B * x3))) HB) as [-> ->]. set (c := (n0 + x0 + 0) / B).
  replace (c + (n1 + B * (n2 + B * n3) + (x1 + B * (x2 + B * x3)))) with (n1 + x1 + c + B * (n2 + B * n3 + (x2 + B * x3))) by lia.
  destruct (div_step B (n1 + x1 + c) (n2 + B * n3 + (x2 + B * x3)) HB) as [-> ->]. set (d := (n1 + x1 + c) / B).
  replace (d + (n2 + B * n3 + (x2 + B * x3))) with (n2 + x2 + d + B * (n3 + x3)) by lia.
  destruct (div_step B (n2 + x2 + d) (n3 + x3) HB) as [-> ->]. set (e := (n2 + x2 + d) / B).
  do 4 f_equal. f_equal. lia.
Qed.
Lemma update_n_spec n len : len < 2 ^ 64 -> update_n n len = nl (nval n + 8 * len).
Proof.
  intros H. unfold update_n. rewrite carry4. unfold nval. f_equal. f_equal.
  rewrite !N.mul_0_r, !N.add_0_r, N.shiftr_div_pow2. unfold wshl. rewrite N.shiftl_mul_pow2.
  change (2 ^ 64) with (2 ^ 61 * 2 ^ 3) at 1. rewrite N.mul_mod_distr_r by discriminate.
  pose proof (N.div_mod len (2 ^ 61) ltac:(discriminate)) as E. change (2 ^ 64) with (8 * 2 ^ 61). change (2 ^ 3) with 8. lia.
Qed.
Lemma nval_nl v : nval (nl v) = v mod 2 ^ 256.
Proof.
  unfold nval, nl. rewrite !part_S. cbn [get nth]. change (2 ^ 256) with (2 ^ 64 * (2 ^ 64 * (2 ^ 64 * 2 ^ 64))).
  rewrite !N.mod_mul_r by discriminate. reflexivity.
Qed.
Lemma nl_mod v : nl (v mod 2 ^ 256) = nl v.
Proof.
  unfold nl, part. apply map_ext_in. intros i Hi. apply in_seq in Hi.
  assert (E : 2 ^ 256 = 2 ^ (64 * N.of_nat i) * (2 ^ 64 * 2 ^ (192 - 64 * N.of_nat i))) by (rewrite <- !N.pow_add_r; f_equal; lia).
  rewrite E. set (p := 2 ^ (64 * N.of_nat i)). set (q := 2 ^ (192 - 64 * N.of_nat i)).
  assert (Hp : p <> 0) by (apply N.pow_nonzero; discriminate). assert (Hq : q <> 0) by (apply N.pow_nonzero; discriminate).
  rewrite (N.mod_mul_r v p) by first [exact Hp | apply N.neq_mul_0; split; [discriminate|exact Hq]].
  destruct (div_step p (v mod p) ((v / p) mod (2 ^ 64 * q)) Hp) as [_ ->]. rewrite N.div_small by (apply N.mod_lt; exact Hp).
  rewrite N.add_0_l, N.mod_mul_r by first [discriminate | exact Hq]. destruct (div_step (2 ^ 64) ((v / p) mod 2 ^ 64) ((v / p / 2 ^ 64) mod q) ltac:(discriminate)) as [-> _].
  apply N.mod_mod. discriminate.
Qed.
Lemma nl_add v w : nl (nval (nl v) + w) = nl (v + w).
Proof. rewrite nval_nl. rewrite <- (nl_mod (v mod 2 ^ 256 + w)), N.add_mod_idemp_l by discriminate. apply nl_mod. Qed.
Lemma nl_bytes v : words_to_le 8 (nl v) = le_bytes 32 v.
Proof.
  unfold nl. rewrite !part_S. change (part 64 0 ?y) with (@nil N). unfold words_to_le. cbn [map concat]. rewrite app_nil_r.
  change (2 ^ 64) with (2 ^ (8 * N.of_nat 8)). rewrite !le_bytes_mod.
  rewrite (le_bytes_app 8 24), (le_bytes_app 8 16), (le_bytes_app 8 8). rewrite !pow256. reflexivity.
Qed.
Lemma update_sigma_spec w b : vok b -> update_sigma (nl w) b = nl (w + le_val b).
Proof.
  intros V. destruct (four b V) as (b0 & b1 & b2 & b3 & -> & (L0 & L1 & L2 & L3) & _ & _ & _ & _ & EP).
  assert (E : words_of_le 8 (b0 ++ b1 ++ b2 ++ b3) = [le_val b0; le_val b1; le_val b2; le_val b3])
    by (rewrite <- EP; symmetry; exact (part_bytes 8 4 ltac:(lia) _ (proj1 V) (proj2 V))).
  unfold update_sigma. rewrite E. rewrite <- cat_64 by assumption.
  rewrite <- (nl_mod (w + _)). rewrite <- N.add_mod_idemp_l, <- (nval_nl w), nl_mod by discriminate.
  destruct (nl_ok w) as [L _]. set (n := nl w) in *. clearbody n. explode n. unfold nval. cbn [get nth cat fold_right].
  match goal with |- _ = nl (?p + 2 ^ 64 * ?q + _) => idtac end.
  rewrite N.mul_0_r, N.add_0_r, <- carry4. cbn [seq fold_left get nth].
  repeat (match goal with |- context [adc ?u ?v ?c] => destruct (adc u v c) as [? ?] end; cbn [upd get nth]). reflexivity.
Qed.

(** ** The hasher *)
Lemma rel_fold {A} (ok : bytes -> Prop) (R : A -> N * N -> Prop) (step : A -> bytes -> A) (chi : N -> N -> N) :
  (forall a t b, R a t -> ok b -> R (step a b) (chi (le_val b) (fst t), snd t + le_val b)) ->
  forall bl, Forall ok bl -> forall a t, R a t ->
  R (fold_left step bl a) (fold_left (fun H M => chi M H) (map le_val bl) (fst t), fold_left N.add (map le_val bl) (snd t)).
Proof.
  intros St bl. induction 1 as [|b bl Vb F IH]; intros a t HR; cbn [fold_left map]; [now destruct t|].
  exact (IH _ _ (St a t b HR Vb)).
Qed.
Section Hasher.
  Context (Pr : params) (T : table_ok (S_BOX Pr)) (V0 : vok (H0 Pr)).
  Lemma encrypt_total msg key : exists v, forall m, encrypt m msg key (S_BOX Pr) = Some v.
  Proof using T.
    unfold encrypt. cbv zeta. set (k := words_of_le 4 key). set (ab := (le_val (firstn 4 msg), le_val (skipn 4 msg))). clearbody k ab.
    set (r := fold_left (Spec.GOST94.round (S_BOX Pr)) (map (get k) (seq 0 8 ++ seq 0 8 ++ seq 0 8 ++ rev (seq 0 8))) ab).
    exists (le_bytes 4 (snd r) ++ le_bytes 4 (fst r)). intros m.
    assert (E3 : forall y, fold_left (fun ab (_ : nat) => fold_left (fun ab i => enc_round m (S_BOX Pr) ab (get k i)) (seq 0 8) ab) (seq 0 3) (Some y)
      = Some (fold_left (Spec.GOST94.round (S_BOX Pr)) (map (get k) (seq 0 8 ++ seq 0 8 ++ seq 0 8)) y)).
    { intros y. change (seq 0 3) with [0; 1; 2]%nat. cbn [fold_left]. rewrite !rounds_spec by exact T. now rewrite !map_app, !fold_left_app. }
    rewrite E3, rounds_spec by exact T. rewrite <- fold_left_app, <- map_app, <- !app_assoc. fold r. cbn [obind]. clearbody r. now destruct r.
  Qed.
  Definition ff (h mm : bytes) : bytes := match f Pr Wrapping h mm with Some y => y | None => [] end.
  Lemma f_total m h mm : f Pr m h mm = Some (ff h mm).
  Proof using T.
    destruct (encrypt_total (firstn 8 h) (p (x h mm))) as [v1 E1].
    destruct (encrypt_total (firstn 8 (skipn 8 h)) (p (x (a h) (a (a mm))))) as [v2 E2].
    destruct (encrypt_total (firstn 8 (skipn 16 h)) (p (x (x (a (a h)) C) (a (a (a (a mm))))))) as [v3 E3].
    destruct (encrypt_total (firstn 8 (skipn 24 h)) (p (x (a (x (a (a h)) C)) (a (a (a (a (a (a mm))))))))) as [v4 E4].
    assert (F : forall m, f Pr m h mm = Some (shuffle h mm (v1 ++ v2 ++ v3 ++ v4))).
    { intros m'. unfold f. cbv zeta. rewrite (E1 m'), (E2 m'), (E3 m'), (E4 m'). cbv beta iota delta [obind]. generalize (shuffle h mm (v1 ++ v2 ++ v3 ++ v4)). intros y. reflexivity. }
    unfold ff. rewrite (F m), (F Wrapping). generalize (shuffle h mm (v1 ++ v2 ++ v3 ++ v4)). reflexivity.
  Qed.
  Definition chib (h mm : bytes) : bytes := le_bytes 32 (Spec.GOST94.chi (S_BOX Pr) (le_val mm) (le_val h)).
  Lemma ff_spec h mm : vok h -> vok mm -> ff h mm = chib h mm.
  Proof using T. intros Vh Vm. unfold ff. now rewrite (proj1 (f_spec Pr Wrapping h mm T Vh Vm)). Qed.
  Definition hs_step (hs : bytes * list N) (b : bytes) : bytes * list N := (ff (fst hs) b, update_sigma (snd hs) b).
  Definition ideal_update (m : mode) (s : gost_st) (bl : list bytes) : option gost_st :=
    let '(h, n, sigma) := s in
    let hs := fold_left hs_step bl (h, sigma) in
    Some (fst hs, nl (nval n + 256 * N.of_nat (length bl)), snd hs).
  Lemma compress_total m s b : compress Pr m (Some s) b = let '(h, n, sigma) := s in Some (ff h b, n, update_sigma sigma b).
  Proof using T. destruct s as [[h n] sg]. unfold compress. cbn [obind fst snd]. now rewrite f_total. Qed.
  Lemma compress_fold m bl : forall h n sg, fold_left (compress Pr m) bl (Some (h, n, sg)) =
    let hs := fold_left hs_step bl (h, sg) in Some (fst hs, n, snd hs).
  Proof using T.
    induction bl as [|b bl IH]; intros h n sg; [reflexivity|]. cbn [fold_left]. rewrite compress_total, IH. reflexivity.
  Qed.
  Lemma ideal_update_eq m s bl : N.of_nat (32 * length bl) < 2 ^ 63 -> gost_update Pr m s bl = ideal_update m s bl.
  Proof using T.
    intros H. unfold gost_update, ideal_update, cmul. assert (H' : 32 * N.of_nat (length bl) < 2 ^ 64) by lia.
    rewrite fit_small by exact H'. cbn [obind]. destruct s as [[h n] sg]. rewrite update_n_spec by exact H'. rewrite compress_fold. cbv zeta. do 4 f_equal. lia.
  Qed.
  Definition HS (hs : bytes * list N) : Prop := vok (fst hs) /\ exists w, snd hs = nl w.
  Definition inv (s : gost_st) : Prop := let '(h, n, sigma) := s in vok h /\ (exists v, n = nl v) /\ exists w, sigma = nl w.
  Definition within (len : nat) : Prop := True.
  Lemma hs_ok hs b : HS hs -> vok b -> HS (hs_step hs b).
  Proof using T.
    intros [V [w E]] Vb. unfold hs_step. split; cbn [fst snd].
    - rewrite ff_spec by assumption. apply le_bytes_vok.
    - rewrite E, update_sigma_spec by exact Vb. now eexists.
  Qed.
  Definition R (hs : bytes * list N) (t : N * N) : Prop := vok (fst hs) /\ le_val (fst hs) = fst t /\ snd hs = nl (snd t).
  Lemma R_step hs t b : R hs t -> vok b -> R (hs_step hs b) (Spec.GOST94.chi (S_BOX Pr) (le_val b) (fst t), snd t + le_val b).
  Proof using T.
    intros (V & E1 & E2) Vb. unfold hs_step. cbn [fst snd]. rewrite E2, update_sigma_spec, ff_spec by assumption. unfold chib. rewrite <- E1.
    refine (conj (le_bytes_vok _) (conj _ eq_refl)). cbn [fst]. rewrite le_val_bytes. apply N.mod_small.
    exact (proj2 (f_spec Pr Wrapping (fst hs) b T V Vb)).
  Qed.
  Lemma R_fold bl : Forall vok bl -> forall hs t, R hs t ->
    R (fold_left hs_step bl hs) (fold_left (fun H M => Spec.GOST94.chi (S_BOX Pr) M H) (map le_val bl) (fst t), fold_left N.add (map le_val bl) (snd t)).
  Proof using T.
    intros F hs t HR. exact (rel_fold vok R hs_step (Spec.GOST94.chi (S_BOX Pr)) R_step bl F hs t HR).
  Qed.
  Lemma le_val_mod v : le_val (le_bytes 32 v) = v mod 2 ^ 256.
  Proof using. now rewrite le_val_bytes, pow256. Qed.
  (** The last two steps. *)
  Lemma finish m hs t v : R hs t ->
    (let* h := f Pr m (fst hs) (words_to_le 8 (nl v)) in let* h := f Pr m h (words_to_le 8 (snd hs)) in Some h)
    = Some (le_bytes 32 (Spec.GOST94.chi (S_BOX Pr) (snd t mod 2 ^ 256) (Spec.GOST94.chi (S_BOX Pr) (v mod 2 ^ 256) (fst t)))).
  Proof using T.
    intros (V & E1 & E2). rewrite E2, !nl_bytes. destruct (f_spec Pr m (fst hs) (le_bytes 32 v) T V (le_bytes_vok v)) as [-> L]. cbn [obind].
    rewrite (proj1 (f_spec Pr m _ (le_bytes 32 (snd t)) T (le_bytes_vok _) (le_bytes_vok _))). cbn [obind]. do 2 f_equal.
    rewrite !le_val_mod, E1 in *. f_equal. rewrite N.mod_small by exact L. reflexivity.
  Qed.
  Lemma pad_ok r : (length r <= 32)%nat -> bytes_ok r -> vok (pad_with_zeros 32 r) /\ le_val (pad_with_zeros 32 r) = le_val r.
  Proof using.
    intros L B. unfold pad_with_zeros. split; [split|].
    - rewrite app_length, zeros_length. lia.
    - apply bytes_ok_app. split; [exact B|apply zeros_ok].
    - rewrite le_val_app, le_val_zeros. lia.
  Qed.
  Lemma finalize_spec m h n sg t r : R (h, sg) t -> (length r < 32)%nat -> bytes_ok r ->
    exists s', gost_finalize Pr m (h, nl n, sg) r = Some
      (let bl := match r with [] => [] | _ => [le_val r] end in
       le_bytes 32 (Spec.GOST94.chi (S_BOX Pr) (fold_left N.add bl (snd t) mod 2 ^ 256)
         (Spec.GOST94.chi (S_BOX Pr) ((n + 8 * N.of_nat (length r)) mod 2 ^ 256) (fold_left (fun H M => Spec.GOST94.chi (S_BOX Pr) M H) bl (fst t)))), s').
  Proof using T.
    intros HR L B. destruct (pad_ok r ltac:(lia) B) as [Vp Ep]. unfold gost_finalize. destruct r as [|r0 r'].
    - change (negb (length (@nil N) =? 0)%nat) with false. cbn [fold_left length]. change (8 * N.of_nat 0) with 0. rewrite N.add_0_r.
      pose proof (finish m (h, sg) t n HR) as E. revert E. generalize (f Pr m) (Spec.GOST94.chi (S_BOX Pr)). intros F CHI E.
      cbn [fst snd obind] in E |- *.
      destruct (F h _) as [h1|]; [|discriminate E]. cbn [obind] in E |- *.
      destruct (F h1 _) as [h2|]; [|discriminate E]. cbn [obind] in E |- *. injection E as ->. now eexists.
    - set (r := r0 :: r') in *. assert (N1 : (length r =? 0)%nat = false) by reflexivity. rewrite N1. cbn [negb].
      rewrite compress_total. rewrite update_n_spec by (change (2 ^ 64) with 18446744073709551616; lia).
      rewrite nval_nl. rewrite <- (nl_mod (_ + _)), N.add_mod_idemp_l, nl_mod by discriminate.
      pose proof (finish m _ _ (n + 8 * N.of_nat (length r)) (R_step (h, sg) t _ HR Vp)) as E. unfold hs_step in E. rewrite Ep in E.
      revert E. generalize (f Pr m) (Spec.GOST94.chi (S_BOX Pr)) ff. intros F CHI ff0 E. cbn [obind fst snd fold_left] in E |- *.
      destruct (F (ff0 h _) _) as [h1|]; [|discriminate E]. cbn [obind] in E |- *.
      destruct (F h1 _) as [h2|]; [|discriminate E]. cbn [obind] in E |- *. injection E as ->. now eexists.
  Qed.
  Lemma blocks_vok msg : bytes_ok msg -> Forall vok (chunks 32 msg).
  Proof using.
    intros B. apply Forall_forall. intros c Hc. split.
    - exact (proj1 (Forall_forall _ _) (chunks_block_length 32 msg ltac:(lia)) c Hc).
    - exact (proj1 (Forall_forall _ _) (chunks_ok 32 msg ltac:(lia) B) c Hc).
  Qed.
  Lemma ideal_ok : core_ok (with_update (gost94_core Pr) ideal_update) inv (Spec.GOST94.GOST94 (S_BOX Pr) (H0 Pr)) within.
  Proof using T V0.
    constructor; cbn [cst c_bs c_kind c_init c_ibuf c_update c_final c_reset c_codec with_update gost94_core].
    - lia.
    - reflexivity.
    - now intros.
    - split; [exact V0|]. split; exists 0; reflexivity.
    - intros m [[h n] sg] bl s' (Vh & [v En] & [w Es]) L B [= <-].
      assert (F : HS (fold_left hs_step bl (h, sg))).
      { assert (I0 : HS (h, sg)) by (split; [exact Vh|now exists w]). revert I0. generalize (h, sg).
        revert B. induction L as [|b bl Lb L IH]; intros B hs I; [exact I|]. apply Forall_cons_iff in B as [Bb B]. cbn [fold_left].
        apply IH; [exact B|]. apply hs_ok; [exact I|now split]. }
      destruct F as [F1 F2]. split; [exact F1|]. split; [now eexists|exact F2].
    - intros m [[h n] sg] (_ & [v ->] & _). unfold ideal_update. cbn [fold_left fst snd length]. change (256 * N.of_nat 0) with 0.
      rewrite N.add_0_r, nval_nl, nl_mod. reflexivity.
    - intros m [[h n] sg] a b _. unfold ideal_update. cbn [obind]. cbv zeta. rewrite fold_left_app, <- surjective_pairing.
      do 3 f_equal. rewrite nl_add, app_length. f_equal. lia.
    - intros m msg _ B. cbn [app]. rewrite kblocks_eager, krem_eager by lia. unfold ideal_update. cbv zeta.
      change (nval (repeat 0 4)) with 0. rewrite N.add_0_l, chunks_length by lia.
      pose proof (R_fold (chunks 32 msg) (blocks_vok msg B) (H0 Pr, repeat 0 4) (le_val (H0 Pr), 0)) as HR. cbn [fst snd] in HR.
      specialize (HR (conj V0 (conj eq_refl eq_refl))).
      pose proof (Nat.mod_upper_bound (length msg) 32 ltac:(lia)) as EU.
      destruct (finalize_spec m _ (256 * N.of_nat (length msg / 32)) _ _ (remainder 32 msg) (eq_ind _ (fun z => R z _) HR _ (surjective_pairing _)))
        as [s' E]; [rewrite remainder_length by lia; exact EU|now apply remainder_ok|].
      eexists. exists s'. split; [reflexivity|]. split; [|reflexivity]. rewrite E. apply f_equal, f_equal2; [|reflexivity].
      unfold Spec.GOST94.GOST94, Spec.GOST94.blocks. generalize (Spec.GOST94.chi (S_BOX Pr)). intros CHI. cbv zeta. rewrite !fold_left_app. cbn [fst snd].
      rewrite remainder_length by lia.
      replace (256 * N.of_nat (length msg / 32) + 8 * N.of_nat (length msg mod 32)) with (8 * N.of_nat (length msg))
        by (pose proof (Nat.div_mod_eq (length msg) 32); lia). now destruct (remainder 32 msg).
    - reflexivity.
    - constructor.
    - intros cd s [= <-] I. destruct s as [[h n] sg]. destruct I as ([L B] & [v ->] & [w ->]). cbn [cd_len cd_ser cd_deser gost_codec].
      destruct (nl_ok v) as [L1 W1]. destruct (nl_ok w) as [L2 W2].
      assert (K : forall u, length (words_to_le 8 (nl u)) = 32%nat) by (intros u; now rewrite words_to_le_length).
      split; [rewrite !app_length, !K, L; reflexivity|].
      rewrite (firstn_app_exact 32 h) by exact L. rewrite (skipn_app_exact 32 h) by exact L. rewrite firstn_app_exact by apply K.
      rewrite app_assoc. rewrite skipn_app_exact by (rewrite app_length, K, L; reflexivity).
      now rewrite !words_le_roundtrip by (lia || assumption).
  Qed.
  Lemma gost94_digest m cs : Forall bytes_ok cs -> Forall (slice_below (2 ^ 63)) cs ->
    h_digest (gost94_core Pr) m cs = Some (Spec.GOST94.GOST94 (S_BOX Pr) (H0 Pr) (concat cs)).
  Proof using T V0.
    intros B S. rewrite (limit_digest (gost94_core Pr) (2 ^ 63) ideal_update).
    - exact (digest_spec _ _ _ _ ideal_ok m cs B I).
    - cbn. lia.
    - reflexivity.
    - exact ideal_update_eq.
    - exact S.
  Qed.
End Hasher.
Lemma vok_zeros : vok (zeros 32).
Proof. split; [reflexivity|repeat constructor]. Qed.
Lemma CryptoPro_table : table_ok (S_BOX CryptoProParam).
Proof. split; [reflexivity|repeat constructor]. Qed.
Lemma S2015_table : table_ok (S_BOX S2015Param).
Proof. split; [reflexivity|repeat constructor]. Qed.
Lemma Test_table : table_ok (S_BOX TestParam).
Proof. split; [reflexivity|repeat constructor]. Qed.
Lemma UA_table : table_ok (S_BOX GOST28147UAParam).
Proof. split; [reflexivity|repeat constructor]. Qed.
