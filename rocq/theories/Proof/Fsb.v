(** The fsb crate computes FSB, for any table of pseudo-random bytes. *)
From Verif Require Import Base.Words Base.Bytes Base.ByteFacts Base.Codec Base.BlockBuffer Base.BlockBufferFacts Base.Digest Base.DigestFacts Base.MDFacts Base.Limit.
From Verif Require Import Spec.MD Model.Fsb.
From Verif Require Spec.FSB Spec.Whirlpool Model.Whirlpool Proof.Whirlpool.

(** ** Bits of bytes *)
Definition tb (x : N) (u : nat) : bool := N.testbit x (7 - N.of_nat u).
Lemma byte_high x i : x < 256 -> 8 <= i -> N.testbit x i = false.
Proof. intros H. exact (proj1 (lt_pow2_bits x 8) H i). Qed.
Lemma tb_lxor x y u : tb (N.lxor x y) u = xorb (tb x u) (tb y u).
Proof. apply N.lxor_spec. Qed.
Lemma tb_lor x y u : tb (N.lor x y) u = (tb x u || tb y u)%bool.
Proof. apply N.lor_spec. Qed.
Lemma tb_0 u : tb 0 u = false.
Proof. apply N.bits_0. Qed.
Lemma tb_shl x k u : (u < 8)%nat -> tb (wshl 8 x (N.of_nat k)) u = if (u + k <? 8)%nat then tb x (u + k) else false.
Proof.
  intros Hu. unfold tb, wshl. rewrite N.mod_pow2_bits_low by lia.
  destruct (Nat.ltb_spec (u + k) 8) as [Q|Q].
  - rewrite N.shiftl_spec_high' by lia. f_equal. lia.
  - apply N.shiftl_spec_low. lia.
Qed.
Lemma tb_shr x k u : (u < 8)%nat -> x < 256 -> tb (N.shiftr x (N.of_nat k)) u = if (k <=? u)%nat then tb x (u - k) else false.
Proof.
  intros Hu Hx. unfold tb. rewrite N.shiftr_spec'. destruct (Nat.leb_spec k u) as [Q|Q].
  - f_equal. lia.
  - apply byte_high; [exact Hx|]. lia.
Qed.
Lemma tb_ext x y : x < 256 -> y < 256 -> (forall u, (u < 8)%nat -> tb x u = tb y u) -> x = y.
Proof.
  intros Hx Hy H. apply N.bits_inj. intros i. destruct (N.lt_ge_cases i 8) as [Q|Q].
  - specialize (H (7 - N.to_nat i)%nat ltac:(lia)). unfold tb in H. replace (7 - N.of_nat (7 - N.to_nat i)) with i in H by lia. exact H.
  - now rewrite !byte_high.
Qed.
Lemma shl8_lt x k : wshl 8 x k < 256. Proof. exact (wshl_lt 8 x k). Qed.
Lemma shr8_lt x k : x < 256 -> N.shiftr x k < 256. Proof. exact (shiftr_lt 8 x k). Qed.
Lemma lxor8_lt x y : x < 256 -> y < 256 -> N.lxor x y < 256. Proof. exact (lxor_lt 8 x y). Qed.
Lemma lor8_lt x y : x < 256 -> y < 256 -> N.lor x y < 256. Proof. exact (lor_lt 8 x y). Qed.

Lemma bits_length b : length (Spec.FSB.bits b) = (8 * length b)%nat.
Proof.
  induction b as [|x b IH]; [reflexivity|]. unfold Spec.FSB.bits in *. cbn [flat_map]. rewrite app_length, IH. unfold Spec.FSB.bits_of_byte.
  rewrite map_length, seq_length. cbn [length]. lia.
Qed.
Lemma bits_nth b : forall j u, (j < length b)%nat -> (u < 8)%nat -> nth (8 * j + u) (Spec.FSB.bits b) false = tb (get b j) u.
Proof.
  induction b as [|x b IH]; intros j u Hj Hu.
  - cbn in Hj. lia.
  - unfold Spec.FSB.bits in *. cbn [flat_map]. assert (L : length (Spec.FSB.bits_of_byte x) = 8%nat) by (unfold Spec.FSB.bits_of_byte; now rewrite map_length, seq_length).
    destruct j as [|j].
    + rewrite Nat.mul_0_r, Nat.add_0_l. rewrite app_nth1 by lia. unfold Spec.FSB.bits_of_byte.
      rewrite (nth_map_seq (fun i => N.testbit x (7 - N.of_nat i))) by exact Hu. reflexivity.
    + rewrite app_nth2 by lia. rewrite L. replace (8 * S j + u - 8)%nat with (8 * j + u)%nat by lia. rewrite IH by (cbn in Hj; lia). reflexivity.
Qed.
Lemma list_nth_eq (a b : list bool) : length a = length b -> (forall k, (k < length a)%nat -> nth k a false = nth k b false) -> a = b.
Proof. intros L H. now apply (nth_ext a b false false). Qed.
(** Bit strings of whole bytes *)
Lemma bits_ext a l : length l = (8 * length a)%nat -> (forall j u, (j < length a)%nat -> (u < 8)%nat -> nth (8 * j + u) l false = tb (get a j) u) ->
  Spec.FSB.bits a = l.
Proof.
  intros L H. apply list_nth_eq; [now rewrite bits_length|]. rewrite bits_length. intros k Hk.
  pose proof (Nat.div_mod_eq k 8) as D. pose proof (Nat.mod_upper_bound k 8 ltac:(lia)) as U.
  assert (J : (k / 8 < length a)%nat) by (apply Nat.div_lt_upper_bound; lia). rewrite D at 1. rewrite bits_nth by assumption. rewrite D at 3. rewrite H; [reflexivity|exact J|exact U].
Qed.
Lemma num_snoc l x : Spec.FSB.num (l ++ [x]) = 2 * Spec.FSB.num l + N.b2n x.
Proof. unfold Spec.FSB.num. now rewrite fold_left_app. Qed.
Lemma num_testbit l : forall i, N.testbit (Spec.FSB.num l) (N.of_nat i) = if (i <? length l)%nat then nth (length l - 1 - i) l false else false.
Proof.
  induction l as [|x l IH] using rev_ind; intros i; [apply N.bits_0|]. rewrite num_snoc, app_length. cbn [length].
  rewrite N.add_comm. destruct i as [|i].
  - change (N.of_nat 0) with 0. rewrite N.add_b2n_double_bit0. destruct (Nat.ltb_spec 0 (length l + 1)); [|lia].
    rewrite app_nth2 by lia. replace (length l + 1 - 1 - 0 - length l)%nat with 0%nat by lia. reflexivity.
  - rewrite Nat2N.inj_succ, N.testbit_succ_r_div2, N.div2_div by lia. rewrite N.add_b2n_double_div2, IH.
    destruct (Nat.ltb_spec i (length l)) as [Q|Q].
    + destruct (Nat.ltb_spec (S i) (length l + 1)); [|lia]. rewrite app_nth1 by lia. f_equal. lia.
    + destruct (Nat.ltb_spec (S i) (length l + 1)); [lia|reflexivity].
Qed.
Lemma num_lt l : Spec.FSB.num l < 2 ^ N.of_nat (length l).
Proof.
  apply lt_pow2_bits. intros i Hi. replace i with (N.of_nat (N.to_nat i)) by lia. rewrite num_testbit.
  destruct (Nat.ltb_spec (N.to_nat i) (length l)); [lia|reflexivity].
Qed.
Lemma num_bits b : b < 256 -> Spec.FSB.num (Spec.FSB.bits_of_byte b) = b.
Proof.
  intros H. assert (L : length (Spec.FSB.bits_of_byte b) = 8%nat) by (unfold Spec.FSB.bits_of_byte; now rewrite map_length, seq_length).
  pose proof (num_lt (Spec.FSB.bits_of_byte b)) as Lt. rewrite L in Lt.
  apply tb_ext; [exact Lt|exact H|]. intros u Hu. unfold tb. replace (7 - N.of_nat u) with (N.of_nat (7 - u)) by lia.
  rewrite num_testbit, L. destruct (Nat.ltb_spec (7 - u) 8); [|lia]. unfold Spec.FSB.bits_of_byte.
  rewrite (nth_map_seq (fun i => N.testbit b (7 - N.of_nat i))) by lia. f_equal. lia.
Qed.
Lemma pack_bits b : bytes_ok b -> Spec.FSB.pack (Spec.FSB.bits b) = b.
Proof.
  unfold Spec.FSB.pack. induction b as [|x b IH]; intros B; [reflexivity|]. apply Forall_cons_iff in B as [Hx B].
  unfold Spec.FSB.bits in *. cbn [flat_map]. rewrite chunks_cons; [|lia|unfold Spec.FSB.bits_of_byte; now rewrite map_length, seq_length].
  cbn [map]. rewrite num_bits by exact Hx. f_equal. now apply IH.
Qed.
Lemma xor_bits_length a b : length (Spec.FSB.xor_bits a b) = min (length a) (length b).
Proof. unfold Spec.FSB.xor_bits. now rewrite map_length, combine_length. Qed.
Lemma xor_bits_nth a : forall b k, length a = length b -> nth k (Spec.FSB.xor_bits a b) false = xorb (nth k a false) (nth k b false).
Proof.
  induction a as [|x a IH]; intros [|y b] k L; try discriminate; [now destruct k|].
  destruct k as [|k]; [reflexivity|]. apply (IH b k). now injection L.
Qed.
Lemma bits_xor a b : length a = length b -> Spec.FSB.bits (xor_bytes a b) = Spec.FSB.xor_bits (Spec.FSB.bits a) (Spec.FSB.bits b).
Proof.
  intros L. apply bits_ext.
  - rewrite xor_bits_length, !bits_length, xor_bytes_length. lia.
  - intros j u Hj Hu. rewrite xor_bytes_length in Hj. rewrite xor_bits_nth by (rewrite !bits_length; lia). rewrite !bits_nth by (exact Hu || lia). rewrite <- tb_lxor. f_equal.
    assert (Hj' : (j < length a)%nat) by lia. clear Hj Hu. revert b j L Hj'. induction a as [|x a IH]; intros [|y b] j L H; try discriminate; [cbn in H; lia|].
    destruct j as [|j]; [reflexivity|]. apply (IH b j); [now injection L|cbn in H; lia].
Qed.
Lemma bits_zeros n : Spec.FSB.bits (zeros n) = repeat false (8 * n).
Proof.
  induction n as [|n IH]; [reflexivity|]. unfold zeros, Spec.FSB.bits in *. cbn [repeat flat_map]. rewrite IH.
  replace (8 * S n)%nat with (8 + 8 * n)%nat by lia. rewrite repeat_app. reflexivity.
Qed.

(** ** Checked array operations *)
Lemma index_some l i : (i < length l)%nat -> index l i = Some (get l i).
Proof. intros H. unfold index, get. now apply nth_error_nth'. Qed.
Lemma modify_some t i f v : (i < length t)%nat -> f (get t i) = Some v -> modify t i f = Some (upd t i v).
Proof. intros H F. unfold modify. rewrite index_some by exact H. cbn [obind]. now rewrite F. Qed.
Lemma get_upd t i v k : (i < length t)%nat -> get (upd t i v) k = if ((k =? i) && (i <? length t))%nat then v else get t k.
Proof.
  revert i k. induction t as [|x t IH]; intros i k H; cbn [length] in H; [lia|].
  destruct i as [|i], k as [|k]; try reflexivity. cbn [upd length]. change (get (x :: upd t i v) (S k)) with (get (upd t i v) k). rewrite IH by lia. reflexivity.
Qed.
Lemma for_range_spec a b body t g : (a + (b - a) <= length t)%nat -> (forall i, (i < b - a)%nat -> body i (get t (a + i)) = Some (g i)) ->
  exists t', for_range a b body t = Some t' /\ length t' = length t /\
    forall k, get t' k = if ((a <=? k) && (k <? b))%nat then g (k - a)%nat else get t k.
Proof.
  unfold for_range. remember (b - a)%nat as c eqn:Hc. intros L F.
  assert (G : forall c0, (c0 <= c)%nat -> exists t', ofold (fun t i => modify t (a + i) (body i)) (seq 0 c0) t = Some t' /\ length t' = length t /\
    forall k, get t' k = if ((a <=? k) && (k <? a + c0))%nat then g (k - a)%nat else get t k).
  { induction c0 as [|c0 IH]; intros H0.
    - exists t. split; [reflexivity|]. split; [reflexivity|]. intros k.
      destruct (Nat.leb_spec a k), (Nat.ltb_spec k (a + 0)); cbn [andb]; reflexivity || lia.
    - destruct (IH ltac:(lia)) as (t1 & E1 & L1 & G1). rewrite seq_S, Nat.add_0_l.
      assert (Eo : forall l1 l2 s, ofold (fun t i => modify t (a + i) (body i)) (l1 ++ l2) s
        = obind (ofold (fun t i => modify t (a + i) (body i)) l1 s) (fun s' => ofold (fun t i => modify t (a + i) (body i)) l2 s')).
      { clear. induction l1 as [|x l1 IH]; intros l2 s; [reflexivity|]. cbn [app ofold]. destruct (modify s _ _); [|reflexivity]. cbn [obind]. apply IH. }
      rewrite Eo, E1. cbn [obind ofold].
      assert (O : get t1 (a + c0) = get t (a + c0)).
      { rewrite G1. destruct (Nat.ltb_spec (a + c0) (a + c0)); [lia|]. now rewrite Bool.andb_false_r. }
      rewrite (modify_some t1 (a + c0) _ (g c0)) by (rewrite ?O; lia || (apply F; lia)). cbn [obind].
      eexists. split; [reflexivity|]. split; [rewrite upd_length; lia|]. intros k. rewrite get_upd by lia. rewrite G1.
      destruct (Nat.eqb_spec k (a + c0)) as [->|Q].
      + destruct (Nat.ltb_spec (a + c0) (length t1)); [|lia]. cbn [andb]. destruct (Nat.leb_spec a (a + c0)); [|lia].
        destruct (Nat.ltb_spec (a + c0) (a + S c0)); [|lia]. cbn [andb]. f_equal. lia.
      + cbn [andb]. destruct (Nat.leb_spec a k), (Nat.ltb_spec k (a + c0)), (Nat.ltb_spec k (a + S c0)); cbn [andb]; reflexivity || lia. }
  destruct (G c (le_n c)) as (t' & E & L' & G'). exists t'. split; [exact E|]. split; [exact L'|]. intros k. rewrite G'.
  destruct (Nat.leb_spec a k), (Nat.ltb_spec k (a + c)), (Nat.ltb_spec k b); cbn [andb]; reflexivity || lia.
Qed.
Lemma get_zeros n k : (k < n)%nat -> get (zeros n) k = 0.
Proof. unfold get, zeros. revert k. induction n as [|n IH]; intros [|k] H; cbn [repeat nth]; try lia. apply IH. lia. Qed.
Lemma slice_some l a b : (a <= b)%nat -> (b <= length l)%nat -> slice l a b = Some (firstn (b - a) (skipn a l)).
Proof. intros H1 H2. unfold slice. destruct (Nat.leb_spec a b), (Nat.leb_spec b (length l)); cbn [andb]; reflexivity || lia. Qed.
Lemma get_slice l a n k : (k < n)%nat -> get (firstn n (skipn a l)) k = get l (a + k).
Proof.
  intros H. unfold get. revert n k H. induction a as [|a IH] in l |- *; intros n k H.
  - cbn [skipn Nat.add]. revert n k H. induction l as [|x l IHl]; intros [|n] k H; try lia; [now destruct k|]. destruct k as [|k]; [reflexivity|]. cbn [firstn nth]. apply IHl. lia.
  - destruct l as [|x l]; [cbn [skipn]; rewrite firstn_nil; now destruct k|]. cbn [skipn Nat.add nth]. now apply IH.
Qed.

Lemma get_zeros_skip n a k : (a + k < n)%nat -> get (skipn a (zeros n)) k = 0.
Proof. unfold zeros. revert a k. induction n as [|n IH]; intros [|a] k H; cbn [repeat skipn]; try lia; [apply (get_zeros (S n)); lia|apply IH; lia]. Qed.

(** ** Rotation *)
Lemma sub_some a b : (b <= a)%nat -> usub a b = Some (a - b)%nat.
Proof. intros H. unfold usub. destruct (Nat.leb_spec b a); [reflexivity|lia]. Qed.
Lemma shl_some x k : (k < 8)%nat -> shl8 x k = Some (wshl 8 x (N.of_nat k)).
Proof. intros H. unfold shl8. destruct (Nat.ltb_spec k 8); [reflexivity|lia]. Qed.
Lemma shr_some x k : (k < 8)%nat -> shr8 x k = Some (N.shiftr x (N.of_nat k)).
Proof. intros H. unfold shr8. destruct (Nat.ltb_spec k 8); [reflexivity|lia]. Qed.
Section Rotate.
  Context (P : params) (R v q : nat).
  Context (HR : r P = (8 * R)%nat) (Hp : p P = (8 * v + q)%nat) (Hq : (1 <= q < 8)%nat) (HRv : (1 <= R <= v)%nat).
  Context (arr : bytes) (La : length arr = S v) (Ba : bytes_ok arr) (Ma : forall u, (q <= u < 8)%nat -> tb (get arr v) u = false).
  Lemma SOC : SIZE_OUTPUT_COMPRESS P = R.
  Proof. unfold SIZE_OUTPUT_COMPRESS. rewrite HR, Nat.mul_comm. apply Nat.div_mul. lia. Qed.
  Lemma BIC : (p P mod 8 = q)%nat.
  Proof. rewrite Hp. rewrite Nat.add_comm, Nat.mul_comm, Nat.mod_add by lia. apply Nat.mod_small. lia. Qed.
  Definition A (k : nat) : bool := tb (get arr (k / 8)) (k mod 8).
  Lemma A_at k j u : k = (8 * j + u)%nat -> (u < 8)%nat -> A k = tb (get arr j) u.
  Proof.
    intros -> Hu. unfold A. rewrite Nat.add_comm, Nat.mul_comm, Nat.div_add, Nat.mod_add by lia. now rewrite Nat.div_small, Nat.mod_small by exact Hu.
  Qed.
  Definition T (sh pos u : nat) : bool := if (8 * pos + u <? sh)%nat then A (8 * pos + u + (8 * v + q - sh)) else A (8 * pos + u - sh).
  Definition good (sh : nat) (t : bytes) : Prop :=
    length t = R /\ forall pos, (pos < R)%nat -> get t pos < 256 /\ forall u, (u < 8)%nat -> tb (get t pos) u = T sh pos u.
  Lemma arr_lt k : get arr k < 256.
  Proof. apply (get_ok 8); [exact Ba|reflexivity]. Qed.
  Lemma idx i : (i <= v)%nat -> index arr i = Some (get arr i).
  Proof. intros H. apply index_some. lia. Qed.

  (** Discharge the checks *)
  Ltac run := repeat first [rewrite idx by lia | rewrite sub_some by lia | rewrite shl_some by lia | rewrite shr_some by lia | progress cbn [obind]].
  Ltac small := repeat (apply lxor8_lt || apply lor8_lt || apply shl8_lt || apply shr8_lt || apply arr_lt || reflexivity).
  Ltac bitwise := rewrite ?tb_lxor, ?tb_lor, ?tb_0, ?tb_shl, ?tb_shr by (lia || apply arr_lt).
  Ltac cases := repeat match goal with
    | |- context [(?a <? ?b)%nat] => destruct (Nat.ltb_spec a b); try lia
    | |- context [(?a <=? ?b)%nat] => destruct (Nat.leb_spec a b); try lia
    end.

  Lemma shift_0 : exists t, shift_and_truncate P arr 0 = Some t /\ good 0 t.
  Proof.
    unfold shift_and_truncate. cbn [Nat.eqb]. rewrite SOC, slice_some by lia. eexists. split; [reflexivity|].
    rewrite Nat.sub_0_r. cbn [skipn]. split; [rewrite firstn_length; lia|]. intros pos Hpos.
    rewrite (get_slice arr 0) by exact Hpos. rewrite Nat.add_0_l. split; [apply arr_lt|]. intros u Hu. unfold T.
    destruct (Nat.ltb_spec (8 * pos + u) 0); [lia|]. rewrite Nat.sub_0_r. symmetry. now apply A_at.
  Qed.
  Lemma shift_low sh : (1 <= sh <= q)%nat -> exists t, shift_and_truncate P arr sh = Some t /\ good sh t.
  Proof.
    intros Hs. unfold shift_and_truncate. destruct (Nat.eqb_spec sh 0); [lia|]. rewrite BIC, SOC, La.
    destruct (Nat.leb_spec sh q); [|lia]. run. rewrite (modify_some (zeros R) 0 _ (wshl 8 (get arr (S v - 1)) (N.of_nat (q - sh))))
      by (rewrite ?zeros_length; lia || (run; reflexivity)). cbn [obind].
    erewrite modify_some; [|rewrite upd_length, zeros_length by (rewrite zeros_length; lia); lia|run; reflexivity]. cbn [obind].
    edestruct for_range_spec as (t & E & L & G); [| |exists t; split; [exact E|]].
    - rewrite !upd_length, zeros_length by (rewrite ?upd_length, ?zeros_length; rewrite ?zeros_length; lia). lia.
    - intros i Hi. run. reflexivity.
    - rewrite !upd_length, zeros_length in L by (rewrite ?upd_length, ?zeros_length; rewrite ?zeros_length; lia). split; [exact L|]. intros pos Hpos. rewrite G. cbv beta.
      rewrite !get_upd by (rewrite ?upd_length, ?zeros_length; rewrite ?zeros_length; lia). rewrite !upd_length, zeros_length, !get_zeros by (rewrite ?zeros_length; lia).
      destruct pos as [|pos].
      + cbn [Nat.leb andb Nat.eqb]. destruct (Nat.ltb_spec 0 R); [|lia]. split; [small|]. intros u Hu. bitwise.
        replace (S v - 1)%nat with v by lia. unfold T. cases.
        * rewrite (A_at _ v (u + (q - sh))) by lia. apply Bool.xorb_false_r.
        * rewrite (A_at _ 0 (u - sh)) by lia. rewrite Ma by lia. apply Bool.xorb_false_l.
        * rewrite (A_at _ 0 (u - sh)) by lia. apply Bool.xorb_false_l.
      + cbn [Nat.leb andb Nat.eqb]. destruct (Nat.ltb_spec (S pos) R); [|lia]. cbn [andb].
        replace (1 + (S pos - 1) - 1)%nat with pos by lia. replace (1 + (S pos - 1))%nat with (S pos) by lia.
        destruct (Nat.eqb_spec (1 + (S pos - 1)) 0); [lia|]. cbn [andb]. rewrite ?get_zeros by lia.
        split; [small|]. intros u Hu. bitwise. unfold T. cases.
        * rewrite (A_at _ pos (u + (8 - sh))) by lia. now rewrite Bool.xorb_false_l, Bool.xorb_false_r.
        * rewrite (A_at _ (S pos) (u - sh)) by lia. now rewrite Bool.xorb_false_l.
  Qed.
  Ltac norm a b := replace a with b by lia.
  Lemma div8 a k u : a = (8 * k + u)%nat -> (u < 8)%nat -> (a / 8 = k)%nat /\ (a mod 8 = u)%nat.
  Proof. intros -> Hu. rewrite Nat.add_comm, Nat.mul_comm, Nat.div_add, Nat.mod_add by lia. now rewrite Nat.div_small, Nat.mod_small by exact Hu. Qed.
  Lemma shift_bytes e : (1 <= e)%nat -> (q + 8 * e < 8 * R)%nat -> exists t, shift_and_truncate P arr (q + 8 * e) = Some t /\ good (q + 8 * e) t.
  Proof.
    intros He Hs. unfold shift_and_truncate. destruct (Nat.eqb_spec (q + 8 * e) 0); [lia|]. rewrite BIC, SOC, La.
    destruct (Nat.leb_spec (q + 8 * e) q); [lia|]. norm (q + 8 * e - q)%nat (8 * e)%nat.
    destruct (div8 (8 * e - 1) (e - 1) 7) as [-> _]; [lia|lia|]. norm (e - 1 + 2)%nat (e + 1)%nat.
    destruct (div8 (8 * e) e 0) as [_ ->]; [lia|lia|]. cbn [Nat.eqb negb]. rewrite sub_some by lia. cbn [obind].
    rewrite slice_some by lia. cbn [obind]. rewrite zeros_length. destruct (Nat.leb_spec (e + 1) R); [|lia]. cbn [obind].
    norm (S v - (e + 1) + (e + 1) - (S v - (e + 1)))%nat (e + 1)%nat. norm (S v - (e + 1))%nat (v - e)%nat. norm (e + 1 - 1)%nat e.
    set (t0 := firstn (e + 1) (skipn (v - e) arr) ++ skipn (e + 1) (zeros R)).
    assert (L0 : length t0 = R) by (unfold t0; rewrite app_length, firstn_length, !skipn_length, zeros_length; lia).
    assert (G0 : forall k, (k < R)%nat -> get t0 k = if (k <=? e)%nat then get arr (v - e + k) else 0).
    { intros k Hk. unfold t0, get. assert (L1 : length (firstn (e + 1) (skipn (v - e) arr)) = (e + 1)%nat) by (rewrite firstn_length, skipn_length; lia).
      destruct (Nat.leb_spec k e).
      - rewrite app_nth1 by lia. now apply get_slice; lia.
      - rewrite app_nth2 by lia. apply (get_zeros_skip R (e + 1)). lia. }
    clearbody t0. erewrite modify_some; [|lia|run; reflexivity]. cbn [obind].
    edestruct for_range_spec as (t & E & L & G); [| |exists t; split; [exact E|]].
    - rewrite !upd_length by lia. lia.
    - intros i Hi. run. reflexivity.
    - rewrite !upd_length in L by lia. split; [lia|]. intros pos Hpos. rewrite G. cbv beta. rewrite !get_upd, L0 by lia.
      destruct (Nat.leb_spec (e + 1) pos) as [Q|Q].
      + rewrite !G0 by lia. destruct (Nat.ltb_spec pos R); [|lia]. cbn [andb]. destruct (Nat.eqb_spec (e + 1 + (pos - (e + 1))) e); [lia|]. cbn [andb].
        destruct (Nat.leb_spec (e + 1 + (pos - (e + 1))) e); [lia|]. split; [small|]. intros u Hu. bitwise. unfold T. cases.
        * rewrite (A_at _ (pos - (e + 1)) (u + (8 - q))) by lia. now rewrite Bool.xorb_false_l, Bool.xorb_false_r.
        * rewrite (A_at _ (pos - (e + 1) + 1) (u - q)) by lia. now rewrite Bool.xorb_false_l.
      + cbn [andb]. rewrite !G0 by lia. destruct (Nat.leb_spec pos e); [|lia]. destruct (Nat.leb_spec e e); [|lia]. destruct (Nat.ltb_spec e R); [|lia]. rewrite Bool.andb_true_r.
        destruct (Nat.eqb_spec pos e) as [->|Q2].
        * norm (v - e + e)%nat v. split; [small|]. intros u Hu. bitwise. unfold T. cases.
          -- rewrite (A_at _ v u) by lia. apply Bool.xorb_false_r.
          -- rewrite (A_at _ 0 (u - q)) by lia. rewrite Ma by lia. apply Bool.xorb_false_l.
        * split; [small|]. intros u Hu. unfold T. cases. symmetry. apply A_at; lia.
  Qed.
  Lemma shift_bits e d : (1 <= d < 8)%nat -> (q + (8 * e + d) < 8 * R)%nat ->
    exists t, shift_and_truncate P arr (q + (8 * e + d)) = Some t /\ good (q + (8 * e + d)) t.
  Proof.
    intros Hd Hs. unfold shift_and_truncate. destruct (Nat.eqb_spec (q + (8 * e + d)) 0); [lia|]. rewrite BIC, SOC, La.
    destruct (Nat.leb_spec (q + (8 * e + d)) q); [lia|]. norm (q + (8 * e + d) - q)%nat (8 * e + d)%nat.
    destruct (div8 (8 * e + d - 1) e (d - 1)) as [-> _]; [lia|lia|].
    destruct (div8 (8 * e + d) e d) as [_ ->]; [lia|lia|]. destruct (Nat.eqb_spec d 0); [lia|]. cbn [negb]. rewrite sub_some by lia. cbn [obind].
    norm (S v - (e + 2))%nat (v - (e + 1))%nat. norm (e + 2 - 1)%nat (e + 1)%nat. norm (e + 2 - 2)%nat e.
    edestruct (for_range_spec 0 (e + 1)) as (t0 & E0 & L0 & G0); [| |erewrite E0; cbn [obind]].
    { rewrite zeros_length. lia. }
    { intros i Hi. run. reflexivity. }
    rewrite zeros_length in L0. cbv beta in G0. clear E0.
    assert (G1 : forall k, (k < R)%nat -> get t0 k = if (k <? e + 1)%nat then
        N.lor (wshl 8 (get arr (v - (e + 1) + k)) (N.of_nat (8 - d))) (N.shiftr (get arr (v - (e + 1) + k + 1)) (N.of_nat d)) else 0).
    { intros k Hk. rewrite G0. rewrite Nat.sub_0_r, get_zeros by exact Hk. reflexivity. }
    clear G0.
    assert (tail : forall pos u, (pos < e + 1)%nat -> (u < 8)%nat -> tb (N.lor (wshl 8 (get arr (v - (e + 1) + pos)) (N.of_nat (8 - d))) (N.shiftr (get arr (v - (e + 1) + pos + 1)) (N.of_nat d))) u
      = A (8 * pos + u + (8 * v + q - (q + (8 * e + d))))).
    { intros pos u Hpos Hu. bitwise. cases.
      - rewrite (A_at _ (v - (e + 1) + pos) (u + (8 - d))) by lia. apply Bool.orb_false_r.
      - rewrite (A_at _ (v - (e + 1) + pos + 1) (u - d)) by lia. reflexivity. }
    destruct (Nat.leb_spec (8 - d) q) as [C|C].
    - rewrite sub_some by exact C. destruct (Nat.ltb_spec 0 (q - (8 - d))) as [X|X].
      + (* the last byte of the vector and its first one meet inside a byte *)
        set (x := (q - (8 - d))%nat) in *.
        erewrite modify_some; [|lia|run; reflexivity]. cbn [obind].
        erewrite modify_some; [|rewrite upd_length by lia; lia|run; reflexivity]. cbn [obind].
        edestruct for_range_spec as (t & E & L & G); [| |exists t; split; [exact E|]].
        * rewrite !upd_length by (rewrite ?upd_length; lia). lia.
        * intros i Hi. run. reflexivity.
        * rewrite !upd_length in L by (rewrite ?upd_length; lia). split; [lia|]. intros pos Hpos. rewrite G. cbv beta.
          rewrite !get_upd by (rewrite ?upd_length; lia). rewrite !upd_length, L0 by lia.
          norm (v - (e + 1) + (e + 2) - 1)%nat v. norm (q - x)%nat (8 - d)%nat.
          destruct (Nat.eqb_spec (e + 1) (e + 1)); [|lia]. destruct (Nat.ltb_spec (e + 1) R); [|lia]. cbn [andb].
          destruct (Nat.leb_spec (e + 2) pos) as [Q|Q].
          -- rewrite !G1 by lia. destruct (Nat.ltb_spec pos R); [|lia]. cbn [andb]. destruct (Nat.eqb_spec (e + 2 + (pos - (e + 2))) (e + 1)); [lia|]. cbn [andb].
             destruct (Nat.ltb_spec (e + 2 + (pos - (e + 2))) (e + 1)); [lia|]. split; [small|]. intros u Hu. bitwise. unfold T. cases.
             ++ rewrite (A_at _ (pos - (e + 2)) (u + (8 - x))) by lia. now rewrite Bool.xorb_false_l, Bool.xorb_false_r.
             ++ rewrite (A_at _ (pos - (e + 2) + 1) (u - x)) by lia. now rewrite Bool.xorb_false_l.
          -- cbn [andb]. rewrite !G1 by lia. destruct (Nat.ltb_spec (e + 1) (e + 1)); [lia|]. rewrite Bool.andb_true_r. destruct (Nat.eqb_spec pos (e + 1)) as [->|Q2].
             ++ split; [small|]. intros u Hu. bitwise. unfold T. cases.
                all: first [rewrite (A_at _ 0 (u - x)) by lia | rewrite (A_at _ v (u + (8 - d))) by lia]; rewrite ?Ma by lia;
                  rewrite ?Bool.xorb_false_l, ?Bool.xorb_false_r; reflexivity.
             ++ destruct (Nat.ltb_spec pos (e + 1)); [|lia]. split; [small|]. intros u Hu. rewrite tail by lia. unfold T. cases; reflexivity.
      + (* they meet at the boundary of bytes *)
        edestruct for_range_spec as (t & E & L & G); [| |exists t; split; [exact E|]].
        * lia.
        * intros i Hi. cbv beta. run. reflexivity.
        * split; [lia|]. intros pos Hpos. rewrite G. cbv beta. rewrite G1 by lia.
          destruct (Nat.leb_spec (e + 1) pos) as [Q|Q].
          -- destruct (Nat.ltb_spec pos R); [|lia]. cbn [andb]. split; [small|]. intros u Hu. unfold T. cases. symmetry. apply A_at; lia.
          -- cbn [andb]. destruct (Nat.ltb_spec pos (e + 1)); [|lia]. split; [small|]. intros u Hu. rewrite tail by lia. unfold T. cases; reflexivity.
    - unfold usub at 1. destruct (Nat.leb_spec (8 - d) q); [lia|]. rewrite sub_some by lia. cbn [obind]. set (x := (8 - d - q)%nat) in *.
      erewrite modify_some; [|lia|run; reflexivity]. cbn [obind].
      edestruct for_range_spec as (t & E & L & G); [| |exists t; split; [exact E|]].
      + rewrite !upd_length by lia. lia.
      + intros i Hi. run. reflexivity.
      + rewrite !upd_length in L by lia. split; [lia|]. intros pos Hpos. rewrite G. cbv beta. rewrite !get_upd, L0 by lia.
        destruct (Nat.leb_spec (e + 1) pos) as [Q|Q].
        * rewrite !G1 by lia. destruct (Nat.ltb_spec pos R); [|lia]. cbn [andb]. destruct (Nat.eqb_spec (e + 1 + (pos - (e + 1))) e); [lia|]. cbn [andb].
          destruct (Nat.ltb_spec (e + 1 + (pos - (e + 1))) (e + 1)); [lia|]. split; [small|]. intros u Hu. bitwise. unfold T. cases.
          -- rewrite (A_at _ (pos - (e + 1)) (u + x)) by lia. now rewrite Bool.xorb_false_l, Bool.xorb_false_r.
          -- rewrite (A_at _ (pos - (e + 1) + 1) (u - (8 - x))) by lia. now rewrite Bool.xorb_false_l.
        * cbn [andb]. rewrite !G1 by lia. destruct (Nat.ltb_spec pos (e + 1)); [|lia]. destruct (Nat.ltb_spec e (e + 1)); [|lia]. destruct (Nat.ltb_spec e R); [|lia]. rewrite Bool.andb_true_r.
          destruct (Nat.eqb_spec pos e) as [->|Q2].
          -- split; [small|]. intros u Hu. rewrite tb_lxor, tail by lia. bitwise. unfold T. cases.
             all: try (rewrite (A_at (8 * e + u - (q + (8 * e + d))) 0 (u - (8 - x))) by lia; rewrite (A_at _ v (u - d)) by lia; rewrite Ma by lia);
               rewrite ?Bool.xorb_false_l, ?Bool.xorb_false_r; reflexivity.
          -- split; [small|]. intros u Hu. rewrite tail by lia. unfold T. cases; reflexivity.
  Qed.
  Lemma shift_spec sh : (sh < 8 * R)%nat -> exists t, shift_and_truncate P arr sh = Some t /\ good sh t.
  Proof.
    intros Hs. destruct (Nat.eq_dec sh 0) as [->|Z]; [apply shift_0|]. destruct (Nat.le_gt_cases sh q) as [Q|Q]; [apply shift_low; lia|].
    pose proof (Nat.div_mod_eq (sh - q) 8) as D. pose proof (Nat.mod_upper_bound (sh - q) 8 ltac:(lia)) as U.
    set (e := ((sh - q) / 8)%nat) in *. set (d := ((sh - q) mod 8)%nat) in *. clearbody e d.
    destruct (Nat.eq_dec d 0) as [Z2|Z2].
    - replace sh with (q + 8 * e)%nat by lia. apply shift_bytes; lia.
    - replace sh with (q + (8 * e + d))%nat by lia. apply shift_bits; lia.
  Qed.
End Rotate.

(** ** Columns, indices, compression *)
Lemma omap_map {X Y} (f : X -> option Y) g l : (forall x, In x l -> f x = Some (g x)) -> omap f l = Some (map g l).
Proof.
  induction l as [|x l IH]; intros H; [reflexivity|]. cbn [omap map]. rewrite (H x) by now left. cbn [obind].
  rewrite IH by (intros y Hy; apply H; now right). reflexivity.
Qed.
Lemma nth_firstn {X} n (l : list X) k d : (k < n)%nat -> nth k (firstn n l) d = nth k l d.
Proof. revert n k. induction l as [|x l IH]; intros [|n] k H; try lia; [now destruct k|]. destruct k as [|k]; [reflexivity|]. cbn [firstn nth]. apply IH. lia. Qed.
Lemma nth_skipn {X} n (l : list X) k d : nth k (skipn n l) d = nth (n + k) l d.
Proof. revert n. induction l as [|x l IH]; intros [|n]; cbn [skipn Nat.add nth]; try reflexivity; [now destruct k|]. apply IH. Qed.
Lemma group_length k i (l : list bool) : (k * i + k <= length l)%nat -> length (Spec.FSB.group k i l) = k.
Proof. intros H. unfold Spec.FSB.group. rewrite firstn_length, skipn_length. lia. Qed.
Lemma num_group k i l u : (k <= 8)%nat -> (u < 8)%nat -> (k * i + k <= length l)%nat ->
  tb (Spec.FSB.num (Spec.FSB.group k i l)) u = if (8 - k <=? u)%nat then nth (k * i + (u - (8 - k))) l false else false.
Proof.
  intros Hk Hu L. unfold tb. replace (7 - N.of_nat u) with (N.of_nat (7 - u)) by lia. rewrite num_testbit, group_length by exact L.
  destruct (Nat.leb_spec (8 - k) u) as [Q|Q].
  - destruct (Nat.ltb_spec (7 - u) k); [|lia]. unfold Spec.FSB.group. rewrite nth_firstn, nth_skipn by lia. f_equal. lia.
  - destruct (Nat.ltb_spec (7 - u) k); [lia|reflexivity].
Qed.
Lemma num_group_lt k i l : (k <= 8)%nat -> (k * i + k <= length l)%nat -> Spec.FSB.num (Spec.FSB.group k i l) < 2 ^ N.of_nat k /\ Spec.FSB.num (Spec.FSB.group k i l) < 256.
Proof.
  intros Hk L. pose proof (num_lt (Spec.FSB.group k i l)) as H. rewrite group_length in H by exact L. split; [exact H|].
  eapply N.lt_le_trans; [exact H|]. change 256 with (2 ^ 8). apply N.pow_le_mono_r; [discriminate|]. lia.
Qed.
Lemma bytes_ok_get l : (forall i, (i < length l)%nat -> get l i < 256) -> bytes_ok l.
Proof.
  intros H. apply Forall_forall. intros x Hx. apply (In_nth _ _ oob) in Hx as (i & Hi & <-). now apply H.
Qed.
Lemma xor_ok a b : bytes_ok a -> bytes_ok b -> bytes_ok (xor_bytes a b).
Proof.
  intros Ha Hb. unfold xor_bytes. apply Forall_map, Forall_forall. intros [x y] I.
  apply lxor8_lt; [exact (proj1 (Forall_forall _ _) Ha x (in_combine_l _ _ _ _ I))|exact (proj1 (Forall_forall _ _) Hb y (in_combine_r _ _ _ _ I))].
Qed.
Section Compress.
  Context (PI : bytes) (P : params) (S : Spec.FSB.params) (R v q k bs : nat) (nv : N).
  Context (HR : r P = (8 * R)%nat) (Hp : p P = (8 * v + q)%nat) (Hq : (1 <= q < 8)%nat) (HRv : (1 <= R <= v)%nat).
  Context (Hw : w P = R) (Hs : s P = (8 * R + k * R)%nat) (Hk : k = 5%nat \/ k = 6%nat) (Hbs : block_size P = bs) (Hkbs : (k * R = 8 * bs)%nat).
  Context (Hn : n P = Spec.FSB.nw S * N.of_nat R) (Hnw : Spec.FSB.nw S = 2 ^ N.of_nat (8 + k)) (Hnv : Spec.FSB.nw S = 8 * nv) (HRl : (R < 1000)%nat).
  Context (Sr : Spec.FSB.r S = r P) (Sp : Spec.FSB.p S = p P) (Sw : Spec.FSB.w S = w P) (Ss : Spec.FSB.s S = s P).
  Context (HPI : (N.to_nat nv * (v + 1) <= length PI)%nat) (BPI : bytes_ok PI).

  Lemma pow_k : 2 ^ N.of_nat (8 + k) = 256 * 2 ^ N.of_nat k.
  Proof. destruct Hk as [-> | ->]; reflexivity. Qed.
  Lemma SV : SIZE_VECTORS P = (v + 1)%nat.
  Proof. unfold SIZE_VECTORS. rewrite Hp. rewrite Nat.add_comm with (n := (8 * v)%nat), Nat.mul_comm, Nat.div_add by lia. rewrite Nat.div_small by lia. lia. Qed.
  Lemma SOC' : SIZE_OUTPUT_COMPRESS P = R.
  Proof. unfold SIZE_OUTPUT_COMPRESS. rewrite HR, Nat.mul_comm. apply Nat.div_mul. discriminate. Qed.
  Lemma SMC : SIZE_MSG_CHUNKS P = bs.
  Proof.
    unfold SIZE_MSG_CHUNKS, SIZE_INPUT_COMPRESS. rewrite SOC', Hs, Hkbs. replace (8 * R + 8 * bs)%nat with ((R + bs) * 8)%nat by lia.
    rewrite Nat.div_mul by discriminate. lia.
  Qed.
  Definition raw (j : nat) : bytes := firstn (v + 1) (skipn (j * (v + 1)) PI).
  Definition mask (x : N) : N := wshl 8 (N.shiftr x (N.of_nat (8 - q))) (N.of_nat (8 - q)).
  Lemma raw_ok j : (j < N.to_nat nv)%nat -> length (raw j) = (v + 1)%nat /\ bytes_ok (raw j).
  Proof.
    intros Hj. split.
    - unfold raw. rewrite firstn_length, skipn_length. nia.
    - unfold raw. pose proof BPI as Q. rewrite <- (firstn_skipn (j * (v + 1)) PI) in Q. apply bytes_ok_app in Q as [_ Q].
      rewrite <- (firstn_skipn (v + 1) (skipn (j * (v + 1)) PI)) in Q. now apply bytes_ok_app in Q as [Q _].
  Qed.
  Lemma define_spec j : (j < N.to_nat nv)%nat -> define_iv PI P j = Some (upd (raw j) v (mask (get (raw j) v))).
  Proof.
    intros Hj. destruct (raw_ok j Hj) as [L B]. unfold define_iv. rewrite SV, slice_some by nia. cbn [obind].
    replace ((j + 1) * (v + 1) - j * (v + 1))%nat with (v + 1)%nat by lia. fold (raw j).
    assert (Hsh : SHIFT P = (8 - q)%nat) by (unfold SHIFT; rewrite Hp, Nat.add_comm, Nat.mul_comm, Nat.mod_add, Nat.mod_small by lia; reflexivity).
    rewrite Hsh. replace (v + 1 - 1)%nat with v by lia. rewrite (modify_some (raw j) v _ (mask (get (raw j) v))); [reflexivity|lia|].
    unfold shr8, shl8. destruct (Nat.ltb_spec (8 - q) 8); [|lia]. reflexivity.
  Qed.
  Lemma mask_tb x u : x < 256 -> (u < 8)%nat -> tb (mask x) u = if (u <? q)%nat then tb x u else false.
  Proof.
    intros Hx Hu. unfold mask. rewrite tb_shl by exact Hu. destruct (Nat.ltb_spec (u + (8 - q)) 8), (Nat.ltb_spec u q); [|exfalso; lia|exfalso; lia|reflexivity].
    rewrite tb_shr by (lia || exact Hx). destruct (Nat.leb_spec (8 - q) (u + (8 - q))); [|lia]. f_equal. lia.
  Qed.
  Lemma column_spec W : W < N.of_nat R * Spec.FSB.nw S -> exists vec t, define_iv PI P (N.to_nat (W / N.of_nat (r P))) = Some vec /\
    shift_and_truncate P vec (N.to_nat (W mod N.of_nat (r P))) = Some t /\ length t = R /\ bytes_ok t /\
    Spec.FSB.bits t = Spec.FSB.column PI S W.
  Proof.
    intros HW. assert (Rn : N.of_nat (r P) <> 0) by lia.
    assert (Hj : (N.to_nat (W / N.of_nat (r P)) < N.to_nat nv)%nat).
    { assert (W / N.of_nat (r P) < nv); [|lia]. apply N.div_lt_upper_bound; [exact Rn|]. rewrite HR. rewrite Hnv in HW. lia. }
    pose proof (N.mod_lt W (N.of_nat (r P)) Rn) as Hsh.
    unfold Spec.FSB.column, Spec.FSB.vector. rewrite Sr, Sp.
    assert (Esz : (p P / 8 + 1 = v + 1)%nat) by (pose proof SV as Q; unfold SIZE_VECTORS in Q; exact Q). rewrite Esz.
    set (j := N.to_nat (W / N.of_nat (r P))) in *. set (sh := N.to_nat (W mod N.of_nat (r P))) in *.
    assert (Hsh' : (sh < 8 * R)%nat) by lia. clearbody j sh. clear HW Hsh.
    destruct (raw_ok j Hj) as [Lr Br]. fold (raw j). rewrite (define_spec j Hj). set (vec := upd (raw j) v (mask (get (raw j) v))).
    assert (Gv : forall i, get vec i = if (i =? v)%nat then mask (get (raw j) v) else get (raw j) i).
    { intros i. unfold vec. rewrite get_upd, Lr by lia. destruct (Nat.ltb_spec v (v + 1)); [|lia]. now rewrite Bool.andb_true_r. }
    assert (Lv : length vec = Datatypes.S v) by (unfold vec; rewrite upd_length by lia; lia).
    assert (Bv : bytes_ok vec).
    { apply bytes_ok_get. intros i _. rewrite Gv. destruct (i =? v)%nat; [apply shl8_lt|apply (get_ok 8); [exact Br|reflexivity]]. }
    assert (Mv : forall u, (q <= u < 8)%nat -> tb (get vec v) u = false).
    { intros u Hu. rewrite Gv, Nat.eqb_refl. rewrite mask_tb by (lia || (apply (get_ok 8); [exact Br|reflexivity])). destruct (Nat.ltb_spec u q); [lia|reflexivity]. }
    destruct (shift_spec P R v q HR Hp Hq HRv vec Lv Bv Mv sh Hsh') as (t & E & Lt & G).
    exists vec, t. split; [reflexivity|]. split; [exact E|]. split; [exact Lt|]. split.
    { apply bytes_ok_get. intros i Hi. apply (G i). lia. }
    assert (Lw : length (firstn (p P) (Spec.FSB.bits (raw j))) = (8 * v + q)%nat) by (rewrite firstn_length, bits_length, Lr; lia).
    set (vs := firstn (p P) (Spec.FSB.bits (raw j))) in *.
    assert (Av : forall i, (i < 8 * v + q)%nat -> nth i vs false = A vec i).
    { intros i Hi. unfold vs. rewrite nth_firstn by lia. pose proof (Nat.div_mod_eq i 8) as D. pose proof (Nat.mod_upper_bound i 8 ltac:(lia)) as U.
      assert (J : (i / 8 < length (raw j))%nat) by (rewrite Lr; apply Nat.div_lt_upper_bound; lia).
      rewrite D at 1. rewrite bits_nth by assumption. unfold A. rewrite Gv. destruct (Nat.eqb_spec (i / 8) v) as [Q|Q]; [|reflexivity].
      rewrite mask_tb by (exact U || (apply (get_ok 8); [exact Br|reflexivity])). destruct (Nat.ltb_spec (i mod 8) q); [now rewrite Q|lia]. }
    clearbody vs vec. clear Gv. apply bits_ext.
    - unfold Spec.FSB.rotate_right. rewrite firstn_length, app_length, skipn_length, firstn_length, Lw. lia.
    - intros pos u Hpos Hu. rewrite Lt in Hpos. destruct (G pos Hpos) as [_ Gb]. rewrite Gb by exact Hu. rewrite nth_firstn by lia.
      unfold Spec.FSB.rotate_right, T. rewrite Lw. destruct (Nat.ltb_spec (8 * pos + u) sh) as [Q|Q].
      + rewrite app_nth1 by (rewrite skipn_length; lia). rewrite nth_skipn. rewrite Av by lia. f_equal. lia.
      + rewrite app_nth2 by (rewrite skipn_length; lia). rewrite skipn_length, Lw. rewrite nth_firstn by lia. rewrite Av by lia. f_equal. lia.
  Qed.

  Lemma dividing_spec msg : length msg = bs -> bytes_ok msg ->
    dividing_bits P msg ((s P - r P) / w P) = Some (map (fun i => Spec.FSB.num (Spec.FSB.group k i (Spec.FSB.bits msg))) (seq 0 R)).
  Proof.
    intros Lm Bm. assert (Ek : ((s P - r P) / w P = k)%nat).
    { rewrite Hs, HR, Hw. replace (8 * R + k * R - 8 * R)%nat with (k * R)%nat by lia. apply Nat.div_mul. lia. }
    rewrite Ek. unfold dividing_bits.
    replace (negb (k =? 5)%nat && negb (k =? 6)%nat)%bool with false by (destruct Hk as [-> | ->]; reflexivity).
    rewrite sub_some by lia. cbn [obind]. rewrite Hw.
    assert (Lb : length (Spec.FSB.bits msg) = (8 * bs)%nat) by (rewrite bits_length; lia).
    assert (Mlt : forall i, get msg i < 256) by (intros i; apply (get_ok 8); [exact Bm|reflexivity]).
    rewrite (omap_map _ (fun i => Spec.FSB.num (Spec.FSB.group k i (Spec.FSB.bits msg)))).
    - cbn [obind]. rewrite SMC. assert (0 < bs)%nat by nia. rewrite index_some by lia. cbn [obind].
      rewrite shl_some by lia. cbn [obind]. rewrite shr_some by lia. cbn [obind]. f_equal.
      replace R with (Datatypes.S (R - 1)) at 2 by lia. rewrite seq_S, map_app. cbn [map Nat.add]. f_equal. f_equal.
      apply tb_ext; [apply shr8_lt, shl8_lt|apply num_group_lt; nia|]. intros u Hu.
      rewrite tb_shr by (lia || apply shl8_lt). rewrite num_group by (nia || lia). destruct (Nat.leb_spec (8 - k) u); [|reflexivity].
      rewrite tb_shl by lia. destruct (Nat.ltb_spec (u - (8 - k) + (8 - k)) 8); [|lia].
      replace (k * (R - 1) + (u - (8 - k)))%nat with (8 * (bs - 1) + u)%nat by nia. rewrite bits_nth by lia. f_equal. lia.
    - intros i Hi. apply in_seq in Hi. pose proof (Nat.div_mod_eq (i * k) 8) as D. pose proof (Nat.mod_upper_bound (i * k) 8 ltac:(lia)) as U.
      assert (Hik : (i * k + k + k <= 8 * bs)%nat) by nia.
      set (B := (i * k / 8)%nat) in *. set (e := (i * k mod 8)%nat) in *. clearbody B e.
      assert (BB : (B < bs)%nat) by lia.
      assert (Esw : ((e + k - 1) / 8 = if (8 <? e + k) then 1 else 0)%nat).
      { destruct (Nat.ltb_spec 8 (e + k)); [|apply Nat.div_small; lia]. symmetry. apply (Nat.div_unique _ _ _ (e + k - 1 - 8)); lia. }
      rewrite Esw. destruct (Nat.ltb_spec 8 (e + k)) as [Q|Q]; cbn [Nat.eqb].
      + rewrite !index_some by lia. cbn [obind]. rewrite shl_some by lia. cbn [obind]. rewrite sub_some by lia. cbn [obind].
        rewrite shr_some by lia. cbn [obind]. rewrite shr_some by lia. f_equal.
        apply tb_ext; [apply shr8_lt, lor8_lt; [apply shl8_lt|apply shr8_lt, Mlt]|apply num_group_lt; lia|]. intros u Hu.
        rewrite tb_shr by (lia || (apply lor8_lt; [apply shl8_lt|apply shr8_lt, Mlt])). rewrite num_group by lia.
        destruct (Nat.leb_spec (8 - k) u); [|reflexivity]. rewrite tb_lor, tb_shl, tb_shr by (lia || apply Mlt).
        destruct (Nat.ltb_spec (u - (8 - k) + e) 8), (Nat.leb_spec (8 - e) (u - (8 - k))); try lia.
        * replace (k * i + (u - (8 - k)))%nat with (8 * B + (u - (8 - k) + e))%nat by lia. rewrite bits_nth by lia. apply Bool.orb_false_r.
        * replace (k * i + (u - (8 - k)))%nat with (8 * (B + 1) + (u - (8 - k) - (8 - e)))%nat by lia. rewrite bits_nth by lia. reflexivity.
      + rewrite !index_some by lia. cbn [obind]. rewrite shl_some by lia. cbn [obind]. rewrite shr_some by lia. f_equal.
        apply tb_ext; [apply shr8_lt, shl8_lt|apply num_group_lt; lia|]. intros u Hu.
        rewrite tb_shr by (lia || apply shl8_lt). rewrite num_group by lia.
        destruct (Nat.leb_spec (8 - k) u); [|reflexivity]. rewrite tb_shl by lia.
        destruct (Nat.ltb_spec (u - (8 - k) + e) 8); [|lia].
        replace (k * i + (u - (8 - k)))%nat with (8 * B + (u - (8 - k) + e))%nat by lia. rewrite bits_nth by lia. reflexivity.
  Qed.
  Lemma indices_spec h msg : length h = R -> bytes_ok h -> length msg = bs -> bytes_ok msg ->
    computing_w_indices P h msg = Some (map (Spec.FSB.index S (Spec.FSB.bits h) (Spec.FSB.bits msg)) (seq 0 R)) /\
    forall i, (i < R)%nat -> Spec.FSB.index S (Spec.FSB.bits h) (Spec.FSB.bits msg) i < N.of_nat R * Spec.FSB.nw S.
  Proof.
    intros Lh Bh Lm Bm. unfold computing_w_indices. rewrite dividing_spec by assumption. cbn [obind].
    assert (E8 : (r P / w P = 8)%nat) by (rewrite HR, Hw; apply Nat.div_mul; lia).
    assert (Ek : ((s P - r P) / w P = k)%nat).
    { rewrite Hs, HR, Hw. replace (8 * R + k * R - 8 * R)%nat with (k * R)%nat by lia. apply Nat.div_mul. lia. }
    assert (Lbm : length (Spec.FSB.bits msg) = (8 * bs)%nat) by (rewrite bits_length; lia).
    assert (Lbh : length (Spec.FSB.bits h) = (8 * R)%nat) by (rewrite bits_length; lia).
    assert (Eix : forall i, (i < R)%nat -> Spec.FSB.index S (Spec.FSB.bits h) (Spec.FSB.bits msg) i
        = N.of_nat i * Spec.FSB.nw S + get h i + Spec.FSB.num (Spec.FSB.group k i (Spec.FSB.bits msg)) * 256).
    { intros i Hi. unfold Spec.FSB.index. rewrite Sr, Sw, Ss, E8, Ek. change (2 ^ N.of_nat 8) with 256. f_equal. f_equal.
      apply tb_ext; [apply num_group_lt; lia|apply (get_ok 8); [exact Bh|reflexivity]|]. intros u Hu. rewrite num_group by lia. cbn [Nat.sub Nat.leb].
      rewrite Nat.sub_0_r. apply bits_nth; lia. }
    assert (Hi3 : forall i, (i < R)%nat -> get h i < 256 /\ Spec.FSB.num (Spec.FSB.group k i (Spec.FSB.bits msg)) < 2 ^ N.of_nat k).
    { intros i Hi. split; [apply (get_ok 8); [exact Bh|reflexivity]|]. assert (k * (i + 1) <= k * R)%nat by (apply Nat.mul_le_mono_l; clear - Hi; lia). apply num_group_lt; [clear - Hk; lia|rewrite Lbm, <- Hkbs; clear - H; lia]. }
    assert (Hlt : forall i, (i < R)%nat -> Spec.FSB.index S (Spec.FSB.bits h) (Spec.FSB.bits msg) i < N.of_nat R * Spec.FSB.nw S).
    { intros i Hi. rewrite Eix by exact Hi. destruct (Hi3 i Hi) as [H1 H2]. rewrite Hnw, pow_k.
      set (K := 2 ^ N.of_nat k) in *. clearbody K. assert (Q : (N.of_nat i + 1) * K <= N.of_nat R * K) by (apply N.mul_le_mono_r; clear - Hi; lia). clear - Q H1 H2. lia. }
    split; [|exact Hlt]. rewrite Hw. apply omap_map. intros i Hi. apply in_seq in Hi. rewrite index_some by (rewrite map_length, seq_length; lia). cbn [obind].
    rewrite index_some by lia. cbn [obind]. rewrite get_map_seq by lia.
    destruct (Hi3 i ltac:(lia)) as [H1 H2]. specialize (Hlt i ltac:(lia)). rewrite Eix in Hlt |- * by lia.
    assert (HK : 2 ^ N.of_nat k <= 64) by (destruct Hk as [-> | ->]; discriminate).
    assert (Hnw' : Spec.FSB.nw S <= 16384) by (rewrite Hnw, pow_k; lia).
    assert (En : N.of_nat i * n P / N.of_nat R = N.of_nat i * Spec.FSB.nw S).
    { rewrite Hn, N.mul_assoc. apply N.div_mul. lia. }
    rewrite En. set (m := Spec.FSB.num _) in *. clearbody m. set (nwS := Spec.FSB.nw S) in *. clearbody nwS.
    assert (Q : N.of_nat i * nwS <= 1000 * 16384) by (apply N.mul_le_mono; [clear - Hi HRl; lia|exact Hnw']).
    set (x := N.of_nat i * nwS) in *. assert (H2' : m < 64) by (clear - H2 HK; lia). clearbody x. rewrite Hw in E8. clear - Q H1 H2' E8.
    change (2 ^ 32) with 4294967296. rewrite (N.mod_small x) by lia.
    unfold cadd. rewrite fit_small by (change (2 ^ 32) with 4294967296; lia). cbn [obind]. rewrite E8. unfold wshl. rewrite N.shiftl_mul_pow2.
    change (2 ^ N.of_nat 8) with 256. change (2 ^ 32) with 4294967296. rewrite (N.mod_small (m * 256)) by lia.
    apply fit_small. change (2 ^ 32) with 4294967296. lia.
  Qed.
  Lemma compress_spec h msg : length h = R -> bytes_ok h -> length msg = bs -> bytes_ok msg ->
    exists h', compress PI P h msg = Some h' /\ length h' = R /\ bytes_ok h' /\ Spec.FSB.bits h' = Spec.FSB.compress PI S (Spec.FSB.bits h) msg.
  Proof.
    intros Lh Bh Lm Bm. unfold compress, Spec.FSB.compress. destruct (indices_spec h msg Lh Bh Lm Bm) as [-> HI]. cbn [obind].
    rewrite Sw, Sr, HR, SOC', Hw. set (ix := Spec.FSB.index S (Spec.FSB.bits h) (Spec.FSB.bits msg)) in *. clearbody ix.
    assert (HI' : forall i, In i (seq 0 R) -> ix i < N.of_nat R * Spec.FSB.nw S) by (intros i Hi; apply in_seq in Hi; apply HI; lia). clear HI.
    rewrite <- bits_zeros. assert (B0 : bytes_ok (zeros R)) by apply zeros_ok. assert (L0 : length (zeros R) = R) by apply zeros_length.
    revert HI' B0 L0. generalize (zeros R). generalize (seq 0 R) as l.
    induction l as [|i l IH]; intros acc HI B0 L0; cbn [map ofold fold_left].
    - exists acc. auto.
    - destruct (column_spec (ix i) (HI i (or_introl eq_refl))) as (vec & t & E1 & E2 & Lt & Bt & Et). rewrite <- HR, E1. cbn [obind]. rewrite E2. cbn [obind].
      rewrite <- Et, <- bits_xor by lia. rewrite HR. apply IH.
      + intros j Hj. apply HI. now right.
      + now apply xor_ok.
      + rewrite xor_bytes_length. lia.
  Qed.
  Definition step (o : option bytes) (x : bytes) : option bytes := obind o (fun h => compress PI P h x).
  Lemma ofold_step l : forall h, ofold (compress PI P) l h = fold_left step l (Some h).
  Proof.
    induction l as [|x l IH]; intros h; [reflexivity|]. cbn [ofold fold_left]. unfold step at 2. cbn [obind].
    destruct (compress PI P h x) as [h'|]; cbn [obind]; [apply IH|]. clear. induction l as [|y l IH]; [reflexivity|exact IH].
  Qed.
  Definition rel (o : option bytes) (l : list bool) : Prop := exists h, o = Some h /\ length h = R /\ bytes_ok h /\ Spec.FSB.bits h = l.
  Lemma rel_step o l x : rel o l -> length x = bs -> bytes_ok x -> rel (step o x) (Spec.FSB.compress PI S l x).
  Proof. intros (h & -> & L & B & <-) Lx Bx. exact (compress_spec h x L B Lx Bx). Qed.
  Definition Pst (st : bytes * N) : Prop := length (fst st) = R /\ bytes_ok (fst st) /\ snd st < 2 ^ 64.
  Lemma fold_ok bl : Forall (fun b => length b = bs) bl -> Forall bytes_ok bl -> forall h, length h = R -> bytes_ok h ->
    exists h', ofold (compress PI P) bl h = Some h' /\ length h' = R /\ bytes_ok h'.
  Proof.
    induction bl as [|b bl IH]; intros HL HB h Lh Bh; [exists h; auto|]. apply Forall_cons_iff in HL as [Lb HL], HB as [Bb HB].
    destruct (compress_spec h b Lh Bh Lb Bb) as (h' & E & L' & B' & _). cbn [ofold]. rewrite E. cbn [obind]. now apply IH.
  Qed.
  Lemma ofold_app {X Y} (f : Y -> X -> option Y) a b : forall h, ofold f (a ++ b) h = obind (ofold f a h) (ofold f b).
  Proof. induction a as [|x a IH]; intros h; [reflexivity|]. cbn [ofold app]. destruct (f h x); cbn [obind]; [apply IH|reflexivity]. Qed.
  Lemma core_fsb_ok : (8 < bs)%nat ->
    core_ok (fsb_core PI P) Pst (Spec.FSB.FSB PI S (out_size P)) (fun len => 8 * N.of_nat len < 2 ^ 64).
  Proof.
    intros HB. assert (ER : (r P / 8 = R)%nat) by apply SOC'.
    assert (Esr : ((Spec.FSB.s S - Spec.FSB.r S) / 8 = bs)%nat).
    { rewrite Ss, Sr, Hs, HR. replace (8 * R + k * R - 8 * R)%nat with (bs * 8)%nat by lia. apply Nat.div_mul. discriminate. }
    unfold fsb_core. rewrite Hbs, ER.
    constructor; cbn [cst c_bs c_kind c_init c_ibuf c_update c_final c_reset c_codec].
    - lia.
    - apply Nat.ltb_lt. cbn [length]. lia.
    - intros a b L W. lia.
    - split; [apply zeros_length|]. split; [apply zeros_ok|reflexivity].
    - intros m st bl st' (L & B & C) HL HBb E. unfold fsb_update in E. destruct (cadd m 64 (snd st) (N.of_nat (length bl))) as [c|] eqn:Ec; [|discriminate].
      cbn [obind] in E. destruct (fold_ok bl HL HBb (fst st) L B) as (h' & E' & L' & B'). rewrite E' in E. cbn [obind] in E. injection E as <-.
      split; [exact L'|]. split; [exact B'|]. exact (fit_some _ _ _ _ Ec).
    - intros m [h c] (L & B & C). unfold fsb_update. cbn [fst snd length ofold] in *. change (N.of_nat 0) with 0. rewrite cadd_0 by exact C. reflexivity.
    - intros m st a b _. unfold fsb_update. rewrite app_length, Nat2N.inj_add, <- cadd_assoc, ofold_app.
      destruct (cadd m 64 (snd st) (N.of_nat (length a))) as [c|]; [|reflexivity]. cbn [obind].
      destruct (ofold (compress PI P) a (fst st)) as [h|]; cbn [obind fst snd]; [reflexivity|].
      destruct (cadd m 64 c (N.of_nat (length b))); reflexivity.
    - intros m msg W B. cbn [app]. rewrite kblocks_eager, krem_eager by lia.
      destruct (fold_ok (chunks bs msg)) with (h := zeros R) as (h1 & E1 & L1 & B1);
        [apply chunks_block_length; lia|apply chunks_ok; [lia|exact B]|apply zeros_length|apply zeros_ok|].
      unfold fsb_update. cbn [fst snd].
      assert (Hc : N.of_nat (length (chunks bs msg)) = N.of_nat (length msg / bs)) by now rewrite chunks_length by lia.
      assert (Hlt : N.of_nat (length msg / bs) < 2 ^ 64) by (apply (count_lt 64 8); [reflexivity|exact W]).
      unfold cadd at 1. rewrite N.add_0_l, Hc, fit_small by exact Hlt. cbn [obind]. rewrite E1. cbn [obind].
      exists (h1, N.of_nat (length msg / bs)), (h1, N.of_nat (length msg / bs)). split; [reflexivity|]. split; [|reflexivity]. unfold fsb_finalize. cbn [fst snd].
      rewrite remainder_length by lia. rewrite Hbs.
      pose proof (len_split bs (length msg) ltac:(lia)) as Sp'. unfold cmul, cadd.
      rewrite (fit_small m 64 (_ * _)) by lia. cbn [obind]. rewrite fit_small by lia. cbn [obind].
      replace (N.of_nat (length msg / bs) * N.of_nat bs + N.of_nat (length msg mod bs)) with (N.of_nat (length msg)) by lia.
      rewrite fit_small by exact W. cbn [obind]. unfold len64_padding_be.
      pose proof (md_sim rel step (Spec.FSB.compress PI S) bs (Some (zeros R)) (repeat false (8 * R)) 0x80 (be_bytes 8 (8 * N.of_nat (length msg))) msg) as Sm.
      destruct Sm as (hf & Ef & Lf & Bf & Eb).
      + lia.
      + rewrite be_bytes_length. exact HB.
      + reflexivity.
      + apply be_bytes_ok.
      + exact B.
      + exact rel_step.
      + exists (zeros R). split; [reflexivity|]. split; [apply zeros_length|]. split; [apply zeros_ok|apply bits_zeros].
      + rewrite <- (ofold_step (chunks bs msg)), E1, <- ofold_step in Ef. rewrite Ef. cbn [obind].
        rewrite Proof.Whirlpool.Whirlpool_digest.
        * cbn [obind]. apply f_equal, f_equal2; [|reflexivity].
          cbn [concat]. rewrite app_nil_r. unfold Spec.FSB.FSB, blen. rewrite Esr, Sr, HR, <- Eb. now rewrite pack_bits.
        * constructor; [exact Bf|constructor].
        * constructor; [|constructor]. unfold slice_below. rewrite Lf. apply N.lt_trans with 1000; [lia|reflexivity].
        * cbn [concat]. rewrite app_nil_r, Lf. apply N.lt_trans with 8000; [lia|reflexivity].
    - intros st _. reflexivity.
    - constructor.
    - intros cd [h c] [= <-] (L & B & C). cbn [fst snd] in L, C. cbn [fsb_codec cd_len cd_ser cd_deser fst snd]. rewrite ER. split.
      + rewrite app_length, le_bytes_length. lia.
      + rewrite firstn_app_exact, skipn_app_exact by exact L. rewrite le_val_bytes. change (256 ^ N.of_nat 8) with (2 ^ 64). now rewrite N.mod_small.
  Qed.
End Compress.

Lemma Fsb160_ok PI : N.of_nat (length PI) = 272384 -> bytes_ok PI ->
  core_ok (Fsb160 PI) (Pst 80) (Spec.FSB.FSB PI Spec.FSB.FSB160 20) (fun len => 8 * N.of_nat len < 2 ^ 64).
Proof.
  intros L B. apply (core_fsb_ok PI P160 Spec.FSB.FSB160 80 81 5 6 60 2048); try reflexivity; try lia; try exact B.
Qed.
Lemma Fsb224_ok PI : N.of_nat (length PI) = 272384 -> bytes_ok PI ->
  core_ok (Fsb224 PI) (Pst 112) (Spec.FSB.FSB PI Spec.FSB.FSB224 28) (fun len => 8 * N.of_nat len < 2 ^ 64).
Proof.
  intros L B. apply (core_fsb_ok PI P224 Spec.FSB.FSB224 112 113 3 6 84 2048); try reflexivity; try lia; try exact B.
Qed.
Lemma Fsb256_ok PI : N.of_nat (length PI) = 272384 -> bytes_ok PI ->
  core_ok (Fsb256 PI) (Pst 128) (Spec.FSB.FSB PI Spec.FSB.FSB256 32) (fun len => 8 * N.of_nat len < 2 ^ 64).
Proof.
  intros L B. apply (core_fsb_ok PI P256 Spec.FSB.FSB256 128 132 5 6 96 2048); try reflexivity; try lia; try exact B.
Qed.
Lemma Fsb384_ok PI : N.of_nat (length PI) = 272384 -> bytes_ok PI ->
  core_ok (Fsb384 PI) (Pst 184) (Spec.FSB.FSB PI Spec.FSB.FSB384 48) (fun len => 8 * N.of_nat len < 2 ^ 64).
Proof.
  intros L B. apply (core_fsb_ok PI P384 Spec.FSB.FSB384 184 185 3 5 115 1024); try reflexivity; try lia; try exact B.
Qed.
Lemma Fsb512_ok PI : N.of_nat (length PI) = 272384 -> bytes_ok PI ->
  core_ok (Fsb512 PI) (Pst 248) (Spec.FSB.FSB PI Spec.FSB.FSB512 64) (fun len => 8 * N.of_nat len < 2 ^ 64).
Proof.
  intros L B. apply (core_fsb_ok PI P512 Spec.FSB.FSB512 248 248 3 5 155 1024); try reflexivity; try lia; try exact B.
Qed.
Lemma Fsb_digest PI m cs : N.of_nat (length PI) = 272384 -> bytes_ok PI -> Forall bytes_ok cs -> 8 * N.of_nat (length (concat cs)) < 2 ^ 64 ->
  h_digest (Fsb160 PI) m cs = Some (Spec.FSB.FSB PI Spec.FSB.FSB160 20 (concat cs)) /\
  h_digest (Fsb224 PI) m cs = Some (Spec.FSB.FSB PI Spec.FSB.FSB224 28 (concat cs)) /\
  h_digest (Fsb256 PI) m cs = Some (Spec.FSB.FSB PI Spec.FSB.FSB256 32 (concat cs)) /\
  h_digest (Fsb384 PI) m cs = Some (Spec.FSB.FSB PI Spec.FSB.FSB384 48 (concat cs)) /\
  h_digest (Fsb512 PI) m cs = Some (Spec.FSB.FSB PI Spec.FSB.FSB512 64 (concat cs)).
Proof.
  intros L BP B W.
  refine (conj _ (conj _ (conj _ (conj _ _)))).
  - exact (digest_spec _ _ _ _ (Fsb160_ok PI L BP) m cs B W).
  - exact (digest_spec _ _ _ _ (Fsb224_ok PI L BP) m cs B W).
  - exact (digest_spec _ _ _ _ (Fsb256_ok PI L BP) m cs B W).
  - exact (digest_spec _ _ _ _ (Fsb384_ok PI L BP) m cs B W).
  - exact (digest_spec _ _ _ _ (Fsb512_ok PI L BP) m cs B W).
Qed.
(** The two families of compression functions *)
Lemma compress_160 PI h b : N.of_nat (length PI) = 272384 -> bytes_ok PI -> length h = 80%nat -> bytes_ok h -> length b = 60%nat -> bytes_ok b ->
  exists h', compress PI P160 h b = Some h' /\ length h' = 80%nat /\ bytes_ok h' /\ Spec.FSB.bits h' = Spec.FSB.compress PI Spec.FSB.FSB160 (Spec.FSB.bits h) b.
Proof.
  intros L BP. apply (compress_spec PI P160 Spec.FSB.FSB160 80 81 5 6 60 2048); try reflexivity; try lia; try exact BP.
Qed.
Lemma compress_384 PI h b : N.of_nat (length PI) = 272384 -> bytes_ok PI -> length h = 184%nat -> bytes_ok h -> length b = 115%nat -> bytes_ok b ->
  exists h', compress PI P384 h b = Some h' /\ length h' = 184%nat /\ bytes_ok h' /\ Spec.FSB.bits h' = Spec.FSB.compress PI Spec.FSB.FSB384 (Spec.FSB.bits h) b.
Proof.
  intros L BP. apply (compress_spec PI P384 Spec.FSB.FSB384 184 185 3 5 115 1024); try reflexivity; try lia; try exact BP.
Qed.
Lemma shift_bits_spec P R v q : r P = (8 * R)%nat -> p P = (8 * v + q)%nat -> (1 <= q < 8)%nat -> (1 <= R <= v)%nat ->
  forall arr, length arr = S v -> bytes_ok arr -> (forall u, (q <= u < 8)%nat -> N.testbit (get arr v) (7 - N.of_nat u) = false) ->
  forall sh, (sh < 8 * R)%nat -> exists t, shift_and_truncate P arr sh = Some t /\ length t = R /\
    forall pos, (pos < R)%nat -> get t pos < 256 /\ forall u, (u < 8)%nat ->
      N.testbit (get t pos) (7 - N.of_nat u)
      = let k := (if 8 * pos + u <? sh then 8 * pos + u + (8 * v + q - sh) else 8 * pos + u - sh)%nat in
        N.testbit (get arr (k / 8)) (7 - N.of_nat (k mod 8)).
Proof.
  intros HR Hp Hq HRv arr L B M sh Hs. destruct (shift_spec P R v q HR Hp Hq HRv arr L B M sh Hs) as (t & E & Lt & G).
  exists t. split; [exact E|]. split; [exact Lt|]. intros pos Hpos. destruct (G pos Hpos) as [G1 G2]. split; [exact G1|].
  intros u Hu. specialize (G2 u Hu). unfold tb, T, A in G2. rewrite G2. cbv zeta. now destruct (8 * pos + u <? sh)%nat.
Qed.
