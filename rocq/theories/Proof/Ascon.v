(** The ascon-hash crate computes Ascon-Hash256 and Ascon-XOF128. *)
From Verif Require Import Base.Words Base.Bytes Base.ByteFacts Base.BlockBuffer Base.BlockBufferFacts Base.Digest Base.DigestFacts Base.MDFacts Base.Xof Base.XofFacts.
From Verif Require Import Model.Ascon.
From Verif Require Spec.Ascon.

Lemma iv_hash : Spec.Ascon.p12 (0x0000080100cc0002, 0, 0, 0, 0) = Parameters.
Proof. vm_compute. reflexivity. Qed.
Lemma iv_xof : Spec.Ascon.p12 (0x0000080000cc0003, 0, 0, 0, 0) = ParametersXof.
Proof. vm_compute. reflexivity. Qed.
#[local] Opaque Spec.Ascon.p12.
Lemma absorb_eq s b : absorb_block s b = Spec.Ascon.absorb s b.
Proof. destruct s as [[[[x0 x1] x2] x3] x4]. reflexivity. Qed.
Lemma fold_absorb l : forall s, fold_left absorb_block l s = fold_left Spec.Ascon.absorb l s.
Proof. induction l as [|b l IH]; intros s; [reflexivity|]. cbn [fold_left]. now rewrite absorb_eq, IH. Qed.

(** The last block *)
Lemma le_val_app a b : le_val (a ++ b) = le_val a + 2 ^ (8 * N.of_nat (length a)) * le_val b.
Proof.
  induction a as [|x a IH]; [cbn [app le_val length]; change (8 * N.of_nat 0) with 0; cbn [N.pow]; lia|].
  cbn [app le_val length]. rewrite IH. replace (8 * N.of_nat (S (length a))) with (8 + 8 * N.of_nat (length a)) by lia.
  rewrite N.pow_add_r. change (2 ^ 8) with 256. lia.
Qed.
Lemma le_val_zeros n : le_val (zeros n) = 0.
Proof. induction n as [|n IH]; [reflexivity|]. change (le_val (zeros (S n))) with (0 + 256 * le_val (zeros n)). rewrite IH. reflexivity. Qed.
Lemma pad_val b : (length b < 8)%nat -> bytes_ok b -> N.lxor (le_val b) (pad (length b)) = le_val (b ++ [1] ++ zeros (7 - length b)).
Proof.
  intros H B. rewrite le_val_app. cbn [app le_val]. rewrite le_val_zeros.
  pose proof (le_val_lt b B) as Hb. rewrite pow256 in Hb. unfold pad, wshl.
  rewrite N.shiftl_1_l. rewrite N.mod_small by (apply N.pow_lt_mono_r; [reflexivity|lia]).
  replace (2 ^ (8 * N.of_nat (length b)) * (1 + 256 * 0)) with (2 ^ (8 * N.of_nat (length b))) by lia.
  symmetry. apply N.add_nocarry_lxor.
  apply N.bits_inj. intros i. rewrite N.land_spec, N.bits_0, N.pow2_bits_eqb.
  destruct (N.eqb_spec (8 * N.of_nat (length b)) i) as [<-|Q]; [|apply Bool.andb_false_r].
  now rewrite (proj1 (lt_pow2_bits _ _) Hb) by lia.
Qed.
Lemma last_spec s b : (length b < 8)%nat -> bytes_ok b ->
  absorb_last_block s b = Some (Spec.Ascon.absorb s (b ++ [1] ++ zeros (7 - length b))).
Proof.
  intros H B. unfold absorb_last_block. rewrite (proj2 (Nat.ltb_lt _ _) H). apply f_equal.
  destruct s as [[[[x0 x1] x2] x3] x4]. rewrite <- absorb_eq. unfold absorb_block. apply f_equal. cbn [xor0].
  destruct (Nat.ltb_spec 0 (length b)) as [Q|Q]; unfold xor0; rewrite <- pad_val by assumption.
  - rewrite le_val_app, le_val_zeros, N.mul_0_r, N.add_0_r, N.lxor_assoc. reflexivity.
  - destruct b; [|cbn [length] in Q; lia]. reflexivity.
Qed.
Lemma chunks_pad M : chunks 8 (Spec.Ascon.pad M) = chunks 8 M ++ [remainder 8 M ++ [1] ++ zeros (7 - length (remainder 8 M))].
Proof.
  unfold Spec.Ascon.pad. rewrite chunks_tail by lia. apply f_equal. rewrite remainder_length by lia.
  apply chunks_one; [lia|]. pose proof (Nat.mod_upper_bound (length M) 8 ltac:(lia)). rewrite app_length. cbn [app length].
  rewrite zeros_length, remainder_length by lia. lia.
Qed.
Lemma final_spec iv M : bytes_ok M ->
  absorb_last_block (fold_left absorb_block (chunks 8 M) iv) (remainder 8 M)
  = Some (fold_left Spec.Ascon.absorb (chunks 8 (Spec.Ascon.pad M)) iv).
Proof.
  intros B. rewrite last_spec.
  - rewrite chunks_pad, fold_left_app, fold_absorb. reflexivity.
  - rewrite remainder_length by lia. apply Nat.mod_upper_bound. lia.
  - now apply remainder_ok.
Qed.
(** Output *)
Lemma gen_squeeze n : forall s, fst (gen_blocks squeeze_block n s) = Spec.Ascon.squeeze n s.
Proof.
  induction n as [|n IH]; intros s; [reflexivity|]. cbn [gen_blocks Spec.Ascon.squeeze]. unfold squeeze_block at 1.
  specialize (IH (permute_12 s)). destruct (gen_blocks squeeze_block n (permute_12 s)) as [o s']. cbn [fst] in *. rewrite IH.
  destruct s as [[[[x0 x1] x2] x3] x4]. reflexivity.
Qed.
Lemma squeeze_length n : forall s, length (Spec.Ascon.squeeze n s) = (8 * n)%nat.
Proof.
  induction n as [|n IH]; intros s; [reflexivity|]. cbn [Spec.Ascon.squeeze]. destruct s as [[[[x0 x1] x2] x3] x4].
  rewrite app_length, le_bytes_length, IH. lia.
Qed.
Lemma squeeze_split k : forall n s, firstn (8 * k) (Spec.Ascon.squeeze (k + n) s) = Spec.Ascon.squeeze k s.
Proof.
  induction k as [|k IH]; intros n s; [reflexivity|]. cbn [Nat.add Spec.Ascon.squeeze]. destruct s as [[[[x0 x1] x2] x3] x4].
  replace (8 * S k)%nat with (length (le_bytes 8 x0) + 8 * k)%nat by (rewrite le_bytes_length; lia). rewrite firstn_app_2. apply f_equal, IH.
Qed.
Lemma squeeze_32 s : exists s', squeeze 32 s = Some (firstn 32 (Spec.Ascon.squeeze 32 s), s').
Proof.
  pose proof (squeeze_split 4 28 s) as E. cbn [Nat.mul Nat.add] in E. rewrite E. clear E.
  unfold squeeze. cbn [Nat.modulo Nat.divmod Nat.eqb Nat.ltb Nat.leb andb snd Nat.sub].
  cbn [squeeze_loop Nat.ltb Nat.leb Nat.sub Spec.Ascon.squeeze]. unfold permute_12.
  eexists. apply f_equal, f_equal2; [|reflexivity].
  destruct s as [[[[x0 x1] x2] x3] x4]. apply (f_equal (app _)). unfold word0.
  destruct (Spec.Ascon.p12 (x0, x1, x2, x3, x4)) as [[[[y0 y1] y2] y3] y4]. apply (f_equal (app _)).
  destruct (Spec.Ascon.p12 (y0, y1, y2, y3, y4)) as [[[[z0 z1] z2] z3] z4]. apply (f_equal (app _)).
  destruct (Spec.Ascon.p12 (z0, z1, z2, z3, z4)) as [[[[w0 w1] w2] w3] w4]. now rewrite app_nil_r.
Qed.

Definition within (_ : nat) : Prop := True.
Lemma AsconHash256_ok : core_ok AsconHash256 (fun _ => True) Spec.Ascon.Hash256 within.
Proof.
  apply (fold_core_ok 8 absorb_block Parameters (fun _ => True)); try (unfold within; now auto); try lia.
  - intros m msg _ B. rewrite final_spec by exact B. cbn [obind].
    destruct (squeeze_32 (fold_left Spec.Ascon.absorb (chunks 8 (Spec.Ascon.pad msg)) Parameters)) as [s' E]. exists s'. split; [|reflexivity].
    rewrite E. unfold Spec.Ascon.Hash256, Spec.Ascon.sponge. now rewrite iv_hash.
Qed.
Lemma AsconXof128_ok ns : core_ok (xof_core AsconXof128 ns) (fun _ => True) (fun M => Spec.Ascon.XOF128 M (total ns)) within.
Proof.
  apply (fold_core_ok 8 absorb_block ParametersXof (fun _ => True)); try (unfold within; now auto); try lia.
  - intros m msg _ B. cbn [x_final AsconXof128 x_read x_rbs]. rewrite final_spec by exact B. cbn [obind]. eexists. split; [|reflexivity].
    apply f_equal, f_equal2; [|reflexivity]. rewrite (reads_stream squeeze_block 8 ltac:(lia) (fun _ => True)); [|intros; apply le_bytes_length|auto|exact I].
    unfold stream, Spec.Ascon.XOF128, Spec.Ascon.sponge. rewrite iv_xof, gen_squeeze. reflexivity.
Qed.
