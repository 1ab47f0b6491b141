(** Further padding rules are injective: sponges, MD2, JH, Ascon. *)
From Verif Require Import Base.Words Base.Bytes Base.Digest Base.DigestFacts Spec.MD Spec.Collision Proof.Encodings Proof.Collision.
From Verif Require Spec.Keccak Spec.MD2 Spec.JH Spec.Ascon.
From Verif Require Proof.Sha3.
Import Spec.Keccak (turbo_pad).
Import Proof.Sha3 (tail_pad, npad, npad_spec, turbo_pad_tail, tail_pad_length).

Lemma zeros_tail_inj2 (x y : N) a b i j : x <> 0 -> y <> 0 -> a ++ [x] ++ zeros i = b ++ [y] ++ zeros j -> a = b /\ x = y.
Proof.
  intros Hx Hy. revert j. induction i as [|i IH]; intros j E.
  - destruct j as [|j]; [now apply app_inj_tail in E|].
    exfalso. change (zeros 0) with (@nil N) in E. replace (zeros (S j)) with (zeros j ++ [0]) in E
      by (unfold zeros; now rewrite <- repeat_cons).
    rewrite !app_assoc, app_nil_r in E. apply app_inj_tail in E as [_ E]. congruence.
  - replace (zeros (S i)) with (zeros i ++ [0]) in E by (unfold zeros; now rewrite <- repeat_cons).
    destruct j as [|j].
    + exfalso. change (zeros 0) with (@nil N) in E. rewrite !app_assoc, app_nil_r in E. apply app_inj_tail in E as [_ E]. congruence.
    + replace (zeros (S j)) with (zeros j ++ [0]) in E by (unfold zeros; now rewrite <- repeat_cons).
      rewrite !app_assoc in E. apply app_inj_tail in E as [E _]. rewrite <- !app_assoc in E. now apply (IH j).
Qed.
(** The padded string, its last byte with bit 7 flipped back. *)
Lemma tail_split D z : D < 128 -> exists u x, tail_pad D z = u ++ [x] /\ u ++ [N.lxor x 0x80] = [D] ++ zeros z.
Proof.
  intros HD. destruct z as [|z].
  - exists [], (N.lxor D 0x80). split; [reflexivity|]. cbn [app zeros repeat]. now rewrite N.lxor_assoc, N.lxor_nilpotent, N.lxor_0_r.
  - exists (D :: zeros z), 0x80. split; [reflexivity|]. cbn [app]. rewrite Proof.Sha3.zeros_snoc. reflexivity.
Qed.
Lemma turbo_pad_inj r D D' M M' : 0 < D < 128 -> 0 < D' < 128 ->
  turbo_pad r D M = turbo_pad r D' M' -> M = M' /\ D = D'.
Proof.
  intros HD HD'. rewrite !turbo_pad_tail.
  destruct (tail_split D (npad r (length M))) as (u & x & -> & Q); [lia|].
  destruct (tail_split D' (npad r (length M'))) as (u' & x' & -> & Q'); [lia|].
  rewrite !app_assoc. intros E. apply app_inj_tail in E as [E X]. rewrite X in Q.
  apply (f_equal (fun l => l ++ [N.lxor x' 0x80])) in E. rewrite <- !app_assoc, Q, Q' in E.
  apply zeros_tail_inj2 in E; [exact E|lia|lia].
Qed.
Lemma turbo_pad_whole r D M : (0 < r)%nat -> exists k, length (turbo_pad r D M) = (r * k)%nat.
Proof.
  intros R. rewrite turbo_pad_tail, app_length, tail_pad_length. destruct (npad_spec r (length M) R) as [_ E].
  apply Nat.mod_divides in E as [k E]; [|lia]. exists k. lia.
Qed.
Lemma turbo_blocks_inj r D D' M M' : (0 < r)%nat -> 0 < D < 128 -> 0 < D' < 128 ->
  chunks r (turbo_pad r D M) = chunks r (turbo_pad r D' M') -> M = M' /\ D = D'.
Proof.
  intros R HD HD' E. apply (f_equal (@concat N)) in E.
  destruct (turbo_pad_whole r D M R) as [k K], (turbo_pad_whole r D' M' R) as [k' K'].
  rewrite (chunks_whole r k), (chunks_whole r k') in E by assumption. now apply turbo_pad_inj in E.
Qed.

Lemma differ bs pad : (0 < bs)%nat -> (forall msg, exists k, length (pad msg) = (bs * k)%nat) ->
  (forall msg msg', pad msg = pad msg' -> msg = msg') -> blocks_differ bs pad.
Proof.
  intros H L I msg. destruct (L msg) as [k K]. split; [now apply (chunks_whole bs k)|].
  intros msg' D E. apply D, I. destruct (L msg') as [k' K']. apply (f_equal (@concat N)) in E.
  now rewrite (chunks_whole bs k), (chunks_whole bs k') in E by assumption.
Qed.
Lemma differ_turbo r D : (0 < r)%nat -> 0 < D < 128 -> blocks_differ r (turbo_pad r D).
Proof.
  intros R HD. apply differ; [exact R|intros; now apply turbo_pad_whole|].
  intros msg msg' E. now apply turbo_pad_inj in E.
Qed.
Lemma differ_md bs delim (enc : bytes -> bytes) k : (0 < bs)%nat -> delim <> 0 -> (forall msg, length (enc msg) = k) ->
  blocks_differ bs (fun msg => md_pad bs delim (enc msg) msg).
Proof.
  intros H Hd L. apply differ; [exact H| |].
  - intros msg. destruct (md_pad_length bs delim (enc msg) msg H) as (j & J & _). now exists (S j).
  - intros msg msg' E. now apply md_pad_inj in E; [|exact Hd|now rewrite !L].
Qed.
Lemma differ_md2 : blocks_differ 16 Spec.MD2.pad.
Proof.
  apply differ; [lia| |].
  - intros msg. unfold Spec.MD2.pad. cbv zeta. rewrite app_length, repeat_length. exists (length msg / 16 + 1)%nat.
    pose proof (Nat.div_mod (length msg) 16 ltac:(lia)). pose proof (Nat.mod_upper_bound (length msg) 16 ltac:(lia)). lia.
  - assert (P : forall msg, exists i l, (0 < i)%nat /\ Spec.MD2.pad msg = msg ++ l ++ [N.of_nat i] /\ length l = (i - 1)%nat).
    { intros msg. unfold Spec.MD2.pad. cbv zeta. pose proof (Nat.mod_upper_bound (length msg) 16 ltac:(lia)).
      set (i := (16 - length msg mod 16)%nat). exists i, (repeat (N.of_nat i) (i - 1)). split; [lia|]. split; [|apply repeat_length].
      f_equal. replace i with (i - 1 + 1)%nat at 2 by lia. now rewrite repeat_app. }
    intros msg msg' E. destruct (P msg) as (i & l & I & Q & L), (P msg') as (i' & l' & I' & Q' & L'). rewrite Q, Q' in E.
    rewrite !app_assoc in E. apply app_inj_tail in E as [E J]. apply app_inv_tail_len in E; [now destruct E|lia].
Qed.
Lemma differ_jh : blocks_differ 64 Spec.JH.pad.
Proof.
  apply differ; [lia| |].
  - intros msg. unfold Spec.JH.pad. rewrite !app_length, zeros_length, be_bytes_length. cbn [length].
    pose proof (Nat.div_mod (length msg) 64 ltac:(lia)). pose proof (Nat.mod_upper_bound (length msg) 64 ltac:(lia)).
    destruct (Nat.eq_dec (length msg mod 64) 0) as [Z|Z].
    + rewrite Z. change ((64 - 0) mod 64)%nat with 0%nat. exists (length msg / 64 + 1)%nat. lia.
    + rewrite (Nat.mod_small (64 - _)) by lia. exists (length msg / 64 + 2)%nat. lia.
  - intros msg msg' E. unfold Spec.JH.pad in E. rewrite !app_assoc in E. apply app_inv_tail_len in E as [E _]; [|now rewrite !be_bytes_length].
    rewrite <- !app_assoc in E. now apply zeros_tail_inj in E.
Qed.
Lemma differ_ascon : blocks_differ 8 Spec.Ascon.pad.
Proof.
  apply differ; [lia| |].
  - intros msg. unfold Spec.Ascon.pad. rewrite !app_length, zeros_length. cbn [length]. exists (length msg / 8 + 1)%nat.
    pose proof (Nat.div_mod (length msg) 8 ltac:(lia)). pose proof (Nat.mod_upper_bound (length msg) 8 ltac:(lia)). lia.
  - intros msg msg' E. unfold Spec.Ascon.pad in E. now apply zeros_tail_inj in E.
Qed.
