(** C34: the fsb crate computes FSB (Spec/FSB.v, on strings of bits) on every message shorter than
    2^64 bits, cut into any pieces, for any content of the table pi.bin; no array access, shift or
    subtraction of the compression function can panic. *)
From Verif Require Import Base.Words Base.Bytes Base.Digest Model.Fsb Proof.Fsb.
From Verif Require Spec.FSB.

(** Selecting, rotating and truncating a vector: any rotation by less than [r] bits of any vector of
    [p] = 8 v + q bits in S v bytes *)
Theorem C34_rotate : forall P R v q, r P = (8 * R)%nat -> p P = (8 * v + q)%nat -> (1 <= q < 8)%nat -> (1 <= R <= v)%nat ->
  forall arr, length arr = S v -> bytes_ok arr -> (forall u, (q <= u < 8)%nat -> N.testbit (get arr v) (7 - N.of_nat u) = false) ->
  forall sh, (sh < 8 * R)%nat -> exists t, shift_and_truncate P arr sh = Some t /\ length t = R /\
    forall pos, (pos < R)%nat -> get t pos < 256 /\ forall u, (u < 8)%nat ->
      N.testbit (get t pos) (7 - N.of_nat u)
      = let k := (if 8 * pos + u <? sh then 8 * pos + u + (8 * v + q - sh) else 8 * pos + u - sh)%nat in
        N.testbit (get arr (k / 8)) (7 - N.of_nat (k mod 8)).
Proof. exact shift_bits_spec. Qed.
Print Assumptions C34_rotate.

Theorem C34_compress_160 : forall PI h b, N.of_nat (length PI) = 272384 -> bytes_ok PI -> length h = 80%nat -> bytes_ok h -> length b = 60%nat -> bytes_ok b ->
  exists h', compress PI P160 h b = Some h' /\ length h' = 80%nat /\ bytes_ok h' /\ Spec.FSB.bits h' = Spec.FSB.compress PI Spec.FSB.FSB160 (Spec.FSB.bits h) b.
Proof. exact compress_160. Qed.
Print Assumptions C34_compress_160.
Theorem C34_compress_384 : forall PI h b, N.of_nat (length PI) = 272384 -> bytes_ok PI -> length h = 184%nat -> bytes_ok h -> length b = 115%nat -> bytes_ok b ->
  exists h', compress PI P384 h b = Some h' /\ length h' = 184%nat /\ bytes_ok h' /\ Spec.FSB.bits h' = Spec.FSB.compress PI Spec.FSB.FSB384 (Spec.FSB.bits h) b.
Proof. exact compress_384. Qed.
Print Assumptions C34_compress_384.

Theorem C34_fsb : forall PI m cs, N.of_nat (length PI) = 272384 -> bytes_ok PI -> Forall bytes_ok cs -> 8 * N.of_nat (length (concat cs)) < 2 ^ 64 ->
  h_digest (Fsb160 PI) m cs = Some (Spec.FSB.FSB PI Spec.FSB.FSB160 20 (concat cs)) /\
  h_digest (Fsb224 PI) m cs = Some (Spec.FSB.FSB PI Spec.FSB.FSB224 28 (concat cs)) /\
  h_digest (Fsb256 PI) m cs = Some (Spec.FSB.FSB PI Spec.FSB.FSB256 32 (concat cs)) /\
  h_digest (Fsb384 PI) m cs = Some (Spec.FSB.FSB PI Spec.FSB.FSB384 48 (concat cs)) /\
  h_digest (Fsb512 PI) m cs = Some (Spec.FSB.FSB PI Spec.FSB.FSB512 64 (concat cs)).
Proof. exact Fsb_digest. Qed.
Print Assumptions C34_fsb.

(** Non-vacuity: a table of the size of pi.bin, states and blocks, and a rotation whose result is
    computed (by 9 bits of a vector of 19 bits, keeping 16). *)
Example C34_hyps : let PI := repeat 0xA5 (N.to_nat 272384) in N.of_nat (length PI) = 272384 /\ bytes_ok PI.
Proof.
  cbv zeta. rewrite repeat_length, N2Nat.id. split; [reflexivity|].
  apply Forall_forall. intros x H. apply repeat_spec in H. now subst.
Qed.
Example C34_hyps_compress : length (repeat 7 80) = 80%nat /\ bytes_ok (repeat 7 80) /\ length (repeat 200 60) = 60%nat /\ bytes_ok (repeat 200 60).
Proof. repeat split; repeat constructor. Qed.
Example C34_hyps_message : Forall bytes_ok [[104; 101]; []; [108; 108; 111]] /\ 8 * N.of_nat (length (concat [[104; 101]; []; [108; 108; 111]])) < 2 ^ 64.
Proof. split; [repeat constructor|reflexivity]. Qed.
Example C34_rotate_case : shift_and_truncate (mkParams 0 0 16 19 0 0 0) [0x12; 0x34; 0xA0] 9 = Some [0xD2; 0x89].
Proof. vm_compute. reflexivity. Qed.
