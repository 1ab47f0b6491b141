(** C50: the MD5 back ends.  A value of [md5_target] is a target of the crate with
    everything its back end can see besides its arguments (Model/Backends.v);
    [sees5] is what the machine guarantees about it. *)
From Verif Require Import Base.Words Base.Bytes Model.Backends.
From Verif Require Spec.MD5 Proof.Backends.

Theorem C50_all_agree : forall t u st blocks, length st = 4%nat -> words_ok 32 st ->
  sees5 t -> sees5 u -> compress5 t st blocks = compress5 u st blocks.
Proof. exact Proof.Backends.agree5. Qed.
Print Assumptions C50_all_agree.
(** What they compute is the block processing of RFC 1321. *)
Theorem C50_rfc : forall t a b c d blocks, words_ok 32 [a; b; c; d] -> sees5 t ->
  compress5 t [a; b; c; d] blocks =
  let '(a', b', c', d') := fold_left Spec.MD5.compress blocks (a, b, c, d) in [a'; b'; c'; d'].
Proof. exact (fun t a b c d => Proof.Backends.rfc5 t (a, b, c, d)). Qed.
Print Assumptions C50_rfc.

Example C50_hyps : words_ok 32 [1; 2; 3; 4] /\ sees5 Portable5 /\ sees5 (Loongarch64_5 (repeat 12345 13)).
Proof. repeat apply conj; try exact I; repeat constructor. Qed.
Example C50_case : compress5 Portable5 [1; 2; 3; 4] [repeat 7 64; repeat 8 64] =
  compress5 (Loongarch64_5 (repeat 12345 13)) [1; 2; 3; 4] [repeat 7 64; repeat 8 64].
Proof. vm_compute. reflexivity. Qed.
