(** C39: the SHA-1 back ends; as C37. *)
From Verif Require Import Base.Words Base.Bytes Spec.Memory Model.Backends.
From Verif Require Spec.SHA1 Proof.Backends.

Theorem C39_all_agree : forall t u st blocks, length st = 5%nat -> words_ok 32 st -> whole 64 blocks ->
  sees1 t -> sees1 u -> compress1 t st blocks = compress1 u st blocks.
Proof. exact Proof.Backends.agree1. Qed.
Print Assumptions C39_all_agree.
(** What they compute is the compression function of FIPS 180-4. *)
Theorem C39_fips : forall t a b c d e blocks, words_ok 32 [a; b; c; d; e] -> whole 64 blocks -> sees1 t ->
  compress1 t [a; b; c; d; e] blocks =
  let '(a', b', c', d', e') := fold_left Spec.SHA1.compress blocks (a, b, c, d, e) in [a'; b'; c'; d'; e'].
Proof. exact (fun t a b c d e => Proof.Backends.fips1 t (a, b, c, d, e)). Qed.
Print Assumptions C39_fips.

Example C39_hyps : words_ok 32 [1; 2; 3; 4; 5] /\ whole 64 [repeat 7 64; repeat 8 64] /\
  sees1 (X86_1 true) /\ sees1 (Aarch64_1 true) /\ sees1 (Loongarch64_1 (repeat 12345 13) (repeat 67890 16)).
Proof. repeat apply conj; try exact I; repeat constructor. Qed.
Example C39_case : compress1 (X86_1 true) [1; 2; 3; 4; 5] [repeat 7 64] =
  compress1 (Loongarch64_1 (repeat 12345 13) (repeat 67890 16)) [1; 2; 3; 4; 5] [repeat 7 64].
Proof. vm_compute. reflexivity. Qed.
