(** C37: the SHA-256 back ends.  [compress256 t] is the [compress] that a build
    for target [t] runs, with the outcome of CPU detection and everything else
    the back end can see in [t]; [sees256] is what the machine guarantees. *)
From Verif Require Import Base.Words Base.Bytes Spec.Memory Model.Backends.
From Verif Require Spec.SHA2 Proof.Backends.

Theorem C37_all_agree : forall t u st blocks, length st = 8%nat -> words_ok 32 st -> whole 64 blocks ->
  sees256 t blocks -> sees256 u blocks -> compress256 t st blocks = compress256 u st blocks.
Proof. exact Proof.Backends.agree256. Qed.
Print Assumptions C37_all_agree.
(** What they compute is the compression function of FIPS 180-4. *)
Theorem C37_fips : forall t st blocks, length st = 8%nat -> words_ok 32 st -> whole 64 blocks -> sees256 t blocks ->
  compress256 t st blocks = Spec.SHA2.list_of_vars
    (fold_left (Spec.SHA2.compress Spec.SHA2.sha256_params) blocks (Spec.SHA2.vars_of_list st)).
Proof. exact Proof.Backends.fips256. Qed.
Print Assumptions C37_fips.

(** The hypotheses hold for a run over one block at an odd address and for dirty registers. *)
Example C37_hyps : length (seq 0 8) = 8%nat /\ words_ok 32 (map N.of_nat (seq 0 8)) /\ whole 64 [repeat 7 64] /\
  sees256 (Zknh true [(1%nat, 255 :: repeat 7 64 ++ [1; 2; 3])]) [repeat 7 64] /\
  sees256 (Loongarch64 (repeat 12345 13) (repeat 67890 16)) [repeat 7 64] /\ sees256 (X86 true) [repeat 7 64].
Proof.
  repeat apply conj; try reflexivity; try exact I; try (repeat constructor; fail).
  constructor; [|constructor]. exists [255], [1; 2; 3]. split; [reflexivity|]. split; [|repeat constructor].
  split; [reflexivity|]. split; [repeat constructor|now right].
Qed.
Example C37_case :
  compress256 (Zknh true [(1%nat, 255 :: repeat 7 64 ++ [1; 2; 3])]) (map N.of_nat (seq 0 8)) [repeat 7 64]
  = compress256 (X86 true) (map N.of_nat (seq 0 8)) [repeat 7 64].
Proof. vm_compute. reflexivity. Qed.
