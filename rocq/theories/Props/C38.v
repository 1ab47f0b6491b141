(** C38: the SHA-512 back ends; as C37.  The AVX2 code takes the blocks in pairs
    and a last single block by itself, so the block lists of both parities matter. *)
From Verif Require Import Base.Words Base.Bytes Spec.Memory Model.Backends.
From Verif Require Spec.SHA2 Proof.Backends.

Theorem C38_all_agree : forall t u st blocks, length st = 8%nat -> words_ok 64 st -> whole 128 blocks ->
  sees512 t blocks -> sees512 u blocks -> compress512 t st blocks = compress512 u st blocks.
Proof. exact Proof.Backends.agree512. Qed.
Print Assumptions C38_all_agree.
(** What they compute is the compression function of FIPS 180-4. *)
Theorem C38_fips : forall t st blocks, length st = 8%nat -> words_ok 64 st -> whole 128 blocks -> sees512 t blocks ->
  compress512 t st blocks = Spec.SHA2.list_of_vars
    (fold_left (Spec.SHA2.compress Spec.SHA2.sha512_params) blocks (Spec.SHA2.vars_of_list st)).
Proof. exact Proof.Backends.fips512. Qed.
Print Assumptions C38_fips.

Example C38_hyps : length (seq 0 8) = 8%nat /\ words_ok 64 (map N.of_nat (seq 0 8)) /\
  whole 128 [repeat 7 128; repeat 8 128; repeat 9 128] /\
  sees512 (ZknhCompact true [(7%nat, repeat 255 7 ++ repeat 7 128 ++ [1])]) [repeat 7 128] /\
  sees512 (Zknh false [(0%nat, repeat 7 128)]) [repeat 7 128] /\
  sees512 (Loongarch64 (repeat 12345 13) (repeat 67890 16)) [repeat 7 128] /\ sees512 (X86 true) [repeat 7 128].
Proof.
  repeat apply conj; try reflexivity; try exact I; try (repeat constructor; fail).
  - constructor; [|constructor]. exists (repeat 255 7), [1]. split; [reflexivity|]. split; [|repeat constructor].
    split; [reflexivity|]. split; [repeat constructor|now right].
  - constructor; [|constructor]. exists [], []. cbn. repeat constructor.
Qed.
Example C38_case :
  compress512 (ZknhCompact true [(7%nat, repeat 255 7 ++ repeat 7 128 ++ [1])]) (map N.of_nat (seq 0 8)) [repeat 7 128]
  = compress512 (X86 true) (map N.of_nat (seq 0 8)) [repeat 7 128].
Proof. vm_compute. reflexivity. Qed.
