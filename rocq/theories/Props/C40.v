(** C40: the block loads of the RISC-V back ends.  [surrounds k pre block post mem]
    (Spec/Memory.v): the block begins [length pre] bytes after a multiple of [k]. *)
From Verif Require Import Base.Words Base.Bytes Spec.Memory Model.Sha2Riscv.
From Verif Require Proof.Loads.

Theorem C40_sha256 : forall pre block post mem, surrounds 4 pre block post mem -> bytes_ok mem ->
  length block = 64%nat -> load_block256 (length pre) mem = map be_val (chunks 4 block).
Proof. exact Proof.Loads.load256_spec. Qed.
Print Assumptions C40_sha256.
Theorem C40_sha512_rv64 : forall pre block post mem, surrounds 8 pre block post mem -> bytes_ok mem ->
  length block = 128%nat -> rv64_load_block512 (length pre) mem = map be_val (chunks 8 block).
Proof. exact Proof.Loads.rv64_load512_spec. Qed.
Print Assumptions C40_sha512_rv64.
Theorem C40_sha512_rv32 : forall pre block post mem, surrounds 4 pre block post mem -> bytes_ok mem ->
  length block = 128%nat -> rv32_load_block512 (length pre) mem = map be_val (chunks 8 block).
Proof. exact Proof.Loads.rv32_load512_spec. Qed.
Print Assumptions C40_sha512_rv32.

(** A block at each alignment. *)
Example C40_hyps : Forall (fun n => surrounds 8 (repeat 255 n) (repeat 7 128) (if Nat.eqb n 0 then [] else repeat 254 (8 - n))
  (repeat 255 n ++ repeat 7 128 ++ (if Nat.eqb n 0 then [] else repeat 254 (8 - n)))) (seq 0 8).
Proof.
  repeat constructor; first [exact (Nat.leb_le _ _ eq_refl)|left; reflexivity|right; reflexivity].
Qed.
Example C40_case : rv64_load_block512 3 (repeat 255 3 ++ map N.of_nat (seq 0 128) ++ repeat 254 5)
  = map be_val (chunks 8 (map N.of_nat (seq 0 128))).
Proof. vm_compute. reflexivity. Qed.
