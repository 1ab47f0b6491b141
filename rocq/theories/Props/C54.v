(** C54: what the LoongArch64 assembly shows to an observer who sees which instruction runs and which address it
    accesses ([observed], Model/LoongCpu.v) depends on the pointers, the number of blocks and the memory protection
    only: not on the state, the message, the other registers or the stack. *)
From Verif Require Import Base.Words Base.Bytes Model.Loong Model.LoongCpu.
From Verif Require Proof.LoongTrace.

Theorem C54_constant_time : forall prog rd wr n c d, In prog [prog256; prog512; prog1; prog5] -> pc c = pc d ->
  reg c r_a0 = reg d r_a0 -> reg c r_a1 = reg d r_a1 -> reg c r_a2 = reg d r_a2 -> reg c r_a3 = reg d r_a3 -> reg c r_sp = reg d r_sp ->
  observed rd wr prog n c = observed rd wr prog n d.
Proof. exact Proof.LoongTrace.constant_time. Qed.
Print Assumptions C54_constant_time.

(** Two machines with nothing else in common; the observations are there, and an instruction that depended on data
    would show. *)
Definition one (x : N) : cpu :=
  {| reg := fun r => nth r [0; 0; 0; 0x8000; 0x1000; 0x2001; 2; 0x3000] (x + N.of_nat r); mem := fun a => (a * x) mod 256; pc := 0 |}.
Example C54_case : let rd := [(0x1000, 32); (0x2001, 128); (0x3000, 256); (0x7fc0, 64)] in let wr := [(0x1000, 32); (0x7fc0, 64)] in
  observed rd wr prog256 12 (one 3) = observed rd wr prog256 12 (one 8) /\
  observed rd wr prog256 3 (one 3) = [(0%nat, None); (1%nat, Some 0x1000); (2%nat, Some 0x1004)].
Proof. split; vm_compute; reflexivity. Qed.
Example C54_branch_shows : observed [] [] [Bnez 12 0; Op 32 (Move 0 1)] 2 (one 0) = [(0%nat, None); (0%nat, None)] /\
  observed [] [] [Bnez 12 0; Op 32 (Move 0 1)] 2 {| reg := fun _ => 0; mem := fun _ => 0; pc := 0 |} = [(0%nat, None); (1%nat, None)].
Proof. split; vm_compute; reflexivity. Qed.
