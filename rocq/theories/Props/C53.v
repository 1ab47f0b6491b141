(** C53: the LoongArch64 assembly on a processor with 64-bit registers (32-bit results sign-extended), one flat
    memory, a program counter and memory protection (Model/LoongCpu.v).  [steps rd wr prog n c] runs [n]
    instructions; it is [None] if one of them loads outside the ranges [rd], stores outside the ranges [wr] or lies
    outside the program.  On entry $a0 points to the state, $a1 to the blocks, $a3 to the constants, $a2 is the
    number of blocks and the scratch words lie below $sp.  All other registers and all other memory are arbitrary.
    The programs end behind their last instruction, having computed the blocks' compression; memory outside the
    state and the scratch words, and registers outside the [asm!] operands (so also $sp), are as before.  MD5 stores
    nothing and uses no stack, as its options pure, readonly and nostack promise. *)
From Verif Require Import Base.Words Base.Bytes Base.Codec Spec.Memory Spec.FlatMemory Model.Loong Model.LoongCpu.
From Verif Require Spec.MD5 Spec.SHA1 Spec.SHA2 Proof.LoongProgs.
Import Spec.SHA2 (vars_of_list, list_of_vars, sha256_params, sha512_params, p_K).

Theorem C53_sha256 : forall c st blocks,
  let RS := (reg c r_a0, 32) in
  let RB := (reg c r_a1, 64 * N.of_nat (length blocks)) in
  let RK := (reg c r_a3, 256) in
  let RT := (reg c r_sp - 64, 64) in
  pc c = 0%nat -> bytes_mem (mem c) -> blocks <> [] -> whole 64 blocks -> reg c r_a2 = N.of_nat (length blocks) ->
  length st = 8%nat -> words_ok 32 st ->
  holds (mem c) (fst RS) (words_to_le 4 st) -> holds (mem c) (fst RB) (concat blocks) ->
  holds (mem c) (fst RK) (words_to_le 4 (p_K sha256_params)) ->
  64 <= reg c r_sp -> reg c r_sp < 2 ^ 64 -> fits RS -> fits RB -> fits RK ->
  apart RS RT -> apart RS RK -> apart RT RK -> apart RS RB -> apart RT RB ->
  exists n c', steps [RS; RB; RK; RT] [RS; RT] prog256 n c = Some c' /\ pc c' = length prog256 /\
    holds (mem c') (fst RS) (words_to_le 4 (list_of_vars (fold_left (Spec.SHA2.compress sha256_params) blocks (vars_of_list st)))) /\
    unchanged_but [RS; RT] (mem c) (mem c') /\ (forall r, ~ In r clobbers2 -> reg c' r = reg c r).
Proof. exact Proof.LoongProgs.run256. Qed.
Print Assumptions C53_sha256.
Theorem C53_sha512 : forall c st blocks,
  let RS := (reg c r_a0, 64) in
  let RB := (reg c r_a1, 128 * N.of_nat (length blocks)) in
  let RK := (reg c r_a3, 640) in
  let RT := (reg c r_sp - 128, 128) in
  pc c = 0%nat -> bytes_mem (mem c) -> blocks <> [] -> whole 128 blocks -> reg c r_a2 = N.of_nat (length blocks) ->
  length st = 8%nat -> words_ok 64 st ->
  holds (mem c) (fst RS) (words_to_le 8 st) -> holds (mem c) (fst RB) (concat blocks) ->
  holds (mem c) (fst RK) (words_to_le 8 (p_K sha512_params)) ->
  128 <= reg c r_sp -> reg c r_sp < 2 ^ 64 -> fits RS -> fits RB -> fits RK ->
  apart RS RT -> apart RS RK -> apart RT RK -> apart RS RB -> apart RT RB ->
  exists n c', steps [RS; RB; RK; RT] [RS; RT] prog512 n c = Some c' /\ pc c' = length prog512 /\
    holds (mem c') (fst RS) (words_to_le 8 (list_of_vars (fold_left (Spec.SHA2.compress sha512_params) blocks (vars_of_list st)))) /\
    unchanged_but [RS; RT] (mem c) (mem c') /\ (forall r, ~ In r clobbers2 -> reg c' r = reg c r).
Proof. exact Proof.LoongProgs.run512. Qed.
Print Assumptions C53_sha512.
Theorem C53_sha1 : forall c a b' c' d e blocks,
  let RS := (reg c r_a0, 20) in
  let RB := (reg c r_a1, 64 * N.of_nat (length blocks)) in
  let RT := (reg c r_sp - 64, 64) in
  pc c = 0%nat -> bytes_mem (mem c) -> blocks <> [] -> whole 64 blocks -> reg c r_a2 = N.of_nat (length blocks) ->
  words_ok 32 [a; b'; c'; d; e] -> holds (mem c) (fst RS) (words_to_le 4 [a; b'; c'; d; e]) -> holds (mem c) (fst RB) (concat blocks) ->
  map (fun r => reg c r mod 2 ^ 32) [8; 9; 10; 11]%nat = map Spec.SHA1.K [0; 20; 40; 60]%nat ->
  64 <= reg c r_sp -> reg c r_sp < 2 ^ 64 -> fits RS -> fits RB ->
  apart RS RT -> apart RS RB -> apart RT RB ->
  exists n cf, steps [RS; RB; RT] [RS; RT] prog1 n c = Some cf /\ pc cf = length prog1 /\
    holds (mem cf) (fst RS) (let '(a, b, c, d, e) := fold_left Spec.SHA1.compress blocks (a, b', c', d, e) in words_to_le 4 [a; b; c; d; e]) /\
    unchanged_but [RS; RT] (mem c) (mem cf) /\ (forall r, ~ In r clobbers1 -> reg cf r = reg c r).
Proof. exact Proof.LoongProgs.run1. Qed.
Print Assumptions C53_sha1.
Theorem C53_md5 : forall c a b' c' d blocks,
  let RB := (reg c r_a1, 64 * N.of_nat (length blocks)) in
  let RK := (reg c r_a3, 256) in
  pc c = 0%nat -> bytes_mem (mem c) -> blocks <> [] -> whole 64 blocks -> reg c r_a2 = N.of_nat (length blocks) ->
  map (fun r => reg c r mod 2 ^ 32) [8; 9; 10; 11]%nat = [a; b'; c'; d] -> holds (mem c) (fst RB) (concat blocks) ->
  holds (mem c) (fst RK) (words_to_le 4 Spec.MD5.T_table) -> fits RB -> fits RK ->
  exists n cf, steps [RB; RK] [] prog5 n c = Some cf /\ pc cf = length prog5 /\
    (let '(a, b, c, d) := fold_left Spec.MD5.compress blocks (a, b', c', d) in
     map (fun r => reg cf r mod 2 ^ 32) [8; 9; 10; 11]%nat = [a; b; c; d]) /\
    unchanged_but [] (mem c) (mem cf) /\ (forall r, ~ In r clobbers5 -> reg cf r = reg c r).
Proof. exact Proof.LoongProgs.run5. Qed.
Print Assumptions C53_md5.

(** The hypotheses hold of two blocks at an odd address, with the other registers full of other values. *)
Definition sample_regs (regs : list (nat * N)) (r : nat) : N :=
  fold_right (fun x v => if (r =? fst x)%nat then snd x else v) (2 ^ 63 + 12345 * N.of_nat r) regs.
Definition sample (regs : list (nat * N)) (input state K : bytes) : cpu :=
  {| reg := sample_regs ([(3%nat, 0x8000); (4%nat, 0x1000); (5%nat, 0x2001); (6%nat, 2); (7%nat, 0x3000)] ++ regs);
     mem := write (write (write (fun _ => 0x5a) 0x3000 K) 0x2001 input) 0x1000 state; pc := 0 |}.
Ltac placed := cbn -[N.add N.mul N.sub N.pow holds bytes_mem words_to_le fits apart p_K Spec.MD5.T_table write repeat]; intros; match goal with
  | |- apart _ _ => apply Proof.LoongProgs.apart_bool; vm_compute; reflexivity
  | |- fits _ => vm_compute; discriminate
  | |- holds (write _ ?a _) ?a _ => apply Proof.LoongProgs.holds_same
  | |- holds (write _ _ _) _ _ => apply Proof.LoongProgs.holds_other; [apply Proof.LoongProgs.apart_bool; vm_compute; reflexivity|placed]
  | |- bytes_mem (write _ _ _) => apply Proof.LoongProgs.bytes_write; [placed|first [apply words_to_le_ok | apply Proof.LoongProgs.bytes_bool; vm_compute; reflexivity]]
  | |- bytes_mem _ => vm_compute; reflexivity
  | |- whole _ _ => repeat constructor; apply Proof.LoongProgs.bytes_bool; vm_compute; reflexivity
  | |- words_ok _ _ => repeat constructor
  | _ => first [reflexivity | discriminate | vm_compute; reflexivity | vm_compute; discriminate]
  end.
Example C53_case256 : let st := [1; 2; 3; 4; 5; 6; 7; 8] in let blocks := [repeat 7 64; repeat 8 64] in
  let c := sample [] (concat blocks) (words_to_le 4 st) (words_to_le 4 (p_K sha256_params)) in
  exists n c', steps [(0x1000, 32); (0x2001, 128); (0x3000, 256); (0x7fc0, 64)] [(0x1000, 32); (0x7fc0, 64)] prog256 n c = Some c' /\
    pc c' = length prog256 /\ reg c' r_sp = 0x8000.
Proof.
  intros st blocks c. destruct (C53_sha256 c st blocks) as (n & c' & S & P & _ & _ & R). 1-20: placed.
  exists n, c'. split; [exact S|]. split; [exact P|]. apply R. vm_compute. intuition discriminate.
Qed.
Example C53_case512 : let st := [1; 2; 3; 4; 5; 6; 7; 8] in let blocks := [repeat 7 128; repeat 8 128] in
  let c := sample [] (concat blocks) (words_to_le 8 st) (words_to_le 8 (p_K sha512_params)) in
  exists n c', steps [(0x1000, 64); (0x2001, 256); (0x3000, 640); (0x7f80, 128)] [(0x1000, 64); (0x7f80, 128)] prog512 n c = Some c' /\
    pc c' = length prog512 /\ reg c' r_sp = 0x8000.
Proof.
  intros st blocks c. destruct (C53_sha512 c st blocks) as (n & c' & S & P & _ & _ & R). 1-20: placed.
  exists n, c'. split; [exact S|]. split; [exact P|]. apply R. vm_compute. intuition discriminate.
Qed.
Example C53_case1 : let blocks := [repeat 7 64; repeat 8 64] in
  let c := sample [(8%nat, 0x5a827999); (9%nat, 0x6ed9eba1); (10%nat, 0xffffffff8f1bbcdc); (11%nat, 0xca62c1d6)]
    (concat blocks) (words_to_le 4 [1; 2; 3; 4; 5]) [] in
  exists n c', steps [(0x1000, 20); (0x2001, 128); (0x7fc0, 64)] [(0x1000, 20); (0x7fc0, 64)] prog1 n c = Some c' /\
    pc c' = length prog1 /\ reg c' r_sp = 0x8000.
Proof.
  intros blocks c. destruct (C53_sha1 c 1 2 3 4 5 blocks) as (n & c' & S & P & _ & _ & R). 1-16: placed.
  exists n, c'. split; [exact S|]. split; [exact P|]. apply R. vm_compute. intuition discriminate.
Qed.
Example C53_case5 : let blocks := [repeat 7 64; repeat 8 64] in
  let c := sample [(8%nat, 1); (9%nat, 2); (10%nat, 3); (11%nat, 0xffffffff00000004)] (concat blocks) [] (words_to_le 4 Spec.MD5.T_table) in
  exists n c', steps [(0x2001, 128); (0x3000, 256)] [] prog5 n c = Some c' /\ pc c' = length prog5 /\ reg c' r_a0 = 0x1000.
Proof.
  intros blocks c. destruct (C53_md5 c 1 2 3 4 blocks) as (n & c' & S & P & _ & _ & R). 1-10: placed.
  exists n, c'. split; [exact S|]. split; [exact P|]. apply R. vm_compute. intuition discriminate.
Qed.
