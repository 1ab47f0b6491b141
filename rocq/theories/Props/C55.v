(** C55: the unsafe compression functions of sha2, sha1 and jh that are not assembly programs, on a flat memory
    (Model/Pointers.v).  [ps], [pb], [pk] are the addresses of the state, of the blocks and of the table of round
    constants.  A run is [None] if it loads outside these ranges, stores outside the state, or reads a constant with
    [ptr::read] or a word of a RISC-V block through a pointer that is not aligned.  The addresses of the state and of
    the blocks are arbitrary; the table is an array of words, so it is aligned.  Memory outside the state is as before,
    and the state is that of the standard.  The first and the last load of an unaligned block on RISC-V are [lw] or [ld]
    in inline assembly, which take in bytes beside the block; here they need only touch the block with an aligned word.
    The pointers computed on RISC-V stay in the allocation iff the block is aligned or the word its first byte lies in
    belongs to the allocation; the callers do not ensure that (refuted).  [jh::f8_impl] is a safe function, exported but hidden, that
    loads from any address it is given (refuted). *)
From Verif Require Import Base.Words Base.Bytes Base.Codec Spec.Memory Spec.FlatMemory Model.Pointers.
From Verif Require Spec.SHA1 Spec.SHA2 Spec.JH Model.LoongCpu Proof.LoongProgs Proof.PointersWhole Proof.PointersAccess.
Import Spec.SHA2 (vars_of_list, list_of_vars, sha256_params, sha512_params, p_K).

(** What an access checks, and what it does.  A load gives the bytes of the memory, if a single range has all its addresses. *)
Theorem C55_loads : forall rd m a k b, (0 < k)%nat -> ld rd m a k = Some b <->
  (exists r, In r rd /\ forall x, a <= x < a + N.of_nat k -> ~ outside r x) /\ length b = k /\ holds m a b.
Proof. exact Proof.PointersAccess.loads. Qed.
Print Assumptions C55_loads.
Theorem C55_aligned_loads : forall rd m a k b, (0 < k)%nat -> ld_aligned rd m a k = Some b <->
  a mod N.of_nat k = 0 /\ (exists r, In r rd /\ forall x, a <= x < a + N.of_nat k -> ~ outside r x) /\ length b = k /\ holds m a b.
Proof. exact Proof.PointersAccess.aligned_loads. Qed.
Print Assumptions C55_aligned_loads.
(** The loads in inline assembly need only one address in a range, but must be aligned. *)
Theorem C55_word_loads : forall rd m a k b, (0 < k)%nat -> Forall (fun r => 0 < snd r) rd -> ld_word rd m a k = Some b <->
  a mod N.of_nat k = 0 /\ (exists r x, In r rd /\ a <= x < a + N.of_nat k /\ ~ outside r x) /\ length b = k /\ holds m a b.
Proof. exact Proof.PointersAccess.word_loads. Qed.
Print Assumptions C55_word_loads.
Theorem C55_stores : forall wr m a l m', (0 < length l)%nat -> st wr m a l = Some m' ->
  (exists r, In r wr /\ forall x, a <= x < a + N.of_nat (length l) -> ~ outside r x) /\
  holds m' a l /\ unchanged_but [(a, N.of_nat (length l))] m m'.
Proof. exact Proof.PointersAccess.stores. Qed.
Print Assumptions C55_stores.

Theorem C55_sha256 : forall t mem ps pb pk st blocks,
  let RS := (ps, 32) in
  let RB := (pb, 64 * N.of_nat (length blocks)) in
  let RK := (pk, 256) in
  bytes_mem mem -> whole 64 blocks -> length st = 8%nat -> words_ok 32 st ->
  holds mem ps (words_to_le 4 st) -> holds mem pb (concat blocks) ->
  holds mem pk (words_to_le 4 (p_K sha256_params)) -> pk mod 4 = 0 ->
  exists mem', run256 [RS; RB; RK] [RS] mem ps pb pk (length blocks) t = Some mem' /\
    holds mem' ps (words_to_le 4 (list_of_vars (fold_left (Spec.SHA2.compress sha256_params) blocks (vars_of_list st)))) /\
    unchanged_but [RS] mem mem'.
Proof. intros t mem ps pb pk st blocks RS RB RK BM. exact (Proof.PointersWhole.run256_spec mem ps pb pk st blocks BM t). Qed.
Print Assumptions C55_sha256.
Theorem C55_sha512 : forall t mem ps pb pk st blocks,
  let RS := (ps, 64) in
  let RB := (pb, 128 * N.of_nat (length blocks)) in
  let RK := (pk, 640) in
  bytes_mem mem -> whole 128 blocks -> length st = 8%nat -> words_ok 64 st ->
  holds mem ps (words_to_le 8 st) -> holds mem pb (concat blocks) ->
  holds mem pk (words_to_le 8 (p_K sha512_params)) -> pk mod 8 = 0 ->
  exists mem', run512 [RS; RB; RK] [RS] mem ps pb pk (length blocks) t = Some mem' /\
    holds mem' ps (words_to_le 8 (list_of_vars (fold_left (Spec.SHA2.compress sha512_params) blocks (vars_of_list st)))) /\
    unchanged_but [RS] mem mem'.
Proof. intros t mem ps pb pk st blocks RS RB RK BM. exact (Proof.PointersWhole.run512_spec mem ps pb pk st blocks BM t). Qed.
Print Assumptions C55_sha512.
Theorem C55_sha1 : forall x86 mem ps pb a b c d e blocks,
  let RS := (ps, 20) in
  let RB := (pb, 64 * N.of_nat (length blocks)) in
  whole 64 blocks -> words_ok 32 [a; b; c; d; e] ->
  holds mem ps (words_to_le 4 [a; b; c; d; e]) -> holds mem pb (concat blocks) ->
  exists mem', run1 [RS; RB] [RS] mem ps pb (length blocks) x86 = Some mem' /\
    holds mem' ps (words_to_le 4 (let '(a, b, c, d, e) := fold_left Spec.SHA1.compress blocks (a, b, c, d, e) in [a; b; c; d; e])) /\
    unchanged_but [RS] mem mem'.
Proof. intros x86 mem ps pb a b c d e blocks RS RB. exact (Proof.PointersWhole.run1_spec mem ps pb blocks x86 (a, b, c, d, e)). Qed.
Print Assumptions C55_sha1.
Theorem C55_jh : forall mem ps pb h blocks,
  let RS := (ps, 128) in
  let RB := (pb, 64 * N.of_nat (length blocks)) in
  whole 64 blocks -> length h = 128%nat -> bytes_ok h -> holds mem ps h -> holds mem pb (concat blocks) ->
  exists mem', run_jh [RS; RB] [RS] mem ps pb (length blocks) = Some mem' /\
    holds mem' ps (fold_left Spec.JH.F8 blocks h) /\ unchanged_but [RS] mem mem'.
Proof. intros mem ps pb h blocks RS RB. exact (Proof.PointersWhole.jh_spec mem ps pb blocks h). Qed.
Print Assumptions C55_jh.

(** [ptr::add]: pointer and result within the allocation (of [S] bytes at [A]) that the block (of [n] words of [k]
    bytes at [p]) belongs to *)
Theorem C55_riscv_pointers : forall k n p A S, (0 < k)%nat -> (2 <= n)%nat -> A <= p -> p + N.of_nat (k * n) <= A + S ->
  (Forall (fun r => A <= fst r /\ fst r + snd r <= A + S) (zknh_adds k n p) <-> p mod N.of_nat k = 0 \/ A <= p - p mod N.of_nat k).
Proof. exact Proof.PointersWhole.zknh_adds_ok. Qed.
Print Assumptions C55_riscv_pointers.
Theorem C55_riscv_pointers_refuted : ~ (forall k n p A S, In (k, n) [(4, 16); (8, 16); (4, 32)]%nat -> A <= p -> p + N.of_nat (k * n) <= A + S ->
  Forall (fun r => A <= fst r /\ fst r + snd r <= A + S) (zknh_adds k n p)).
Proof. exact Proof.PointersWhole.zknh_adds_outside. Qed.
Print Assumptions C55_riscv_pointers_refuted.
Theorem C55_jh_f8_impl_refuted : ~ (forall rd mem s p, f8_p rd mem s p <> None).
Proof. exact Proof.PointersWhole.f8_unsafe. Qed.
Print Assumptions C55_jh_f8_impl_refuted.

(** The hypotheses hold of two blocks and a state at odd addresses. *)
Definition sample (input state K : bytes) : N -> N :=
  Model.LoongCpu.write (Model.LoongCpu.write (Model.LoongCpu.write (fun _ => 0x5a) 0x3000 K) 0x2001 input) 0x1003 state.
Ltac there := cbn -[N.add N.mul N.sub N.pow N.modulo holds bytes_mem words_to_le p_K Model.LoongCpu.write repeat]; match goal with
  | |- holds (Model.LoongCpu.write _ ?a _) ?a _ => apply Proof.LoongProgs.holds_same
  | |- holds (Model.LoongCpu.write _ _ _) _ _ => apply Proof.LoongProgs.holds_other; [apply Proof.LoongProgs.apart_bool; vm_compute; reflexivity|there]
  | |- bytes_mem (Model.LoongCpu.write _ _ _) => apply Proof.LoongProgs.bytes_write; [there|first [apply words_to_le_ok | apply Proof.LoongProgs.bytes_bool; vm_compute; reflexivity]]
  | |- bytes_mem _ => vm_compute; reflexivity
  | |- bytes_ok _ => apply Proof.LoongProgs.bytes_bool; vm_compute; reflexivity
  | |- whole _ _ => repeat constructor; apply Proof.LoongProgs.bytes_bool; vm_compute; reflexivity
  | |- words_ok _ _ => repeat constructor
  | _ => reflexivity
  end.
Example C55_case256 : let st := [1; 2; 3; 4; 5; 6; 7; 8] in let blocks := [repeat 7 64; repeat 8 64] in
  let mem := sample (concat blocks) (words_to_le 4 st) (words_to_le 4 (p_K sha256_params)) in
  forall t, exists mem', run256 [(0x1003, 32); (0x2001, 128); (0x3000, 256)] [(0x1003, 32)] mem 0x1003 0x2001 0x3000 2 t = Some mem' /\ mem' 0x1002 = 0x5a.
Proof.
  intros st blocks mem t. destruct (C55_sha256 t mem 0x1003 0x2001 0x3000 st blocks) as (mem' & S & _ & U). 1-8: subst mem blocks st; unfold sample; there.
  exists mem'. split; [exact S|]. rewrite U by (repeat constructor). reflexivity.
Qed.
Example C55_case512 : let st := [1; 2; 3; 4; 5; 6; 7; 8] in let blocks := [repeat 7 128; repeat 8 128] in
  let mem := sample (concat blocks) (words_to_le 8 st) (words_to_le 8 (p_K sha512_params)) in
  forall t, exists mem', run512 [(0x1003, 64); (0x2001, 256); (0x3000, 640)] [(0x1003, 64)] mem 0x1003 0x2001 0x3000 2 t = Some mem' /\ mem' 0x1002 = 0x5a.
Proof.
  intros st blocks mem t. destruct (C55_sha512 t mem 0x1003 0x2001 0x3000 st blocks) as (mem' & S & _ & U). 1-8: subst mem blocks st; unfold sample; there.
  exists mem'. split; [exact S|]. rewrite U by (repeat constructor). reflexivity.
Qed.
Example C55_case1 : let blocks := [repeat 7 64; repeat 8 64] in let mem := sample (concat blocks) (words_to_le 4 [1; 2; 3; 4; 5]) [] in
  forall x86, exists mem', run1 [(0x1003, 20); (0x2001, 128)] [(0x1003, 20)] mem 0x1003 0x2001 2 x86 = Some mem' /\ mem' 0x1002 = 0x5a.
Proof.
  intros blocks mem x86. destruct (C55_sha1 x86 mem 0x1003 0x2001 1 2 3 4 5 blocks) as (mem' & S & _ & U). 1-4: subst mem blocks; unfold sample; there.
  exists mem'. split; [exact S|]. rewrite U by (repeat constructor). reflexivity.
Qed.
Example C55_case_jh : let blocks := [repeat 7 64; repeat 8 64] in let mem := sample (concat blocks) (repeat 9 128) [] in
  exists mem', run_jh [(0x1003, 128); (0x2001, 128)] [(0x1003, 128)] mem 0x1003 0x2001 2 = Some mem' /\ mem' 0x1002 = 0x5a.
Proof.
  intros blocks mem. destruct (C55_jh mem 0x1003 0x2001 (repeat 9 128) blocks) as (mem' & S & _ & U). 1-5: subst mem blocks; unfold sample; there.
  exists mem'. split; [exact S|]. rewrite U by (repeat constructor). reflexivity.
Qed.
(** A block at an odd address in the middle of an allocation, and one that is an allocation of its own *)
Example C55_inside : Forall (fun r => 100 <= fst r /\ fst r + snd r <= 100 + 200) (zknh_adds 4 16 121).
Proof. apply C55_riscv_pointers; lia. Qed.
Example C55_alone : ~ Forall (fun r => 121 <= fst r /\ fst r + snd r <= 121 + 64) (zknh_adds 4 16 121).
Proof. rewrite C55_riscv_pointers by lia. now intros []. Qed.
Example C55_access : ld_word [(6, 4)] (fun x => x) 4 4 = Some [4; 5; 6; 7] /\ ld_word [(6, 4)] (fun x => x) 6 4 = None /\
  ld_word [(6, 4)] (fun x => x) 12 4 = None /\ ld [(6, 4)] (fun x => x) 6 4 = Some [6; 7; 8; 9] /\ ld [(6, 4)] (fun x => x) 7 4 = None /\
  exists m', st [(6, 4)] (fun x => x) 7 [1; 2; 3] = Some m'.
Proof. repeat split. now eexists. Qed.
