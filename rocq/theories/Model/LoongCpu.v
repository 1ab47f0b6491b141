(** The LoongArch64 back ends once more, as programs of a processor with 64-bit
    registers, one flat memory, a program counter and memory protection.
    References: 256 = sha2/src/sha256/loongarch64_asm.rs, 512 =
    sha2/src/sha512/loongarch64_asm.rs, 1 = sha1/src/compress/loongarch64_asm.rs,
    5 = md5/src/compress/loongarch64_asm.rs.  The instruction lists of the rounds
    are those of Model/Loong.v and Model/LoongLines.v.  Unaligned loads are
    allowed (the blocks are byte arrays). *)
From Verif Require Import Base.Words Base.Bytes Model.Loong Model.LoongLines.

(** Register numbers of the ABI: $sp = r3, $a0-$a7 = r4-r11, $t0-$t8 = r12-r20.
    [rn] translates the numbers of Model/Loong.v. *)
Definition rn (i : nat) : nat := if (i <? 9)%nat then (12 + i)%nat else (i - 1)%nat.
Definition r_sp : nat := 3.  Definition r_a0 : nat := 4.  Definition r_a1 : nat := 5.
Definition r_a2 : nat := 6.  Definition r_a3 : nat := 7.
Definition rb (b : base) : nat := match b with A0 => r_a0 | A1 => r_a1 | A3 => r_a3 | SP => r_sp end.

Record cpu := { reg : nat -> N; mem : N -> N; pc : nat }.
Definition setreg (c : cpu) (r : nat) (v : N) : cpu :=
  {| reg := fun i => if (i =? r)%nat then v else reg c i; mem := mem c; pc := S (pc c) |}.
Definition bytes_at (m : N -> N) (a : N) (k : nat) : bytes := map (fun j => m (a + N.of_nat j)) (seq 0 k).
Definition write (m : N -> N) (a : N) (l : bytes) : N -> N :=
  fun x => if (a <=? x) && (x <? a + N.of_nat (length l)) then nth (N.to_nat (x - a)) l 0 else m x.
(** Sign extension of the low [w] bits to 64 bits *)
Definition sext (w x : N) : N :=
  let y := x mod 2 ^ w in if N.testbit y (w - 1) then y + (2 ^ 64 - 2 ^ w) else y.

(** Memory protection: an access must lie within one range (start, length). *)
Definition allowed (ranges : list (N * N)) (a n : N) : bool :=
  existsb (fun r => (fst r <=? a) && (a + n <=? fst r + snd r)) ranges.

(** LoongArch Reference Manual, Volume 1, chapter 2.2.  [w] is 32 for the mnemonics ending in .w (and
    revb.2h), whose results are sign-extended, and 64 for those ending in .d; xor, and, or, andn, orn and move
    work on 64 bits.  A load outside [rd] or a store outside [wr] faults. *)
Definition exec64 (rd wr : list (N * N)) (w : N) (c : cpu) (i : instr) : option cpu :=
  let k := N.to_nat (w / 8) in
  let r j := reg c (rn j) in
  let addr b o := wadd 64 (reg c (rb b)) (N.of_nat o * (w / 8)) in
  match i with
  | Ld d b o => if allowed rd (addr b o) (w / 8) then Some (setreg c (rn d) (sext w (le_val (bytes_at (mem c) (addr b o) k)))) else None
  | St s b o =>
    if allowed wr (addr b o) (w / 8)
    then Some {| reg := reg c; mem := write (mem c) (addr b o) (le_bytes k (r s)); pc := S (pc c) |} else None
  | Revb2h d j => Some (setreg c (rn d) (sext 32 (revb_2h (r j))))
  | RevbD d j => Some (setreg c (rn d) (revb_d (r j)))
  | Rotri d j n => Some (setreg c (rn d) (sext w (rotr w (r j mod 2 ^ w) n)))
  | Srli d j n => Some (setreg c (rn d) (sext w (N.shiftr (r j mod 2 ^ w) n)))
  | Xor d j l => Some (setreg c (rn d) (N.lxor (r j) (r l)))
  | And d j l => Some (setreg c (rn d) (N.land (r j) (r l)))
  | Or d j l => Some (setreg c (rn d) (N.lor (r j) (r l)))
  | Andn d j l => Some (setreg c (rn d) (N.land (r j) (wnot 64 (r l))))
  | Orn d j l => Some (setreg c (rn d) (N.lor (r j) (wnot 64 (r l))))
  | Move d j => Some (setreg c (rn d) (r j))
  | Add d j l => Some (setreg c (rn d) (sext w (wadd w (r j) (r l))))
  end.

(** A program: the instructions above, addi.d on pointer registers and bnez (to an instruction index). *)
Inductive asm := Op (w : N) (i : instr) | AddiD (d j : nat) (imm : N) | Bnez (j : nat) (target : nat).
Definition neg64 (n : N) : N := 2 ^ 64 - n.
Definition step (rd wr : list (N * N)) (prog : list asm) (c : cpu) : option cpu :=
  match nth_error prog (pc c) with
  | None => None
  | Some (Op w i) => exec64 rd wr w c i
  | Some (AddiD d j imm) => Some (setreg c d (wadd 64 (reg c j) imm))
  | Some (Bnez j t) => Some {| reg := reg c; mem := mem c; pc := if reg c j =? 0 then S (pc c) else t |}
  end.
Fixpoint steps (rd wr : list (N * N)) (prog : list asm) (n : nat) (c : cpu) : option cpu :=
  match n with O => Some c | S n => let* c := step rd wr prog c in steps rd wr prog n c end.

(** The shape of the loop, with a stack frame of [frame] bytes: 256 89-203, 512 88-218, 1 112-229. *)
Definition framed (w frame size : N) (start body finish : list instr) : list asm :=
  [AddiD r_sp r_sp (neg64 frame)] ++ map (Op w) start ++ map (Op w) (body ++ finish) ++
  [AddiD r_a1 r_a1 size; AddiD r_a2 r_a2 (neg64 1); Bnez r_a2 (1 + length start); AddiD r_sp r_sp frame].
(** 256 89-203 *)
Definition prog256 : list asm := framed 32 64 64 load_state (concat lines256) update_state.
(** 512 88-218 *)
Definition prog512 : list asm := framed 64 128 128 load_state (concat lines512) update_state.
(** 1 112-229 *)
Definition prog1 : list asm := framed 32 64 64 load_state1 (concat lines1) update_state1.
(** 5 72-156: no stack frame; the loop starts at the first instruction *)
Definition prog5 : list asm :=
  map (Op 32) (md5_start ++ concat lines5 ++ md5_finish) ++
  [AddiD r_a1 r_a1 64; AddiD r_a2 r_a2 (neg64 1); Bnez r_a2 0].

(** The registers that the [asm!] blocks declare as changed (inout and out operands):
    256 206-223 (and 512 221-238): $a1, $a2, $a4-$a7, $t0-$t7 *)
Definition clobbers2 : list nat := [5; 6; 8; 9; 10; 11; 12; 13; 14; 15; 16; 17; 18; 19]%nat.
(** 1 233-250: $a1, $a2, $t0-$t8 *)
Definition clobbers1 : list nat := [5; 6; 12; 13; 14; 15; 16; 17; 18; 19; 20]%nat.
(** 5 158-174: $a1, $a2, $a4-$a7, $t0-$t6 *)
Definition clobbers5 : list nat := [5; 6; 8; 9; 10; 11; 12; 13; 14; 15; 16; 17; 18]%nat.

(** What an instruction shows to an observer of caches and branch predictors: its position and the address it accesses. *)
Definition address (prog : list asm) (c : cpu) : option N :=
  match nth_error prog (pc c) with
  | Some (Op w (Ld _ b o)) | Some (Op w (St _ b o)) => Some (wadd 64 (reg c (rb b)) (N.of_nat o * (w / 8)))
  | _ => None
  end.
(** The observations of the first [n] instructions; shorter if the program faults or ends before *)
Fixpoint observed (rd wr : list (N * N)) (prog : list asm) (n : nat) (c : cpu) : list (nat * option N) :=
  match n with
  | O => []
  | S n =>
    match step rd wr prog c with
    | None => []
    | Some c' => (pc c, address prog c) :: observed rd wr prog n c'
    end
  end.
