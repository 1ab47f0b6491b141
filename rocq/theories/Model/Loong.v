(** Model of the LoongArch64 assembly back ends of the sha1, sha2 and md5 crates:
    the instructions they use, the assembly macros, and the blocks around them.
    References: 256 = sha2/src/sha256/loongarch64_asm.rs, 512 =
    sha2/src/sha512/loongarch64_asm.rs, 1 = sha1/src/compress/loongarch64_asm.rs,
    5 = md5/src/compress/loongarch64_asm.rs. *)
From Verif Require Import Base.Words Base.Bytes Base.Codec Model.Sha2Consts.

(** Registers: $t0-$t8 and $a4-$a7.  For the [.w] programs a register is
    represented by its low 32 bits: every instruction used computes the low 32
    bits of its result from the low 32 bits of its operands. *)
Definition t0 : nat := 0.  Definition t1 : nat := 1.  Definition t2 : nat := 2.
Definition t3 : nat := 3.  Definition t4 : nat := 4.  Definition t5 : nat := 5.
Definition t6 : nat := 6.  Definition t7 : nat := 7.  Definition t8 : nat := 8.
Definition a4 : nat := 9.  Definition a5 : nat := 10. Definition a6 : nat := 11.
Definition a7 : nat := 12.

(** Memory is four separate arrays of words, named by their base register:
    $a0 the hash state, $a1 the current block, $a3 the constants, $sp the
    sixteen-word scratch area.  Offsets are given in words. *)
Inductive base := A0 | A1 | A3 | SP.
Inductive instr :=
| Ld (rd : nat) (b : base) (i : nat)      (* ld.w / ld.d *)
| St (rs : nat) (b : base) (i : nat)      (* st.w / st.d *)
| Revb2h (rd rj : nat)                    (* revb.2h: swap the bytes of each half-word *)
| RevbD (rd rj : nat)                     (* revb.d: reverse the eight bytes *)
| Rotri (rd rj : nat) (n : N)             (* rotri.w / rotri.d *)
| Srli (rd rj : nat) (n : N)              (* srli.w / srli.d *)
| Xor (rd rj rk : nat) | And (rd rj rk : nat) | Or (rd rj rk : nat)
| Andn (rd rj rk : nat) | Orn (rd rj rk : nat)   (* the second operand complemented *)
| Move (rd rj : nat)
| Add (rd rj rk : nat).                   (* add.w / add.d *)

Definition rget (r : list N) (i : nat) : N := nth i r oob.
Definition rset (r : list N) (i : nat) (v : N) : list N := upd r i v.
Definition mget (m : list N) (i : nat) : N := nth i m oob.
Definition mset (m : list N) (i : nat) (v : N) : list N := upd m i v.
(** LoongArch Reference Manual, Volume 1, 2.2.3.8: REVB.2H, REVB.D *)
Definition revb_2h (x : N) : N :=
  match le_bytes 4 x with
  | [b0; b1; b2; b3] => le_val [b1; b0; b3; b2]
  | _ => 0
  end.
Definition revb_d (x : N) : N := be_val (le_bytes 8 x).

Definition machine := (list N * list N * list N)%type.  (* registers, stack, state *)
Definition load (blk K : list N) (m : machine) (b : base) (i : nat) : N :=
  let '(_, stk, st) := m in
  match b with A0 => mget st i | A1 => mget blk i | A3 => mget K i | SP => mget stk i end.
(** LoongArch Reference Manual, Volume 1, chapter 2.2 *)
Definition exec (w : N) (blk K : list N) (m : machine) (i : instr) : machine :=
  let '(r, stk, st) := m in
  match i with
  | Ld rd b o => (rset r rd (load blk K m b o), stk, st)
  | St rs SP o => (r, mset stk o (rget r rs), st)
  | St rs A0 o => (r, stk, mset st o (rget r rs))
  | St _ _ _ => m
  | Revb2h rd rj => (rset r rd (revb_2h (rget r rj)), stk, st)
  | RevbD rd rj => (rset r rd (revb_d (rget r rj)), stk, st)
  | Rotri rd rj n => (rset r rd (rotr w (rget r rj) n), stk, st)
  | Srli rd rj n => (rset r rd (N.shiftr (rget r rj) n), stk, st)
  | Xor rd rj rk => (rset r rd (N.lxor (rget r rj) (rget r rk)), stk, st)
  | And rd rj rk => (rset r rd (N.land (rget r rj) (rget r rk)), stk, st)
  | Or rd rj rk => (rset r rd (N.lor (rget r rj) (rget r rk)), stk, st)
  | Andn rd rj rk => (rset r rd (N.land (rget r rj) (wnot w (rget r rk))), stk, st)
  | Orn rd rj rk => (rset r rd (N.lor (rget r rj) (wnot w (rget r rk))), stk, st)
  | Move rd rj => (rset r rd (rget r rj), stk, st)
  | Add rd rj rk => (rset r rd (wadd w (rget r rj) (rget r rk)), stk, st)
  end.
Definition run (w : N) (blk K : list N) (p : list instr) (m : machine) : machine :=
  fold_left (exec w blk K) p m.

(** * SHA-2: the macros of 256 and of 512 are the same text up to the operand
    size suffix, the byte reversal and the shift amounts. *)
Record sha2_asm := {
  rev_a5 : list instr;
  w15_a : N; w15_s : N; w15_b : N;   (* rotri, srli, rotri on the word 15 back *)
  w2_a : N; w2_s : N; w2_b : N;      (* the same on the word 2 back *)
  e_a : N; e_b : N; e_c : N;         (* the three rotations of $e *)
  a_a : N; a_b : N; a_c : N          (* the three rotations of $a *)
}.
(** 256 13-14, 27-29, 34-36, 49-51, 65-67 *)
Definition sha256_asm : sha2_asm := {|
  rev_a5 := [Revb2h a5 a5; Rotri a5 a5 16];
  w15_a := 18; w15_s := 3; w15_b := 7; w2_a := 19; w2_s := 10; w2_b := 17;
  e_a := 11; e_b := 25; e_c := 6; a_a := 13; a_b := 22; a_c := 2 |}.
(** 512 13, 26-28, 33-35, 48-50, 64-66 *)
Definition sha512_asm : sha2_asm := {|
  rev_a5 := [RevbD a5 a5];
  w15_a := 8; w15_s := 7; w15_b := 1; w2_a := 61; w2_s := 6; w2_b := 19;
  e_a := 18; e_b := 41; e_c := 14; a_a := 39; a_b := 34; a_c := 28 |}.

(** 256 45-79, 512 44-78 *)
Definition roundtail (S : sha2_asm) (i a b c d e f g h : nat) : list instr :=
  [Rotri a6 e (e_a S);
   Rotri a7 e (e_b S);
   Rotri a4 e (e_c S);
   Xor a6 a6 a7;
   Xor a4 a4 a6;
   Xor a6 g f;
   Ld a7 A3 i;
   And a6 a6 e;
   Xor a6 a6 g;
   Add a4 a4 a6;
   Add a4 a4 a7;
   Add h h a5;
   Add h h a4;
   Add d d h;
   Rotri a6 a (a_a S);
   Rotri a7 a (a_b S);
   Rotri a4 a (a_c S);
   Xor a6 a6 a7;
   Xor a4 a4 a6;
   Add h h a4;
   Or a4 c b;
   And a6 c b;
   And a4 a4 a;
   Or a4 a4 a6;
   Add h h a4;
   St a5 SP (i mod 16)].
(** 256 9-18, 512 9-17 *)
Definition rounda (S : sha2_asm) (i a b c d e f g h : nat) : list instr :=
  [Ld a5 A1 i] ++ rev_a5 S ++ roundtail S i a b c d e f g h.
(** 256 20-43, 512 19-42 *)
Definition roundb (S : sha2_asm) (i a b c d e f g h : nat) : list instr :=
  [Ld a4 SP ((i - 15) mod 16);
   Ld a5 SP ((i - 16) mod 16);
   Ld a6 SP ((i - 7) mod 16);
   Add a5 a5 a6;
   Rotri a6 a4 (w15_a S);
   Srli a7 a4 (w15_s S);
   Rotri a4 a4 (w15_b S);
   Xor a6 a6 a7;
   Xor a4 a4 a6;
   Add a5 a5 a4;
   Ld a4 SP ((i - 2) mod 16);
   Rotri a6 a4 (w2_a S);
   Srli a7 a4 (w2_s S);
   Rotri a4 a4 (w2_b S);
   Xor a6 a6 a7;
   Xor a4 a4 a6;
   Add a5 a5 a4] ++ roundtail S i a b c d e f g h.

(** 256 92-99, 512 91-98 *)
Definition load_state : list instr :=
  [Ld t0 A0 0; Ld t1 A0 1; Ld t2 A0 2; Ld t3 A0 3; Ld t4 A0 4; Ld t5 A0 5; Ld t6 A0 6; Ld t7 A0 7].
(** 256 170-195, 512 185-210 *)
Definition update_state : list instr :=
  [Ld a4 A0 0; Ld a5 A0 1; Ld a6 A0 2; Ld a7 A0 3;
   Add t0 t0 a4; Add t1 t1 a5; Add t2 t2 a6; Add t3 t3 a7;
   Ld a4 A0 4; Ld a5 A0 5; Ld a6 A0 6; Ld a7 A0 7;
   Add t4 t4 a4; Add t5 t5 a5; Add t6 t6 a6; Add t7 t7 a7;
   St t0 A0 0; St t1 A0 1; St t2 A0 2; St t3 A0 3; St t4 A0 4; St t5 A0 5; St t6 A0 6; St t7 A0 7].

(** The loop: 256 81-227, 512 80-242, 1 104-254.  [regs] and [stk] are the
    unknown contents of the registers and of the scratch area on entry.  An
    empty slice returns at once; otherwise the loop body runs once per block
    ($a1 advances by one block, $a2 counts down to zero). *)
Definition compress_asm (w : N) (k : nat) (K : list N) (start body finish : list instr)
    (regs stk state : list N) (blocks : list bytes) : list N :=
  match blocks with
  | [] => state
  | _ =>
    let m := run w [] K start (regs, stk, state) in
    let '(_, _, state) := fold_left (fun m block =>
      run w (words_of_le k block) K finish (run w (words_of_le k block) K body m)) blocks m in
    state
  end.

(** * SHA-1 *)
(** 1 92-102 *)
Definition roundtail1 (a b e k : nat) : list instr :=
  [Rotri b b 2; Add e e t5; Add e e k; Rotri t5 a 27; Add e e t5].
(** 1 12-26 *)
Definition round0a (a b c d e i : nat) : list instr :=
  [Ld t5 A1 i; Revb2h t5 t5; Rotri t5 t5 16; Add e e t5; St t5 SP i;
   Xor t5 c d; And t5 t5 b; Xor t5 t5 d] ++ roundtail1 a b e a4.
(** 1 28-43 *)
Definition scheldule (i e : nat) : list instr :=
  [Ld t5 SP ((i - 3) mod 16); Ld t6 SP ((i - 8) mod 16); Ld t7 SP ((i - 14) mod 16); Ld t8 SP ((i - 16) mod 16);
   Xor t5 t5 t6; Xor t5 t5 t7; Xor t5 t5 t8; Rotri t5 t5 31; Add e e t5; St t5 SP (i mod 16)].
(** 1 45-55 *)
Definition round0b (a b c d e i : nat) : list instr :=
  scheldule i e ++ [Xor t5 c d; And t5 t5 b; Xor t5 t5 d] ++ roundtail1 a b e a4.
(** 1 57-66 *)
Definition round1 (a b c d e i : nat) : list instr :=
  scheldule i e ++ [Xor t5 b c; Xor t5 t5 d] ++ roundtail1 a b e a5.
(** 1 68-79 *)
Definition round2 (a b c d e i : nat) : list instr :=
  scheldule i e ++ [Or t5 c d; And t5 t5 b; And t7 c d; Or t5 t5 t7] ++ roundtail1 a b e a6.
(** 1 81-90 *)
Definition round3 (a b c d e i : nat) : list instr :=
  scheldule i e ++ [Xor t5 b c; Xor t5 t5 d] ++ roundtail1 a b e a7.
(** 1 115-119; $a4-$a7 are inputs holding K[0..4] (1 235-238) *)
Definition load_state1 : list instr := [Ld t0 A0 0; Ld t1 A0 1; Ld t2 A0 2; Ld t3 A0 3; Ld t4 A0 4].
(** 1 205-221 *)
Definition update_state1 : list instr :=
  [Ld t5 A0 0; Ld t6 A0 1; Ld t7 A0 2; Ld t8 A0 3; Add t0 t0 t5; Ld t5 A0 4;
   Add t1 t1 t6; Add t2 t2 t7; Add t3 t3 t8; Add t4 t4 t5;
   St t0 A0 0; St t1 A0 1; St t2 A0 2; St t3 A0 3; St t4 A0 4].

(** * MD5 *)
(** 5 51-63 *)
Definition roundtail5 (a b k : nat) (s : N) (i : nat) : list instr :=
  [Ld t5 A3 i; Ld t6 A1 k; Add a a t5; Add a a t6; Add a a t4; Rotri a a (32 - s); Add a a b].
(** 5 9-18 *)
Definition md5_round0 (a b c d k : nat) (s : N) (i : nat) : list instr :=
  [Xor t4 c d; And t4 t4 b; Xor t4 t4 d] ++ roundtail5 a b k s i.
(** 5 20-29 *)
Definition md5_round1 (a b c d k : nat) (s : N) (i : nat) : list instr :=
  [Andn t4 c d; And t5 d b; Or t4 t4 t5] ++ roundtail5 a b k s i.
(** 5 31-39 *)
Definition md5_round2 (a b c d k : nat) (s : N) (i : nat) : list instr :=
  [Xor t4 c d; Xor t4 t4 b] ++ roundtail5 a b k s i.
(** 5 41-49 *)
Definition md5_round3 (a b c d k : nat) (s : N) (i : nat) : list instr :=
  [Orn t4 b d; Xor t4 t4 c] ++ roundtail5 a b k s i.
(** 5 74-77 *)
Definition md5_start : list instr := [Move t0 a4; Move t1 a5; Move t2 a6; Move t3 a7].
(** 5 148-151 *)
Definition md5_finish : list instr := [Add a4 a4 t0; Add a5 a5 t1; Add a6 a6 t2; Add a7 a7 t3].
(** 5 65-178: the state is in $a4-$a7 throughout; [regs] are the unknown contents of $t0-$t8 *)
Definition compress_md5 (K : list N) (body : list instr) (regs state : list N) (blocks : list bytes) : list N :=
  match blocks with
  | [] => state
  | _ =>
    let '(regs, _, _) := fold_left (fun m block =>
      let blk := words_of_le 4 block in
      run 32 blk K md5_finish (run 32 blk K body (run 32 blk K md5_start m))) blocks (regs ++ state, [], []) in
    [rget regs a4; rget regs a5; rget regs a6; rget regs a7]
  end.
