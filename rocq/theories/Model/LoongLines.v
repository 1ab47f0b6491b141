(** The round lines of the LoongArch64 back ends (generated by tools/gen_loong.py
    from the source text), in the order in which they are assembled. *)
From Verif Require Import Base.Words Model.Loong.

Section Sha256.
Local Notation rounda := (rounda sha256_asm).
Local Notation roundb := (roundb sha256_asm).
(** sha2/src/sha256/loongarch64_asm.rs 104-167 *)
Definition lines256 : list (list instr) :=
  [rounda 0 t0 t1 t2 t3 t4 t5 t6 t7;
   rounda 1 t7 t0 t1 t2 t3 t4 t5 t6;
   rounda 2 t6 t7 t0 t1 t2 t3 t4 t5;
   rounda 3 t5 t6 t7 t0 t1 t2 t3 t4;
   rounda 4 t4 t5 t6 t7 t0 t1 t2 t3;
   rounda 5 t3 t4 t5 t6 t7 t0 t1 t2;
   rounda 6 t2 t3 t4 t5 t6 t7 t0 t1;
   rounda 7 t1 t2 t3 t4 t5 t6 t7 t0;
   rounda 8 t0 t1 t2 t3 t4 t5 t6 t7;
   rounda 9 t7 t0 t1 t2 t3 t4 t5 t6;
   rounda 10 t6 t7 t0 t1 t2 t3 t4 t5;
   rounda 11 t5 t6 t7 t0 t1 t2 t3 t4;
   rounda 12 t4 t5 t6 t7 t0 t1 t2 t3;
   rounda 13 t3 t4 t5 t6 t7 t0 t1 t2;
   rounda 14 t2 t3 t4 t5 t6 t7 t0 t1;
   rounda 15 t1 t2 t3 t4 t5 t6 t7 t0;
   roundb 16 t0 t1 t2 t3 t4 t5 t6 t7;
   roundb 17 t7 t0 t1 t2 t3 t4 t5 t6;
   roundb 18 t6 t7 t0 t1 t2 t3 t4 t5;
   roundb 19 t5 t6 t7 t0 t1 t2 t3 t4;
   roundb 20 t4 t5 t6 t7 t0 t1 t2 t3;
   roundb 21 t3 t4 t5 t6 t7 t0 t1 t2;
   roundb 22 t2 t3 t4 t5 t6 t7 t0 t1;
   roundb 23 t1 t2 t3 t4 t5 t6 t7 t0;
   roundb 24 t0 t1 t2 t3 t4 t5 t6 t7;
   roundb 25 t7 t0 t1 t2 t3 t4 t5 t6;
   roundb 26 t6 t7 t0 t1 t2 t3 t4 t5;
   roundb 27 t5 t6 t7 t0 t1 t2 t3 t4;
   roundb 28 t4 t5 t6 t7 t0 t1 t2 t3;
   roundb 29 t3 t4 t5 t6 t7 t0 t1 t2;
   roundb 30 t2 t3 t4 t5 t6 t7 t0 t1;
   roundb 31 t1 t2 t3 t4 t5 t6 t7 t0;
   roundb 32 t0 t1 t2 t3 t4 t5 t6 t7;
   roundb 33 t7 t0 t1 t2 t3 t4 t5 t6;
   roundb 34 t6 t7 t0 t1 t2 t3 t4 t5;
   roundb 35 t5 t6 t7 t0 t1 t2 t3 t4;
   roundb 36 t4 t5 t6 t7 t0 t1 t2 t3;
   roundb 37 t3 t4 t5 t6 t7 t0 t1 t2;
   roundb 38 t2 t3 t4 t5 t6 t7 t0 t1;
   roundb 39 t1 t2 t3 t4 t5 t6 t7 t0;
   roundb 40 t0 t1 t2 t3 t4 t5 t6 t7;
   roundb 41 t7 t0 t1 t2 t3 t4 t5 t6;
   roundb 42 t6 t7 t0 t1 t2 t3 t4 t5;
   roundb 43 t5 t6 t7 t0 t1 t2 t3 t4;
   roundb 44 t4 t5 t6 t7 t0 t1 t2 t3;
   roundb 45 t3 t4 t5 t6 t7 t0 t1 t2;
   roundb 46 t2 t3 t4 t5 t6 t7 t0 t1;
   roundb 47 t1 t2 t3 t4 t5 t6 t7 t0;
   roundb 48 t0 t1 t2 t3 t4 t5 t6 t7;
   roundb 49 t7 t0 t1 t2 t3 t4 t5 t6;
   roundb 50 t6 t7 t0 t1 t2 t3 t4 t5;
   roundb 51 t5 t6 t7 t0 t1 t2 t3 t4;
   roundb 52 t4 t5 t6 t7 t0 t1 t2 t3;
   roundb 53 t3 t4 t5 t6 t7 t0 t1 t2;
   roundb 54 t2 t3 t4 t5 t6 t7 t0 t1;
   roundb 55 t1 t2 t3 t4 t5 t6 t7 t0;
   roundb 56 t0 t1 t2 t3 t4 t5 t6 t7;
   roundb 57 t7 t0 t1 t2 t3 t4 t5 t6;
   roundb 58 t6 t7 t0 t1 t2 t3 t4 t5;
   roundb 59 t5 t6 t7 t0 t1 t2 t3 t4;
   roundb 60 t4 t5 t6 t7 t0 t1 t2 t3;
   roundb 61 t3 t4 t5 t6 t7 t0 t1 t2;
   roundb 62 t2 t3 t4 t5 t6 t7 t0 t1;
   roundb 63 t1 t2 t3 t4 t5 t6 t7 t0].

End Sha256.

Section Sha512.
Local Notation rounda := (rounda sha512_asm).
Local Notation roundb := (roundb sha512_asm).
(** sha2/src/sha512/loongarch64_asm.rs 103-182 *)
Definition lines512 : list (list instr) :=
  [rounda 0 t0 t1 t2 t3 t4 t5 t6 t7;
   rounda 1 t7 t0 t1 t2 t3 t4 t5 t6;
   rounda 2 t6 t7 t0 t1 t2 t3 t4 t5;
   rounda 3 t5 t6 t7 t0 t1 t2 t3 t4;
   rounda 4 t4 t5 t6 t7 t0 t1 t2 t3;
   rounda 5 t3 t4 t5 t6 t7 t0 t1 t2;
   rounda 6 t2 t3 t4 t5 t6 t7 t0 t1;
   rounda 7 t1 t2 t3 t4 t5 t6 t7 t0;
   rounda 8 t0 t1 t2 t3 t4 t5 t6 t7;
   rounda 9 t7 t0 t1 t2 t3 t4 t5 t6;
   rounda 10 t6 t7 t0 t1 t2 t3 t4 t5;
   rounda 11 t5 t6 t7 t0 t1 t2 t3 t4;
   rounda 12 t4 t5 t6 t7 t0 t1 t2 t3;
   rounda 13 t3 t4 t5 t6 t7 t0 t1 t2;
   rounda 14 t2 t3 t4 t5 t6 t7 t0 t1;
   rounda 15 t1 t2 t3 t4 t5 t6 t7 t0;
   roundb 16 t0 t1 t2 t3 t4 t5 t6 t7;
   roundb 17 t7 t0 t1 t2 t3 t4 t5 t6;
   roundb 18 t6 t7 t0 t1 t2 t3 t4 t5;
   roundb 19 t5 t6 t7 t0 t1 t2 t3 t4;
   roundb 20 t4 t5 t6 t7 t0 t1 t2 t3;
   roundb 21 t3 t4 t5 t6 t7 t0 t1 t2;
   roundb 22 t2 t3 t4 t5 t6 t7 t0 t1;
   roundb 23 t1 t2 t3 t4 t5 t6 t7 t0;
   roundb 24 t0 t1 t2 t3 t4 t5 t6 t7;
   roundb 25 t7 t0 t1 t2 t3 t4 t5 t6;
   roundb 26 t6 t7 t0 t1 t2 t3 t4 t5;
   roundb 27 t5 t6 t7 t0 t1 t2 t3 t4;
   roundb 28 t4 t5 t6 t7 t0 t1 t2 t3;
   roundb 29 t3 t4 t5 t6 t7 t0 t1 t2;
   roundb 30 t2 t3 t4 t5 t6 t7 t0 t1;
   roundb 31 t1 t2 t3 t4 t5 t6 t7 t0;
   roundb 32 t0 t1 t2 t3 t4 t5 t6 t7;
   roundb 33 t7 t0 t1 t2 t3 t4 t5 t6;
   roundb 34 t6 t7 t0 t1 t2 t3 t4 t5;
   roundb 35 t5 t6 t7 t0 t1 t2 t3 t4;
   roundb 36 t4 t5 t6 t7 t0 t1 t2 t3;
   roundb 37 t3 t4 t5 t6 t7 t0 t1 t2;
   roundb 38 t2 t3 t4 t5 t6 t7 t0 t1;
   roundb 39 t1 t2 t3 t4 t5 t6 t7 t0;
   roundb 40 t0 t1 t2 t3 t4 t5 t6 t7;
   roundb 41 t7 t0 t1 t2 t3 t4 t5 t6;
   roundb 42 t6 t7 t0 t1 t2 t3 t4 t5;
   roundb 43 t5 t6 t7 t0 t1 t2 t3 t4;
   roundb 44 t4 t5 t6 t7 t0 t1 t2 t3;
   roundb 45 t3 t4 t5 t6 t7 t0 t1 t2;
   roundb 46 t2 t3 t4 t5 t6 t7 t0 t1;
   roundb 47 t1 t2 t3 t4 t5 t6 t7 t0;
   roundb 48 t0 t1 t2 t3 t4 t5 t6 t7;
   roundb 49 t7 t0 t1 t2 t3 t4 t5 t6;
   roundb 50 t6 t7 t0 t1 t2 t3 t4 t5;
   roundb 51 t5 t6 t7 t0 t1 t2 t3 t4;
   roundb 52 t4 t5 t6 t7 t0 t1 t2 t3;
   roundb 53 t3 t4 t5 t6 t7 t0 t1 t2;
   roundb 54 t2 t3 t4 t5 t6 t7 t0 t1;
   roundb 55 t1 t2 t3 t4 t5 t6 t7 t0;
   roundb 56 t0 t1 t2 t3 t4 t5 t6 t7;
   roundb 57 t7 t0 t1 t2 t3 t4 t5 t6;
   roundb 58 t6 t7 t0 t1 t2 t3 t4 t5;
   roundb 59 t5 t6 t7 t0 t1 t2 t3 t4;
   roundb 60 t4 t5 t6 t7 t0 t1 t2 t3;
   roundb 61 t3 t4 t5 t6 t7 t0 t1 t2;
   roundb 62 t2 t3 t4 t5 t6 t7 t0 t1;
   roundb 63 t1 t2 t3 t4 t5 t6 t7 t0;
   roundb 64 t0 t1 t2 t3 t4 t5 t6 t7;
   roundb 65 t7 t0 t1 t2 t3 t4 t5 t6;
   roundb 66 t6 t7 t0 t1 t2 t3 t4 t5;
   roundb 67 t5 t6 t7 t0 t1 t2 t3 t4;
   roundb 68 t4 t5 t6 t7 t0 t1 t2 t3;
   roundb 69 t3 t4 t5 t6 t7 t0 t1 t2;
   roundb 70 t2 t3 t4 t5 t6 t7 t0 t1;
   roundb 71 t1 t2 t3 t4 t5 t6 t7 t0;
   roundb 72 t0 t1 t2 t3 t4 t5 t6 t7;
   roundb 73 t7 t0 t1 t2 t3 t4 t5 t6;
   roundb 74 t6 t7 t0 t1 t2 t3 t4 t5;
   roundb 75 t5 t6 t7 t0 t1 t2 t3 t4;
   roundb 76 t4 t5 t6 t7 t0 t1 t2 t3;
   roundb 77 t3 t4 t5 t6 t7 t0 t1 t2;
   roundb 78 t2 t3 t4 t5 t6 t7 t0 t1;
   roundb 79 t1 t2 t3 t4 t5 t6 t7 t0].

End Sha512.

(** sha1/src/compress/loongarch64_asm.rs 123-202 *)
Definition lines1 : list (list instr) :=
  [round0a t0 t1 t2 t3 t4 0;
   round0a t4 t0 t1 t2 t3 1;
   round0a t3 t4 t0 t1 t2 2;
   round0a t2 t3 t4 t0 t1 3;
   round0a t1 t2 t3 t4 t0 4;
   round0a t0 t1 t2 t3 t4 5;
   round0a t4 t0 t1 t2 t3 6;
   round0a t3 t4 t0 t1 t2 7;
   round0a t2 t3 t4 t0 t1 8;
   round0a t1 t2 t3 t4 t0 9;
   round0a t0 t1 t2 t3 t4 10;
   round0a t4 t0 t1 t2 t3 11;
   round0a t3 t4 t0 t1 t2 12;
   round0a t2 t3 t4 t0 t1 13;
   round0a t1 t2 t3 t4 t0 14;
   round0a t0 t1 t2 t3 t4 15;
   round0b t4 t0 t1 t2 t3 16;
   round0b t3 t4 t0 t1 t2 17;
   round0b t2 t3 t4 t0 t1 18;
   round0b t1 t2 t3 t4 t0 19;
   round1 t0 t1 t2 t3 t4 20;
   round1 t4 t0 t1 t2 t3 21;
   round1 t3 t4 t0 t1 t2 22;
   round1 t2 t3 t4 t0 t1 23;
   round1 t1 t2 t3 t4 t0 24;
   round1 t0 t1 t2 t3 t4 25;
   round1 t4 t0 t1 t2 t3 26;
   round1 t3 t4 t0 t1 t2 27;
   round1 t2 t3 t4 t0 t1 28;
   round1 t1 t2 t3 t4 t0 29;
   round1 t0 t1 t2 t3 t4 30;
   round1 t4 t0 t1 t2 t3 31;
   round1 t3 t4 t0 t1 t2 32;
   round1 t2 t3 t4 t0 t1 33;
   round1 t1 t2 t3 t4 t0 34;
   round1 t0 t1 t2 t3 t4 35;
   round1 t4 t0 t1 t2 t3 36;
   round1 t3 t4 t0 t1 t2 37;
   round1 t2 t3 t4 t0 t1 38;
   round1 t1 t2 t3 t4 t0 39;
   round2 t0 t1 t2 t3 t4 40;
   round2 t4 t0 t1 t2 t3 41;
   round2 t3 t4 t0 t1 t2 42;
   round2 t2 t3 t4 t0 t1 43;
   round2 t1 t2 t3 t4 t0 44;
   round2 t0 t1 t2 t3 t4 45;
   round2 t4 t0 t1 t2 t3 46;
   round2 t3 t4 t0 t1 t2 47;
   round2 t2 t3 t4 t0 t1 48;
   round2 t1 t2 t3 t4 t0 49;
   round2 t0 t1 t2 t3 t4 50;
   round2 t4 t0 t1 t2 t3 51;
   round2 t3 t4 t0 t1 t2 52;
   round2 t2 t3 t4 t0 t1 53;
   round2 t1 t2 t3 t4 t0 54;
   round2 t0 t1 t2 t3 t4 55;
   round2 t4 t0 t1 t2 t3 56;
   round2 t3 t4 t0 t1 t2 57;
   round2 t2 t3 t4 t0 t1 58;
   round2 t1 t2 t3 t4 t0 59;
   round3 t0 t1 t2 t3 t4 60;
   round3 t4 t0 t1 t2 t3 61;
   round3 t3 t4 t0 t1 t2 62;
   round3 t2 t3 t4 t0 t1 63;
   round3 t1 t2 t3 t4 t0 64;
   round3 t0 t1 t2 t3 t4 65;
   round3 t4 t0 t1 t2 t3 66;
   round3 t3 t4 t0 t1 t2 67;
   round3 t2 t3 t4 t0 t1 68;
   round3 t1 t2 t3 t4 t0 69;
   round3 t0 t1 t2 t3 t4 70;
   round3 t4 t0 t1 t2 t3 71;
   round3 t3 t4 t0 t1 t2 72;
   round3 t2 t3 t4 t0 t1 73;
   round3 t1 t2 t3 t4 t0 74;
   round3 t0 t1 t2 t3 t4 75;
   round3 t4 t0 t1 t2 t3 76;
   round3 t3 t4 t0 t1 t2 77;
   round3 t2 t3 t4 t0 t1 78;
   round3 t1 t2 t3 t4 t0 79].

(** md5/src/compress/loongarch64_asm.rs 80-146 *)
Definition lines5 : list (list instr) :=
  [md5_round0 t0 t1 t2 t3 0 7 0;
   md5_round0 t3 t0 t1 t2 1 12 1;
   md5_round0 t2 t3 t0 t1 2 17 2;
   md5_round0 t1 t2 t3 t0 3 22 3;
   md5_round0 t0 t1 t2 t3 4 7 4;
   md5_round0 t3 t0 t1 t2 5 12 5;
   md5_round0 t2 t3 t0 t1 6 17 6;
   md5_round0 t1 t2 t3 t0 7 22 7;
   md5_round0 t0 t1 t2 t3 8 7 8;
   md5_round0 t3 t0 t1 t2 9 12 9;
   md5_round0 t2 t3 t0 t1 10 17 10;
   md5_round0 t1 t2 t3 t0 11 22 11;
   md5_round0 t0 t1 t2 t3 12 7 12;
   md5_round0 t3 t0 t1 t2 13 12 13;
   md5_round0 t2 t3 t0 t1 14 17 14;
   md5_round0 t1 t2 t3 t0 15 22 15;
   md5_round1 t0 t1 t2 t3 1 5 16;
   md5_round1 t3 t0 t1 t2 6 9 17;
   md5_round1 t2 t3 t0 t1 11 14 18;
   md5_round1 t1 t2 t3 t0 0 20 19;
   md5_round1 t0 t1 t2 t3 5 5 20;
   md5_round1 t3 t0 t1 t2 10 9 21;
   md5_round1 t2 t3 t0 t1 15 14 22;
   md5_round1 t1 t2 t3 t0 4 20 23;
   md5_round1 t0 t1 t2 t3 9 5 24;
   md5_round1 t3 t0 t1 t2 14 9 25;
   md5_round1 t2 t3 t0 t1 3 14 26;
   md5_round1 t1 t2 t3 t0 8 20 27;
   md5_round1 t0 t1 t2 t3 13 5 28;
   md5_round1 t3 t0 t1 t2 2 9 29;
   md5_round1 t2 t3 t0 t1 7 14 30;
   md5_round1 t1 t2 t3 t0 12 20 31;
   md5_round2 t0 t1 t2 t3 5 4 32;
   md5_round2 t3 t0 t1 t2 8 11 33;
   md5_round2 t2 t3 t0 t1 11 16 34;
   md5_round2 t1 t2 t3 t0 14 23 35;
   md5_round2 t0 t1 t2 t3 1 4 36;
   md5_round2 t3 t0 t1 t2 4 11 37;
   md5_round2 t2 t3 t0 t1 7 16 38;
   md5_round2 t1 t2 t3 t0 10 23 39;
   md5_round2 t0 t1 t2 t3 13 4 40;
   md5_round2 t3 t0 t1 t2 0 11 41;
   md5_round2 t2 t3 t0 t1 3 16 42;
   md5_round2 t1 t2 t3 t0 6 23 43;
   md5_round2 t0 t1 t2 t3 9 4 44;
   md5_round2 t3 t0 t1 t2 12 11 45;
   md5_round2 t2 t3 t0 t1 15 16 46;
   md5_round2 t1 t2 t3 t0 2 23 47;
   md5_round3 t0 t1 t2 t3 0 6 48;
   md5_round3 t3 t0 t1 t2 7 10 49;
   md5_round3 t2 t3 t0 t1 14 15 50;
   md5_round3 t1 t2 t3 t0 5 21 51;
   md5_round3 t0 t1 t2 t3 12 6 52;
   md5_round3 t3 t0 t1 t2 3 10 53;
   md5_round3 t2 t3 t0 t1 10 15 54;
   md5_round3 t1 t2 t3 t0 1 21 55;
   md5_round3 t0 t1 t2 t3 8 6 56;
   md5_round3 t3 t0 t1 t2 15 10 57;
   md5_round3 t2 t3 t0 t1 6 15 58;
   md5_round3 t1 t2 t3 t0 13 21 59;
   md5_round3 t0 t1 t2 t3 4 6 60;
   md5_round3 t3 t0 t1 t2 11 10 61;
   md5_round3 t2 t3 t0 t1 2 15 62;
   md5_round3 t1 t2 t3 t0 9 21 63].

