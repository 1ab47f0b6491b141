(** Generated by tools/gen_sha1c.py from sha1-checked/src/ubc_check.rs. *)
From Verif Require Import Base.Words Base.Bytes.

(** ubc_check.rs 9-40 *)
Definition DV_I_43_0_BIT : N := 1.
Definition DV_I_44_0_BIT : N := 2.
Definition DV_I_45_0_BIT : N := 4.
Definition DV_I_46_0_BIT : N := 8.
Definition DV_I_46_2_BIT : N := 16.
Definition DV_I_47_0_BIT : N := 32.
Definition DV_I_47_2_BIT : N := 64.
Definition DV_I_48_0_BIT : N := 128.
Definition DV_I_48_2_BIT : N := 256.
Definition DV_I_49_0_BIT : N := 512.
Definition DV_I_49_2_BIT : N := 1024.
Definition DV_I_50_0_BIT : N := 2048.
Definition DV_I_50_2_BIT : N := 4096.
Definition DV_I_51_0_BIT : N := 8192.
Definition DV_I_51_2_BIT : N := 16384.
Definition DV_I_52_0_BIT : N := 32768.
Definition DV_II_45_0_BIT : N := 65536.
Definition DV_II_46_0_BIT : N := 131072.
Definition DV_II_46_2_BIT : N := 262144.
Definition DV_II_47_0_BIT : N := 524288.
Definition DV_II_48_0_BIT : N := 1048576.
Definition DV_II_49_0_BIT : N := 2097152.
Definition DV_II_49_2_BIT : N := 4194304.
Definition DV_II_50_0_BIT : N := 8388608.
Definition DV_II_50_2_BIT : N := 16777216.
Definition DV_II_51_0_BIT : N := 33554432.
Definition DV_II_51_2_BIT : N := 67108864.
Definition DV_II_52_0_BIT : N := 134217728.
Definition DV_II_53_0_BIT : N := 268435456.
Definition DV_II_54_0_BIT : N := 536870912.
Definition DV_II_55_0_BIT : N := 1073741824.
Definition DV_II_56_0_BIT : N := 2147483648.

(** ubc_check.rs 53-57 *)
Inductive testt := T58 | T65.
(** ubc_check.rs 43-50 *)
Record info := mkInfo { i_testt : testt; i_maskb : N; i_dm : list N }.

(** ubc_check.rs 60-595 *)
Definition SHA1_DVS : list info := [
  mkInfo T58 0 [0x8000000; 0x9800000c; 0xd8000010; 0x8000010; 0xb8000010; 0x98000000; 0x60000000; 8; 0xc0000000; 0x90000014; 0x10000010; 0xb8000014; 0x28000000; 0x20000010; 0x48000000; 0x8000018; 0x60000000; 0x90000010; 0xf0000010; 0x90000008; 0xc0000000; 0x90000010; 0xf0000010; 0xb0000008; 0x40000000; 0x90000000; 0xf0000010; 0x90000018; 0x60000000; 0x90000010; 0x90000010; 0x90000000; 0x80000000; 0x10; 0xa0000000; 0x20000000; 0xa0000000; 0x20000010; 0; 0x20000010; 0x20000000; 0x10; 0x20000000; 0x10; 0xa0000000; 0; 0x20000000; 0x20000000; 0; 0; 0; 0; 0; 0; 0; 0; 0; 0; 1; 0x20; 1; 0x40000002; 0x40000040; 0x40000002; 0x80000004; 0x80000080; 0x80000006; 0x49; 0x103; 0x80000009; 0x80000012; 0x80000202; 0x18; 0x164; 0x408; 0x800000e6; 0x8000004c; 0x803; 0x80000161; 0x80000599];
  mkInfo T58 1 [0xb4000008; 0x8000000; 0x9800000c; 0xd8000010; 0x8000010; 0xb8000010; 0x98000000; 0x60000000; 8; 0xc0000000; 0x90000014; 0x10000010; 0xb8000014; 0x28000000; 0x20000010; 0x48000000; 0x8000018; 0x60000000; 0x90000010; 0xf0000010; 0x90000008; 0xc0000000; 0x90000010; 0xf0000010; 0xb0000008; 0x40000000; 0x90000000; 0xf0000010; 0x90000018; 0x60000000; 0x90000010; 0x90000010; 0x90000000; 0x80000000; 0x10; 0xa0000000; 0x20000000; 0xa0000000; 0x20000010; 0; 0x20000010; 0x20000000; 0x10; 0x20000000; 0x10; 0xa0000000; 0; 0x20000000; 0x20000000; 0; 0; 0; 0; 0; 0; 0; 0; 0; 0; 1; 0x20; 1; 0x40000002; 0x40000040; 0x40000002; 0x80000004; 0x80000080; 0x80000006; 0x49; 0x103; 0x80000009; 0x80000012; 0x80000202; 0x18; 0x164; 0x408; 0x800000e6; 0x8000004c; 0x803; 0x80000161];
  mkInfo T58 2 [0xf4000014; 0xb4000008; 0x8000000; 0x9800000c; 0xd8000010; 0x8000010; 0xb8000010; 0x98000000; 0x60000000; 8; 0xc0000000; 0x90000014; 0x10000010; 0xb8000014; 0x28000000; 0x20000010; 0x48000000; 0x8000018; 0x60000000; 0x90000010; 0xf0000010; 0x90000008; 0xc0000000; 0x90000010; 0xf0000010; 0xb0000008; 0x40000000; 0x90000000; 0xf0000010; 0x90000018; 0x60000000; 0x90000010; 0x90000010; 0x90000000; 0x80000000; 0x10; 0xa0000000; 0x20000000; 0xa0000000; 0x20000010; 0; 0x20000010; 0x20000000; 0x10; 0x20000000; 0x10; 0xa0000000; 0; 0x20000000; 0x20000000; 0; 0; 0; 0; 0; 0; 0; 0; 0; 0; 1; 0x20; 1; 0x40000002; 0x40000040; 0x40000002; 0x80000004; 0x80000080; 0x80000006; 0x49; 0x103; 0x80000009; 0x80000012; 0x80000202; 0x18; 0x164; 0x408; 0x800000e6; 0x8000004c; 0x803];
  mkInfo T58 3 [0x2c000010; 0xf4000014; 0xb4000008; 0x8000000; 0x9800000c; 0xd8000010; 0x8000010; 0xb8000010; 0x98000000; 0x60000000; 8; 0xc0000000; 0x90000014; 0x10000010; 0xb8000014; 0x28000000; 0x20000010; 0x48000000; 0x8000018; 0x60000000; 0x90000010; 0xf0000010; 0x90000008; 0xc0000000; 0x90000010; 0xf0000010; 0xb0000008; 0x40000000; 0x90000000; 0xf0000010; 0x90000018; 0x60000000; 0x90000010; 0x90000010; 0x90000000; 0x80000000; 0x10; 0xa0000000; 0x20000000; 0xa0000000; 0x20000010; 0; 0x20000010; 0x20000000; 0x10; 0x20000000; 0x10; 0xa0000000; 0; 0x20000000; 0x20000000; 0; 0; 0; 0; 0; 0; 0; 0; 0; 0; 1; 0x20; 1; 0x40000002; 0x40000040; 0x40000002; 0x80000004; 0x80000080; 0x80000006; 0x49; 0x103; 0x80000009; 0x80000012; 0x80000202; 0x18; 0x164; 0x408; 0x800000e6; 0x8000004c];
  mkInfo T58 4 [0xb0000040; 0xd0000053; 0xd0000022; 0x20000000; 0x60000032; 0x60000043; 0x20000040; 0xe0000042; 0x60000002; 0x80000001; 0x20; 3; 0x40000052; 0x40000040; 0xe0000052; 0xa0000000; 0x80000040; 0x20000001; 0x20000060; 0x80000001; 0x40000042; 0xc0000043; 0x40000022; 3; 0x40000042; 0xc0000043; 0xc0000022; 1; 0x40000002; 0xc0000043; 0x40000062; 0x80000001; 0x40000042; 0x40000042; 0x40000002; 2; 0x40; 0x80000002; 0x80000000; 0x80000002; 0x80000040; 0; 0x80000040; 0x80000000; 0x40; 0x80000000; 0x40; 0x80000002; 0; 0x80000000; 0x80000000; 0; 0; 0; 0; 0; 0; 0; 0; 0; 0; 4; 0x80; 4; 9; 0x101; 9; 0x12; 0x202; 0x1a; 0x124; 0x40c; 0x26; 0x4a; 0x80a; 0x60; 0x590; 0x1020; 0x39a; 0x132];
  mkInfo T58 5 [0xc8000010; 0x2c000010; 0xf4000014; 0xb4000008; 0x8000000; 0x9800000c; 0xd8000010; 0x8000010; 0xb8000010; 0x98000000; 0x60000000; 8; 0xc0000000; 0x90000014; 0x10000010; 0xb8000014; 0x28000000; 0x20000010; 0x48000000; 0x8000018; 0x60000000; 0x90000010; 0xf0000010; 0x90000008; 0xc0000000; 0x90000010; 0xf0000010; 0xb0000008; 0x40000000; 0x90000000; 0xf0000010; 0x90000018; 0x60000000; 0x90000010; 0x90000010; 0x90000000; 0x80000000; 0x10; 0xa0000000; 0x20000000; 0xa0000000; 0x20000010; 0; 0x20000010; 0x20000000; 0x10; 0x20000000; 0x10; 0xa0000000; 0; 0x20000000; 0x20000000; 0; 0; 0; 0; 0; 0; 0; 0; 0; 0; 1; 0x20; 1; 0x40000002; 0x40000040; 0x40000002; 0x80000004; 0x80000080; 0x80000006; 0x49; 0x103; 0x80000009; 0x80000012; 0x80000202; 0x18; 0x164; 0x408; 0x800000e6];
  mkInfo T58 6 [0x20000043; 0xb0000040; 0xd0000053; 0xd0000022; 0x20000000; 0x60000032; 0x60000043; 0x20000040; 0xe0000042; 0x60000002; 0x80000001; 0x20; 3; 0x40000052; 0x40000040; 0xe0000052; 0xa0000000; 0x80000040; 0x20000001; 0x20000060; 0x80000001; 0x40000042; 0xc0000043; 0x40000022; 3; 0x40000042; 0xc0000043; 0xc0000022; 1; 0x40000002; 0xc0000043; 0x40000062; 0x80000001; 0x40000042; 0x40000042; 0x40000002; 2; 0x40; 0x80000002; 0x80000000; 0x80000002; 0x80000040; 0; 0x80000040; 0x80000000; 0x40; 0x80000000; 0x40; 0x80000002; 0; 0x80000000; 0x80000000; 0; 0; 0; 0; 0; 0; 0; 0; 0; 0; 4; 0x80; 4; 9; 0x101; 9; 0x12; 0x202; 0x1a; 0x124; 0x40c; 0x26; 0x4a; 0x80a; 0x60; 0x590; 0x1020; 0x39a];
  mkInfo T58 7 [0xb800000a; 0xc8000010; 0x2c000010; 0xf4000014; 0xb4000008; 0x8000000; 0x9800000c; 0xd8000010; 0x8000010; 0xb8000010; 0x98000000; 0x60000000; 8; 0xc0000000; 0x90000014; 0x10000010; 0xb8000014; 0x28000000; 0x20000010; 0x48000000; 0x8000018; 0x60000000; 0x90000010; 0xf0000010; 0x90000008; 0xc0000000; 0x90000010; 0xf0000010; 0xb0000008; 0x40000000; 0x90000000; 0xf0000010; 0x90000018; 0x60000000; 0x90000010; 0x90000010; 0x90000000; 0x80000000; 0x10; 0xa0000000; 0x20000000; 0xa0000000; 0x20000010; 0; 0x20000010; 0x20000000; 0x10; 0x20000000; 0x10; 0xa0000000; 0; 0x20000000; 0x20000000; 0; 0; 0; 0; 0; 0; 0; 0; 0; 0; 1; 0x20; 1; 0x40000002; 0x40000040; 0x40000002; 0x80000004; 0x80000080; 0x80000006; 0x49; 0x103; 0x80000009; 0x80000012; 0x80000202; 0x18; 0x164; 0x408];
  mkInfo T58 8 [0xe000002a; 0x20000043; 0xb0000040; 0xd0000053; 0xd0000022; 0x20000000; 0x60000032; 0x60000043; 0x20000040; 0xe0000042; 0x60000002; 0x80000001; 0x20; 3; 0x40000052; 0x40000040; 0xe0000052; 0xa0000000; 0x80000040; 0x20000001; 0x20000060; 0x80000001; 0x40000042; 0xc0000043; 0x40000022; 3; 0x40000042; 0xc0000043; 0xc0000022; 1; 0x40000002; 0xc0000043; 0x40000062; 0x80000001; 0x40000042; 0x40000042; 0x40000002; 2; 0x40; 0x80000002; 0x80000000; 0x80000002; 0x80000040; 0; 0x80000040; 0x80000000; 0x40; 0x80000000; 0x40; 0x80000002; 0; 0x80000000; 0x80000000; 0; 0; 0; 0; 0; 0; 0; 0; 0; 0; 4; 0x80; 4; 9; 0x101; 9; 0x12; 0x202; 0x1a; 0x124; 0x40c; 0x26; 0x4a; 0x80a; 0x60; 0x590; 0x1020];
  mkInfo T58 9 [0x18000000; 0xb800000a; 0xc8000010; 0x2c000010; 0xf4000014; 0xb4000008; 0x8000000; 0x9800000c; 0xd8000010; 0x8000010; 0xb8000010; 0x98000000; 0x60000000; 8; 0xc0000000; 0x90000014; 0x10000010; 0xb8000014; 0x28000000; 0x20000010; 0x48000000; 0x8000018; 0x60000000; 0x90000010; 0xf0000010; 0x90000008; 0xc0000000; 0x90000010; 0xf0000010; 0xb0000008; 0x40000000; 0x90000000; 0xf0000010; 0x90000018; 0x60000000; 0x90000010; 0x90000010; 0x90000000; 0x80000000; 0x10; 0xa0000000; 0x20000000; 0xa0000000; 0x20000010; 0; 0x20000010; 0x20000000; 0x10; 0x20000000; 0x10; 0xa0000000; 0; 0x20000000; 0x20000000; 0; 0; 0; 0; 0; 0; 0; 0; 0; 0; 1; 0x20; 1; 0x40000002; 0x40000040; 0x40000002; 0x80000004; 0x80000080; 0x80000006; 0x49; 0x103; 0x80000009; 0x80000012; 0x80000202; 0x18; 0x164];
  mkInfo T58 10 [0x60000000; 0xe000002a; 0x20000043; 0xb0000040; 0xd0000053; 0xd0000022; 0x20000000; 0x60000032; 0x60000043; 0x20000040; 0xe0000042; 0x60000002; 0x80000001; 0x20; 3; 0x40000052; 0x40000040; 0xe0000052; 0xa0000000; 0x80000040; 0x20000001; 0x20000060; 0x80000001; 0x40000042; 0xc0000043; 0x40000022; 3; 0x40000042; 0xc0000043; 0xc0000022; 1; 0x40000002; 0xc0000043; 0x40000062; 0x80000001; 0x40000042; 0x40000042; 0x40000002; 2; 0x40; 0x80000002; 0x80000000; 0x80000002; 0x80000040; 0; 0x80000040; 0x80000000; 0x40; 0x80000000; 0x40; 0x80000002; 0; 0x80000000; 0x80000000; 0; 0; 0; 0; 0; 0; 0; 0; 0; 0; 4; 0x80; 4; 9; 0x101; 9; 0x12; 0x202; 0x1a; 0x124; 0x40c; 0x26; 0x4a; 0x80a; 0x60; 0x590];
  mkInfo T65 11 [0x800000c; 0x18000000; 0xb800000a; 0xc8000010; 0x2c000010; 0xf4000014; 0xb4000008; 0x8000000; 0x9800000c; 0xd8000010; 0x8000010; 0xb8000010; 0x98000000; 0x60000000; 8; 0xc0000000; 0x90000014; 0x10000010; 0xb8000014; 0x28000000; 0x20000010; 0x48000000; 0x8000018; 0x60000000; 0x90000010; 0xf0000010; 0x90000008; 0xc0000000; 0x90000010; 0xf0000010; 0xb0000008; 0x40000000; 0x90000000; 0xf0000010; 0x90000018; 0x60000000; 0x90000010; 0x90000010; 0x90000000; 0x80000000; 0x10; 0xa0000000; 0x20000000; 0xa0000000; 0x20000010; 0; 0x20000010; 0x20000000; 0x10; 0x20000000; 0x10; 0xa0000000; 0; 0x20000000; 0x20000000; 0; 0; 0; 0; 0; 0; 0; 0; 0; 0; 1; 0x20; 1; 0x40000002; 0x40000040; 0x40000002; 0x80000004; 0x80000080; 0x80000006; 0x49; 0x103; 0x80000009; 0x80000012; 0x80000202; 0x18];
  mkInfo T65 12 [0x20000030; 0x60000000; 0xe000002a; 0x20000043; 0xb0000040; 0xd0000053; 0xd0000022; 0x20000000; 0x60000032; 0x60000043; 0x20000040; 0xe0000042; 0x60000002; 0x80000001; 0x20; 3; 0x40000052; 0x40000040; 0xe0000052; 0xa0000000; 0x80000040; 0x20000001; 0x20000060; 0x80000001; 0x40000042; 0xc0000043; 0x40000022; 3; 0x40000042; 0xc0000043; 0xc0000022; 1; 0x40000002; 0xc0000043; 0x40000062; 0x80000001; 0x40000042; 0x40000042; 0x40000002; 2; 0x40; 0x80000002; 0x80000000; 0x80000002; 0x80000040; 0; 0x80000040; 0x80000000; 0x40; 0x80000000; 0x40; 0x80000002; 0; 0x80000000; 0x80000000; 0; 0; 0; 0; 0; 0; 0; 0; 0; 0; 4; 0x80; 4; 9; 0x101; 9; 0x12; 0x202; 0x1a; 0x124; 0x40c; 0x26; 0x4a; 0x80a; 0x60];
  mkInfo T65 13 [0xe8000000; 0x800000c; 0x18000000; 0xb800000a; 0xc8000010; 0x2c000010; 0xf4000014; 0xb4000008; 0x8000000; 0x9800000c; 0xd8000010; 0x8000010; 0xb8000010; 0x98000000; 0x60000000; 8; 0xc0000000; 0x90000014; 0x10000010; 0xb8000014; 0x28000000; 0x20000010; 0x48000000; 0x8000018; 0x60000000; 0x90000010; 0xf0000010; 0x90000008; 0xc0000000; 0x90000010; 0xf0000010; 0xb0000008; 0x40000000; 0x90000000; 0xf0000010; 0x90000018; 0x60000000; 0x90000010; 0x90000010; 0x90000000; 0x80000000; 0x10; 0xa0000000; 0x20000000; 0xa0000000; 0x20000010; 0; 0x20000010; 0x20000000; 0x10; 0x20000000; 0x10; 0xa0000000; 0; 0x20000000; 0x20000000; 0; 0; 0; 0; 0; 0; 0; 0; 0; 0; 1; 0x20; 1; 0x40000002; 0x40000040; 0x40000002; 0x80000004; 0x80000080; 0x80000006; 0x49; 0x103; 0x80000009; 0x80000012; 0x80000202];
  mkInfo T65 14 [0xa0000003; 0x20000030; 0x60000000; 0xe000002a; 0x20000043; 0xb0000040; 0xd0000053; 0xd0000022; 0x20000000; 0x60000032; 0x60000043; 0x20000040; 0xe0000042; 0x60000002; 0x80000001; 0x20; 3; 0x40000052; 0x40000040; 0xe0000052; 0xa0000000; 0x80000040; 0x20000001; 0x20000060; 0x80000001; 0x40000042; 0xc0000043; 0x40000022; 3; 0x40000042; 0xc0000043; 0xc0000022; 1; 0x40000002; 0xc0000043; 0x40000062; 0x80000001; 0x40000042; 0x40000042; 0x40000002; 2; 0x40; 0x80000002; 0x80000000; 0x80000002; 0x80000040; 0; 0x80000040; 0x80000000; 0x40; 0x80000000; 0x40; 0x80000002; 0; 0x80000000; 0x80000000; 0; 0; 0; 0; 0; 0; 0; 0; 0; 0; 4; 0x80; 4; 9; 0x101; 9; 0x12; 0x202; 0x1a; 0x124; 0x40c; 0x26; 0x4a; 0x80a];
  mkInfo T65 15 [0x4000010; 0xe8000000; 0x800000c; 0x18000000; 0xb800000a; 0xc8000010; 0x2c000010; 0xf4000014; 0xb4000008; 0x8000000; 0x9800000c; 0xd8000010; 0x8000010; 0xb8000010; 0x98000000; 0x60000000; 8; 0xc0000000; 0x90000014; 0x10000010; 0xb8000014; 0x28000000; 0x20000010; 0x48000000; 0x8000018; 0x60000000; 0x90000010; 0xf0000010; 0x90000008; 0xc0000000; 0x90000010; 0xf0000010; 0xb0000008; 0x40000000; 0x90000000; 0xf0000010; 0x90000018; 0x60000000; 0x90000010; 0x90000010; 0x90000000; 0x80000000; 0x10; 0xa0000000; 0x20000000; 0xa0000000; 0x20000010; 0; 0x20000010; 0x20000000; 0x10; 0x20000000; 0x10; 0xa0000000; 0; 0x20000000; 0x20000000; 0; 0; 0; 0; 0; 0; 0; 0; 0; 0; 1; 0x20; 1; 0x40000002; 0x40000040; 0x40000002; 0x80000004; 0x80000080; 0x80000006; 0x49; 0x103; 0x80000009; 0x80000012];
  mkInfo T58 16 [0xec000014; 0xc000002; 0xc0000010; 0xb400001c; 0x2c000004; 0xbc000018; 0xb0000010; 0xc; 0xb8000010; 0x8000018; 0x78000010; 0x8000014; 0x70000010; 0xb800001c; 0xe8000000; 0xb0000004; 0x58000010; 0xb000000c; 0x48000000; 0xb0000000; 0xb8000010; 0x98000010; 0xa0000000; 0; 0; 0x20000000; 0x80000000; 0x10; 0; 0x20000010; 0x20000000; 0x10; 0x60000000; 0x18; 0xe0000000; 0x90000000; 0x30000010; 0xb0000000; 0x20000000; 0x20000000; 0xa0000000; 0x10; 0x80000000; 0x20000000; 0x20000000; 0x20000000; 0x80000000; 0x10; 0; 0x20000010; 0xa0000000; 0; 0x20000000; 0x20000000; 0; 0; 0; 0; 0; 0; 1; 0x20; 1; 0x40000002; 0x40000041; 0x40000022; 0x80000005; 0xc0000082; 0xc0000046; 0x4000004b; 0x80000107; 0x89; 0x14; 0x8000024b; 0x11b; 0x8000016d; 0x8000041a; 0x2e4; 0x80000054; 0x967];
  mkInfo T58 17 [0x2400001c; 0xec000014; 0xc000002; 0xc0000010; 0xb400001c; 0x2c000004; 0xbc000018; 0xb0000010; 0xc; 0xb8000010; 0x8000018; 0x78000010; 0x8000014; 0x70000010; 0xb800001c; 0xe8000000; 0xb0000004; 0x58000010; 0xb000000c; 0x48000000; 0xb0000000; 0xb8000010; 0x98000010; 0xa0000000; 0; 0; 0x20000000; 0x80000000; 0x10; 0; 0x20000010; 0x20000000; 0x10; 0x60000000; 0x18; 0xe0000000; 0x90000000; 0x30000010; 0xb0000000; 0x20000000; 0x20000000; 0xa0000000; 0x10; 0x80000000; 0x20000000; 0x20000000; 0x20000000; 0x80000000; 0x10; 0; 0x20000010; 0xa0000000; 0; 0x20000000; 0x20000000; 0; 0; 0; 0; 0; 0; 1; 0x20; 1; 0x40000002; 0x40000041; 0x40000022; 0x80000005; 0xc0000082; 0xc0000046; 0x4000004b; 0x80000107; 0x89; 0x14; 0x8000024b; 0x11b; 0x8000016d; 0x8000041a; 0x2e4; 0x80000054];
  mkInfo T58 18 [0x90000070; 0xb0000053; 0x30000008; 0x43; 0xd0000072; 0xb0000010; 0xf0000062; 0xc0000042; 0x30; 0xe0000042; 0x20000060; 0xe0000041; 0x20000050; 0xc0000041; 0xe0000072; 0xa0000003; 0xc0000012; 0x60000041; 0xc0000032; 0x20000001; 0xc0000002; 0xe0000042; 0x60000042; 0x80000002; 0; 0; 0x80000000; 2; 0x40; 0; 0x80000040; 0x80000000; 0x40; 0x80000001; 0x60; 0x80000003; 0x40000002; 0xc0000040; 0xc0000002; 0x80000000; 0x80000000; 0x80000002; 0x40; 2; 0x80000000; 0x80000000; 0x80000000; 2; 0x40; 0; 0x80000040; 0x80000002; 0; 0x80000000; 0x80000000; 0; 0; 0; 0; 0; 0; 4; 0x80; 4; 9; 0x105; 0x89; 0x16; 0x20b; 0x11b; 0x12d; 0x41e; 0x224; 0x50; 0x92e; 0x46c; 0x5b6; 0x106a; 0xb90; 0x152];
  mkInfo T58 19 [0x20000010; 0x2400001c; 0xec000014; 0xc000002; 0xc0000010; 0xb400001c; 0x2c000004; 0xbc000018; 0xb0000010; 0xc; 0xb8000010; 0x8000018; 0x78000010; 0x8000014; 0x70000010; 0xb800001c; 0xe8000000; 0xb0000004; 0x58000010; 0xb000000c; 0x48000000; 0xb0000000; 0xb8000010; 0x98000010; 0xa0000000; 0; 0; 0x20000000; 0x80000000; 0x10; 0; 0x20000010; 0x20000000; 0x10; 0x60000000; 0x18; 0xe0000000; 0x90000000; 0x30000010; 0xb0000000; 0x20000000; 0x20000000; 0xa0000000; 0x10; 0x80000000; 0x20000000; 0x20000000; 0x20000000; 0x80000000; 0x10; 0; 0x20000010; 0xa0000000; 0; 0x20000000; 0x20000000; 0; 0; 0; 0; 0; 0; 1; 0x20; 1; 0x40000002; 0x40000041; 0x40000022; 0x80000005; 0xc0000082; 0xc0000046; 0x4000004b; 0x80000107; 0x89; 0x14; 0x8000024b; 0x11b; 0x8000016d; 0x8000041a; 0x2e4];
  mkInfo T58 20 [0xbc00001a; 0x20000010; 0x2400001c; 0xec000014; 0xc000002; 0xc0000010; 0xb400001c; 0x2c000004; 0xbc000018; 0xb0000010; 0xc; 0xb8000010; 0x8000018; 0x78000010; 0x8000014; 0x70000010; 0xb800001c; 0xe8000000; 0xb0000004; 0x58000010; 0xb000000c; 0x48000000; 0xb0000000; 0xb8000010; 0x98000010; 0xa0000000; 0; 0; 0x20000000; 0x80000000; 0x10; 0; 0x20000010; 0x20000000; 0x10; 0x60000000; 0x18; 0xe0000000; 0x90000000; 0x30000010; 0xb0000000; 0x20000000; 0x20000000; 0xa0000000; 0x10; 0x80000000; 0x20000000; 0x20000000; 0x20000000; 0x80000000; 0x10; 0; 0x20000010; 0xa0000000; 0; 0x20000000; 0x20000000; 0; 0; 0; 0; 0; 0; 1; 0x20; 1; 0x40000002; 0x40000041; 0x40000022; 0x80000005; 0xc0000082; 0xc0000046; 0x4000004b; 0x80000107; 0x89; 0x14; 0x8000024b; 0x11b; 0x8000016d; 0x8000041a];
  mkInfo T58 21 [0x3c000004; 0xbc00001a; 0x20000010; 0x2400001c; 0xec000014; 0xc000002; 0xc0000010; 0xb400001c; 0x2c000004; 0xbc000018; 0xb0000010; 0xc; 0xb8000010; 0x8000018; 0x78000010; 0x8000014; 0x70000010; 0xb800001c; 0xe8000000; 0xb0000004; 0x58000010; 0xb000000c; 0x48000000; 0xb0000000; 0xb8000010; 0x98000010; 0xa0000000; 0; 0; 0x20000000; 0x80000000; 0x10; 0; 0x20000010; 0x20000000; 0x10; 0x60000000; 0x18; 0xe0000000; 0x90000000; 0x30000010; 0xb0000000; 0x20000000; 0x20000000; 0xa0000000; 0x10; 0x80000000; 0x20000000; 0x20000000; 0x20000000; 0x80000000; 0x10; 0; 0x20000010; 0xa0000000; 0; 0x20000000; 0x20000000; 0; 0; 0; 0; 0; 0; 1; 0x20; 1; 0x40000002; 0x40000041; 0x40000022; 0x80000005; 0xc0000082; 0xc0000046; 0x4000004b; 0x80000107; 0x89; 0x14; 0x8000024b; 0x11b; 0x8000016d];
  mkInfo T58 22 [0xf0000010; 0xf000006a; 0x80000040; 0x90000070; 0xb0000053; 0x30000008; 0x43; 0xd0000072; 0xb0000010; 0xf0000062; 0xc0000042; 0x30; 0xe0000042; 0x20000060; 0xe0000041; 0x20000050; 0xc0000041; 0xe0000072; 0xa0000003; 0xc0000012; 0x60000041; 0xc0000032; 0x20000001; 0xc0000002; 0xe0000042; 0x60000042; 0x80000002; 0; 0; 0x80000000; 2; 0x40; 0; 0x80000040; 0x80000000; 0x40; 0x80000001; 0x60; 0x80000003; 0x40000002; 0xc0000040; 0xc0000002; 0x80000000; 0x80000000; 0x80000002; 0x40; 2; 0x80000000; 0x80000000; 0x80000000; 2; 0x40; 0; 0x80000040; 0x80000002; 0; 0x80000000; 0x80000000; 0; 0; 0; 0; 0; 0; 4; 0x80; 4; 9; 0x105; 0x89; 0x16; 0x20b; 0x11b; 0x12d; 0x41e; 0x224; 0x50; 0x92e; 0x46c; 0x5b6];
  mkInfo T65 23 [0xb400001c; 0x3c000004; 0xbc00001a; 0x20000010; 0x2400001c; 0xec000014; 0xc000002; 0xc0000010; 0xb400001c; 0x2c000004; 0xbc000018; 0xb0000010; 0xc; 0xb8000010; 0x8000018; 0x78000010; 0x8000014; 0x70000010; 0xb800001c; 0xe8000000; 0xb0000004; 0x58000010; 0xb000000c; 0x48000000; 0xb0000000; 0xb8000010; 0x98000010; 0xa0000000; 0; 0; 0x20000000; 0x80000000; 0x10; 0; 0x20000010; 0x20000000; 0x10; 0x60000000; 0x18; 0xe0000000; 0x90000000; 0x30000010; 0xb0000000; 0x20000000; 0x20000000; 0xa0000000; 0x10; 0x80000000; 0x20000000; 0x20000000; 0x20000000; 0x80000000; 0x10; 0; 0x20000010; 0xa0000000; 0; 0x20000000; 0x20000000; 0; 0; 0; 0; 0; 0; 1; 0x20; 1; 0x40000002; 0x40000041; 0x40000022; 0x80000005; 0xc0000082; 0xc0000046; 0x4000004b; 0x80000107; 0x89; 0x14; 0x8000024b; 0x11b];
  mkInfo T65 24 [0xd0000072; 0xf0000010; 0xf000006a; 0x80000040; 0x90000070; 0xb0000053; 0x30000008; 0x43; 0xd0000072; 0xb0000010; 0xf0000062; 0xc0000042; 0x30; 0xe0000042; 0x20000060; 0xe0000041; 0x20000050; 0xc0000041; 0xe0000072; 0xa0000003; 0xc0000012; 0x60000041; 0xc0000032; 0x20000001; 0xc0000002; 0xe0000042; 0x60000042; 0x80000002; 0; 0; 0x80000000; 2; 0x40; 0; 0x80000040; 0x80000000; 0x40; 0x80000001; 0x60; 0x80000003; 0x40000002; 0xc0000040; 0xc0000002; 0x80000000; 0x80000000; 0x80000002; 0x40; 2; 0x80000000; 0x80000000; 0x80000000; 2; 0x40; 0; 0x80000040; 0x80000002; 0; 0x80000000; 0x80000000; 0; 0; 0; 0; 0; 0; 4; 0x80; 4; 9; 0x105; 0x89; 0x16; 0x20b; 0x11b; 0x12d; 0x41e; 0x224; 0x50; 0x92e; 0x46c];
  mkInfo T65 25 [0xc0000010; 0xb400001c; 0x3c000004; 0xbc00001a; 0x20000010; 0x2400001c; 0xec000014; 0xc000002; 0xc0000010; 0xb400001c; 0x2c000004; 0xbc000018; 0xb0000010; 0xc; 0xb8000010; 0x8000018; 0x78000010; 0x8000014; 0x70000010; 0xb800001c; 0xe8000000; 0xb0000004; 0x58000010; 0xb000000c; 0x48000000; 0xb0000000; 0xb8000010; 0x98000010; 0xa0000000; 0; 0; 0x20000000; 0x80000000; 0x10; 0; 0x20000010; 0x20000000; 0x10; 0x60000000; 0x18; 0xe0000000; 0x90000000; 0x30000010; 0xb0000000; 0x20000000; 0x20000000; 0xa0000000; 0x10; 0x80000000; 0x20000000; 0x20000000; 0x20000000; 0x80000000; 0x10; 0; 0x20000010; 0xa0000000; 0; 0x20000000; 0x20000000; 0; 0; 0; 0; 0; 0; 1; 0x20; 1; 0x40000002; 0x40000041; 0x40000022; 0x80000005; 0xc0000082; 0xc0000046; 0x4000004b; 0x80000107; 0x89; 0x14; 0x8000024b];
  mkInfo T65 26 [0x43; 0xd0000072; 0xf0000010; 0xf000006a; 0x80000040; 0x90000070; 0xb0000053; 0x30000008; 0x43; 0xd0000072; 0xb0000010; 0xf0000062; 0xc0000042; 0x30; 0xe0000042; 0x20000060; 0xe0000041; 0x20000050; 0xc0000041; 0xe0000072; 0xa0000003; 0xc0000012; 0x60000041; 0xc0000032; 0x20000001; 0xc0000002; 0xe0000042; 0x60000042; 0x80000002; 0; 0; 0x80000000; 2; 0x40; 0; 0x80000040; 0x80000000; 0x40; 0x80000001; 0x60; 0x80000003; 0x40000002; 0xc0000040; 0xc0000002; 0x80000000; 0x80000000; 0x80000002; 0x40; 2; 0x80000000; 0x80000000; 0x80000000; 2; 0x40; 0; 0x80000040; 0x80000002; 0; 0x80000000; 0x80000000; 0; 0; 0; 0; 0; 0; 4; 0x80; 4; 9; 0x105; 0x89; 0x16; 0x20b; 0x11b; 0x12d; 0x41e; 0x224; 0x50; 0x92e];
  mkInfo T65 27 [0xc000002; 0xc0000010; 0xb400001c; 0x3c000004; 0xbc00001a; 0x20000010; 0x2400001c; 0xec000014; 0xc000002; 0xc0000010; 0xb400001c; 0x2c000004; 0xbc000018; 0xb0000010; 0xc; 0xb8000010; 0x8000018; 0x78000010; 0x8000014; 0x70000010; 0xb800001c; 0xe8000000; 0xb0000004; 0x58000010; 0xb000000c; 0x48000000; 0xb0000000; 0xb8000010; 0x98000010; 0xa0000000; 0; 0; 0x20000000; 0x80000000; 0x10; 0; 0x20000010; 0x20000000; 0x10; 0x60000000; 0x18; 0xe0000000; 0x90000000; 0x30000010; 0xb0000000; 0x20000000; 0x20000000; 0xa0000000; 0x10; 0x80000000; 0x20000000; 0x20000000; 0x20000000; 0x80000000; 0x10; 0; 0x20000010; 0xa0000000; 0; 0x20000000; 0x20000000; 0; 0; 0; 0; 0; 0; 1; 0x20; 1; 0x40000002; 0x40000041; 0x40000022; 0x80000005; 0xc0000082; 0xc0000046; 0x4000004b; 0x80000107; 0x89; 0x14];
  mkInfo T65 28 [0xcc000014; 0xc000002; 0xc0000010; 0xb400001c; 0x3c000004; 0xbc00001a; 0x20000010; 0x2400001c; 0xec000014; 0xc000002; 0xc0000010; 0xb400001c; 0x2c000004; 0xbc000018; 0xb0000010; 0xc; 0xb8000010; 0x8000018; 0x78000010; 0x8000014; 0x70000010; 0xb800001c; 0xe8000000; 0xb0000004; 0x58000010; 0xb000000c; 0x48000000; 0xb0000000; 0xb8000010; 0x98000010; 0xa0000000; 0; 0; 0x20000000; 0x80000000; 0x10; 0; 0x20000010; 0x20000000; 0x10; 0x60000000; 0x18; 0xe0000000; 0x90000000; 0x30000010; 0xb0000000; 0x20000000; 0x20000000; 0xa0000000; 0x10; 0x80000000; 0x20000000; 0x20000000; 0x20000000; 0x80000000; 0x10; 0; 0x20000010; 0xa0000000; 0; 0x20000000; 0x20000000; 0; 0; 0; 0; 0; 0; 1; 0x20; 1; 0x40000002; 0x40000041; 0x40000022; 0x80000005; 0xc0000082; 0xc0000046; 0x4000004b; 0x80000107; 0x89];
  mkInfo T65 29 [0x400001c; 0xcc000014; 0xc000002; 0xc0000010; 0xb400001c; 0x3c000004; 0xbc00001a; 0x20000010; 0x2400001c; 0xec000014; 0xc000002; 0xc0000010; 0xb400001c; 0x2c000004; 0xbc000018; 0xb0000010; 0xc; 0xb8000010; 0x8000018; 0x78000010; 0x8000014; 0x70000010; 0xb800001c; 0xe8000000; 0xb0000004; 0x58000010; 0xb000000c; 0x48000000; 0xb0000000; 0xb8000010; 0x98000010; 0xa0000000; 0; 0; 0x20000000; 0x80000000; 0x10; 0; 0x20000010; 0x20000000; 0x10; 0x60000000; 0x18; 0xe0000000; 0x90000000; 0x30000010; 0xb0000000; 0x20000000; 0x20000000; 0xa0000000; 0x10; 0x80000000; 0x20000000; 0x20000000; 0x20000000; 0x80000000; 0x10; 0; 0x20000010; 0xa0000000; 0; 0x20000000; 0x20000000; 0; 0; 0; 0; 0; 0; 1; 0x20; 1; 0x40000002; 0x40000041; 0x40000022; 0x80000005; 0xc0000082; 0xc0000046; 0x4000004b; 0x80000107];
  mkInfo T65 30 [0x10; 0x400001c; 0xcc000014; 0xc000002; 0xc0000010; 0xb400001c; 0x3c000004; 0xbc00001a; 0x20000010; 0x2400001c; 0xec000014; 0xc000002; 0xc0000010; 0xb400001c; 0x2c000004; 0xbc000018; 0xb0000010; 0xc; 0xb8000010; 0x8000018; 0x78000010; 0x8000014; 0x70000010; 0xb800001c; 0xe8000000; 0xb0000004; 0x58000010; 0xb000000c; 0x48000000; 0xb0000000; 0xb8000010; 0x98000010; 0xa0000000; 0; 0; 0x20000000; 0x80000000; 0x10; 0; 0x20000010; 0x20000000; 0x10; 0x60000000; 0x18; 0xe0000000; 0x90000000; 0x30000010; 0xb0000000; 0x20000000; 0x20000000; 0xa0000000; 0x10; 0x80000000; 0x20000000; 0x20000000; 0x20000000; 0x80000000; 0x10; 0; 0x20000010; 0xa0000000; 0; 0x20000000; 0x20000000; 0; 0; 0; 0; 0; 0; 1; 0x20; 1; 0x40000002; 0x40000041; 0x40000022; 0x80000005; 0xc0000082; 0xc0000046; 0x4000004b];
  mkInfo T65 31 [0x2600001a; 0x10; 0x400001c; 0xcc000014; 0xc000002; 0xc0000010; 0xb400001c; 0x3c000004; 0xbc00001a; 0x20000010; 0x2400001c; 0xec000014; 0xc000002; 0xc0000010; 0xb400001c; 0x2c000004; 0xbc000018; 0xb0000010; 0xc; 0xb8000010; 0x8000018; 0x78000010; 0x8000014; 0x70000010; 0xb800001c; 0xe8000000; 0xb0000004; 0x58000010; 0xb000000c; 0x48000000; 0xb0000000; 0xb8000010; 0x98000010; 0xa0000000; 0; 0; 0x20000000; 0x80000000; 0x10; 0; 0x20000010; 0x20000000; 0x10; 0x60000000; 0x18; 0xe0000000; 0x90000000; 0x30000010; 0xb0000000; 0x20000000; 0x20000000; 0xa0000000; 0x10; 0x80000000; 0x20000000; 0x20000000; 0x20000000; 0x80000000; 0x10; 0; 0x20000010; 0xa0000000; 0; 0x20000000; 0x20000000; 0; 0; 0; 0; 0; 0; 1; 0x20; 1; 0x40000002; 0x40000041; 0x40000022; 0x80000005; 0xc0000082; 0xc0000046]].

(** ubc_check.rs 602-1077, statement by statement; no operation in it can
    panic (constant shifts below 32, [w] has 80 words). *)
Definition ubc_check (w : list N) : N :=
  let mask := not32 0 in
  assign mask := N.land mask (N.lor (sub32 (N.land (N.shiftr (N.lxor (get w 44) (get w 45)) 29) 1) 1) (not32 (N.lor (N.lor (N.lor (N.lor (N.lor (N.lor DV_I_48_0_BIT DV_I_51_0_BIT) DV_I_52_0_BIT) DV_II_45_0_BIT) DV_II_46_0_BIT) DV_II_50_0_BIT) DV_II_51_0_BIT))) in
  assign mask := N.land mask (N.lor (sub32 (N.land (N.shiftr (N.lxor (get w 49) (get w 50)) 29) 1) 1) (not32 (N.lor (N.lor (N.lor (N.lor (N.lor DV_I_46_0_BIT DV_II_45_0_BIT) DV_II_50_0_BIT) DV_II_51_0_BIT) DV_II_55_0_BIT) DV_II_56_0_BIT))) in
  assign mask := N.land mask (N.lor (sub32 (N.land (N.shiftr (N.lxor (get w 48) (get w 49)) 29) 1) 1) (not32 (N.lor (N.lor (N.lor (N.lor (N.lor DV_I_45_0_BIT DV_I_52_0_BIT) DV_II_49_0_BIT) DV_II_50_0_BIT) DV_II_54_0_BIT) DV_II_55_0_BIT))) in
  assign mask := N.land mask (N.lor (sub32 (N.land (N.lxor (get w 47) (N.shiftr (get w 50) 25)) (wshl 32 1 4)) (wshl 32 1 4)) (not32 (N.lor (N.lor (N.lor (N.lor (N.lor DV_I_47_0_BIT DV_I_49_0_BIT) DV_I_51_0_BIT) DV_II_45_0_BIT) DV_II_51_0_BIT) DV_II_56_0_BIT))) in
  assign mask := N.land mask (N.lor (sub32 (N.land (N.shiftr (N.lxor (get w 47) (get w 48)) 29) 1) 1) (not32 (N.lor (N.lor (N.lor (N.lor (N.lor DV_I_44_0_BIT DV_I_51_0_BIT) DV_II_48_0_BIT) DV_II_49_0_BIT) DV_II_53_0_BIT) DV_II_54_0_BIT))) in
  assign mask := N.land mask (N.lor (sub32 (N.land (N.lxor (N.shiftr (get w 46) 4) (N.shiftr (get w 49) 29)) 1) 1) (not32 (N.lor (N.lor (N.lor (N.lor (N.lor DV_I_46_0_BIT DV_I_48_0_BIT) DV_I_50_0_BIT) DV_I_52_0_BIT) DV_II_50_0_BIT) DV_II_55_0_BIT))) in
  assign mask := N.land mask (N.lor (sub32 (N.land (N.shiftr (N.lxor (get w 46) (get w 47)) 29) 1) 1) (not32 (N.lor (N.lor (N.lor (N.lor (N.lor DV_I_43_0_BIT DV_I_50_0_BIT) DV_II_47_0_BIT) DV_II_48_0_BIT) DV_II_52_0_BIT) DV_II_53_0_BIT))) in
  assign mask := N.land mask (N.lor (sub32 (N.land (N.lxor (N.shiftr (get w 45) 4) (N.shiftr (get w 48) 29)) 1) 1) (not32 (N.lor (N.lor (N.lor (N.lor (N.lor DV_I_45_0_BIT DV_I_47_0_BIT) DV_I_49_0_BIT) DV_I_51_0_BIT) DV_II_49_0_BIT) DV_II_54_0_BIT))) in
  assign mask := N.land mask (N.lor (sub32 (N.land (N.shiftr (N.lxor (get w 45) (get w 46)) 29) 1) 1) (not32 (N.lor (N.lor (N.lor (N.lor (N.lor DV_I_49_0_BIT DV_I_52_0_BIT) DV_II_46_0_BIT) DV_II_47_0_BIT) DV_II_51_0_BIT) DV_II_52_0_BIT))) in
  assign mask := N.land mask (N.lor (sub32 (N.land (N.lxor (N.shiftr (get w 44) 4) (N.shiftr (get w 47) 29)) 1) 1) (not32 (N.lor (N.lor (N.lor (N.lor (N.lor DV_I_44_0_BIT DV_I_46_0_BIT) DV_I_48_0_BIT) DV_I_50_0_BIT) DV_II_48_0_BIT) DV_II_53_0_BIT))) in
  assign mask := N.land mask (N.lor (sub32 (N.land (N.lxor (N.shiftr (get w 43) 4) (N.shiftr (get w 46) 29)) 1) 1) (not32 (N.lor (N.lor (N.lor (N.lor (N.lor DV_I_43_0_BIT DV_I_45_0_BIT) DV_I_47_0_BIT) DV_I_49_0_BIT) DV_II_47_0_BIT) DV_II_52_0_BIT))) in
  assign mask := N.land mask (N.lor (sub32 (N.land (N.shiftr (N.lxor (get w 43) (get w 44)) 29) 1) 1) (not32 (N.lor (N.lor (N.lor (N.lor (N.lor DV_I_47_0_BIT DV_I_50_0_BIT) DV_I_51_0_BIT) DV_II_45_0_BIT) DV_II_49_0_BIT) DV_II_50_0_BIT))) in
  assign mask := N.land mask (N.lor (sub32 (N.land (N.lxor (N.shiftr (get w 42) 4) (N.shiftr (get w 45) 29)) 1) 1) (not32 (N.lor (N.lor (N.lor (N.lor (N.lor DV_I_44_0_BIT DV_I_46_0_BIT) DV_I_48_0_BIT) DV_I_52_0_BIT) DV_II_46_0_BIT) DV_II_51_0_BIT))) in
  assign mask := N.land mask (N.lor (sub32 (N.land (N.lxor (N.shiftr (get w 41) 4) (N.shiftr (get w 44) 29)) 1) 1) (not32 (N.lor (N.lor (N.lor (N.lor (N.lor DV_I_43_0_BIT DV_I_45_0_BIT) DV_I_47_0_BIT) DV_I_51_0_BIT) DV_II_45_0_BIT) DV_II_50_0_BIT))) in
  assign mask := N.land mask (N.lor (sub32 (N.land (N.shiftr (N.lxor (get w 40) (get w 41)) 29) 1) 1) (not32 (N.lor (N.lor (N.lor (N.lor (N.lor DV_I_44_0_BIT DV_I_47_0_BIT) DV_I_48_0_BIT) DV_II_46_0_BIT) DV_II_47_0_BIT) DV_II_56_0_BIT))) in
  assign mask := N.land mask (N.lor (sub32 (N.land (N.shiftr (N.lxor (get w 54) (get w 55)) 29) 1) 1) (not32 (N.lor (N.lor (N.lor (N.lor DV_I_51_0_BIT DV_II_47_0_BIT) DV_II_50_0_BIT) DV_II_55_0_BIT) DV_II_56_0_BIT))) in
  assign mask := N.land mask (N.lor (sub32 (N.land (N.shiftr (N.lxor (get w 53) (get w 54)) 29) 1) 1) (not32 (N.lor (N.lor (N.lor (N.lor DV_I_50_0_BIT DV_II_46_0_BIT) DV_II_49_0_BIT) DV_II_54_0_BIT) DV_II_55_0_BIT))) in
  assign mask := N.land mask (N.lor (sub32 (N.land (N.shiftr (N.lxor (get w 52) (get w 53)) 29) 1) 1) (not32 (N.lor (N.lor (N.lor (N.lor DV_I_49_0_BIT DV_II_45_0_BIT) DV_II_48_0_BIT) DV_II_53_0_BIT) DV_II_54_0_BIT))) in
  assign mask := N.land mask (N.lor (sub32 (N.land (N.lxor (get w 50) (N.shiftr (get w 53) 25)) (wshl 32 1 4)) (wshl 32 1 4)) (not32 (N.lor (N.lor (N.lor (N.lor DV_I_50_0_BIT DV_I_52_0_BIT) DV_II_46_0_BIT) DV_II_48_0_BIT) DV_II_54_0_BIT))) in
  assign mask := N.land mask (N.lor (sub32 (N.land (N.shiftr (N.lxor (get w 50) (get w 51)) 29) 1) 1) (not32 (N.lor (N.lor (N.lor (N.lor DV_I_47_0_BIT DV_II_46_0_BIT) DV_II_51_0_BIT) DV_II_52_0_BIT) DV_II_56_0_BIT))) in
  assign mask := N.land mask (N.lor (sub32 (N.land (N.lxor (get w 49) (N.shiftr (get w 52) 25)) (wshl 32 1 4)) (wshl 32 1 4)) (not32 (N.lor (N.lor (N.lor (N.lor DV_I_49_0_BIT DV_I_51_0_BIT) DV_II_45_0_BIT) DV_II_47_0_BIT) DV_II_53_0_BIT))) in
  assign mask := N.land mask (N.lor (sub32 (N.land (N.lxor (get w 48) (N.shiftr (get w 51) 25)) (wshl 32 1 4)) (wshl 32 1 4)) (not32 (N.lor (N.lor (N.lor (N.lor DV_I_48_0_BIT DV_I_50_0_BIT) DV_I_52_0_BIT) DV_II_46_0_BIT) DV_II_52_0_BIT))) in
  assign mask := N.land mask (N.lor (sub32 (N.land (N.shiftr (N.lxor (get w 42) (get w 43)) 29) 1) 1) (not32 (N.lor (N.lor (N.lor (N.lor DV_I_46_0_BIT DV_I_49_0_BIT) DV_I_50_0_BIT) DV_II_48_0_BIT) DV_II_49_0_BIT))) in
  assign mask := N.land mask (N.lor (sub32 (N.land (N.shiftr (N.lxor (get w 41) (get w 42)) 29) 1) 1) (not32 (N.lor (N.lor (N.lor (N.lor DV_I_45_0_BIT DV_I_48_0_BIT) DV_I_49_0_BIT) DV_II_47_0_BIT) DV_II_48_0_BIT))) in
  assign mask := N.land mask (N.lor (sub32 (N.land (N.lxor (N.shiftr (get w 40) 4) (N.shiftr (get w 43) 29)) 1) 1) (not32 (N.lor (N.lor (N.lor (N.lor DV_I_44_0_BIT DV_I_46_0_BIT) DV_I_50_0_BIT) DV_II_49_0_BIT) DV_II_56_0_BIT))) in
  assign mask := N.land mask (N.lor (sub32 (N.land (N.lxor (N.shiftr (get w 39) 4) (N.shiftr (get w 42) 29)) 1) 1) (not32 (N.lor (N.lor (N.lor (N.lor DV_I_43_0_BIT DV_I_45_0_BIT) DV_I_49_0_BIT) DV_II_48_0_BIT) DV_II_55_0_BIT))) in
  assign mask := if (negb ((N.land mask (N.lor (N.lor (N.lor (N.lor DV_I_44_0_BIT DV_I_48_0_BIT) DV_II_47_0_BIT) DV_II_54_0_BIT) DV_II_56_0_BIT)) =? 0)) then
    assign mask := N.land mask (N.lor (sub32 (N.land (N.lxor (N.shiftr (get w 38) 4) (N.shiftr (get w 41) 29)) 1) 1) (not32 (N.lor (N.lor (N.lor (N.lor DV_I_44_0_BIT DV_I_48_0_BIT) DV_II_47_0_BIT) DV_II_54_0_BIT) DV_II_56_0_BIT))) in
    mask else mask in
  assign mask := N.land mask (N.lor (sub32 (N.land (N.lxor (N.shiftr (get w 37) 4) (N.shiftr (get w 40) 29)) 1) 1) (not32 (N.lor (N.lor (N.lor (N.lor DV_I_43_0_BIT DV_I_47_0_BIT) DV_II_46_0_BIT) DV_II_53_0_BIT) DV_II_55_0_BIT))) in
  assign mask := if (negb ((N.land mask (N.lor (N.lor (N.lor DV_I_52_0_BIT DV_II_48_0_BIT) DV_II_51_0_BIT) DV_II_56_0_BIT)) =? 0)) then
    assign mask := N.land mask (N.lor (sub32 (N.land (N.shiftr (N.lxor (get w 55) (get w 56)) 29) 1) 1) (not32 (N.lor (N.lor (N.lor DV_I_52_0_BIT DV_II_48_0_BIT) DV_II_51_0_BIT) DV_II_56_0_BIT))) in
    mask else mask in
  assign mask := if (negb ((N.land mask (N.lor (N.lor (N.lor DV_I_52_0_BIT DV_II_48_0_BIT) DV_II_50_0_BIT) DV_II_56_0_BIT)) =? 0)) then
    assign mask := N.land mask (N.lor (sub32 (N.land (N.lxor (get w 52) (N.shiftr (get w 55) 25)) (wshl 32 1 4)) (wshl 32 1 4)) (not32 (N.lor (N.lor (N.lor DV_I_52_0_BIT DV_II_48_0_BIT) DV_II_50_0_BIT) DV_II_56_0_BIT))) in
    mask else mask in
  assign mask := if (negb ((N.land mask (N.lor (N.lor (N.lor DV_I_51_0_BIT DV_II_47_0_BIT) DV_II_49_0_BIT) DV_II_55_0_BIT)) =? 0)) then
    assign mask := N.land mask (N.lor (sub32 (N.land (N.lxor (get w 51) (N.shiftr (get w 54) 25)) (wshl 32 1 4)) (wshl 32 1 4)) (not32 (N.lor (N.lor (N.lor DV_I_51_0_BIT DV_II_47_0_BIT) DV_II_49_0_BIT) DV_II_55_0_BIT))) in
    mask else mask in
  assign mask := if (negb ((N.land mask (N.lor (N.lor (N.lor DV_I_48_0_BIT DV_II_47_0_BIT) DV_II_52_0_BIT) DV_II_53_0_BIT)) =? 0)) then
    assign mask := N.land mask (N.lor (sub32 (N.land (N.shiftr (N.lxor (get w 51) (get w 52)) 29) 1) 1) (not32 (N.lor (N.lor (N.lor DV_I_48_0_BIT DV_II_47_0_BIT) DV_II_52_0_BIT) DV_II_53_0_BIT))) in
    mask else mask in
  assign mask := if (negb ((N.land mask (N.lor (N.lor (N.lor DV_I_46_0_BIT DV_I_49_0_BIT) DV_II_45_0_BIT) DV_II_48_0_BIT)) =? 0)) then
    assign mask := N.land mask (N.lor (sub32 (N.land (N.lxor (N.shiftr (get w 36) 4) (N.shiftr (get w 40) 29)) 1) 1) (not32 (N.lor (N.lor (N.lor DV_I_46_0_BIT DV_I_49_0_BIT) DV_II_45_0_BIT) DV_II_48_0_BIT))) in
    mask else mask in
  assign mask := if (negb ((N.land mask (N.lor (N.lor DV_I_52_0_BIT DV_II_48_0_BIT) DV_II_49_0_BIT)) =? 0)) then
    assign mask := N.land mask (N.lor (sub32 0 (N.land (N.shiftr (N.lxor (get w 53) (get w 56)) 29) 1)) (not32 (N.lor (N.lor DV_I_52_0_BIT DV_II_48_0_BIT) DV_II_49_0_BIT))) in
    mask else mask in
  assign mask := if (negb ((N.land mask (N.lor (N.lor DV_I_50_0_BIT DV_II_46_0_BIT) DV_II_47_0_BIT)) =? 0)) then
    assign mask := N.land mask (N.lor (sub32 0 (N.land (N.shiftr (N.lxor (get w 51) (get w 54)) 29) 1)) (not32 (N.lor (N.lor DV_I_50_0_BIT DV_II_46_0_BIT) DV_II_47_0_BIT))) in
    mask else mask in
  assign mask := if (negb ((N.land mask (N.lor (N.lor DV_I_49_0_BIT DV_I_51_0_BIT) DV_II_45_0_BIT)) =? 0)) then
    assign mask := N.land mask (N.lor (sub32 0 (N.land (N.shiftr (N.lxor (get w 50) (get w 52)) 29) 1)) (not32 (N.lor (N.lor DV_I_49_0_BIT DV_I_51_0_BIT) DV_II_45_0_BIT))) in
    mask else mask in
  assign mask := if (negb ((N.land mask (N.lor (N.lor DV_I_48_0_BIT DV_I_50_0_BIT) DV_I_52_0_BIT)) =? 0)) then
    assign mask := N.land mask (N.lor (sub32 0 (N.land (N.shiftr (N.lxor (get w 49) (get w 51)) 29) 1)) (not32 (N.lor (N.lor DV_I_48_0_BIT DV_I_50_0_BIT) DV_I_52_0_BIT))) in
    mask else mask in
  assign mask := if (negb ((N.land mask (N.lor (N.lor DV_I_47_0_BIT DV_I_49_0_BIT) DV_I_51_0_BIT)) =? 0)) then
    assign mask := N.land mask (N.lor (sub32 0 (N.land (N.shiftr (N.lxor (get w 48) (get w 50)) 29) 1)) (not32 (N.lor (N.lor DV_I_47_0_BIT DV_I_49_0_BIT) DV_I_51_0_BIT))) in
    mask else mask in
  assign mask := if (negb ((N.land mask (N.lor (N.lor DV_I_46_0_BIT DV_I_48_0_BIT) DV_I_50_0_BIT)) =? 0)) then
    assign mask := N.land mask (N.lor (sub32 0 (N.land (N.shiftr (N.lxor (get w 47) (get w 49)) 29) 1)) (not32 (N.lor (N.lor DV_I_46_0_BIT DV_I_48_0_BIT) DV_I_50_0_BIT))) in
    mask else mask in
  assign mask := if (negb ((N.land mask (N.lor (N.lor DV_I_45_0_BIT DV_I_47_0_BIT) DV_I_49_0_BIT)) =? 0)) then
    assign mask := N.land mask (N.lor (sub32 0 (N.land (N.shiftr (N.lxor (get w 46) (get w 48)) 29) 1)) (not32 (N.lor (N.lor DV_I_45_0_BIT DV_I_47_0_BIT) DV_I_49_0_BIT))) in
    mask else mask in
  assign mask := N.land mask (N.lor (sub32 (N.land (N.lxor (get w 45) (get w 47)) (wshl 32 1 6)) (wshl 32 1 6)) (not32 (N.lor (N.lor DV_I_47_2_BIT DV_I_49_2_BIT) DV_I_51_2_BIT))) in
  assign mask := if (negb ((N.land mask (N.lor (N.lor DV_I_44_0_BIT DV_I_46_0_BIT) DV_I_48_0_BIT)) =? 0)) then
    assign mask := N.land mask (N.lor (sub32 0 (N.land (N.shiftr (N.lxor (get w 45) (get w 47)) 29) 1)) (not32 (N.lor (N.lor DV_I_44_0_BIT DV_I_46_0_BIT) DV_I_48_0_BIT))) in
    mask else mask in
  assign mask := N.land mask (N.lor (sub32 (N.land (N.shiftr (N.lxor (get w 44) (get w 46)) 6) 1) 1) (not32 (N.lor (N.lor DV_I_46_2_BIT DV_I_48_2_BIT) DV_I_50_2_BIT))) in
  assign mask := if (negb ((N.land mask (N.lor (N.lor DV_I_43_0_BIT DV_I_45_0_BIT) DV_I_47_0_BIT)) =? 0)) then
    assign mask := N.land mask (N.lor (sub32 0 (N.land (N.shiftr (N.lxor (get w 44) (get w 46)) 29) 1)) (not32 (N.lor (N.lor DV_I_43_0_BIT DV_I_45_0_BIT) DV_I_47_0_BIT))) in
    mask else mask in
  assign mask := N.land mask (N.lor (sub32 0 (N.land (N.lxor (get w 41) (N.shiftr (get w 42) 5)) (wshl 32 1 1))) (not32 (N.lor (N.lor DV_I_48_2_BIT DV_II_46_2_BIT) DV_II_51_2_BIT))) in
  assign mask := N.land mask (N.lor (sub32 0 (N.land (N.lxor (get w 40) (N.shiftr (get w 41) 5)) (wshl 32 1 1))) (not32 (N.lor (N.lor DV_I_47_2_BIT DV_I_51_2_BIT) DV_II_50_2_BIT))) in
  assign mask := if (negb ((N.land mask (N.lor (N.lor DV_I_44_0_BIT DV_I_46_0_BIT) DV_II_56_0_BIT)) =? 0)) then
    assign mask := N.land mask (N.lor (sub32 0 (N.land (N.shiftr (N.lxor (get w 40) (get w 42)) 4) 1)) (not32 (N.lor (N.lor DV_I_44_0_BIT DV_I_46_0_BIT) DV_II_56_0_BIT))) in
    mask else mask in
  assign mask := N.land mask (N.lor (sub32 0 (N.land (N.lxor (get w 39) (N.shiftr (get w 40) 5)) (wshl 32 1 1))) (not32 (N.lor (N.lor DV_I_46_2_BIT DV_I_50_2_BIT) DV_II_49_2_BIT))) in
  assign mask := if (negb ((N.land mask (N.lor (N.lor DV_I_43_0_BIT DV_I_45_0_BIT) DV_II_55_0_BIT)) =? 0)) then
    assign mask := N.land mask (N.lor (sub32 0 (N.land (N.shiftr (N.lxor (get w 39) (get w 41)) 4) 1)) (not32 (N.lor (N.lor DV_I_43_0_BIT DV_I_45_0_BIT) DV_II_55_0_BIT))) in
    mask else mask in
  assign mask := if (negb ((N.land mask (N.lor (N.lor DV_I_44_0_BIT DV_II_54_0_BIT) DV_II_56_0_BIT)) =? 0)) then
    assign mask := N.land mask (N.lor (sub32 0 (N.land (N.shiftr (N.lxor (get w 38) (get w 40)) 4) 1)) (not32 (N.lor (N.lor DV_I_44_0_BIT DV_II_54_0_BIT) DV_II_56_0_BIT))) in
    mask else mask in
  assign mask := if (negb ((N.land mask (N.lor (N.lor DV_I_43_0_BIT DV_II_53_0_BIT) DV_II_55_0_BIT)) =? 0)) then
    assign mask := N.land mask (N.lor (sub32 0 (N.land (N.shiftr (N.lxor (get w 37) (get w 39)) 4) 1)) (not32 (N.lor (N.lor DV_I_43_0_BIT DV_II_53_0_BIT) DV_II_55_0_BIT))) in
    mask else mask in
  assign mask := N.land mask (N.lor (sub32 0 (N.land (N.lxor (get w 36) (N.shiftr (get w 37) 5)) (wshl 32 1 1))) (not32 (N.lor (N.lor DV_I_47_2_BIT DV_I_50_2_BIT) DV_II_46_2_BIT))) in
  assign mask := if (negb ((N.land mask (N.lor (N.lor DV_I_45_0_BIT DV_I_48_0_BIT) DV_II_47_0_BIT)) =? 0)) then
    assign mask := N.land mask (N.lor (sub32 (N.land (N.lxor (N.shiftr (get w 35) 4) (N.shiftr (get w 39) 29)) 1) 1) (not32 (N.lor (N.lor DV_I_45_0_BIT DV_I_48_0_BIT) DV_II_47_0_BIT))) in
    mask else mask in
  assign mask := if (negb ((N.land mask (N.lor DV_I_48_0_BIT DV_II_48_0_BIT)) =? 0)) then
    assign mask := N.land mask (N.lor (sub32 0 (N.land (N.lxor (get w 63) (N.shiftr (get w 64) 5)) (wshl 32 1 0))) (not32 (N.lor DV_I_48_0_BIT DV_II_48_0_BIT))) in
    mask else mask in
  assign mask := if (negb ((N.land mask (N.lor DV_I_45_0_BIT DV_II_45_0_BIT)) =? 0)) then
    assign mask := N.land mask (N.lor (sub32 0 (N.land (N.lxor (get w 63) (N.shiftr (get w 64) 5)) (wshl 32 1 1))) (not32 (N.lor DV_I_45_0_BIT DV_II_45_0_BIT))) in
    mask else mask in
  assign mask := if (negb ((N.land mask (N.lor DV_I_47_0_BIT DV_II_47_0_BIT)) =? 0)) then
    assign mask := N.land mask (N.lor (sub32 0 (N.land (N.lxor (get w 62) (N.shiftr (get w 63) 5)) (wshl 32 1 0))) (not32 (N.lor DV_I_47_0_BIT DV_II_47_0_BIT))) in
    mask else mask in
  assign mask := if (negb ((N.land mask (N.lor DV_I_46_0_BIT DV_II_46_0_BIT)) =? 0)) then
    assign mask := N.land mask (N.lor (sub32 0 (N.land (N.lxor (get w 61) (N.shiftr (get w 62) 5)) (wshl 32 1 0))) (not32 (N.lor DV_I_46_0_BIT DV_II_46_0_BIT))) in
    mask else mask in
  assign mask := N.land mask (N.lor (sub32 0 (N.land (N.lxor (get w 61) (N.shiftr (get w 62) 5)) (wshl 32 1 2))) (not32 (N.lor DV_I_46_2_BIT DV_II_46_2_BIT))) in
  assign mask := if (negb ((N.land mask (N.lor DV_I_45_0_BIT DV_II_45_0_BIT)) =? 0)) then
    assign mask := N.land mask (N.lor (sub32 0 (N.land (N.lxor (get w 60) (N.shiftr (get w 61) 5)) (wshl 32 1 0))) (not32 (N.lor DV_I_45_0_BIT DV_II_45_0_BIT))) in
    mask else mask in
  assign mask := if (negb ((N.land mask (N.lor DV_II_51_0_BIT DV_II_54_0_BIT)) =? 0)) then
    assign mask := N.land mask (N.lor (sub32 (N.land (N.shiftr (N.lxor (get w 58) (get w 59)) 29) 1) 1) (not32 (N.lor DV_II_51_0_BIT DV_II_54_0_BIT))) in
    mask else mask in
  assign mask := if (negb ((N.land mask (N.lor DV_II_50_0_BIT DV_II_53_0_BIT)) =? 0)) then
    assign mask := N.land mask (N.lor (sub32 (N.land (N.shiftr (N.lxor (get w 57) (get w 58)) 29) 1) 1) (not32 (N.lor DV_II_50_0_BIT DV_II_53_0_BIT))) in
    mask else mask in
  assign mask := if (negb ((N.land mask (N.lor DV_II_52_0_BIT DV_II_54_0_BIT)) =? 0)) then
    assign mask := N.land mask (N.lor (sub32 (N.land (N.lxor (get w 56) (N.shiftr (get w 59) 25)) (wshl 32 1 4)) (wshl 32 1 4)) (not32 (N.lor DV_II_52_0_BIT DV_II_54_0_BIT))) in
    mask else mask in
  assign mask := if (negb ((N.land mask (N.lor DV_II_51_0_BIT DV_II_52_0_BIT)) =? 0)) then
    assign mask := N.land mask (N.lor (sub32 0 (N.land (N.shiftr (N.lxor (get w 56) (get w 59)) 29) 1)) (not32 (N.lor DV_II_51_0_BIT DV_II_52_0_BIT))) in
    mask else mask in
  assign mask := if (negb ((N.land mask (N.lor DV_II_49_0_BIT DV_II_52_0_BIT)) =? 0)) then
    assign mask := N.land mask (N.lor (sub32 (N.land (N.shiftr (N.lxor (get w 56) (get w 57)) 29) 1) 1) (not32 (N.lor DV_II_49_0_BIT DV_II_52_0_BIT))) in
    mask else mask in
  assign mask := if (negb ((N.land mask (N.lor DV_II_51_0_BIT DV_II_53_0_BIT)) =? 0)) then
    assign mask := N.land mask (N.lor (sub32 (N.land (N.lxor (get w 55) (N.shiftr (get w 58) 25)) (wshl 32 1 4)) (wshl 32 1 4)) (not32 (N.lor DV_II_51_0_BIT DV_II_53_0_BIT))) in
    mask else mask in
  assign mask := if (negb ((N.land mask (N.lor DV_II_50_0_BIT DV_II_52_0_BIT)) =? 0)) then
    assign mask := N.land mask (N.lor (sub32 (N.land (N.lxor (get w 54) (N.shiftr (get w 57) 25)) (wshl 32 1 4)) (wshl 32 1 4)) (not32 (N.lor DV_II_50_0_BIT DV_II_52_0_BIT))) in
    mask else mask in
  assign mask := if (negb ((N.land mask (N.lor DV_II_49_0_BIT DV_II_51_0_BIT)) =? 0)) then
    assign mask := N.land mask (N.lor (sub32 (N.land (N.lxor (get w 53) (N.shiftr (get w 56) 25)) (wshl 32 1 4)) (wshl 32 1 4)) (not32 (N.lor DV_II_49_0_BIT DV_II_51_0_BIT))) in
    mask else mask in
  assign mask := N.land mask (N.lor (sub32 (N.land (N.lxor (get w 51) (N.shiftr (get w 50) 5)) (wshl 32 1 1)) (wshl 32 1 1)) (not32 (N.lor DV_I_50_2_BIT DV_II_46_2_BIT))) in
  assign mask := N.land mask (N.lor (sub32 (N.land (N.lxor (get w 48) (get w 50)) (wshl 32 1 6)) (wshl 32 1 6)) (not32 (N.lor DV_I_50_2_BIT DV_II_46_2_BIT))) in
  assign mask := if (negb ((N.land mask (N.lor DV_I_51_0_BIT DV_I_52_0_BIT)) =? 0)) then
    assign mask := N.land mask (N.lor (sub32 0 (N.land (N.shiftr (N.lxor (get w 48) (get w 55)) 29) 1)) (not32 (N.lor DV_I_51_0_BIT DV_I_52_0_BIT))) in
    mask else mask in
  assign mask := N.land mask (N.lor (sub32 (N.land (N.lxor (get w 47) (get w 49)) (wshl 32 1 6)) (wshl 32 1 6)) (not32 (N.lor DV_I_49_2_BIT DV_I_51_2_BIT))) in
  assign mask := N.land mask (N.lor (sub32 (N.land (N.lxor (get w 48) (N.shiftr (get w 47) 5)) (wshl 32 1 1)) (wshl 32 1 1)) (not32 (N.lor DV_I_47_2_BIT DV_II_51_2_BIT))) in
  assign mask := N.land mask (N.lor (sub32 (N.land (N.lxor (get w 46) (get w 48)) (wshl 32 1 6)) (wshl 32 1 6)) (not32 (N.lor DV_I_48_2_BIT DV_I_50_2_BIT))) in
  assign mask := N.land mask (N.lor (sub32 (N.land (N.lxor (get w 47) (N.shiftr (get w 46) 5)) (wshl 32 1 1)) (wshl 32 1 1)) (not32 (N.lor DV_I_46_2_BIT DV_II_50_2_BIT))) in
  assign mask := N.land mask (N.lor (sub32 0 (N.land (N.lxor (get w 44) (N.shiftr (get w 45) 5)) (wshl 32 1 1))) (not32 (N.lor DV_I_51_2_BIT DV_II_49_2_BIT))) in
  assign mask := N.land mask (N.lor (sub32 (N.land (N.lxor (get w 43) (get w 45)) (wshl 32 1 6)) (wshl 32 1 6)) (not32 (N.lor DV_I_47_2_BIT DV_I_49_2_BIT))) in
  assign mask := N.land mask (N.lor (sub32 (N.land (N.shiftr (N.lxor (get w 42) (get w 44)) 6) 1) 1) (not32 (N.lor DV_I_46_2_BIT DV_I_48_2_BIT))) in
  assign mask := N.land mask (N.lor (sub32 (N.land (N.lxor (get w 43) (N.shiftr (get w 42) 5)) (wshl 32 1 1)) (wshl 32 1 1)) (not32 (N.lor DV_II_46_2_BIT DV_II_51_2_BIT))) in
  assign mask := N.land mask (N.lor (sub32 (N.land (N.lxor (get w 42) (N.shiftr (get w 41) 5)) (wshl 32 1 1)) (wshl 32 1 1)) (not32 (N.lor DV_I_51_2_BIT DV_II_50_2_BIT))) in
  assign mask := N.land mask (N.lor (sub32 (N.land (N.lxor (get w 41) (N.shiftr (get w 40) 5)) (wshl 32 1 1)) (wshl 32 1 1)) (not32 (N.lor DV_I_50_2_BIT DV_II_49_2_BIT))) in
  assign mask := if (negb ((N.land mask (N.lor DV_I_52_0_BIT DV_II_51_0_BIT)) =? 0)) then
    assign mask := N.land mask (N.lor (sub32 (N.land (N.lxor (get w 39) (N.shiftr (get w 43) 25)) (wshl 32 1 4)) (wshl 32 1 4)) (not32 (N.lor DV_I_52_0_BIT DV_II_51_0_BIT))) in
    mask else mask in
  assign mask := if (negb ((N.land mask (N.lor DV_I_51_0_BIT DV_II_50_0_BIT)) =? 0)) then
    assign mask := N.land mask (N.lor (sub32 (N.land (N.lxor (get w 38) (N.shiftr (get w 42) 25)) (wshl 32 1 4)) (wshl 32 1 4)) (not32 (N.lor DV_I_51_0_BIT DV_II_50_0_BIT))) in
    mask else mask in
  assign mask := if (negb ((N.land mask (N.lor DV_I_48_2_BIT DV_I_51_2_BIT)) =? 0)) then
    assign mask := N.land mask (N.lor (sub32 0 (N.land (N.lxor (get w 37) (N.shiftr (get w 38) 5)) (wshl 32 1 1))) (not32 (N.lor DV_I_48_2_BIT DV_I_51_2_BIT))) in
    mask else mask in
  assign mask := if (negb ((N.land mask (N.lor DV_I_50_0_BIT DV_II_49_0_BIT)) =? 0)) then
    assign mask := N.land mask (N.lor (sub32 (N.land (N.lxor (get w 37) (N.shiftr (get w 41) 25)) (wshl 32 1 4)) (wshl 32 1 4)) (not32 (N.lor DV_I_50_0_BIT DV_II_49_0_BIT))) in
    mask else mask in
  assign mask := if (negb ((N.land mask (N.lor DV_II_52_0_BIT DV_II_54_0_BIT)) =? 0)) then
    assign mask := N.land mask (N.lor (sub32 0 (N.land (N.lxor (get w 36) (get w 38)) (wshl 32 1 4))) (not32 (N.lor DV_II_52_0_BIT DV_II_54_0_BIT))) in
    mask else mask in
  assign mask := N.land mask (N.lor (sub32 0 (N.land (N.lxor (get w 35) (N.shiftr (get w 36) 5)) (wshl 32 1 1))) (not32 (N.lor DV_I_46_2_BIT DV_I_49_2_BIT))) in
  assign mask := if (negb ((N.land mask (N.lor DV_I_51_0_BIT DV_II_47_0_BIT)) =? 0)) then
    assign mask := N.land mask (N.lor (sub32 (N.land (N.lxor (get w 35) (N.shiftr (get w 39) 25)) (wshl 32 1 3)) (wshl 32 1 3)) (not32 (N.lor DV_I_51_0_BIT DV_II_47_0_BIT))) in
    mask else mask in
  assign mask := if (negb (mask =? 0)) then
    assign mask := if ((negb ((N.land mask DV_I_43_0_BIT) =? 0)) && ((((N.land (N.lxor (get w 61) (N.shiftr (get w 62) 5)) (wshl 32 1 1)) =? 0) || (negb ((N.land (N.lxor (get w 59) (N.shiftr (get w 63) 25)) (wshl 32 1 5)) =? 0))) || ((N.land (N.lxor (get w 58) (N.shiftr (get w 63) 30)) (wshl 32 1 0)) =? 0))) then
      assign mask := N.land mask (not32 DV_I_43_0_BIT) in
      mask else mask in
    assign mask := if ((negb ((N.land mask DV_I_44_0_BIT) =? 0)) && ((((N.land (N.lxor (get w 62) (N.shiftr (get w 63) 5)) (wshl 32 1 1)) =? 0) || (negb ((N.land (N.lxor (get w 60) (N.shiftr (get w 64) 25)) (wshl 32 1 5)) =? 0))) || ((N.land (N.lxor (get w 59) (N.shiftr (get w 64) 30)) (wshl 32 1 0)) =? 0))) then
      assign mask := N.land mask (not32 DV_I_44_0_BIT) in
      mask else mask in
    assign mask := if (negb ((N.land mask DV_I_46_2_BIT) =? 0)) then
      assign mask := N.land mask (N.lor (not32 (N.shiftr (N.lxor (get w 40) (get w 42)) 2)) (not32 DV_I_46_2_BIT)) in
      mask else mask in
    assign mask := if ((negb ((N.land mask DV_I_47_2_BIT) =? 0)) && (((N.land (N.lxor (get w 62) (N.shiftr (get w 63) 5)) (wshl 32 1 2)) =? 0) || (negb ((N.land (N.lxor (get w 41) (get w 43)) (wshl 32 1 6)) =? 0)))) then
      assign mask := N.land mask (not32 DV_I_47_2_BIT) in
      mask else mask in
    assign mask := if ((negb ((N.land mask DV_I_48_2_BIT) =? 0)) && (((N.land (N.lxor (get w 63) (N.shiftr (get w 64) 5)) (wshl 32 1 2)) =? 0) || (negb ((N.land (N.lxor (get w 48) (wshl 32 (get w 49) 5)) (wshl 32 1 6)) =? 0)))) then
      assign mask := N.land mask (not32 DV_I_48_2_BIT) in
      mask else mask in
    assign mask := if ((negb ((N.land mask DV_I_49_2_BIT) =? 0)) && ((((negb ((N.land (N.lxor (get w 49) (wshl 32 (get w 50) 5)) (wshl 32 1 6)) =? 0)) || ((N.land (N.lxor (get w 42) (get w 50)) (wshl 32 1 1)) =? 0)) || (negb ((N.land (N.lxor (get w 39) (wshl 32 (get w 40) 5)) (wshl 32 1 6)) =? 0))) || ((N.land (N.lxor (get w 38) (get w 40)) (wshl 32 1 1)) =? 0))) then
      assign mask := N.land mask (not32 DV_I_49_2_BIT) in
      mask else mask in
    assign mask := if (negb ((N.land mask DV_I_50_0_BIT) =? 0)) then
      assign mask := N.land mask (N.lor (wshl 32 (N.lxor (get w 36) (get w 37)) 7) (not32 DV_I_50_0_BIT)) in
      mask else mask in
    assign mask := if (negb ((N.land mask DV_I_50_2_BIT) =? 0)) then
      assign mask := N.land mask (N.lor (wshl 32 (N.lxor (get w 43) (get w 51)) 11) (not32 DV_I_50_2_BIT)) in
      mask else mask in
    assign mask := if (negb ((N.land mask DV_I_51_0_BIT) =? 0)) then
      assign mask := N.land mask (N.lor (wshl 32 (N.lxor (get w 37) (get w 38)) 9) (not32 DV_I_51_0_BIT)) in
      mask else mask in
    assign mask := if ((negb ((N.land mask DV_I_51_2_BIT) =? 0)) && ((((negb ((N.land (N.lxor (get w 51) (wshl 32 (get w 52) 5)) (wshl 32 1 6)) =? 0)) || (negb ((N.land (N.lxor (get w 49) (get w 51)) (wshl 32 1 6)) =? 0))) || (negb ((N.land (N.lxor (get w 37) (N.shiftr (get w 37) 5)) (wshl 32 1 1)) =? 0))) || (negb ((N.land (N.lxor (get w 35) (N.shiftr (get w 39) 25)) (wshl 32 1 5)) =? 0)))) then
      assign mask := N.land mask (not32 DV_I_51_2_BIT) in
      mask else mask in
    assign mask := if (negb ((N.land mask DV_I_52_0_BIT) =? 0)) then
      assign mask := N.land mask (N.lor (wshl 32 (N.lxor (get w 38) (get w 39)) 11) (not32 DV_I_52_0_BIT)) in
      mask else mask in
    assign mask := if (negb ((N.land mask DV_II_46_2_BIT) =? 0)) then
      assign mask := N.land mask (N.lor (wshl 32 (N.lxor (get w 47) (get w 51)) 17) (not32 DV_II_46_2_BIT)) in
      mask else mask in
    assign mask := if ((negb ((N.land mask DV_II_48_0_BIT) =? 0)) && ((negb ((N.land (N.lxor (get w 36) (N.shiftr (get w 40) 25)) (wshl 32 1 3)) =? 0)) || ((N.land (N.lxor (get w 35) (wshl 32 (get w 40) 2)) (wshl 32 1 30)) =? 0))) then
      assign mask := N.land mask (not32 DV_II_48_0_BIT) in
      mask else mask in
    assign mask := if ((negb ((N.land mask DV_II_49_0_BIT) =? 0)) && ((negb ((N.land (N.lxor (get w 37) (N.shiftr (get w 41) 25)) (wshl 32 1 3)) =? 0)) || ((N.land (N.lxor (get w 36) (wshl 32 (get w 41) 2)) (wshl 32 1 30)) =? 0))) then
      assign mask := N.land mask (not32 DV_II_49_0_BIT) in
      mask else mask in
    assign mask := if ((negb ((N.land mask DV_II_49_2_BIT) =? 0)) && ((((((negb ((N.land (N.lxor (get w 53) (wshl 32 (get w 54) 5)) (wshl 32 1 6)) =? 0)) || (negb ((N.land (N.lxor (get w 51) (get w 53)) (wshl 32 1 6)) =? 0))) || ((N.land (N.lxor (get w 50) (get w 54)) (wshl 32 1 1)) =? 0)) || (negb ((N.land (N.lxor (get w 45) (wshl 32 (get w 46) 5)) (wshl 32 1 6)) =? 0))) || (negb ((N.land (N.lxor (get w 37) (N.shiftr (get w 41) 25)) (wshl 32 1 5)) =? 0))) || ((N.land (N.lxor (get w 36) (N.shiftr (get w 41) 30)) (wshl 32 1 0)) =? 0))) then
      assign mask := N.land mask (not32 DV_II_49_2_BIT) in
      mask else mask in
    assign mask := if ((negb ((N.land mask DV_II_50_0_BIT) =? 0)) && ((((N.land (N.lxor (get w 55) (get w 58)) (wshl 32 1 29)) =? 0) || (negb ((N.land (N.lxor (get w 38) (N.shiftr (get w 42) 25)) (wshl 32 1 3)) =? 0))) || ((N.land (N.lxor (get w 37) (wshl 32 (get w 42) 2)) (wshl 32 1 30)) =? 0))) then
      assign mask := N.land mask (not32 DV_II_50_0_BIT) in
      mask else mask in
    assign mask := if ((negb ((N.land mask DV_II_50_2_BIT) =? 0)) && ((((((negb ((N.land (N.lxor (get w 54) (wshl 32 (get w 55) 5)) (wshl 32 1 6)) =? 0)) || (negb ((N.land (N.lxor (get w 52) (get w 54)) (wshl 32 1 6)) =? 0))) || ((N.land (N.lxor (get w 51) (get w 55)) (wshl 32 1 1)) =? 0)) || ((N.land (N.lxor (get w 45) (get w 47)) (wshl 32 1 1)) =? 0)) || (negb ((N.land (N.lxor (get w 38) (N.shiftr (get w 42) 25)) (wshl 32 1 5)) =? 0))) || ((N.land (N.lxor (get w 37) (N.shiftr (get w 42) 30)) (wshl 32 1 0)) =? 0))) then
      assign mask := N.land mask (not32 DV_II_50_2_BIT) in
      mask else mask in
    assign mask := if ((negb ((N.land mask DV_II_51_0_BIT) =? 0)) && ((negb ((N.land (N.lxor (get w 39) (N.shiftr (get w 43) 25)) (wshl 32 1 3)) =? 0)) || ((N.land (N.lxor (get w 38) (wshl 32 (get w 43) 2)) (wshl 32 1 30)) =? 0))) then
      assign mask := N.land mask (not32 DV_II_51_0_BIT) in
      mask else mask in
    assign mask := if ((negb ((N.land mask DV_II_51_2_BIT) =? 0)) && ((((((negb ((N.land (N.lxor (get w 55) (wshl 32 (get w 56) 5)) (wshl 32 1 6)) =? 0)) || (negb ((N.land (N.lxor (get w 53) (get w 55)) (wshl 32 1 6)) =? 0))) || ((N.land (N.lxor (get w 52) (get w 56)) (wshl 32 1 1)) =? 0)) || ((N.land (N.lxor (get w 46) (get w 48)) (wshl 32 1 1)) =? 0)) || (negb ((N.land (N.lxor (get w 39) (N.shiftr (get w 43) 25)) (wshl 32 1 5)) =? 0))) || ((N.land (N.lxor (get w 38) (N.shiftr (get w 43) 30)) (wshl 32 1 0)) =? 0))) then
      assign mask := N.land mask (not32 DV_II_51_2_BIT) in
      mask else mask in
    assign mask := if ((negb ((N.land mask DV_II_52_0_BIT) =? 0)) && ((((negb ((N.land (N.lxor (get w 59) (get w 60)) (wshl 32 1 29)) =? 0)) || (negb ((N.land (N.lxor (get w 40) (N.shiftr (get w 44) 25)) (wshl 32 1 3)) =? 0))) || (negb ((N.land (N.lxor (get w 40) (N.shiftr (get w 44) 25)) (wshl 32 1 4)) =? 0))) || ((N.land (N.lxor (get w 39) (wshl 32 (get w 44) 2)) (wshl 32 1 30)) =? 0))) then
      assign mask := N.land mask (not32 DV_II_52_0_BIT) in
      mask else mask in
    assign mask := if ((negb ((N.land mask DV_II_53_0_BIT) =? 0)) && (((((N.land (N.lxor (get w 58) (get w 61)) (wshl 32 1 29)) =? 0) || (negb ((N.land (N.lxor (get w 57) (N.shiftr (get w 61) 25)) (wshl 32 1 4)) =? 0))) || (negb ((N.land (N.lxor (get w 41) (N.shiftr (get w 45) 25)) (wshl 32 1 3)) =? 0))) || (negb ((N.land (N.lxor (get w 41) (N.shiftr (get w 45) 25)) (wshl 32 1 4)) =? 0)))) then
      assign mask := N.land mask (not32 DV_II_53_0_BIT) in
      mask else mask in
    assign mask := if ((negb ((N.land mask DV_II_54_0_BIT) =? 0)) && (((negb ((N.land (N.lxor (get w 58) (N.shiftr (get w 62) 25)) (wshl 32 1 4)) =? 0)) || (negb ((N.land (N.lxor (get w 42) (N.shiftr (get w 46) 25)) (wshl 32 1 3)) =? 0))) || (negb ((N.land (N.lxor (get w 42) (N.shiftr (get w 46) 25)) (wshl 32 1 4)) =? 0)))) then
      assign mask := N.land mask (not32 DV_II_54_0_BIT) in
      mask else mask in
    assign mask := if ((negb ((N.land mask DV_II_55_0_BIT) =? 0)) && ((((negb ((N.land (N.lxor (get w 59) (N.shiftr (get w 63) 25)) (wshl 32 1 4)) =? 0)) || (negb ((N.land (N.lxor (get w 57) (N.shiftr (get w 59) 25)) (wshl 32 1 4)) =? 0))) || (negb ((N.land (N.lxor (get w 43) (N.shiftr (get w 47) 25)) (wshl 32 1 3)) =? 0))) || (negb ((N.land (N.lxor (get w 43) (N.shiftr (get w 47) 25)) (wshl 32 1 4)) =? 0)))) then
      assign mask := N.land mask (not32 DV_II_55_0_BIT) in
      mask else mask in
    assign mask := if ((negb ((N.land mask DV_II_56_0_BIT) =? 0)) && (((negb ((N.land (N.lxor (get w 60) (N.shiftr (get w 64) 25)) (wshl 32 1 4)) =? 0)) || (negb ((N.land (N.lxor (get w 44) (N.shiftr (get w 48) 25)) (wshl 32 1 3)) =? 0))) || (negb ((N.land (N.lxor (get w 44) (N.shiftr (get w 48) 25)) (wshl 32 1 4)) =? 0)))) then
      assign mask := N.land mask (not32 DV_II_56_0_BIT) in
      mask else mask in
    mask else mask in
  mask.
