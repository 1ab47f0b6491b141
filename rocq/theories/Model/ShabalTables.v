(** The tables of shabal/src/consts.rs and the index lists of shabal/src/core_api.rs (written by
    tools/gen_shabal.py). *)
From Verif Require Import Base.Words.

(** shabal/src/consts.rs 3-21: [INIT_192] *)
Definition INIT_192 : list N * list N * list N :=
  ([0xfd749ed4; 0xb798e530; 0x33904b6f; 0x46bda85e; 0x076934b4; 0x454b4058; 0x77f74527; 0xfb4cf465;
   0x62931da9; 0xe778c8db; 0x22b3998e; 0xac15cfb9],
   [0x58bcbac4; 0xec47a08e; 0xaee933b2; 0xdfcbc824; 0xa7944804; 0xbf65bdb0; 0x5a9d4502; 0x59979af7;
   0xc5cea54e; 0x4b6b8150; 0x16e71909; 0x7d632319; 0x930573a0; 0xf34c63d1; 0xcaf914b4; 0xfdd6612c],
   [0x61550878; 0x89ef2b75; 0xa1660c46; 0x7ef3855b; 0x7297b58c; 0x1bc67793; 0x7fb1c723; 0xb66fc640;
   0x1a48b71c; 0xf0976d17; 0x088ce80a; 0xa454edf3; 0x1c096bf4; 0xac76224b; 0x5215781c; 0xcd5d2669]).
(** shabal/src/consts.rs 23-41: [INIT_224] *)
Definition INIT_224 : list N * list N * list N :=
  ([0xa5201467; 0xa9b8d94a; 0xd4ced997; 0x68379d7b; 0xa7fc73ba; 0xf1a2546b; 0x606782bf; 0xe0bcfd0f;
   0x2f25374e; 0x069a149f; 0x5e2dff25; 0xfaecf061],
   [0xec9905d8; 0xf21850cf; 0xc0a746c8; 0x21dad498; 0x35156eeb; 0x088c97f2; 0x26303e40; 0x8a2d4fb5;
   0xfeee44b6; 0x8a1e9573; 0x7b81111a; 0xcbc139f0; 0xa3513861; 0x1d2c362e; 0x918c580e; 0xb58e1b9c],
   [0xe4b573a1; 0x4c1a0880; 0x1e907c51; 0x04807efd; 0x3ad8cde5; 0x16b21302; 0x02512c53; 0x2204cb18;
   0x99405f2d; 0xe5b648a1; 0x70ab1d43; 0xa10c25c2; 0x16f1ac05; 0x38bbeb56; 0x9b01dc60; 0xb1096d83]).
(** shabal/src/consts.rs 43-61: [INIT_256] *)
Definition INIT_256 : list N * list N * list N :=
  ([0x52f84552; 0xe54b7999; 0x2d8ee3ec; 0xb9645191; 0xe0078b86; 0xbb7c44c9; 0xd2b5c1ca; 0xb0d2eb8c;
   0x14ce5a45; 0x22af50dc; 0xeffdbc6b; 0xeb21b74a],
   [0xb555c6ee; 0x3e710596; 0xa72a652f; 0x9301515f; 0xda28c1fa; 0x696fd868; 0x9cb6bf72; 0x0afe4002;
   0xa6e03615; 0x5138c1d4; 0xbe216306; 0xb38b8890; 0x3ea8b96b; 0x3299ace4; 0x30924dd4; 0x55cb34a5],
   [0xb405f031; 0xc4233eba; 0xb3733979; 0xc0dd9d55; 0xc51c28ae; 0xa327b8e1; 0x56c56167; 0xed614433;
   0x88b59d60; 0x60e2ceba; 0x758b4b8b; 0x83e82a7f; 0xbc968828; 0xe6e00bf7; 0xba839e55; 0x9b491c60]).
(** shabal/src/consts.rs 63-81: [INIT_384] *)
Definition INIT_384 : list N * list N * list N :=
  ([0xc8fca331; 0xe55c504e; 0x003ebf26; 0xbb6b8d83; 0x7b0448c1; 0x41b82789; 0x0a7c9601; 0x8d659cff;
   0xb6e2673e; 0xca54c77b; 0x1460fd7e; 0x3fcb8f2d],
   [0x527291fc; 0x2a16455f; 0x78e627e5; 0x944f169f; 0x1ca6f016; 0xa854ea25; 0x8db98abe; 0xf2c62641;
   0x30117dcb; 0xcf5c4309; 0x93711a25; 0xf9f671b8; 0xb01d2116; 0x333f4b89; 0xb285d165; 0x86829b36],
   [0xf764b11a; 0x76172146; 0xcef6934d; 0xc6d28399; 0xfe095f61; 0x5e6018b4; 0x5048ecf5; 0x51353261;
   0x6e6e36dc; 0x63130dad; 0xa9c69bd6; 0x1e90ea0c; 0x7c35073b; 0x28d95e6d; 0xaa340e0d; 0xcb3dee70]).
(** shabal/src/consts.rs 83-101: [INIT_512] *)
Definition INIT_512 : list N * list N * list N :=
  ([0x20728dfd; 0x46c0bd53; 0xe782b699; 0x55304632; 0x71b4ef90; 0x0ea9e82c; 0xdbb930f1; 0xfad06b8b;
   0xbe0cae40; 0x8bd14410; 0x76d2adac; 0x28acab7f],
   [0xc1099cb7; 0x07b385f3; 0xe7442c26; 0xcc8ad640; 0xeb6f56c7; 0x1ea81aa9; 0x73b9d314; 0x1de85d08;
   0x48910a5a; 0x893b22db; 0xc5a0df44; 0xbbc4324e; 0x72d2f240; 0x75941d99; 0x6d8bde82; 0xa1a7502b],
   [0xd9bf68d1; 0x58bad750; 0x56028cb2; 0x8134f359; 0xb5d469d8; 0x941a8cc2; 0x418b2a6e; 0x04052780;
   0x7f07d787; 0x5194358f; 0x3c60d665; 0xbe97d79a; 0x950c3434; 0xaed9a06d; 0x2537dc8d; 0x7cdb5969]).
(** core_api.rs 97-144: the arguments of the calls of [perm_elt], the last being the index into [m] *)
Definition PERM_BLOCKS : list (list nat) :=
  [[0; 11; 0; 13; 9; 6; 8; 0]; [1; 0; 1; 14; 10; 7; 7; 1]; [2; 1; 2; 15; 11; 8; 6; 2];
   [3; 2; 3; 0; 12; 9; 5; 3]; [4; 3; 4; 1; 13; 10; 4; 4]; [5; 4; 5; 2; 14; 11; 3; 5];
   [6; 5; 6; 3; 15; 12; 2; 6]; [7; 6; 7; 4; 0; 13; 1; 7]; [8; 7; 8; 5; 1; 14; 0; 8];
   [9; 8; 9; 6; 2; 15; 15; 9]; [10; 9; 10; 7; 3; 0; 14; 10]; [11; 10; 11; 8; 4; 1; 13; 11];
   [0; 11; 12; 9; 5; 2; 12; 12]; [1; 0; 13; 10; 6; 3; 11; 13]; [2; 1; 14; 11; 7; 4; 10; 14];
   [3; 2; 15; 12; 8; 5; 9; 15]; [4; 3; 0; 13; 9; 6; 8; 0]; [5; 4; 1; 14; 10; 7; 7; 1];
   [6; 5; 2; 15; 11; 8; 6; 2]; [7; 6; 3; 0; 12; 9; 5; 3]; [8; 7; 4; 1; 13; 10; 4; 4];
   [9; 8; 5; 2; 14; 11; 3; 5]; [10; 9; 6; 3; 15; 12; 2; 6]; [11; 10; 7; 4; 0; 13; 1; 7];
   [0; 11; 8; 5; 1; 14; 0; 8]; [1; 0; 9; 6; 2; 15; 15; 9]; [2; 1; 10; 7; 3; 0; 14; 10];
   [3; 2; 11; 8; 4; 1; 13; 11]; [4; 3; 12; 9; 5; 2; 12; 12]; [5; 4; 13; 10; 6; 3; 11; 13];
   [6; 5; 14; 11; 7; 4; 10; 14]; [7; 6; 15; 12; 8; 5; 9; 15]; [8; 7; 0; 13; 9; 6; 8; 0];
   [9; 8; 1; 14; 10; 7; 7; 1]; [10; 9; 2; 15; 11; 8; 6; 2]; [11; 10; 3; 0; 12; 9; 5; 3];
   [0; 11; 4; 1; 13; 10; 4; 4]; [1; 0; 5; 2; 14; 11; 3; 5]; [2; 1; 6; 3; 15; 12; 2; 6];
   [3; 2; 7; 4; 0; 13; 1; 7]; [4; 3; 8; 5; 1; 14; 0; 8]; [5; 4; 9; 6; 2; 15; 15; 9];
   [6; 5; 10; 7; 3; 0; 14; 10]; [7; 6; 11; 8; 4; 1; 13; 11]; [8; 7; 12; 9; 5; 2; 12; 12];
   [9; 8; 13; 10; 6; 3; 11; 13]; [10; 9; 14; 11; 7; 4; 10; 14]; [11; 10; 15; 12; 8; 5; 9; 15]]%nat.
(** core_api.rs 57-68: the indices of the lines a[_] += c[_] + c[_] + c[_] *)
Definition ADD_C : list (list nat) :=
  [[0; 11; 15; 3]; [1; 12; 0; 4]; [2; 13; 1; 5]; [3; 14; 2; 6];
   [4; 15; 3; 7]; [5; 0; 4; 8]; [6; 1; 5; 9]; [7; 2; 6; 10];
   [8; 3; 7; 11]; [9; 4; 8; 12]; [10; 5; 9; 13]; [11; 6; 10; 14]]%nat.
