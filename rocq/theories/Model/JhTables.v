(** The tables of jh/src/consts.rs (written by tools/gen_jh.py).  The code writes them as bytes and
    reads them through unions as little-endian 128-bit registers; here the registers are given. *)
From Verif Require Import Base.Words.

(** jh/src/consts.rs 3-8: [JH224_H0] *)
Definition JH224_H0 : list N :=
  [0xe734d619d6ac7caeac989af962ddfe2d; 0x941466c9c63860b8161230bc051083a4;
   0xdc1a9b1d1ba39ece6f7080259f89d966; 0xc106fa027f8594f9106e367b5f32e811;
   0x9980736e7fa1f697b340c8d85c1b4f1b; 0x689a53c9dee831a4d3a3eaada593dfdc;
   0xf06ce59c95ac74d5e4a186ec8aa9b422; 0x6eea64ddf0dc1196bf2babb5ea0d9615].
(** jh/src/consts.rs 10-15: [JH256_H0] *)
Definition JH256_H0 : list N :=
  [0xc145b29c7bbecd92ebd3202c41a398eb; 0x038a507ed6820026fac7d4609151931c;
   0x77941ad4481afbe045b92677269e23a4; 0xa82fff0f4224f0567a176b0226abb5cd;
   0x62e27df70849141d754d2e7f8996a371; 0x6c29804757b6d587948f2476f7957627;
   0x0f7a0557c65084516c0d8eac2d275e5c; 0x69d71cd313abe389ea12247067d3e47b].
(** jh/src/consts.rs 17-22: [JH384_H0] *)
Definition JH384_H0 : list N :=
  [0x9b87de4a895e3b6d8a3913d8c63b1e48; 0x67820f4821cb2c332ead80d468eafa63;
   0x4942114130ea55d428b982904dc8ae98; 0xe13cf4ba930a25c7ec474892b255f536;
   0x0eaf976349bdfc9e4c45db278a7f9b56; 0xda2eeb9d8c8bc080cd80aa267dc29f58;
   0x717ad1ddad6739f43a37d5f8e881798a; 0x7f734298ba3f6c9794d375a4bdd3b4a9].
(** jh/src/consts.rs 24-29: [JH512_H0] *)
Definition JH512_H0 : list N :=
  [0x43d5157a052e6a6317aa003e964bd16f; 0x61c3b3f2591234e90bef970c8d5e228a;
   0x806d2bea6b05a92a1e806f53c1a01d89; 0xf73bf8ba763a0fa9a6ba7520dbcc8e58;
   0x5ae66f2e8e8ab546694ae34105e66901; 0x99c15a2db1716e3b243c84c1d0a74710;
   0x56b116577c8806a756f8b19decf657cf; 0x4bdd8ccc78465a54fb1785e6dffcc2e3].
(** jh/src/consts.rs 31-74: [E8_BITSLICE_ROUNDCONSTANT] *)
Definition E8_BITSLICE_ROUNDCONSTANT : list (N * N) :=
  [(0x571523b70a15847b67f815dfa2ded572, 0x402bd1c3c54f9f4ef6875a4d90d6ab81);
   (0x9a99b26699d2c5039cfa455ce03a98ea, 0x31a2db881a1456b58a53bbf2b4960266);
   (0x1044c1870ab23f40db0e199a5c5aa303, 0xdccde75eadeb336f1d959e848019051c);
   (0xd027bbf7156578dc416bbf029213ba10, 0xd3910041d2bf1a3f5078aa3739812c0a);
   (0xce97c0929c9f62dd907eccf60d5a2d42, 0x23fcc663d665dfd1ac442bc70ba75c18);
   (0xa8ec6c447e4505211ab8e09e036c6e97, 0x97818394b29796fdfa618e5dbb03f1ee);
   (0x956a9ffb2d8d672a2f3003db37858e4a, 0x14427fc04672c78a6c69b8f88173fe8a);
   (0x80bb118fa76f4475c45ec7bd8f15f4c5, 0xf4a3a6981e00b882bc88e4aeb775de52);
   (0x89f9b7d524565faa1563a3a9338ff48e, 0x362c42065ae9ca36fde05a7c20edf1b6);
   (0xa74b9a7374f93a533d98fe4e433529ce, 0x9f5ad8af81ad9d0e86814e6f591ff5d0);
   (0x2717b96ebe280b8b6a6234ee670605a7, 0x7b487ec66f7ea0e03f1080c626077447);
   (0x9ef18e979fe7e391c0a4f84aa50a550d, 0x62b0e5f3415a9e7ed48d605081727686);
   (0x84c9f4ce001ae4e37a205440ec1f9ffc, 0xa554c324117e2e55d895fa9df594d74f);
   (0xb2c4a50fe27ff578286efebd2872df5b, 0x7f5928eb85937e442ed349eeef7c8905);
   (0x65e4d61df128865e4a3124b337695f70, 0x8a87d423e843fe74e720b95104771bc7);
   (0xc1d9309b097acbddf2947692a3e8297d, 0xbf829cf24f4924dae01bdc5bfb301b1d);
   (0x48bcf8de0544320dffbf70b431bae7a4, 0xa08b29e0c1c39f4539d3bb5332fcae3b);
   (0x34f19042123470940f09aef7fd05c9e5, 0x4a982f4f368e3be995ed44e301b771a2);
   (0xffaf52874b44c14715f66ca0631d4088, 0xe68c6eccc5b6704630c60ae2f14abb7e);
   (0xae183ec84b849dda00ca4fbd56a4d5a4, 0x67255c1468cea6e8add1643045ce5773);
   (0x9a99949a5806e93316e10ecbf28cdaa3, 0x1885d1a07facced17b846fc220b2601f);
   (0x46b4a5aac01c9a50d319dd8da15b5932, 0x7eee560bab19caf6ba6b04e467633d9f);
   (0xee51363b35f7bde9742128a9ea79b11f, 0x01707da3fec2463a76d350755aac571d);
   (0x79676b9e20eced7842d8a498afc135f7, 0x832c83324d3bc3faa8db3aea15638341);
   (0x9a762db734f04059f347271c1f3b40a7, 0xef5957dc398dfdb8fd4f21d26c4e3ee7);
   (0x0d70f36849d7a25bdaeb492b490c9b8d, 0x658ef8e4f0e9a5f584558d7ad0ae3b7d);
   (0x5aec3e759e07a80c533b1036f4a2b8a0, 0x4cbcbaf8555cb05b4f88e85692946891);
   (0x5d1c6b72d6f4da757b9487f3993bbbe3, 0x71db28b850a5346c6db334dc28acae64);
   (0xfc75dd593364dbe32a518d10f2e261f8, 0xb043e8023cd1bb67a23fce43f1bcac1c);
   (0x5c5316b44d19347f75a12988ca5b0a33, 0x3fafeeb6d77574791e4d790ec3943b92);
   (0x5127234c097ef45c21391abef7d4a8ea, 0xadd5a66d4a17a344d23c32ba5324a326);
   (0x563c6b91983d598308c9f2afa63e1db5, 0xf6c76e08cc3ee2464d608672a17cf84c);
   (0x2ae6c4efa566d62b5e76bcb1b333982f, 0x6321efbc1582ee7436d4c1bee8b6f406);
   (0x26585806c45a7da769c953f40d4ec1fd, 0x3f9d63283daf907e16fae0061614c17e);
   (0x300cd4b730ceaa5f0cd29b00e3f2c9d2, 0x9af8cee3d830eb0d9832e0f216512a74);
   (0xd36886046ee651ff9279f1b57b9ec54b, 0x05750a17f3a6e6cc316796e6574d239b);
   (0x62a205f88452173cce6c3213d98176b1, 0x486a9323825446ff47154778b3cb2bf4);
   (0x8e5086fc897cfcf265655e4e0758df38, 0x4e477830a20940f086ca0bd0442e7031);
   (0xbd3a2ce437e95ef78338f7d139eea065, 0xe7de9fefd1ed44a36ff8130126b29721);
   (0xbe42dc12f6f7853cd992257615dfa08b, 0xdea83eaada7d8d537eb027ab7ceca7d8);
   (0xf908731afd43f65ad86902bd93ce25aa, 0x6a21fd4c33664d97a5194a17daef5fc0);
   (0x9b54cdedbb0f1eea701541db3198b435, 0xe26f4791bf9d75f672409751a163d09a)].
