(** The four LoongArch64 [compress] functions. *)
From Verif Require Import Base.Words Base.Bytes Model.Loong Model.LoongLines Model.Sha2Consts.
From Verif Require Model.Sha1 Model.Md5.

(** sha2/src/sha256/loongarch64_asm.rs 81-227 *)
Definition sha256_loong : list N -> list N -> list N -> list bytes -> list N :=
  compress_asm 32 4 K32 load_state (concat lines256) update_state.
(** sha2/src/sha512/loongarch64_asm.rs 80-242 *)
Definition sha512_loong : list N -> list N -> list N -> list bytes -> list N :=
  compress_asm 64 8 K64 load_state (concat lines512) update_state.
(** sha1/src/compress/loongarch64_asm.rs 104-254; [regs] are the unknown
    contents of $t0-$t8 *)
Definition sha1_loong (regs : list N) : list N -> list N -> list bytes -> list N :=
  compress_asm 32 4 [] load_state1 (concat lines1) update_state1 (firstn 9 regs ++ Sha1.K).
(** md5/src/compress/loongarch64_asm.rs 65-178; [regs] as for SHA-1 *)
Definition md5_loong (regs : list N) : list N -> list bytes -> list N :=
  compress_md5 Md5.RC (concat lines5) (firstn 9 regs).
