(** The choice between the back ends of the sha2, sha1 and md5 crates.  A value of
    the types below says for which target the crate was built, what the run-time
    CPU detection answered, and what the back end can see besides its
    arguments: the memory the blocks lie in (RISC-V) and the previous contents
    of the registers and of the scratch stack (LoongArch). *)
From Verif Require Import Base.Words Base.Bytes Spec.Memory.
From Verif Require Import Model.Sha2Riscv Model.LoongCompress Model.Sha2Simd Model.Sha1Simd.
From Verif Require Model.Sha256Soft Model.Sha512Soft Model.Sha1 Model.Md5.

(** sha2/src/sha256.rs 1-37 and sha2/src/sha512.rs 1-37: the branches of [cfg_if];
    [detected] is the result of [cpufeatures]' [get]. *)
Inductive sha2_target :=
| Portable
| X86 (detected : bool)
| Zknh (rv64 : bool) (placed : list (nat * bytes))
| ZknhCompact (rv64 : bool) (placed : list (nat * bytes))
| Aarch64 (detected : bool)
| Loongarch64 (regs stack : list N)
| Wasm32Simd.

(** sha256.rs 1-37, sha256/x86_shani.rs 102-112, sha256/aarch64.rs 12-20 *)
Definition compress256 (t : sha2_target) (state : list N) (blocks : list bytes) : list N :=
  match t with
  | Portable => Sha256Soft.compress state blocks
  | X86 detected => if detected then sha256_shani state blocks else Sha256Soft.compress state blocks
  | Zknh _ placed => sha256_zknh state placed
  | ZknhCompact _ placed => sha256_zknh_compact state placed
  | Aarch64 detected => if detected then sha256_arm state blocks else Sha256Soft.compress state blocks
  | Loongarch64 regs stack => sha256_loong regs stack state blocks
  | Wasm32Simd => sha256_wasm state blocks
  end.
(** sha512.rs 1-37, sha512/x86_avx2.rs 16-26, sha512/aarch64.rs 10-18 *)
Definition compress512 (t : sha2_target) (state : list N) (blocks : list bytes) : list N :=
  match t with
  | Portable => Sha512Soft.compress state blocks
  | X86 detected => if detected then sha512_avx2 state blocks else Sha512Soft.compress state blocks
  | Zknh rv64 placed => if rv64 then sha512_zknh_rv64 state placed else sha512_zknh_rv32 state placed
  | ZknhCompact rv64 placed =>
      if rv64 then sha512_zknh_compact_rv64 state placed else sha512_zknh_compact_rv32 state placed
  | Aarch64 detected => if detected then sha512_arm state blocks else Sha512Soft.compress state blocks
  | Loongarch64 regs stack => sha512_loong regs stack state blocks
  | Wasm32Simd => sha512_wasm state blocks
  end.

(** sha1/src/compress.rs 3-21, compress/x86.rs 95-105, compress/aarch64.rs 176-185 *)
Inductive sha1_target :=
| Portable1
| X86_1 (detected : bool)
| Aarch64_1 (detected : bool)
| Loongarch64_1 (regs stack : list N).
Definition compress1 (t : sha1_target) (state : list N) (blocks : list bytes) : list N :=
  match t with
  | Portable1 => Sha1.compress state blocks
  | X86_1 detected => if detected then sha1_shani state blocks else Sha1.compress state blocks
  | Aarch64_1 detected => if detected then sha1_arm state blocks else Sha1.compress state blocks
  | Loongarch64_1 regs stack => sha1_loong regs stack state blocks
  end.

(** md5/src/compress.rs 1-12 *)
Inductive md5_target :=
| Portable5
| Loongarch64_5 (regs : list N).
Definition compress5 (t : md5_target) (state : list N) (blocks : list bytes) : list N :=
  match t with
  | Portable5 => Md5.compress state blocks
  | Loongarch64_5 regs => md5_loong regs state blocks
  end.

(** What the machine guarantees: the RISC-V back end is given pointers to the
    blocks (aligned reads of 4 bytes, or of 8 in the SHA-512 code of RV64), and
    there are thirteen scratch registers and sixteen stack words with any contents. *)
Definition sees (k : bool -> nat) (t : sha2_target) (blocks : list bytes) : Prop :=
  match t with
  | Zknh rv64 placed | ZknhCompact rv64 placed => Forall2 (in_memory (k rv64)) placed blocks
  | Loongarch64 regs stack => length regs = 13%nat /\ length stack = 16%nat
  | _ => True
  end.
Definition sees256 := sees (fun _ => 4%nat).
Definition sees512 := sees (fun rv64 => if rv64 then 8%nat else 4%nat).
Definition sees1 (t : sha1_target) : Prop :=
  match t with Loongarch64_1 regs stack => length regs = 13%nat /\ length stack = 16%nat | _ => True end.
Definition sees5 (t : md5_target) : Prop :=
  match t with Loongarch64_5 regs => length regs = 13%nat | _ => True end.
