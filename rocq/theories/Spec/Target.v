(** Byte order of a machine and the vector units of its CPU. *)
From Verif Require Import Base.Words Base.Bytes.

Inductive endian := Little | Big.
(** Reading and writing a word in memory. *)
Definition ne_val (e : endian) (l : bytes) : N := match e with Little => le_val l | Big => be_val l end.
Definition ne_bytes (e : endian) (k : nat) (x : N) : bytes := match e with Little => le_bytes k x | Big => be_bytes k x end.
(** [swap_bytes] of a word of [k] bytes; [from_le] and [to_le] *)
Definition swap_bytes (k : nat) (x : N) : N := be_val (le_bytes k x).
Definition from_le (e : endian) (k : nat) (x : N) : N := match e with Little => x | Big => swap_bytes k x end.

(** A build target: byte order, CPU features known at compile time, and the
    (disabled) cargo features of the blake2 crate. *)
Record target := mkTarget {
  order : endian;
  ssse3 : bool; sse2 : bool; neon : bool; arm : bool;
  simd : bool; simd_opt : bool; simd_asm : bool
}.
(** SSE2 and SSSE3 exist on x86 only, which is little endian. *)
Definition exists_target (t : target) : Prop := sse2 t || ssse3 t = true -> order t = Little.
(** Samples: a big-endian ARM with NEON, and x86 with SSSE3. *)
Definition be_neon := mkTarget Big false false true true true true false.
Definition x86_ssse3 := mkTarget Little true true false false true true true.
