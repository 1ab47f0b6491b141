(** The families of hash functions with several digest sizes: their sizes, the function of each size,
    and the length of message (in bytes) up to which the crates are to compute it. *)
From Verif Require Import Base.Words Base.Bytes.
From Verif Require Spec.SHA2 Spec.BLAKE2 Spec.Groestl Spec.Kupyna Spec.Streebog Spec.JH Spec.Shabal.

Inductive family :=
| FSha256 | FSha512 | FBlake2b | FBlake2s | FGroestlShort | FGroestlLong | FKupynaShort | FKupynaLong | FStreebog | FJh | FShabal.

(** Sizes in bytes that the crates are documented to accept. *)
Definition supported (f : family) (n : nat) : Prop :=
  match f with
  | FSha256 => In n [28; 32]
  | FSha512 => In n [28; 32; 48; 64]
  | FBlake2b => n <= 64
  | FBlake2s => n <= 32
  | FGroestlShort => n <= 32
  | FGroestlLong => n <= 64
  | FKupynaShort => n <= 32
  | FKupynaLong => 32 <= n <= 64
  | FStreebog => In n [32; 64]
  | FJh => In n [28; 32; 48; 64]
  | FShabal => In n [24; 28; 32; 48; 64]
  end%nat.
(** The standards' functions of [n]-byte digests. *)
Definition function (f : family) (n : nat) : bytes -> bytes :=
  match f with
  | FSha256 => if (n =? 28)%nat then Spec.SHA2.SHA224 else Spec.SHA2.SHA256
  | FSha512 =>
      if (n =? 28)%nat then Spec.SHA2.SHA512_224 else if (n =? 32)%nat then Spec.SHA2.SHA512_256
      else if (n =? 48)%nat then Spec.SHA2.SHA384 else Spec.SHA2.SHA512
  | FBlake2b => Spec.BLAKE2.BLAKE2 Spec.BLAKE2.BLAKE2b [] [] [] n
  | FBlake2s => Spec.BLAKE2.BLAKE2 Spec.BLAKE2.BLAKE2s [] [] [] n
  | FGroestlShort => Spec.Groestl.hash Spec.Groestl.short n
  | FGroestlLong => Spec.Groestl.hash Spec.Groestl.long n
  | FKupynaShort => Spec.Kupyna.hash Spec.Kupyna.short n
  | FKupynaLong => Spec.Kupyna.hash Spec.Kupyna.long n
  | FStreebog => Spec.Streebog.Streebog n
  | FJh => Spec.JH.JH n
  | FShabal => Spec.Shabal.Shabal n
  end.
Definition limit (f : family) : option N :=
  match f with
  | FSha256 | FJh => Some (2 ^ 61)
  | FSha512 => Some (2 ^ 125)
  | FBlake2b | FBlake2s => Some (2 ^ 64)
  | FGroestlShort | FGroestlLong => Some (2 ^ 69)
  | FKupynaShort | FKupynaLong => Some (2 ^ 70)
  | FStreebog => Some (2 ^ 445)
  | FShabal => None
  end.
Definition in_limit (f : family) (len : nat) : Prop := match limit f with Some L => N.of_nat len < L | None => True end.
(** The sizes the algorithms' own documents define: Groestl and Kupyna (DSTU 7564) take the short
    function for 1 to 32 bytes and the long one for 33 to 64; RFC 7693 allows 1 to 64 and 1 to 32. *)
Definition standard (f : family) (n : nat) : Prop :=
  match f with
  | FBlake2b => 1 <= n <= 64
  | FBlake2s | FGroestlShort | FKupynaShort => 1 <= n <= 32
  | FGroestlLong | FKupynaLong => 33 <= n <= 64
  | _ => supported f n
  end%nat.
