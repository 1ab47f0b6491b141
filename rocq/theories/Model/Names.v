(** The names the hashers write with [AlgorithmName::write_alg_name]. *)
From Coq Require Import List NArith String Decimal DecimalString.
Import ListNotations.
Open Scope string_scope.

(** Cores with a fixed output size or an extendable output. *)
Inductive fixed :=
| FSha1 | FMd2 | FMd4 | FMd5 | FSm3 | FRipemd128 | FRipemd160 | FRipemd256 | FRipemd320
| FKeccak224 | FKeccak256 | FKeccak384 | FKeccak512 | FKeccak256Full
| FSha3_224 | FSha3_256 | FSha3_384 | FSha3_512
| FShake128 | FShake256 | FTurboShake128 | FTurboShake256 | FCShake128 | FCShake256 | FKangarooTwelve
| FTiger | FTiger2 | FWhirlpool | FGost94CryptoPro | FGost94s2015 | FGost94Test | FGost94UA
| FFsb160 | FFsb224 | FFsb256 | FFsb384 | FFsb512 | FBeltHash | FAsconHash256 | FAsconXof128.
(** Cores behind digest's [CtVariableCoreWrapper]. *)
Inductive variable :=
| VSha256 | VSha512 | VBlake2b | VBlake2s | VGroestlShort | VGroestlLong | VKupynaShort | VKupynaLong
| VStreebog | VJh | VShabal.
(** skein/src/lib.rs 191-193: the output size is a type parameter of the core itself. *)
Inductive skein := Skein256 | Skein512 | Skein1024.
(** A hasher type; sizes in bytes. *)
Inductive named := Fixed (f : fixed) | CtVariable (v : variable) (size : nat) | Skein (s : skein) (size : nat).

Definition fixed_name (f : fixed) : string :=
  match f with
  | FSha1 => "Sha1"                           (* sha1/src/lib.rs 105-107 *)
  | FMd2 => "Md2"                             (* md2/src/lib.rs 127-129 *)
  | FMd4 => "Md4"                             (* md4/src/lib.rs 110-112 *)
  | FMd5 => "Md5"                             (* md5/src/lib.rs 102-104 *)
  | FSm3 => "Sm3"                             (* sm3/src/lib.rs 97-99 *)
  | FRipemd128 => "Ripemd128"                 (* ripemd/src/lib.rs 111-113, 170-173 *)
  | FRipemd160 => "Ripemd160" | FRipemd256 => "Ripemd256" | FRipemd320 => "Ripemd320"
  | FKeccak224 => "Keccak224"                 (* sha3/src/macros.rs 74-76; sha3/src/lib.rs 47-96 *)
  | FKeccak256 => "Keccak256" | FKeccak384 => "Keccak384" | FKeccak512 => "Keccak512"
  | FKeccak256Full => "Keccak256Full"
  | FSha3_224 => "Sha3_224" | FSha3_256 => "Sha3_256" | FSha3_384 => "Sha3_384" | FSha3_512 => "Sha3_512"
  | FShake128 => "Shake128"                   (* sha3/src/macros.rs 214-216; sha3/src/lib.rs 98-117 *)
  | FShake256 => "Shake256"
  | FTurboShake128 => "TurboShake128"         (* sha3/src/macros.rs 374-376; sha3/src/lib.rs 119-134 *)
  | FTurboShake256 => "TurboShake256"
  | FCShake128 => "CShake128"                 (* sha3/src/macros.rs 576-578; sha3/src/lib.rs 136-155 *)
  | FCShake256 => "CShake256"
  | FKangarooTwelve => "KangarooTwelve"       (* k12/src/lib.rs 177-179 *)
  | FTiger => "Tiger" | FTiger2 => "Tiger2"   (* tiger/src/lib.rs 145-151 *)
  | FWhirlpool => "Whirlpool"                 (* whirlpool/src/lib.rs 129-131 *)
  | FGost94CryptoPro => "Gost94CryptoPro"     (* gost94/src/gost94_core.rs 270-272; gost94/src/params.rs 33 *)
  | FGost94s2015 => "Gost94s2015"             (* gost94/src/params.rs 58 *)
  | FGost94Test => "Gost94Test"               (* gost94/src/params.rs 77 *)
  | FGost94UA => "Gost28147UA"                (* gost94/src/params.rs 102 *)
  | FFsb160 => "Fsb160"                       (* fsb/src/macros.rs 74-76; fsb/src/lib.rs *)
  | FFsb224 => "Fsb224" | FFsb256 => "Fsb256" | FFsb384 => "Fsb384" | FFsb512 => "Fsb512"
  | FBeltHash => "BeltHash"                   (* belt-hash/src/lib.rs 126-128 *)
  | FAsconHash256 => "Ascon-Hash256"          (* ascon-hash/src/lib.rs 174-176 *)
  | FAsconXof128 => "AsconXOF"                (* ascon-hash/src/lib.rs 239-241 *)
  end.
Definition variable_name (v : variable) : string :=
  match v with
  | VSha256 => "Sha256"                       (* sha2/src/core_api.rs 79-81 *)
  | VSha512 => "Sha512"                       (* sha2/src/core_api.rs 197-199 *)
  | VBlake2b => "Blake2b"                     (* blake2/src/macros.rs 239-241; blake2/src/lib.rs 50-52 *)
  | VBlake2s => "Blake2s"                     (* blake2/src/lib.rs 84-86 *)
  | VGroestlShort => "GroestlShort"           (* groestl/src/lib.rs 110-112 *)
  | VGroestlLong => "GroestlLong"             (* groestl/src/lib.rs 241-243 *)
  | VKupynaShort => "KupynaShort"             (* kupyna/src/short.rs 100-102 *)
  | VKupynaLong => "KupynaLong"               (* kupyna/src/long.rs 102-104 *)
  | VStreebog => "Streebog"                   (* streebog/src/core_api.rs 146-148 *)
  | VJh => "Jh"                               (* jh/src/lib.rs 110-112 *)
  | VShabal => "Shabal"                       (* shabal/src/core_api.rs 237-239 *)
  end.
(** skein/src/lib.rs 165-167 *)
Definition skein_name (s : skein) : string :=
  match s with Skein256 => "Skein256" | Skein512 => "Skein512" | Skein1024 => "Skein1024" end.
(** [write!(f, "{}", n)] for a usize. *)
Definition decimal (n : nat) : string := NilEmpty.string_of_uint (Nat.to_uint n).
(** What [write_alg_name] writes for a type; digest's wrapper appends "_" and the output size. *)
Definition alg_name (t : named) : string :=
  match t with
  | Fixed f => fixed_name f
  | CtVariable v size => variable_name v ++ "_" ++ decimal size
  | Skein s _ => skein_name s
  end.
(** skein/src/lib.rs 170-174: [Debug] of a Skein core does print the size. *)
Definition skein_debug (s : skein) (size : nat) : string :=
  skein_name s ++ "Core<" ++ decimal size ++ "> { .. }".
