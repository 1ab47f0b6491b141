(** The [AssociatedOid] constants of the hashers (feature "oid"), as the strings
    in the sources, and the reading of such a string by
    [ObjectIdentifier::new_unwrap] of the const-oid crate. *)
From Coq Require Import List NArith String Ascii.
From Verif Require Import Spec.Oids.
Import ListNotations.
Open Scope N_scope.
Open Scope bool_scope.

(** The types with an [AssociatedOid] implementation.  The sha1-checked hasher
    takes over the constant of sha1::Sha1Core. *)
Inductive oid_type :=
| TSha1 | TSha1Checked
| TSha224 | TSha256 | TSha384 | TSha512 | TSha512_224 | TSha512_256
| TSha3_224 | TSha3_256 | TSha3_384 | TSha3_512 | TShake128 | TShake256
| TMd2 | TMd4 | TMd5 | TRipemd128 | TRipemd160 | TRipemd256
| TStreebog256 | TStreebog512 | TGost94CryptoPro | TGost94UA | TBeltHash.

Definition oid_string (t : oid_type) : string :=
  match t with
  | TSha1 => "1.3.14.3.2.26"                     (* sha1/src/lib.rs 116-119 *)
  | TSha1Checked => "1.3.14.3.2.26"              (* sha1-checked/src/lib.rs 242-245 *)
  | TSha256 => "2.16.840.1.101.3.4.2.1"          (* sha2/src/lib.rs 42, 52 *)
  | TSha384 => "2.16.840.1.101.3.4.2.2"          (* 43, 58 *)
  | TSha512 => "2.16.840.1.101.3.4.2.3"          (* 44, 60 *)
  | TSha224 => "2.16.840.1.101.3.4.2.4"          (* 45, 50 *)
  | TSha512_224 => "2.16.840.1.101.3.4.2.5"      (* 46, 54 *)
  | TSha512_256 => "2.16.840.1.101.3.4.2.6"      (* 47, 56 *)
  | TSha3_224 => "2.16.840.1.101.3.4.2.7"        (* sha3/src/lib.rs 61-69; macros.rs 135-138 *)
  | TSha3_256 => "2.16.840.1.101.3.4.2.8"        (* 70-78 *)
  | TSha3_384 => "2.16.840.1.101.3.4.2.9"        (* 79-87 *)
  | TSha3_512 => "2.16.840.1.101.3.4.2.10"       (* 88-96 *)
  | TShake128 => "2.16.840.1.101.3.4.2.11"       (* 98-107; macros.rs 290-293 *)
  | TShake256 => "2.16.840.1.101.3.4.2.11"       (* 108-117 *)
  | TMd2 => "1.2.840.113549.2.2"                 (* md2/src/lib.rs 138-141 *)
  | TMd4 => "1.2.840.113549.2.4"                 (* md4/src/lib.rs 121-124 *)
  | TMd5 => "1.2.840.113549.2.5"                 (* md5/src/lib.rs 113-116 *)
  | TRipemd128 => "1.3.36.3.2.2"                 (* ripemd/src/lib.rs 175-181 *)
  | TRipemd160 => "1.3.36.3.2.1"                 (* 183-189 *)
  | TRipemd256 => "1.3.36.3.2.3"                 (* 191-194 *)
  | TStreebog256 => "1.2.643.7.1.1.2.2"          (* streebog/src/lib.rs 28, 32 *)
  | TStreebog512 => "1.2.643.7.1.1.2.3"          (* 29, 34 *)
  | TGost94CryptoPro => "1.2.643.2.2.9"          (* gost94/src/lib.rs 26-30 *)
  | TGost94UA => "1.2.804.2.1.1.1.1.2.1"         (* 32-35 *)
  | TBeltHash => "1.2.112.0.2.0.34.101.31.81"    (* belt-hash/src/lib.rs 137-140 *)
  end%string.

(** The algorithm each type implements. *)
Definition implements (t : oid_type) : algorithm :=
  match t with
  | TSha1 | TSha1Checked => SHA_1
  | TSha224 => SHA_224 | TSha256 => SHA_256 | TSha384 => SHA_384 | TSha512 => SHA_512
  | TSha512_224 => SHA_512_224 | TSha512_256 => SHA_512_256
  | TSha3_224 => SHA3_224 | TSha3_256 => SHA3_256 | TSha3_384 => SHA3_384 | TSha3_512 => SHA3_512
  | TShake128 => SHAKE_128 | TShake256 => SHAKE_256
  | TMd2 => MD_2 | TMd4 => MD_4 | TMd5 => MD_5
  | TRipemd128 => RIPEMD_128 | TRipemd160 => RIPEMD_160 | TRipemd256 => RIPEMD_256
  | TStreebog256 => Streebog_256 | TStreebog512 => Streebog_512
  | TGost94CryptoPro => GOST94_CryptoPro | TGost94UA => GOST94_UA | TBeltHash => BelT_hash
  end.

(** const-oid: decimal arcs separated by single dots; anything else is an error,
    which [new_unwrap] turns into a compile-time panic. *)
Definition digit (c : ascii) : option N :=
  let n := N_of_ascii c in if (48 <=? n) && (n <=? 57) then Some (n - 48) else None.
Fixpoint arcs (s : string) (acc : N) (fresh : bool) : option (list N) :=
  match s with
  | EmptyString => if fresh then None else Some [acc]
  | String c s =>
      if (N_of_ascii c =? 46) then
        if fresh then None else option_map (cons acc) (arcs s 0 true)
      else match digit c with Some d => arcs s (10 * acc + d) false | None => None end
  end.
Definition oid (t : oid_type) : option (list N) := arcs (oid_string t) 0 true.
