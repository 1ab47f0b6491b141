(** The object identifiers registered for hash functions, as lists of arcs. *)
From Coq Require Import List NArith.
Import ListNotations.
Open Scope N_scope.

Inductive algorithm :=
| SHA_1 | SHA_224 | SHA_256 | SHA_384 | SHA_512 | SHA_512_224 | SHA_512_256
| SHA3_224 | SHA3_256 | SHA3_384 | SHA3_512 | SHAKE_128 | SHAKE_256
| MD_2 | MD_4 | MD_5 | RIPEMD_128 | RIPEMD_160 | RIPEMD_256
| Streebog_256 | Streebog_512 | GOST94_CryptoPro | GOST94_UA | BelT_hash.

(** iso(1) member-body(2) us(840) rsadsi(113549) digestAlgorithm(2): RFC 1319, 1320, 1321 *)
Definition digestAlgorithm : list N := [1; 2; 840; 113549; 2].
(** joint-iso-itu-t(2) country(16) us(840) organization(1) gov(101) csor(3)
    nistAlgorithm(4) hashAlgs(2): NIST Computer Security Objects Register *)
Definition hashAlgs : list N := [2; 16; 840; 1; 101; 3; 4; 2].
(** iso(1) identified-organization(3) teletrust(36) algorithm(3) hashAlgorithm(2) *)
Definition teletrust_hash : list N := [1; 3; 36; 3; 2].
(** iso(1) member-body(2) ru(643) rosstandart(7) tc26(1) algorithms(1) digest(2): RFC 6986, RFC 9215 *)
Definition tc26_digest : list N := [1; 2; 643; 7; 1; 1; 2].

Definition registered (a : algorithm) : list N :=
  match a with
  | SHA_1 => [1; 3; 14; 3; 2; 26]        (* oiw secsig(3) algorithm(2) hashAlgorithmIdentifier(26), RFC 3370 *)
  | SHA_256 => hashAlgs ++ [1]
  | SHA_384 => hashAlgs ++ [2]
  | SHA_512 => hashAlgs ++ [3]
  | SHA_224 => hashAlgs ++ [4]
  | SHA_512_224 => hashAlgs ++ [5]
  | SHA_512_256 => hashAlgs ++ [6]
  | SHA3_224 => hashAlgs ++ [7]
  | SHA3_256 => hashAlgs ++ [8]
  | SHA3_384 => hashAlgs ++ [9]
  | SHA3_512 => hashAlgs ++ [10]
  | SHAKE_128 => hashAlgs ++ [11]
  | SHAKE_256 => hashAlgs ++ [12]
  | MD_2 => digestAlgorithm ++ [2]
  | MD_4 => digestAlgorithm ++ [4]
  | MD_5 => digestAlgorithm ++ [5]
  | RIPEMD_160 => teletrust_hash ++ [1]
  | RIPEMD_128 => teletrust_hash ++ [2]
  | RIPEMD_256 => teletrust_hash ++ [3]
  | Streebog_256 => tc26_digest ++ [2]
  | Streebog_512 => tc26_digest ++ [3]
  | GOST94_CryptoPro => [1; 2; 643; 2; 2; 9]               (* RFC 4490 *)
  | GOST94_UA => [1; 2; 804; 2; 1; 1; 1; 1; 2; 1]
  | BelT_hash => [1; 2; 112; 0; 2; 0; 34; 101; 31; 81]      (* STB 34.101.31 *)
  end.
