(** The hashers of the workspace, one constructor per public hasher type (or per family, with its
    parameters).  Pieces of the crates are modelled in the other Model files; this file only lists
    them.  Not listed: the keyed BLAKE2 MACs, which have an API of their own (Model/Blake2.v, C23, C24). *)
From Verif Require Import Base.Words Base.Bytes Base.BlockBuffer Base.Digest Base.Xof Base.Limit Spec.Sizes Model.VarSizes.
From Verif Require Model.Ascon Model.Belt Model.Blake2 Model.Fsb Model.Gost94 Model.Groestl Model.Jh Model.K12 Model.Kupyna
  Model.Md2 Model.Md4 Model.Md5 Model.Ripemd Model.Sha1 Model.Sha1Checked Model.Sha2 Model.Sha3 Model.Shabal Model.Skein
  Model.Sm3 Model.Streebog Model.Tiger Model.Whirlpool Spec.Threefish.

Inductive alg :=
(* sha1/src/lib.rs 48; sha1-checked/src/lib.rs 73-150 with the builder's settings *)
| Sha1 | Sha1Checked (b : Model.Sha1Checked.Builder)
(* sha2/src/lib.rs 50-73 *)
| Sha224 | Sha256 | Sha384 | Sha512 | Sha512_224 | Sha512_256
(* md2, md4, md5, sm3: src/lib.rs *)
| Md2 | Md4 | Md5 | Sm3
(* ripemd/src/lib.rs 170-173 *)
| Ripemd128 | Ripemd160 | Ripemd256 | Ripemd320
(* sha3/src/lib.rs 60-155; the extendable-output hashers with the lengths of the successive reads *)
| Keccak224 | Keccak256 | Keccak384 | Keccak512 | Keccak256Full
| Sha3_224 | Sha3_256 | Sha3_384 | Sha3_512
| Shake128 (reads : list nat) | Shake256 (reads : list nat)
| TurboShake128 (ds : N) (reads : list nat) | TurboShake256 (ds : N) (reads : list nat)
| CShake128 (fn cust : bytes) (reads : list nat) | CShake256 (fn cust : bytes) (reads : list nat)
(* k12/src/lib.rs 240-260 *)
| KangarooTwelve (cust : bytes) (reads : list nat)
(* blake2/src/lib.rs 100-166: output size, salt and personalization *)
| Blake2b (salt persona : bytes) (size : nat) | Blake2s (salt persona : bytes) (size : nat)
(* tiger, whirlpool: src/lib.rs *)
| Tiger | Tiger2 | Whirlpool
(* groestl, kupyna: src/lib.rs, every output size of the two cores of each *)
| GroestlShort (size : nat) | GroestlLong (size : nat) | KupynaShort (size : nat) | KupynaLong (size : nat)
(* streebog/src/lib.rs 31-34; gost94/src/lib.rs, any parameter set *)
| Streebog256 | Streebog512 | Gost94 (params : Model.Gost94.params)
(* skein/src/lib.rs 172-176, every output size *)
| Skein256 (size : nat) | Skein512 (size : nat) | Skein1024 (size : nat)
(* jh/src/lib.rs 30-39; shabal/src/lib.rs 24-33 *)
| Jh224 | Jh256 | Jh384 | Jh512 | Shabal192 | Shabal224 | Shabal256 | Shabal384 | Shabal512
(* fsb/src/lib.rs, over the table [PI] *)
| Fsb160 (PI : bytes) | Fsb224 (PI : bytes) | Fsb256 (PI : bytes) | Fsb384 (PI : bytes) | Fsb512 (PI : bytes)
(* belt-hash/src/lib.rs; ascon-hash/src/lib.rs *)
| BeltHash | AsconHash256 | AsconXof128 (reads : list nat).

(** A new hasher, if the constructor does not panic. *)
Definition skein (V : Spec.Threefish.variant) (size : nat) (m : mode) : option core :=
  let NB := (8 * Spec.Threefish.Nw V)%nat in
  let E := Spec.Threefish.encrypt V in
  let* ini := Model.Skein.skein_default NB size E m in Some (Model.Skein.skein_core NB size E ini).
Definition blake2 (P : Model.Blake2.b2p) (salt persona : bytes) (size : nat) : option core :=
  let* ini := Model.Blake2.new_with_params P salt persona 0 size in Some (Model.Blake2.blake2_core P ini [] size).
Definition cshake (rate : nat) (fn cust : bytes) (reads : list nat) (m : mode) : option core :=
  let* ini := Model.Sha3.cshake_new m rate fn cust in Some (xof_core (Model.Sha3.cshake_xof rate ini) reads).
Definition turbo (X : N -> xof) (ds : N) (reads : list nat) : option core :=
  let* _ := Model.Sha3.turbo_new ds in Some (xof_core (X ds) reads).
Definition hasher (m : mode) (a : alg) : option core :=
  match a with
  | Sha1 => Some Model.Sha1.Sha1 | Sha1Checked b => Some (Model.Sha1Checked.Sha1Checked b)
  | Sha224 => ct_new FSha256 28 | Sha256 => ct_new FSha256 32 | Sha384 => ct_new FSha512 48
  | Sha512 => ct_new FSha512 64 | Sha512_224 => ct_new FSha512 28 | Sha512_256 => ct_new FSha512 32
  | Md2 => Some Model.Md2.Md2 | Md4 => Some Model.Md4.Md4 | Md5 => Some Model.Md5.Md5 | Sm3 => Some Model.Sm3.Sm3
  | Ripemd128 => Some Model.Ripemd.Ripemd128 | Ripemd160 => Some Model.Ripemd.Ripemd160
  | Ripemd256 => Some Model.Ripemd.Ripemd256 | Ripemd320 => Some Model.Ripemd.Ripemd320
  | Keccak224 => Some Model.Sha3.Keccak224 | Keccak256 => Some Model.Sha3.Keccak256
  | Keccak384 => Some Model.Sha3.Keccak384 | Keccak512 => Some Model.Sha3.Keccak512
  | Keccak256Full => Some Model.Sha3.Keccak256Full
  | Sha3_224 => Some Model.Sha3.Sha3_224 | Sha3_256 => Some Model.Sha3.Sha3_256
  | Sha3_384 => Some Model.Sha3.Sha3_384 | Sha3_512 => Some Model.Sha3.Sha3_512
  | Shake128 ns => Some (xof_core Model.Sha3.Shake128 ns) | Shake256 ns => Some (xof_core Model.Sha3.Shake256 ns)
  | TurboShake128 ds ns => turbo Model.Sha3.TurboShake128 ds ns | TurboShake256 ds ns => turbo Model.Sha3.TurboShake256 ds ns
  | CShake128 fn cust ns => cshake 168 fn cust ns m | CShake256 fn cust ns => cshake 136 fn cust ns m
  | KangarooTwelve cust ns => Some (xof_core (Model.K12.K12 cust) ns)
  | Blake2b salt persona n => blake2 Model.Blake2.Blake2b salt persona n
  | Blake2s salt persona n => blake2 Model.Blake2.Blake2s salt persona n
  | Tiger => Some Model.Tiger.Tiger | Tiger2 => Some Model.Tiger.Tiger2 | Whirlpool => Some Model.Whirlpool.Whirlpool
  | GroestlShort n => ct_new FGroestlShort n | GroestlLong n => ct_new FGroestlLong n
  | KupynaShort n => ct_new FKupynaShort n | KupynaLong n => ct_new FKupynaLong n
  | Streebog256 => ct_new FStreebog 32 | Streebog512 => ct_new FStreebog 64
  | Gost94 Pr => Some (Model.Gost94.gost94_core Pr)
  | Skein256 n => skein Spec.Threefish.Threefish256 n m | Skein512 n => skein Spec.Threefish.Threefish512 n m
  | Skein1024 n => skein Spec.Threefish.Threefish1024 n m
  | Jh224 => ct_new FJh 28 | Jh256 => ct_new FJh 32 | Jh384 => ct_new FJh 48 | Jh512 => ct_new FJh 64
  | Shabal192 => ct_new FShabal 24 | Shabal224 => ct_new FShabal 28
  | Shabal256 => ct_new FShabal 32 | Shabal384 => ct_new FShabal 48 | Shabal512 => ct_new FShabal 64
  | Fsb160 PI => Some (Model.Fsb.Fsb160 PI) | Fsb224 PI => Some (Model.Fsb.Fsb224 PI) | Fsb256 PI => Some (Model.Fsb.Fsb256 PI)
  | Fsb384 PI => Some (Model.Fsb.Fsb384 PI) | Fsb512 PI => Some (Model.Fsb.Fsb512 PI)
  | BeltHash => Some Model.Belt.BeltHash
  | AsconHash256 => Some Model.Ascon.AsconHash256 | AsconXof128 ns => Some (xof_core Model.Ascon.AsconXof128 ns)
  end.

(** What the Rust types guarantee about the parameters, and bounds on them:
    function names and customization strings below 2^61 bytes, Skein outputs below 2^61 bytes,
    GOST S-boxes of 8 rows of 16 nibbles, FSB's table of the size of src/pi.bin. *)
Definition params_ok (a : alg) : Prop :=
  match a with
  | CShake128 fn cust _ | CShake256 fn cust _ =>
      bytes_ok fn /\ bytes_ok cust /\ 8 * N.of_nat (length fn) < 2 ^ 64 /\ 8 * N.of_nat (length cust) < 2 ^ 64
  | KangarooTwelve cust _ => bytes_ok cust
  | Skein256 n | Skein512 n | Skein1024 n => N.of_nat n < 2 ^ 61
  | Gost94 Pr =>
      (length (Model.Gost94.S_BOX Pr) = 8%nat /\
       Forall (fun r => length r = 16%nat /\ Forall (fun x => x < 16) r) (Model.Gost94.S_BOX Pr)) /\
      (length (Model.Gost94.H0 Pr) = 32%nat /\ bytes_ok (Model.Gost94.H0 Pr))
  | Fsb160 PI | Fsb224 PI | Fsb256 PI | Fsb384 PI | Fsb512 PI => N.of_nat (length PI) = 272384 /\ bytes_ok PI
  | _ => True
  end.

(** Length limit on the data hashed at a time, in bytes; [None] is no limit. *)
Definition max_bytes (a : alg) : option N :=
  match a with
  | Sha1 | Sha1Checked _ | Sha224 | Sha256 | Sm3 | Ripemd128 | Ripemd160 | Ripemd256 | Ripemd320 | Tiger | Tiger2
  | Jh224 | Jh256 | Jh384 | Jh512 | Fsb160 _ | Fsb224 _ | Fsb256 _ | Fsb384 _ | Fsb512 _ => Some (2 ^ 61)
  | Sha384 | Sha512 | Sha512_224 | Sha512_256 | BeltHash => Some (2 ^ 125)
  | KangarooTwelve cust _ => Some (2 ^ 64 - 16 - N.of_nat (length cust))
  | Blake2b _ _ _ | Blake2s _ _ _ | Skein256 _ | Skein512 _ | Skein1024 _ => Some (2 ^ 64)
  | Whirlpool => Some (2 ^ 253)
  | GroestlShort _ | GroestlLong _ => Some (2 ^ 69)
  | KupynaShort _ | KupynaLong _ => Some (2 ^ 70)
  | Streebog256 | Streebog512 => Some (2 ^ 445)
  | _ => None
  end.
(** Limit on the length of the slice given to one [update] call, in bytes. *)
Definition max_slice (a : alg) : option N :=
  match a with
  | Whirlpool => Some (2 ^ 61)
  | Gost94 _ => Some (2 ^ 63)
  | _ => None
  end.
Definition below (limit : option N) (n : nat) : Prop :=
  match limit with Some L => N.of_nat n < L | None => True end.
Definition slices (a : alg) (cs : list bytes) : Prop := Forall (fun c => below (max_slice a) (length c)) cs.
Definition op_slices (a : alg) (ops : list op) : Prop :=
  Forall (fun o => match o with Update _ b => below (max_slice a) (length b) | _ => True end) ops.
(** Parameters that the constructors accept: TurboSHAKE domain bytes, BLAKE2 salt, personalization
    and output size, output sizes of the Groestl and Kupyna cores. *)
Definition accepted (a : alg) : Prop :=
  match a with
  | TurboShake128 ds _ | TurboShake256 ds _ => 0x01 <= ds <= 0x7F
  | Blake2b salt persona n => (length salt <= 16 /\ length persona <= 16 /\ n <= 64)%nat
  | Blake2s salt persona n => (length salt <= 8 /\ length persona <= 8 /\ n <= 32)%nat
  | GroestlShort n | KupynaShort n => (n <= 32)%nat
  | GroestlLong n => (n <= 64)%nat
  | KupynaLong n => (32 <= n <= 64)%nat
  | _ => True
  end.
(** The length of an encoded hasher: core, position byte, buffer. *)
Definition state_len (C : core) (cd : codec (cst C)) : nat := (cd_len cd + 1 + c_bs C)%nat.

(** ** The extendable-output hashers *)
Inductive xalg :=
| XShake128 | XShake256 | XTurboShake128 (ds : N) | XTurboShake256 (ds : N)
| XCShake128 (fn cust : bytes) | XCShake256 (fn cust : bytes) | XKangarooTwelve (cust : bytes) | XAsconXof128.
Definition xhasher (m : mode) (x : xalg) : option xof :=
  match x with
  | XShake128 => Some Model.Sha3.Shake128
  | XShake256 => Some Model.Sha3.Shake256
  | XTurboShake128 ds => let* _ := Model.Sha3.turbo_new ds in Some (Model.Sha3.TurboShake128 ds)
  | XTurboShake256 ds => let* _ := Model.Sha3.turbo_new ds in Some (Model.Sha3.TurboShake256 ds)
  | XCShake128 fn cust => let* ini := Model.Sha3.cshake_new m 168 fn cust in Some (Model.Sha3.CShake128 ini)
  | XCShake256 fn cust => let* ini := Model.Sha3.cshake_new m 136 fn cust in Some (Model.Sha3.CShake256 ini)
  | XKangarooTwelve cust => Some (Model.K12.K12 cust)
  | XAsconXof128 => Some Model.Ascon.AsconXof128
  end.
(** The same hasher read in pieces of given lengths, as a hasher of the list above. *)
Definition read_as (x : xalg) (reads : list nat) : alg :=
  match x with
  | XShake128 => Shake128 reads
  | XShake256 => Shake256 reads
  | XTurboShake128 ds => TurboShake128 ds reads
  | XTurboShake256 ds => TurboShake256 ds reads
  | XCShake128 fn cust => CShake128 fn cust reads
  | XCShake256 fn cust => CShake256 fn cust reads
  | XKangarooTwelve cust => KangarooTwelve cust reads
  | XAsconXof128 => AsconXof128 reads
  end.
(** [new], [update] on each chunk, [finalize_xof], [read] of each length: the pieces. *)
Definition xof_pieces (X : xof) (m : mode) (cs : list bytes) (reads : list nat) : option (list bytes) :=
  let* h := h_updates (xof_core X []) m (h_new (xof_core X [])) cs in
  let* (r, _) := x_final X m (fst h) (snd h) in
  Some (fst (rd_reads (x_read X) (x_rbs X) (rd_new r) reads)).
