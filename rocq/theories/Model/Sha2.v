(** Model of sha2/src/core_api.rs and sha2/src/lib.rs: the SHA-2 hashers on top
    of the portable compression functions. *)
From Verif Require Import Base.Words Base.Bytes Base.Codec Base.BlockBuffer Base.Digest Model.Sha2Consts.
From Verif Require Model.Sha256Soft Model.Sha512Soft.

(** ** Sha256VarCore (core_api.rs 23-26): state words and block counter (u64) *)
Definition st256 := (list N * N)%type.

(** core_api.rs 40-44 [update_blocks] *)
Definition sha256_update (m : mode) (s : st256) (blocks : list bytes) : option st256 :=
  let* block_len := cadd m 64 (snd s) (N.of_nat (length blocks)) in
  Some (Sha256Soft.compress (fst s) blocks, block_len).
(** core_api.rs 55-63 [new]; [None] is [Err(InvalidOutputSize)] *)
Definition sha256_new (output_size : nat) : option st256 :=
  match output_size with
  | 28%nat => Some (H256_224, 0)
  | 32%nat => Some (H256_256, 0)
  | _ => None
  end.
(** core_api.rs 66-74 [finalize_variable_core]; the output array is 32 bytes *)
Definition sha256_finalize (m : mode) (s : st256) (buffer : bytes) : option (bytes * st256) :=
  let bs := 64 in
  let* t := cmul m 64 bs (snd s) in
  let* t := cadd m 64 (N.of_nat (length buffer)) t in
  let* bit_len := cmul m 64 8 t in
  let state := Sha256Soft.compress (fst s) (len64_padding_be 64 bit_len buffer) in
  Some (words_to_be 4 state, (state, snd s)).
(** core_api.rs 104-132 [serialize], [deserialize] *)
Definition sha256_codec : codec st256 := mkCodec 40 (ser_counted 4 8) (deser_counted 4 8).

(** [CtVariableCoreWrapper<Sha256VarCore, N>] (digest crate): [TruncSide::Left]
    keeps the first N bytes of the full output; [Default]/[Reset] call [new(N)]. *)
Definition sha256_var_core (iv : list N) (n : nat) : core :=
  mkCore st256 64 Eager (iv, 0) [] sha256_update
    (fun m s buf => let* (full, s') := sha256_finalize m s buf in Some (firstn n full, s'))
    (fun _ => ((iv, 0), [])) (Some (sized n sha256_codec)).
(** lib.rs 50, 52: U28 and U32; the initial states are those [sha256_new] gives
    for these sizes (checked by [sha224_core_new], [sha256_core_new]) *)
Definition Sha224 : core := sha256_var_core H256_224 28.
Definition Sha256 : core := sha256_var_core H256_256 32.

(** ** Sha512VarCore (core_api.rs 139-142): state words and block counter (u128) *)
Definition st512 := (list N * N)%type.
(** core_api.rs 156-160 *)
Definition sha512_update (m : mode) (s : st512) (blocks : list bytes) : option st512 :=
  let* block_len := cadd m 128 (snd s) (N.of_nat (length blocks)) in
  Some (Sha512Soft.compress (fst s) blocks, block_len).
(** core_api.rs 171-181 *)
Definition sha512_new (output_size : nat) : option st512 :=
  match output_size with
  | 28%nat => Some (H512_224, 0)
  | 32%nat => Some (H512_256, 0)
  | 48%nat => Some (H512_384, 0)
  | 64%nat => Some (H512_512, 0)
  | _ => None
  end.
(** core_api.rs 184-192 *)
Definition sha512_finalize (m : mode) (s : st512) (buffer : bytes) : option (bytes * st512) :=
  let bs := 128 in
  let* t := cmul m 128 bs (snd s) in
  let* t := cadd m 128 (N.of_nat (length buffer)) t in
  let* bit_len := cmul m 128 8 t in
  let state := Sha512Soft.compress (fst s) (len128_padding_be 128 bit_len buffer) in
  Some (words_to_be 8 state, (state, snd s)).
(** core_api.rs 221-249 *)
Definition sha512_codec : codec st512 := mkCodec 80 (ser_counted 8 16) (deser_counted 8 8).

Definition sha512_var_core (iv : list N) (n : nat) : core :=
  mkCore st512 128 Eager (iv, 0) [] sha512_update
    (fun m s buf => let* (full, s') := sha512_finalize m s buf in Some (firstn n full, s'))
    (fun _ => ((iv, 0), [])) (Some (sized n sha512_codec)).
(** lib.rs 54, 56, 58, 60 *)
Definition Sha512_224 : core := sha512_var_core H512_224 28.
Definition Sha512_256 : core := sha512_var_core H512_256 32.
Definition Sha384 : core := sha512_var_core H512_384 48.
Definition Sha512 : core := sha512_var_core H512_512 64.
