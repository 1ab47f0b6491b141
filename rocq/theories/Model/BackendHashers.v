(** The SHA-1, SHA-2 and MD5 hashers on top of any back end.  [env] says, for each
    call of the compression function, on which target it runs and what the back
    end finds in registers and memory (Model/Backends.v).  The functions are
    those of Model/Sha2.v, Model/Sha1.v and Model/Md5.v with the call of the
    portable compression function replaced; the closures passed to the padding
    functions compress one block at a time. *)
From Verif Require Import Base.Words Base.Bytes Base.Codec Base.BlockBuffer Base.Digest Model.Sha2Consts.
From Verif Require Import Spec.Memory Model.Backends Model.Sha2.
From Verif Require Model.Sha1 Model.Md5.

Definition env2 := list N -> list bytes -> sha2_target.
Definition env1 := list N -> list bytes -> sha1_target.
Definition env5 := list N -> list bytes -> md5_target.

(** Every call sees the blocks it is given. *)
Definition sound256 (e : env2) : Prop := forall st blocks, whole 64 blocks -> sees256 (e st blocks) blocks.
Definition sound512 (e : env2) : Prop := forall st blocks, whole 128 blocks -> sees512 (e st blocks) blocks.
Definition sound1 (e : env1) : Prop := forall st blocks, sees1 (e st blocks).
Definition sound5 (e : env5) : Prop := forall st blocks, sees5 (e st blocks).

(** sha2/src/core_api.rs 40-44 *)
Definition sha256_update_on (e : env2) (m : mode) (s : st256) (blocks : list bytes) : option st256 :=
  let* block_len := cadd m 64 (snd s) (N.of_nat (length blocks)) in
  Some (compress256 (e (fst s) blocks) (fst s) blocks, block_len).
(** core_api.rs 66-74 *)
Definition sha256_finalize_on (e : env2) (m : mode) (s : st256) (buffer : bytes) : option (bytes * st256) :=
  let* t := cmul m 64 64 (snd s) in
  let* t := cadd m 64 (N.of_nat (length buffer)) t in
  let* bit_len := cmul m 64 8 t in
  let state := fold_left (fun st b => compress256 (e st [b]) st [b]) (len64_padding_be 64 bit_len buffer) (fst s) in
  Some (words_to_be 4 state, (state, snd s)).
Definition sha256_on (e : env2) (iv : list N) (n : nat) : core :=
  mkCore st256 64 Eager (iv, 0) [] (sha256_update_on e)
    (fun m s buf => let* (full, s') := sha256_finalize_on e m s buf in Some (firstn n full, s'))
    (fun _ => ((iv, 0), [])) (Some (sized n sha256_codec)).
(** lib.rs 50, 52 *)
Definition Sha224_on (e : env2) : core := sha256_on e H256_224 28.
Definition Sha256_on (e : env2) : core := sha256_on e H256_256 32.

(** core_api.rs 156-160 *)
Definition sha512_update_on (e : env2) (m : mode) (s : st512) (blocks : list bytes) : option st512 :=
  let* block_len := cadd m 128 (snd s) (N.of_nat (length blocks)) in
  Some (compress512 (e (fst s) blocks) (fst s) blocks, block_len).
(** core_api.rs 184-192 *)
Definition sha512_finalize_on (e : env2) (m : mode) (s : st512) (buffer : bytes) : option (bytes * st512) :=
  let* t := cmul m 128 128 (snd s) in
  let* t := cadd m 128 (N.of_nat (length buffer)) t in
  let* bit_len := cmul m 128 8 t in
  let state := fold_left (fun st b => compress512 (e st [b]) st [b]) (len128_padding_be 128 bit_len buffer) (fst s) in
  Some (words_to_be 8 state, (state, snd s)).
Definition sha512_on (e : env2) (iv : list N) (n : nat) : core :=
  mkCore st512 128 Eager (iv, 0) [] (sha512_update_on e)
    (fun m s buf => let* (full, s') := sha512_finalize_on e m s buf in Some (firstn n full, s'))
    (fun _ => ((iv, 0), [])) (Some (sized n sha512_codec)).
(** lib.rs 54, 56, 58, 60 *)
Definition Sha512_224_on (e : env2) : core := sha512_on e H512_224 28.
Definition Sha512_256_on (e : env2) : core := sha512_on e H512_256 32.
Definition Sha384_on (e : env2) : core := sha512_on e H512_384 48.
Definition Sha512_on (e : env2) : core := sha512_on e H512_512 64.

(** sha1/src/lib.rs 66-70 *)
Definition sha1_update_on (e : env1) (m : mode) (s : Sha1.sha1_st) (blocks : list bytes) : option Sha1.sha1_st :=
  let* block_len := cadd m 64 (snd s) (N.of_nat (length blocks)) in
  Some (compress1 (e (fst s) blocks) (fst s) blocks, block_len).
(** sha1/src/lib.rs 75-84 *)
Definition sha1_finalize_on (e : env1) (m : mode) (s : Sha1.sha1_st) (buffer : bytes) : option (bytes * Sha1.sha1_st) :=
  let* t := cmul m 64 64 (snd s) in
  let* t := cadd m 64 (N.of_nat (length buffer)) t in
  let* bit_len := cmul m 64 8 t in
  let h := fold_left (fun st b => compress1 (e st [b]) st [b]) (len64_padding_be 64 bit_len buffer) (fst s) in
  Some (words_to_be 4 h, s).
(** sha1/src/lib.rs 48, 87-102 *)
Definition Sha1_on (e : env1) : core :=
  mkCore Sha1.sha1_st 64 Eager (Sha1.H0, 0) [] (sha1_update_on e) (sha1_finalize_on e)
    (fun _ => ((Sha1.H0, 0), [])) (Some Sha1.sha1_codec).

(** md5/src/lib.rs 61-65 *)
Definition md5_update_on (e : env5) (_ : mode) (s : Md5.md5_st) (blocks : list bytes) : option Md5.md5_st :=
  let* block_len := cadd Wrapping 64 (snd s) (N.of_nat (length blocks)) in
  Some (compress5 (e (fst s) blocks) (fst s) blocks, block_len).
(** md5/src/lib.rs 70-81 *)
Definition md5_finalize_on (e : env5) (_ : mode) (s : Md5.md5_st) (buffer : bytes) : option (bytes * Md5.md5_st) :=
  let bit_len := wmul 64 (wadd 64 (wmul 64 (snd s) 64) (N.of_nat (length buffer))) 8 in
  let h := fold_left (fun st b => compress5 (e st [b]) st [b]) (len64_padding_le 64 bit_len buffer) (fst s) in
  Some (words_to_le 4 h, s).
(** md5/src/lib.rs 41, 84-99 *)
Definition Md5_on (e : env5) : core :=
  mkCore Md5.md5_st 64 Eager (Md5.STATE_INIT, 0) [] (md5_update_on e) (md5_finalize_on e)
    (fun _ => ((Md5.STATE_INIT, 0), [])) (Some Md5.md5_codec).
