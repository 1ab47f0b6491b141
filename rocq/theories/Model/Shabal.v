(** Model of the shabal crate (shabal/src/core_api.rs, lib.rs). *)
From Verif Require Import Base.Words Base.Bytes Base.Codec Base.BlockBuffer Base.Digest Model.ShabalTables.

(** core_api.rs 22-28 *)
Record st := mkSt { a : list N; b : list N; c : list N; w : N }.
(** core_api.rs 31-37 *)
Definition add_m (s : st) (m : list N) : st :=
  mkSt (a s) (map (fun i => add32 (get (b s) i) (get m i)) (seq 0 16)) (c s) (w s).
(** core_api.rs 39-44 *)
Definition sub_m (s : st) (m : list N) : st :=
  mkSt (a s) (b s) (map (fun i => sub32 (get (c s) i) (get m i)) (seq 0 16)) (w s).
(** core_api.rs 46-49 *)
Definition xor_w (s : st) : st :=
  let a0 := upd (a s) 0 (N.lxor (get (a s) 0) (w s mod 2 ^ 32)) in
  mkSt (upd a0 1 (N.lxor (get a0 1) (N.shiftr (w s) 32 mod 2 ^ 32))) (b s) (c s) (w s).
(** core_api.rs 71-94 *)
Definition perm_elt (m : list N) (s : st) (ix : list nat) : st :=
  let xa0 := nth 0 ix 0%nat in let xa1 := nth 1 ix 0%nat in
  let xb0 := nth 2 ix 0%nat in let xb1 := nth 3 ix 0%nat in let xb2 := nth 4 ix 0%nat in let xb3 := nth 5 ix 0%nat in
  let xc := get (c s) (nth 6 ix 0%nat) in
  let xm := get m (nth 7 ix 0%nat) in
  let t1 := rotl32 (get (a s) xa1) 15 in
  let t2 := mul32 t1 5 in
  let t3 := mul32 (N.lxor (N.lxor (get (a s) xa0) t2) xc) 3 in
  let a' := upd (a s) xa0 (N.lxor (N.lxor (N.lxor t3 (get (b s) xb1)) (N.land (get (b s) xb2) (not32 (get (b s) xb3)))) xm) in
  let t := rotl32 (get (b s) xb0) 1 in
  mkSt a' (upd (b s) xb0 (not32 (N.lxor t (get a' xa0)))) (c s) (w s).
(** core_api.rs 96-145 *)
Definition perm_blocks (s : st) (m : list N) : st := fold_left (perm_elt m) PERM_BLOCKS s.
(** core_api.rs 51-69 *)
Definition perm (s : st) (m : list N) : st :=
  let s := mkSt (a s) (map (fun x => rotl32 x 17) (b s)) (c s) (w s) in
  let s := perm_blocks s m in
  let a' := fold_left (fun a ix =>
      let i := nth 0 ix 0%nat in
      upd a i (add32 (get a i) (add32 (add32 (get (c s) (nth 1 ix 0%nat)) (get (c s) (nth 2 ix 0%nat))) (get (c s) (nth 3 ix 0%nat)))))
    ADD_C (a s) in
  mkSt a' (b s) (c s) (w s).
(** core_api.rs 147-149 *)
Definition swap_b_c (s : st) : st := mkSt (a s) (c s) (b s) (w s).
(** core_api.rs 152-160 *)
Definition read_m (input : bytes) : list N := words_of_le 4 input.
(** core_api.rs 174-183: the body of the loop *)
Definition block_step (s : st) (block : bytes) : st :=
  let m := read_m block in
  let s := add_m s m in
  let s := xor_w s in
  let s := perm s m in
  let s := sub_m s m in
  let s := swap_b_c s in
  mkSt (a s) (b s) (c s) (wadd 64 (w s) 1).
Definition sh_update (m : mode) (s : st) (blocks : list bytes) : option st := Some (fold_left block_step blocks s).
(** core_api.rs 195-213; [None] is [Err(InvalidOutputSize)] *)
Definition of_init (init : list N * list N * list N) : st := let '(a, b, c) := init in mkSt a b c 1.
Definition var_new (output_size : nat) : option st :=
  if (output_size =? 24)%nat then Some (of_init INIT_192)
  else if (output_size =? 28)%nat then Some (of_init INIT_224)
  else if (output_size =? 32)%nat then Some (of_init INIT_256)
  else if (output_size =? 48)%nat then Some (of_init INIT_384)
  else if (output_size =? 64)%nat then Some (of_init INIT_512)
  else None.
(** core_api.rs 215-234; the wrapper of the digest crate keeps the last [k] bytes
    ([TruncSide::Right], line 191) *)
Definition sh_finalize (k : nat) (m : mode) (s : st) (buffer : bytes) : option (bytes * st) :=
  let pos := length buffer in
  let block := upd (pad_with_zeros 64 buffer) pos 0x80 in
  let m := read_m block in
  let s := add_m s m in
  let s := xor_w s in
  let s := perm s m in
  let s := fold_left (fun s _ => perm (xor_w (swap_b_c s)) m) (seq 0 3) s in
  Some (skipn (64 - k) (words_to_le 4 (b s)), s).
(** core_api.rs 266-317 *)
Definition sh_ser (s : st) : bytes := words_to_le 4 (a s) ++ words_to_le 4 (b s) ++ words_to_le 4 (c s) ++ le_bytes 8 (w s).
Definition sh_deser (x : bytes) : option st :=
  let serialized_a := firstn 48 x in
  let x := skipn 48 x in
  let serialized_b := firstn 64 x in
  let x := skipn 64 x in
  let serialized_c := firstn 64 x in
  let serialized_w := skipn 64 x in
  Some (mkSt (words_of_le 4 serialized_a) (words_of_le 4 serialized_b) (words_of_le 4 serialized_c) (le_val serialized_w)).
(** [CoreWrapper<CtVariableCoreWrapper<ShabalVarCore, Uk>>], lib.rs 24-33 *)
Definition shabal_core (init : list N * list N * list N) (k : nat) : core :=
  mkCore st 64 Eager (of_init init) [] sh_update (sh_finalize k) (fun _ => (of_init init, [])) (Some (sized k (mkCodec 184 sh_ser sh_deser))).
Definition Shabal192 := shabal_core INIT_192 24.
Definition Shabal224 := shabal_core INIT_224 28.
Definition Shabal256 := shabal_core INIT_256 32.
Definition Shabal384 := shabal_core INIT_384 48.
Definition Shabal512 := shabal_core INIT_512 64.
