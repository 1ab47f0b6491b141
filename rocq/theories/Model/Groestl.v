(** Model of the groestl crate (groestl/src/compress512.rs, groestl/src/compress1024.rs,
    groestl/src/lib.rs).  The two compression files differ only in [COLS], [ROUNDS] and
    the index lists, which are the parameters [v]. *)
From Verif Require Import Base.Words Base.Bytes Base.Codec Base.BlockBuffer Base.Digest Model.GroestlTable.

Record variant := mkV { COLS : nat; ROUNDS : nat; idxp : list (list nat); idxq : list (list nat) }.
(** compress512.rs 4-5, 23-32, 41-50 *)
Definition v512 := mkV 8 10 rndp512 rndq512.
(** compress1024.rs 4-5, 23-40, 49-66 *)
Definition v1024 := mkV 16 14 rndp1024 rndq1024.

(** compress512.rs 8-16; compress1024.rs 8-16 *)
Definition column (x : list N) (c : list nat) : N :=
  fold_left (fun t i =>
    let sl := 8 * (7 - N.of_nat i) in
    let idx := N.to_nat (N.land (N.shiftr (get x (nth i c 0%nat)) sl) 0xff) in
    N.lxor t (get (nth i TABLE []) idx)) (seq 0 8) 0.
(** compress512.rs 19-33; compress1024.rs 19-41 *)
Definition rndq (v : variant) (x : list N) (r : N) : list N :=
  let x := map (fun i => N.lxor (get x i) (N.lxor (wsub 64 (2 ^ 64 - 1) (wshl 64 (N.of_nat i) 4)) r)) (seq 0 (COLS v)) in
  map (column x) (idxq v).
(** compress512.rs 36-51; compress1024.rs 44-67 *)
Definition rndp (v : variant) (x : list N) (r : N) : list N :=
  let x := map (fun i => N.lxor (get x i) (N.lxor (wshl 64 (N.of_nat i) 60) r)) (seq 0 (COLS v)) in
  map (column x) (idxp v).
(** compress512.rs 53-71; compress1024.rs 69-87 *)
Definition compress (v : variant) (h : list N) (block : bytes) : list N :=
  let q := words_of_be 8 block in
  let p := map (fun i => N.lxor (get h i) (get q i)) (seq 0 (COLS v)) in
  let q := fold_left (fun q i => rndq v q (N.of_nat i)) (seq 0 (ROUNDS v)) q in
  let p := fold_left (fun p i => rndp v p (wshl 64 (N.of_nat i) 56)) (seq 0 (ROUNDS v)) p in
  map (fun i => N.lxor (get h i) (N.lxor (get q i) (get p i))) (seq 0 (COLS v)).
(** compress512.rs 73-82; compress1024.rs 89-98 *)
Definition p (v : variant) (h : list N) : list N :=
  let p := fold_left (fun p i => rndp v p (wshl 64 (N.of_nat i) 56)) (seq 0 (ROUNDS v)) h in
  map (fun i => N.lxor (get p i) (get h i)) (seq 0 (COLS v)).

(** ** [GroestlShortVarCore], [GroestlLongVarCore] (lib.rs 33-37, 163-167) *)
Definition block_size (v : variant) : nat := (8 * COLS v)%nat.
Definition out_size (v : variant) : nat := (4 * COLS v)%nat.
(** lib.rs 80-89, 210-219: [VariableOutputCore::new]; [None] is [Err(InvalidOutputSize)] *)
Definition var_new (v : variant) (output_size : nat) : option (list N * N) :=
  if (out_size v <? output_size)%nat then None
  else Some (upd (repeat 0 (COLS v)) (COLS v - 1) (8 * N.of_nat output_size), 0).
(** lib.rs 62-69, 192-199 *)
Definition gr_update (v : variant) (m : mode) (s : list N * N) (blocks : list bytes) : option (list N * N) :=
  let* blocks_len := cadd m 64 (snd s) (N.of_nat (length blocks)) in
  Some (fold_left (compress v) blocks (fst s), blocks_len).
(** lib.rs 92-106, 222-236, and truncation to the last [n] bytes ([TruncSide::Right],
    lib.rs 77, 207) done by the digest crate's wrapper *)
Definition gr_finalize (v : variant) (n : nat) (m : mode) (s : list N * N) (buffer : bytes) : option (bytes * (list N * N)) :=
  let* blocks_len := if (block_size v - length buffer <=? 8)%nat then cadd m 64 (snd s) 2 else cadd m 64 (snd s) 1 in
  let state := fold_left (compress v) (len64_padding_be (block_size v) blocks_len buffer) (fst s) in
  let res := p v state in
  let out := words_to_be 8 (skipn (COLS v / 2) res) in
  Some (skipn (out_size v - n) out, (state, snd s)).
(** lib.rs 130-159, 260-289: 72 or 136 bytes *)
Definition gr_codec (v : variant) : codec (list N * N) :=
  mkCodec (block_size v + 8) (ser_counted 8 8) (deser_counted 8 (COLS v)).
(** [CoreWrapper<GroestlShortCore<n>>] and [CoreWrapper<GroestlLongCore<n>>], lib.rs 40-51,
    170-181; [Reset] is [*self = Default::default()] through [new] *)
Definition groestl_core (v : variant) (n : nat) : core :=
  let init := (upd (repeat 0 (COLS v)) (COLS v - 1) (8 * N.of_nat n), 0) in
  mkCore (list N * N) (block_size v) Eager init [] (gr_update v) (gr_finalize v n)
    (fun _ => (init, [])) (Some (sized n (gr_codec v))).
Definition GroestlShort := groestl_core v512.
Definition GroestlLong := groestl_core v1024.
Definition Groestl224 := GroestlShort 28.
Definition Groestl256 := GroestlShort 32.
Definition Groestl384 := GroestlLong 48.
Definition Groestl512 := GroestlLong 64.
