(** Model of the kupyna crate (kupyna/src/utils.rs, short_compress.rs, long_compress.rs,
    short.rs, long.rs).  The short and the long files differ only in the sizes and in one
    shift distance, which are the parameters [v]. *)
From Verif Require Import Base.Words Base.Bytes Base.Codec Base.BlockBuffer Base.Digest Model.KupynaTables.

(** Matrices are arrays of rows of 8 bytes ([[u8; 8]; N]). *)
Definition matrix := list (list N).

(** ** utils.rs *)
(** utils.rs 3-22: the loop state is (r, x, y) *)
Definition multiply_gf (x y : N) : N :=
  let '(r, _, _) := fold_left (fun s (_ : nat) =>
    let '(r, x, y) := s in
    let r := if N.land y 1 =? 1 then N.lxor r x else r in
    let hbit := N.shiftr (N.land x 0x80) 7 in
    let x := wshl 8 x 1 in
    let x := if hbit =? 1 then N.lxor x (0x011d mod 2 ^ 8) else x in
    (r, x, N.shiftr y 1)) (seq 0 8) (0, x, y) in r.
(** utils.rs 25-39 *)
Definition mix_columns (state : matrix) : matrix :=
  map (fun col => map (fun row =>
    fold_left (fun product b => N.lxor product (multiply_gf (get col b) (get (nth row MDS_MATRIX []) b))) (seq 0 8) 0)
    (seq 0 8)) state.
(** utils.rs 41-48 *)
Definition apply_s_box (state : matrix) : matrix :=
  fold_left (fun state i =>
    map (fun row => upd row i (get (nth (i mod 4) SBOXES []) (N.to_nat (get row i)))) state) (seq 0 8) state.
(** utils.rs 50-59 *)
Definition add_constant_xor (state : matrix) (round : nat) : matrix :=
  map (fun j => let row := nth j state [] in
    upd row 0 (N.lxor (get row 0) (N.lxor (N.of_nat j * 0x10) (N.of_nat round) mod 2 ^ 8))) (seq 0 (length state)).
(** utils.rs 61-72 *)
Definition add_constant_plus (state : matrix) (round : nat) : matrix :=
  map (fun j => let row := nth j state [] in
    let k := N.lxor 0x00F0F0F0F0F0F0F3 (wshl 64 (N.lxor (N.of_nat (length state - j - 1) * 0x10) (N.of_nat round)) 56) in
    le_bytes 8 (wadd 64 (le_val row) k)) (seq 0 (length state)).
(** utils.rs 75-81: [xor_bytes] is [Bytes.xor_bytes] *)

(** ** short_compress.rs, long_compress.rs *)
Record variant := mkV { COLS : nat; ROUNDS : nat; last_shift : nat }.
(** short_compress.rs 3-4, 65; long_compress.rs 3-4, 65 *)
Definition vshort := mkV 8 10 7.
Definition vlong := mkV 16 14 11.

(** short_compress.rs 37-48; long_compress.rs 37-48 *)
Definition block_to_matrix (v : variant) (block : bytes) : matrix :=
  map (fun i => map (fun j => get block (i * 8 + j)) (seq 0 8)) (seq 0 (COLS v)).
(** short_compress.rs 50-61; long_compress.rs 50-61 *)
Definition matrix_to_block (m : matrix) : bytes := concat m.
(** short_compress.rs 63-83; long_compress.rs 63-83; [temp] is carried along as in the code *)
Definition rotate_rows (v : variant) (state : matrix) : matrix :=
  fst (fold_left (fun st i =>
    let '(state, temp) := st in
    let shift := if (i =? 7)%nat then last_shift v else i in
    let temp := fold_left (fun temp col => upd temp ((col + shift) mod COLS v) (get (nth col state []) i)) (seq 0 (COLS v)) temp in
    let state := fold_left (fun state col => upd state col (upd (nth col state []) i (get temp col))) (seq 0 (COLS v)) state in
    (state, temp)) (seq 0 8) (state, repeat 0 (COLS v))).
(** short_compress.rs 26-35; long_compress.rs 26-35 *)
Definition t_plus_l (v : variant) (block : bytes) : bytes :=
  matrix_to_block (fold_left (fun state nu =>
    mix_columns (rotate_rows v (apply_s_box (add_constant_plus state nu)))) (seq 0 (ROUNDS v)) (block_to_matrix v block)).
(** short_compress.rs 85-94; long_compress.rs 85-94 *)
Definition t_xor_l (v : variant) (block : bytes) : bytes :=
  matrix_to_block (fold_left (fun state nu =>
    mix_columns (rotate_rows v (apply_s_box (add_constant_xor state nu)))) (seq 0 (ROUNDS v)) (block_to_matrix v block)).
(** short_compress.rs 8-24; long_compress.rs 8-24 *)
Definition compress (v : variant) (prev_vector : list N) (message_block : bytes) : list N :=
  let prev_vector_u8 := words_to_be 8 prev_vector in
  let m_xor_p := xor_bytes message_block prev_vector_u8 in
  let t_xor_mp := t_xor_l v m_xor_p in
  let t_plus_m := t_plus_l v message_block in
  words_of_be 8 (xor_bytes (xor_bytes t_xor_mp t_plus_m) prev_vector_u8).

(** ** [KupynaShortVarCore] (short.rs 20-25), [KupynaLongVarCore] (long.rs 20-25) *)
Definition block_size (v : variant) : nat := (8 * COLS v)%nat.
Definition out_size (v : variant) : nat := (4 * COLS v)%nat.
(** short.rs 60-63, long.rs 62-65 *)
Definition init_state (v : variant) (x : N) : list N := upd (repeat 0 (COLS v)) 0 (wshl 64 x 56).
(** short.rs 55-65; [None] is [Err(InvalidOutputSize)] *)
Definition short_new (output_size : nat) : option (list N * N) :=
  if (32 <? output_size)%nat then None else Some (init_state vshort 0x40, 0).
(** long.rs 55-67 *)
Definition long_new (output_size : nat) : option (list N * N) :=
  if ((output_size <? 32) || (64 <? output_size))%nat%bool then None else Some (init_state vlong 0x80, 0).
(** short.rs 37-45, long.rs 37-45 *)
Definition ku_update (v : variant) (m : mode) (s : list N * N) (blocks : list bytes) : option (list N * N) :=
  let* blocks_len := cadd m 64 (snd s) (N.of_nat (length blocks)) in
  Some (fold_left (compress v) blocks (fst s), blocks_len).
(** short.rs 68-96, long.rs 70-98, and truncation to the last [n] bytes ([TruncSide::Right],
    short.rs 52, long.rs 52) done by the digest crate's wrapper *)
Definition ku_finalize (v : variant) (n : nat) (m : mode) (s : list N * N) (buffer : bytes) : option (bytes * (list N * N)) :=
  let* t := cmul m 128 (snd s) (N.of_nat (block_size v)) in
  let* msg_len_bytes := cadd m 128 t (N.of_nat (length buffer)) in
  let* msg_len_bits := cmul m 128 8 msg_len_bytes in
  let state := fold_left (compress v) (pad_blocks (block_size v) 0x80 (firstn 12 (le_bytes 16 msg_len_bits)) buffer) (fst s) in
  let state_u8 := words_to_be 8 state in
  let t_xor_ult_processed_block := t_xor_l v state_u8 in
  let result_u8 := xor_bytes state_u8 t_xor_ult_processed_block in
  let res := words_of_be 8 result_u8 in
  let out := words_to_be 8 (skipn (COLS v / 2) res) in
  Some (skipn (out_size v - n) out, (state, snd s)).
(** short.rs 124-145, long.rs 126-147, utils.rs 83-99: 72 or 136 bytes *)
Definition ku_codec (v : variant) : codec (list N * N) :=
  mkCodec (block_size v + 8) (ser_counted 8 8) (deser_counted 8 (COLS v)).
(** [CoreWrapper<KupynaShortCore<n>>], [CoreWrapper<KupynaLongCore<n>>], lib.rs 27-48; [Reset]
    goes through [new] *)
Definition kupyna_core (v : variant) (x : N) (n : nat) : core :=
  let init := (init_state v x, 0) in
  mkCore (list N * N) (block_size v) Eager init [] (ku_update v) (ku_finalize v n)
    (fun _ => (init, [])) (Some (sized n (ku_codec v))).
Definition KupynaShort := kupyna_core vshort 0x40.
Definition KupynaLong := kupyna_core vlong 0x80.
Definition Kupyna224 := KupynaShort 28.
Definition Kupyna256 := KupynaShort 32.
Definition Kupyna384 := KupynaLong 48.
Definition Kupyna512 := KupynaLong 64.
