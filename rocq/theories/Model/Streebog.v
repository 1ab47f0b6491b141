(** Model of the streebog crate (streebog/src/consts.rs, streebog/src/core_api.rs). *)
From Verif Require Import Base.Words Base.Bytes Base.Codec Base.BlockBuffer Base.Digest Model.StreebogTables.

(** consts.rs 182-200: [C64], evaluated at compile time *)
Definition C64 : list (list N) := map (fun i => map (fun j => le_val (map (fun k => get (nth i C []) (8 * j + k)) (seq 0 8))) (seq 0 8)) (seq 0 12).
(** consts.rs 204-226: [SHUFFLED_LIN_TABLE], evaluated at compile time *)
Definition SHUFFLED_LIN_TABLE : list (list N) :=
  map (fun i => map (fun j => fold_left (fun accum k =>
    if negb (N.land (get P j) (wshl 8 1 (N.of_nat k)) =? 0) then N.lxor accum (get A (8 * i + k)) else accum)
    (seq 0 8) 0) (seq 0 256)) (seq 0 8).

(** core_api.rs 33-48 *)
Definition lps (h n : list N) : list N :=
  let h := map (fun i => N.lxor (get h i) (get n i)) (seq 0 8) in
  map (fun i => fold_left (fun buf j =>
    let idx := N.to_nat (N.land (N.shiftr (get h j) (8 * N.of_nat i)) 0xff) in
    N.lxor buf (get (nth j SHUFFLED_LIN_TABLE []) idx)) (seq 0 8) 0) (seq 0 8).
(** core_api.rs 50-64: the loop state is (block, key) *)
Definition g (h n m : list N) : list N :=
  let key := lps h n in
  let '(block, key) := fold_left (fun s c =>
    let '(block, key) := s in
    let block := lps block key in
    let key := lps key c in (block, key)) C64 (m, key) in
  map (fun i => N.lxor (get h i) (N.lxor (N.lxor (get block i) (get key i)) (get m i))) (seq 0 8).

(** core_api.rs 196-202; the new [v1] and the new carry *)
Definition adc (v1 v2 : N) (carry : bool) : N * bool :=
  let a := wadd 64 v1 v2 in
  let b := 2 ^ 64 <=? v1 + v2 in
  let c := wadd 64 a (N.b2n carry) in
  let d := 2 ^ 64 <=? a + N.b2n carry in
  (c, b || d).
(** core_api.rs 67-74 *)
Definition update_sigma (sigma m : list N) : list N :=
  fst (fold_left (fun s i => let '(sigma, carry) := s in
    let '(x, carry) := adc (get sigma i) (get m i) carry in (upd sigma i x, carry)) (seq 0 8) (sigma, false)).
(** core_api.rs 76-84: the loop runs over [1..7], so [n[7]] is never touched *)
Definition update_n (n : list N) (len : N) : list N :=
  let '(x, carry) := adc (get n 0) (8 * len) false in
  fst (fold_left (fun s i => let '(n, carry) := s in
    let '(x, carry) := adc (get n i) 0 carry in (upd n i x, carry)) (seq 1 6) (upd n 0 x, carry)).

(** [StreebogVarCore] (core_api.rs 26-30) as (h, n, sigma) *)
Definition sb_st := (list N * list N * list N)%type.
(** core_api.rs 86-92 *)
Definition compress (len : N) (s : sb_st) (block : bytes) : sb_st :=
  let '(h, n, sigma) := s in
  let block := words_of_le 8 block in
  let h := g h n block in
  (h, update_n n len, update_sigma sigma block).
(** core_api.rs 105-112 *)
Definition sb_update (m : mode) (s : sb_st) (blocks : list bytes) : option sb_st :=
  Some (fold_left (compress 64) blocks s).
(** core_api.rs 121-130; [None] is [Err(InvalidOutputSize)] *)
Definition var_new (output_size : nat) : option sb_st :=
  if (output_size =? 32)%nat then Some (repeat 0x0101010101010101 8, repeat 0 8, repeat 0 8)
  else if (output_size =? 64)%nat then Some (repeat 0 8, repeat 0 8, repeat 0 8)
  else None.
(** core_api.rs 132-141, and truncation to the last [hl] bytes ([TruncSide::Right], line 119) by
    the digest crate's wrapper *)
Definition sb_finalize (hl : nat) (m : mode) (s : sb_st) (buffer : bytes) : option (bytes * sb_st) :=
  let pos := length buffer in
  let block := upd (pad_with_zeros 64 buffer) pos 1 in
  let '(h, n, sigma) := compress (N.of_nat pos) s block in
  let h := g h (repeat 0 8) n in
  let h := g h (repeat 0 8) sigma in
  Some (skipn (64 - hl) (words_to_le 8 h), (h, n, sigma)).
(** core_api.rs 172-192, 204-220 *)
Definition sb_codec : codec sb_st :=
  mkCodec 192 (fun s => let '(h, n, sigma) := s in words_to_le 8 h ++ words_to_le 8 n ++ words_to_le 8 sigma)
    (fun b => Some (words_of_le 8 (firstn 64 b), words_of_le 8 (firstn 64 (skipn 64 b)), words_of_le 8 (skipn 128 b))).
(** lib.rs 31-34 *)
Definition streebog_core (hl : nat) (h0 : N) : core :=
  let init := (repeat h0 8, repeat 0 8, repeat 0 8) in
  mkCore sb_st 64 Eager init [] sb_update (sb_finalize hl) (fun _ => (init, [])) (Some (sized hl sb_codec)).
Definition Streebog256 := streebog_core 32 0x0101010101010101.
Definition Streebog512 := streebog_core 64 0.
