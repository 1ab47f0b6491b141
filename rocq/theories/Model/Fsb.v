(** Model of the fsb crate (fsb/src/macros.rs, instantiated in lib.rs).  The file pi.bin (lib.rs 19)
    is the parameter [PI].  Inside the compression function every array access, shift and
    subtraction is checked as in a debug build, [None] being a panic; the theorems show that none of
    them fails, so that a release build computes the same. *)
From Verif Require Import Base.Words Base.Bytes Base.Codec Base.BlockBuffer Base.Digest.
From Verif Require Model.Whirlpool.

(** The macro's parameters: [$n], [$w], [$r], [$p], [$s], the output size and the block size *)
Record params := mkParams { n : N; w : nat; r : nat; p : nat; s : nat; out_size : nat; block_size : nat }.
(** lib.rs 34-118 *)
Definition P160 : params := mkParams (N.shiftl 5 18) 80 640 653 1120 20 60.
Definition P224 : params := mkParams (N.shiftl 7 18) 112 896 907 1568 28 84.
Definition P256 : params := mkParams (N.shiftl 1 21) 128 1024 1061 1792 32 96.
Definition P384 : params := mkParams (N.shiftl 23 16) 184 1472 1483 2392 48 115.
Definition P512 : params := mkParams (N.shiftl 31 16) 248 1984 1987 3224 64 155.

(** Checked operations of Rust *)
Definition index (l : bytes) (i : nat) : option N := nth_error l i.
Definition slice (l : bytes) (a b : nat) : option bytes :=
  if ((a <=? b) && (b <=? length l))%nat then Some (firstn (b - a) (skipn a l)) else None.
Definition shl8 (x : N) (k : nat) : option N := if (k <? 8)%nat then Some (wshl 8 x (N.of_nat k)) else None.
Definition shr8 (x : N) (k : nat) : option N := if (k <? 8)%nat then Some (N.shiftr x (N.of_nat k)) else None.
Definition usub (a b : nat) : option nat := if (b <=? a)%nat then Some (a - b)%nat else None.
Fixpoint omap {A B} (f : A -> option B) (l : list A) : option (list B) :=
  match l with
  | [] => Some []
  | x :: l => let* y := f x in let* ys := omap f l in Some (y :: ys)
  end.
Fixpoint ofold {A S} (f : S -> A -> option S) (l : list A) (s : S) : option S :=
  match l with
  | [] => Some s
  | x :: l => let* s := f s x in ofold f l s
  end.
(** [t[i] = f t[i]] *)
Definition modify (t : bytes) (i : nat) (f : N -> option N) : option bytes :=
  let* old := index t i in let* v := f old in Some (upd t i v).
(** [for (index, position) in (a..b).enumerate() { t[position] = body index t[position] }] *)
Definition for_range (a b : nat) (body : nat -> N -> option N) (t : bytes) : option bytes :=
  ofold (fun t i => modify t (a + i) (body i)) (seq 0 (b - a)) t.

Section Fsb.
  Context (PI : bytes) (P : params).
  (** macros.rs 130-134 *)
  Definition SIZE_OUTPUT_COMPRESS : nat := (r P / 8)%nat.
  Definition SIZE_INPUT_COMPRESS : nat := (s P / 8)%nat.
  Definition SIZE_MSG_CHUNKS : nat := (SIZE_INPUT_COMPRESS - SIZE_OUTPUT_COMPRESS)%nat.
  Definition SIZE_VECTORS : nat := (p P / 8 + 1)%nat.
  Definition SHIFT : nat := (8 - p P mod 8)%nat.
  (** macros.rs 136-150 *)
  Definition define_iv (i : nat) : option bytes :=
    let* subset_pi := slice PI (i * SIZE_VECTORS) ((i + 1) * SIZE_VECTORS) in
    modify subset_pi (SIZE_VECTORS - 1) (fun last => let* last := shr8 last SHIFT in shl8 last SHIFT).
  (** macros.rs 174-201 *)
  Definition dividing_bits (input_bits : bytes) (size_batches : nat) : option bytes :=
    if (negb (size_batches =? 5) && negb (size_batches =? 6))%nat then None else
    let* shifting_factor := usub 8 size_batches in
    let* new_bits := omap (fun i =>
      let position := (i * size_batches)%nat in
      let initial_byte := (position / 8)%nat in
      let initial_bit := (position mod 8)%nat in
      let switch := ((initial_bit + size_batches - 1) / 8)%nat in
      if (switch =? 1)%nat then
        let* x := index input_bits initial_byte in
        let* x := shl8 x initial_bit in
        let* y := index input_bits (initial_byte + 1) in
        let* k := usub 8 initial_bit in
        let* y := shr8 y k in
        shr8 (N.lor x y) shifting_factor
      else
        let* x := index input_bits initial_byte in
        let* x := shl8 x initial_bit in
        shr8 x shifting_factor) (seq 0 (w P - 1)) in
    let* last := index input_bits (SIZE_MSG_CHUNKS - 1) in
    let* last := shl8 last shifting_factor in
    let* last := shr8 last shifting_factor in
    Some (new_bits ++ [last]).
  (** macros.rs 152-172; the constant [i * $n / $w] is computed in usize *)
  Definition computing_w_indices (input_vector message : bytes) : option (list N) :=
    let* divided_message := dividing_bits message ((s P - r P) / w P) in
    omap (fun i =>
      let* message_i := index divided_message i in
      let* v := index input_vector i in
      let* a := cadd Checked 32 (N.of_nat i * n P / N.of_nat (w P) mod 2 ^ 32) v in
      cadd Checked 32 a (wshl 32 message_i (N.of_nat (r P / w P)))) (seq 0 (w P)).
  (** macros.rs 224-319 *)
  Definition shift_and_truncate (array : bytes) (shift_value : nat) : option bytes :=
    let array_len := length array in
    let bits_in_cue := (p P mod 8)%nat in
    let truncated := zeros SIZE_OUTPUT_COMPRESS in
    if (shift_value =? 0)%nat then slice array 0 SIZE_OUTPUT_COMPRESS
    else if (shift_value <=? bits_in_cue)%nat then
      let bytes_to_shift := 1%nat in
      let* starting_byte := usub array_len bytes_to_shift in
      let* truncated := modify truncated 0 (fun _ =>
        let* x := index array starting_byte in let* k := usub bits_in_cue shift_value in shl8 x k) in
      let* truncated := modify truncated 0 (fun t =>
        let* x := index array 0 in let* x := shr8 x shift_value in Some (N.lxor t x)) in
      for_range 1 SIZE_OUTPUT_COMPRESS (fun i t =>
        let* x := index array (1 + i - 1) in let* k := usub 8 shift_value in let* x := shl8 x k in
        let* y := index array (1 + i) in let* y := shr8 y shift_value in
        Some (N.lxor (N.lxor t x) y)) truncated
    else
      let bytes_to_shift := ((shift_value - bits_in_cue - 1) / 8 + 2)%nat in
      let* starting_byte := usub array_len bytes_to_shift in
      let remaining_bits := ((shift_value - bits_in_cue) mod 8)%nat in
      if negb (remaining_bits =? 0)%nat then
        let* truncated := for_range 0 (bytes_to_shift - 1) (fun position _ =>
          let* x := index array (starting_byte + position) in let* k := usub 8 remaining_bits in let* x := shl8 x k in
          let* y := index array (starting_byte + position + 1) in let* y := shr8 y remaining_bits in
          Some (N.lor x y)) truncated in
        match usub bits_in_cue (8 - remaining_bits) with
        | Some x =>
            if (0 <? x)%nat then
              let* truncated := modify truncated (bytes_to_shift - 1) (fun t =>
                let* a := index array (starting_byte + bytes_to_shift - 1) in
                let* k := usub bits_in_cue x in let* a := shl8 a k in Some (N.lxor t a)) in
              let* truncated := modify truncated (bytes_to_shift - 1) (fun t =>
                let* a := index array 0 in let* a := shr8 a x in Some (N.lxor t a)) in
              for_range bytes_to_shift SIZE_OUTPUT_COMPRESS (fun i t =>
                let* a := index array i in let* k := usub 8 x in let* a := shl8 a k in
                let* b := index array (i + 1) in let* b := shr8 b x in
                Some (N.lxor (N.lxor t a) b)) truncated
            else
              for_range (bytes_to_shift - 1) SIZE_OUTPUT_COMPRESS (fun i _ => index array i) truncated
        | None =>
            let* positive_diff := usub (8 - remaining_bits) bits_in_cue in
            let* truncated := modify truncated (bytes_to_shift - 2) (fun t =>
              let* a := index array 0 in let* k := usub 8 positive_diff in let* a := shr8 a k in Some (N.lxor t a)) in
            for_range (bytes_to_shift - 1) SIZE_OUTPUT_COMPRESS (fun i t =>
              let* a := index array i in let* a := shl8 a positive_diff in
              let* b := index array (i + 1) in let* k := usub 8 positive_diff in let* b := shr8 b k in
              Some (N.lxor (N.lxor t a) b)) truncated
        end
      else
        let* src := slice array starting_byte (starting_byte + bytes_to_shift) in
        let* truncated := if (bytes_to_shift <=? length truncated)%nat
          then Some (src ++ skipn bytes_to_shift truncated) else None in
        let* truncated := modify truncated (bytes_to_shift - 1) (fun t =>
          let* a := index array 0 in let* a := shr8 a bits_in_cue in Some (N.lxor t a)) in
        for_range bytes_to_shift SIZE_OUTPUT_COMPRESS (fun i t =>
          let* a := index array i in let* k := usub 8 bits_in_cue in let* a := shl8 a k in
          let* b := index array (i + 1) in let* b := shr8 b bits_in_cue in
          Some (N.lxor (N.lxor t a) b)) truncated.
  (** macros.rs 204-222 *)
  Definition compress (hash message_block : bytes) : option bytes :=
    let initial_vector := zeros SIZE_OUTPUT_COMPRESS in
    let* w_indices := computing_w_indices hash message_block in
    ofold (fun initial_vector w_index =>
      let chosen_vec := w_index / N.of_nat (r P) in
      let shift_value := w_index mod N.of_nat (r P) in
      let* vector := define_iv (N.to_nat chosen_vec) in
      let* truncated := shift_and_truncate vector (N.to_nat shift_value) in
      Some (xor_bytes initial_vector truncated)) w_indices initial_vector.

  (** macros.rs 9-12: (state, blocks_len) *)
  Definition fsb_st := (bytes * N)%type.
  (** macros.rs 31-39 *)
  Definition fsb_update (m : mode) (st : fsb_st) (blocks : list bytes) : option fsb_st :=
    let* blocks_len := cadd m 64 (snd st) (N.of_nat (length blocks)) in
    let* state := ofold compress blocks (fst st) in
    Some (state, blocks_len).
  (** macros.rs 41-54 *)
  Definition fsb_finalize (m : mode) (st : fsb_st) (buffer : bytes) : option (bytes * fsb_st) :=
    let* block_bytes := cmul m 64 (snd st) (N.of_nat (block_size P)) in
    let* bytes := cadd m 64 block_bytes (N.of_nat (length buffer)) in
    let* bit_len := cmul m 64 8 bytes in
    let* h := ofold compress (len64_padding_be (block_size P) bit_len buffer) (fst st) in
    let* res := h_digest Model.Whirlpool.Whirlpool m [h] in
    Some (firstn (out_size P) res, st).
  (** macros.rs 98-126 *)
  Definition fsb_codec : codec fsb_st :=
    mkCodec (r P / 8 + 8) (fun st => fst st ++ le_bytes 8 (snd st))
      (fun x => Some (firstn (r P / 8) x, le_val (skipn (r P / 8) x))).
  (** macros.rs 56-71 *)
  Definition fsb_core : core :=
    let init := (zeros (r P / 8), 0) in
    mkCore fsb_st (block_size P) Eager init [] fsb_update fsb_finalize (fun _ => (init, [])) (Some fsb_codec).
End Fsb.
Definition Fsb160 PI := fsb_core PI P160.
Definition Fsb224 PI := fsb_core PI P224.
Definition Fsb256 PI := fsb_core PI P256.
Definition Fsb384 PI := fsb_core PI P384.
Definition Fsb512 PI := fsb_core PI P512.
