(** Model of the k12 crate, k12/src/lib.rs. *)
From Verif Require Import Base.Words Base.Bytes Base.BlockBuffer Base.Digest Base.Xof.
From Verif Require Model.Sha3.

(** lib.rs 26-28 *)
Definition CHUNK_SIZE : nat := (64 * 128)%nat.   (* 8192 *)
Definition CHAINING_VALUE_SIZE : nat := 32%nat.
Definition LENGTH_ENCODE_SIZE : nat := 255%nat.

(** [debug_assert!]: checked builds only. *)
Definition dassert (m : mode) (b : bool) : option unit :=
  match m with Checked => if b then Some tt else None | Wrapping => Some tt end.
(** [dst[pos..pos + src.len()].copy_from_slice(src)]; out of bounds panics. *)
Definition splice (dst : bytes) (pos : nat) (src : bytes) : option bytes :=
  if (pos + length src <=? length dst)%nat
  then Some (firstn pos dst ++ src ++ skipn (pos + length src) dst) else None.

(** A [TurboShake128] hasher with domain byte [ds] and the calls made on it. *)
Definition tshk (ds : N) : Type := hst (xof_core (Sha3.TurboShake128 ds) []).
Definition t_new (ds : N) : option (tshk ds) :=
  let* st := Sha3.turbo_new ds in Some (st, []).
Definition t_update (ds : N) (m : mode) (t : tshk ds) (b : bytes) : option (tshk ds) :=
  h_update (xof_core (Sha3.TurboShake128 ds) []) m t b.
(** [finalize_xof_reset]: the reader, and the hasher reset *)
Definition t_finalize_reset (ds : N) (m : mode) (t : tshk ds) : option (rdr (R := list N) * tshk ds) :=
  let* (r, s) := x_final (Sha3.TurboShake128 ds) m (fst t) (snd t) in
  Some (rd_new r, x_reset (Sha3.TurboShake128 ds) s).
Definition t_read (r : rdr) (n : nat) : bytes * rdr :=
  rd_read (Sha3.read_block Sha3.TURBO_SHAKE_ROUND_COUNT 168) 168 r n.

(** lib.rs 33-40: [KangarooTwelveCore] *)
Record k12_st := mkK12 {
  customization : bytes;
  buffer : bytes;
  bufpos : nat;
  final_tshk : tshk 0x06;
  chain_tshk : tshk 0x0B;
  chain_length : N
}.
(** lib.rs 47-56: [new]; the two [TurboShake128Core::new] calls cannot panic
    (constant bytes in range) and are evaluated here. *)
Definition k12_new (cust : bytes) : k12_st :=
  mkK12 cust (zeros CHUNK_SIZE) 0 ((Sha3.st_default, 0x06), []) ((Sha3.st_default, 0x0B), []) 0.

(** lib.rs 71-82 *)
Definition process_chaining_chunk (m : mode) (s : k12_st) : option k12_st :=
  let* _ := dassert m (negb (bufpos s =? 0)%nat) in
  let* ft := if chain_length s =? 1
             then t_update _ m (final_tshk s) [0x03; 0; 0; 0; 0; 0; 0; 0]
             else Some (final_tshk s) in
  let* ct := t_update _ m (chain_tshk s) (firstn (bufpos s) (buffer s)) in
  let* (rd, ct) := t_finalize_reset _ m ct in
  let result := fst (t_read rd CHAINING_VALUE_SIZE) in
  let* ft := t_update _ m ft result in
  Some (mkK12 (customization s) (buffer s) (bufpos s) ft ct (chain_length s)).
(** lib.rs 58-69; [chain_length += 1] is plain [usize] addition *)
Definition process_chunk (m : mode) (s : k12_st) : option k12_st :=
  let* _ := dassert m (bufpos s =? CHUNK_SIZE)%nat in
  let* s := if chain_length s =? 0
            then let* ft := t_update _ m (final_tshk s) (buffer s) in
                 Some (mkK12 (customization s) (buffer s) (bufpos s) ft (chain_tshk s) (chain_length s))
            else process_chaining_chunk m s in
  let* cl := cadd m 64 (chain_length s) 1 in
  Some (mkK12 (customization s) (zeros CHUNK_SIZE) 0 (final_tshk s) (chain_tshk s) cl).
(** lib.rs 98-105, one iteration *)
Definition update_block (m : mode) (s : k12_st) (block : bytes) : option k12_st :=
  let* s := if (bufpos s =? CHUNK_SIZE)%nat then process_chunk m s else Some s in
  let* b := splice (buffer s) (bufpos s) block in
  Some (mkK12 (customization s) b (bufpos s + 128) (final_tshk s) (chain_tshk s) (chain_length s)).
Fixpoint update_blocks (m : mode) (s : k12_st) (blocks : list bytes) : option k12_st :=
  match blocks with
  | [] => Some s
  | b :: bl => let* s := update_block m s b in update_blocks m s bl
  end.

(** lib.rs 230-243: [length_encode]: the bytes written by the loop (at most 255,
    the next write would be out of bounds), reversed, then their number.  The
    scratch buffer itself is not kept: every byte returned has just been written. *)
Fixpoint le_digits (fuel : nat) (length : N) : option bytes :=
  if length =? 0 then Some []
  else match fuel with
       | O => None
       | S f => let* t := le_digits f (length / 256) in Some (length mod 256 :: t)
       end.
Definition length_encode (len : N) : option bytes :=
  let* d := le_digits LENGTH_ENCODE_SIZE len in
  if (length d <? LENGTH_ENCODE_SIZE)%nat then Some (rev d ++ [N.of_nat (length d) mod 256]) else None.

(** lib.rs 113-152: [finalize_xof_core]; returns the reader core and the
    hasher core as it is left *)
Definition finalize_xof_core (m : mode) (s : k12_st) (buf : bytes) : option (rdr (R := list N) * k12_st) :=
  let* (s, buf) := digest_blocks (update_blocks m) Eager 128 s buf (customization s) in
  let* le := length_encode (N.of_nat (length (customization s))) in
  let* (s, buf) := digest_blocks (update_blocks m) Eager 128 s buf le in
  let* s := if (bufpos s =? CHUNK_SIZE)%nat && negb (length buf =? 0)%nat
            then process_chunk m s else Some s in
  let* b := splice (buffer s) (bufpos s) buf in
  let s := mkK12 (customization s) b (bufpos s + length buf) (final_tshk s) (chain_tshk s) (chain_length s) in
  if chain_length s =? 0 then
    let* t := t_new 0x07 in
    let* t := t_update _ m t (firstn (bufpos s) (buffer s)) in
    let* (rd, _) := t_finalize_reset _ m t in
    Some (rd, s)
  else
    let* s := process_chaining_chunk m s in
    let* le := length_encode (chain_length s) in
    let* ft := t_update _ m (final_tshk s) le in
    let* ft := t_update _ m ft [0xff; 0xff] in
    let* (rd, ft) := t_finalize_reset _ m ft in
    Some (rd, mkK12 (customization s) (buffer s) (bufpos s) ft (chain_tshk s) (chain_length s)).

(** lib.rs 219-223: [read_block] reads one block from the TurboSHAKE reader *)
Definition read_block (r : rdr (R := list N)) : bytes * rdr := t_read r 168.

(** lib.rs 43, 169-174 ([Reset]); [KangarooTwelve] with customization [cust] *)
Definition K12 (cust : bytes) : xof :=
  mkXof k12_st (rdr (R := list N)) 128 Eager (k12_new cust) [] update_blocks finalize_xof_core
    (fun s => (k12_new (customization s), [])) None 168 read_block.
