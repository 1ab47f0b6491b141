(** Model of the external crate block-buffer 0.11.0-rc.4 (not part of /repo;
    its behaviour is part of the trusted base, see DESIGN.md).  The buffer is
    represented by the bytes it holds, [data]; the block size is [bs]. *)
From Verif Require Import Base.Words Base.Bytes.

Inductive kind := Eager | Lazy.

(** Invariant on the position: [pos < size] (eager), [pos <= size] (lazy). *)
Definition pos_ok (k : kind) (bs pos : nat) : bool :=
  match k with Eager => (pos <? bs)%nat | Lazy => (pos <=? bs)%nat end.

(** [K::split_blocks]: number of blocks taken from the input. *)
Definition n_blocks (k : kind) (bs len : nat) : nat :=
  match k with
  | Eager => len / bs
  | Lazy => if (len =? 0)%nat then 0 else if (len mod bs =? 0)%nat then len / bs - 1 else len / bs
  end%nat.

Section DigestBlocks.
  Context {S : Type} (compress : S -> list bytes -> option S).
  (** [BlockBuffer::digest_blocks(input, compress)]. *)
  Definition digest_blocks (k : kind) (bs : nat) (s : S) (data input : bytes) : option (S * bytes) :=
    let rem := (bs - length data)%nat in
    if pos_ok k rem (length input) then Some (s, data ++ input)
    else
      let* (s1, input1) :=
        if (length data =? 0)%nat then Some (s, input)
        else let* s1 := compress s [data ++ firstn rem input] in Some (s1, skipn rem input) in
      let nb := n_blocks k bs (length input1) in
      let* s2 := if (nb =? 0)%nat then Some s1
                 else compress s1 (chunks bs (firstn (nb * bs) input1)) in
      Some (s2, skipn (nb * bs) input1).
End DigestBlocks.

(** [digest_pad(delim, suffix, compress)]: the blocks given to [compress], in
    order.  The buffer ends up empty. *)
Definition pad_blocks (bs : nat) (delim : N) (suffix data : bytes) : list bytes :=
  let pos := length data in
  let buf := data ++ delim :: zeros (bs - pos - 1) in
  let n := (bs - length suffix)%nat in
  if (bs - pos - 1 <? length suffix)%nat
  then [buf; zeros n ++ suffix]
  else [firstn n buf ++ suffix].

(** [len64_padding_be], [len64_padding_le], [len128_padding_be]. *)
Definition len64_padding_be bs len data := pad_blocks bs 0x80 (be_bytes 8 len) data.
Definition len64_padding_le bs len data := pad_blocks bs 0x80 (le_bytes 8 len) data.
Definition len128_padding_be bs len data := pad_blocks bs 0x80 (be_bytes 16 len) data.

(** [pad_with_zeros]: the block; the buffer ends up empty. *)
Definition pad_with_zeros (bs : nat) (data : bytes) : bytes := data ++ zeros (bs - length data).

(** The buffer in a saved state. [CoreWrapper::serialize] writes the position byte and [pad_with_zeros] of a copy.
    [CoreWrapper::deserialize] is [BlockBuffer::try_new(&block[..pos])]: the slice panics past the block, [try_new]
    refuses a length that the buffer kind cannot hold, and the bytes after the position are not looked at.
    The outer [None] is the panic, the inner one is [Err]. The array type fixes the length of the input. *)
Definition buf_serialize (bs : nat) (data : bytes) : bytes := N.of_nat (length data) :: pad_with_zeros bs data.
Definition buf_restore (k : kind) (bs : nat) (b : bytes) : option (option bytes) :=
  match b with
  | [] => Some None
  | p :: block =>
      let pos := N.to_nat p in
      if negb (length block =? bs)%nat then Some None
      else if (bs <? pos)%nat then None
      else if pos_ok k bs pos then Some (Some (firstn pos block))
      else Some None
  end.
Definition buf_deserialize (k : kind) (bs : nat) (b : bytes) : option bytes :=
  match buf_restore k bs b with Some r => r | None => None end.

(** ** What a buffered hasher has passed on and what it still holds after
    absorbing the byte string [l] *)
Definition kblocks (k : kind) (bs : nat) (l : bytes) : list bytes :=
  chunks bs (firstn (n_blocks k bs (length l) * bs) l).
Definition krem (k : kind) (bs : nat) (l : bytes) : bytes :=
  skipn (n_blocks k bs (length l) * bs) l.
