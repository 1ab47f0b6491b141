(** Model of the ascon-hash crate (ascon-hash/src/lib.rs). *)
From Verif Require Import Base.Words Base.Bytes Base.BlockBuffer Base.Digest Base.Xof.
From Verif Require Spec.Ascon.

(** External crate ascon: [State] is five u64 words and [permute_12] is Ascon-p[12] (trusted
    contract). *)
Definition state := (N * N * N * N * N)%type.
Definition permute_12 (s : state) : state := Spec.Ascon.p12 s.
Definition xor0 (s : state) (x : N) : state := let '(x0, x1, x2, x3, x4) := s in (N.lxor x0 x, x1, x2, x3, x4).
Definition word0 (s : state) : N := let '(x0, _, _, _, _) := s in x0.

(** lib.rs 26-28 *)
Definition pad (n : nat) : N := wshl 64 0x01 (8 * N.of_nat n).
(** lib.rs 51-57 *)
Definition Parameters : state :=
  (0x9b1e5494e934d681, 0x4bc3a01e333751d2, 0xae65396c6b34b81a, 0x3c7fd4a4d56a4db3, 0x1a5c464906c5976d).
(** lib.rs 63-69 *)
Definition ParametersXof : state :=
  (0xda82ce768d9447eb, 0xcc7ce6c75f1ef969, 0xe7508fd780085631, 0x0ee0ea53416b58cc, 0xe0547524db6f0bde).
(** lib.rs 78-81 *)
Definition absorb_block (s : state) (block : bytes) : state := permute_12 (xor0 s (le_val block)).
(** lib.rs 83-94; the debug assertion is always on: without it a slice of 8 bytes or more overflows
    the shift of [pad] or the array [tmp]. *)
Definition absorb_last_block (s : state) (block : bytes) : option state :=
  let len := length block in
  if (len <? 8)%nat then
    let s := if (0 <? len)%nat then xor0 s (le_val (block ++ zeros (8 - len))) else s in
    Some (permute_12 (xor0 s (pad len)))
  else None.
(** lib.rs 97-106, for an output of [n] bytes; [fuel] bounds the loop *)
Fixpoint squeeze_loop (fuel n : nat) (s : state) : bytes * state :=
  match fuel with
  | O => ([], s)
  | S fuel =>
      if (8 <? n)%nat then let '(out, s') := squeeze_loop fuel (n - 8) (permute_12 s) in (le_bytes 8 (word0 s) ++ out, s')
      else (le_bytes 8 (word0 s), s)
  end.
Definition squeeze (n : nat) (s : state) : option (bytes * state) :=
  if (n mod 8 =? 0)%nat && (0 <? n)%nat then Some (squeeze_loop n n s) else None.
(** lib.rs 109-113 *)
Definition squeeze_block (s : state) : bytes * state := (le_bytes 8 (word0 s), permute_12 s).

(** lib.rs 130-171: [AsconCore] *)
Definition AsconHash256 : core :=
  mkCore state 8 Eager Parameters []
    (fun _ s blocks => Some (fold_left absorb_block blocks s))
    (fun _ s buf => let* s := absorb_last_block s buf in squeeze 32 s)
    (fun _ => (Parameters, [])) None.
(** lib.rs 180-241: [AsconXofCore] and [AsconXofReaderCore] *)
Definition AsconXof128 : xof :=
  mkXof state state 8 Eager ParametersXof []
    (fun _ s blocks => Some (fold_left absorb_block blocks s))
    (fun _ s buf => let* s := absorb_last_block s buf in Some (s, s))
    (fun _ => (ParametersXof, [])) None
    8 squeeze_block.
