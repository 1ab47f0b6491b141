(** Inputs of the sponges of the sha3 crate. *)
From Verif Require Import Base.Words Base.Bytes.
From Verif Require Spec.Keccak Spec.BLAKE2.
Import Spec.Keccak (left_encode, encode_string, turbo_pad).

(** What cSHAKE with a function name or a customization absorbs before the message, as the crate pads it. *)
Definition cshake_prefix (r : nat) (fn cust : bytes) : bytes :=
  let z := left_encode (N.of_nat r) ++ encode_string fn ++ encode_string cust in z ++ zeros (r - length z mod r).
Definition cshake_blocks (r : nat) (fn cust msg : bytes) : list bytes := chunks r (turbo_pad r 0x04 (cshake_prefix r fn cust ++ msg)).
(** The domain bytes of the 24-round families. *)
Inductive family := FKeccak | FSha3 | FShake | FCShake.
Definition domain_byte (f : family) : N := match f with FKeccak => 0x01 | FSha3 => 0x06 | FShake => 0x1F | FCShake => 0x04 end.
