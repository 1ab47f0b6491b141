(** KangarooTwelve, KT128 of RFC 9861 section 3, over TurboSHAKE128. *)
From Verif Require Import Base.Words Base.Bytes.
From Verif Require Import Spec.Keccak.

(** length_encode(x): x in big endian without leading zeros, then the number of bytes. *)
Definition nbytes (x : N) : nat := if x =? 0 then 0%nat else S (N.to_nat (N.log2 x) / 8).
Definition length_encode (x : N) : bytes := be_bytes (nbytes x) x ++ [N.of_nat (nbytes x)].

Definition chunk_size : nat := (64 * 128)%nat.   (* 8192 *)
(** Cut into chunks of [n] bytes, the last possibly shorter. *)
Definition cut (n : nat) (l : bytes) : list bytes :=
  chunks n l ++ match remainder n l with [] => [] | r => [r] end.
Definition marker : bytes := [3; 0; 0; 0; 0; 0; 0; 0].
Definition CV (c : bytes) : bytes := TurboSHAKE128 0x0B c 32.
Definition KT128 (M C : bytes) (d : nat) : bytes :=
  let S := M ++ C ++ length_encode (N.of_nat (length C)) in
  if (length S <=? chunk_size)%nat then TurboSHAKE128 0x07 S d
  else
    let S0 := firstn chunk_size S in
    let rest := cut chunk_size (skipn chunk_size S) in
    TurboSHAKE128 0x06
      (S0 ++ marker ++ concat (map CV rest) ++ length_encode (N.of_nat (length rest)) ++ [0xFF; 0xFF]) d.
