(** Model of the md4 crate, md4/src/lib.rs.  [Wrapping<u32>] addition is [add32],
    [Wrapping<u64>] arithmetic is modulo 2^64 in every build. *)
From Verif Require Import Base.Words Base.Bytes Base.Codec Base.BlockBuffer Base.Digest.

(** lib.rs 31-38 *)
Definition S0 : list N := [0x67452301; 0xEFCDAB89; 0x98BADCFE; 0x10325476].
Definition K1 : N := 0x5A827999.
Definition K2 : N := 0x6ED9EBA1.

(** lib.rs 140-150 *)
Definition f (x y z : N) : N := N.lxor z (N.land x (N.lxor y z)).
Definition g (x y z : N) : N := N.lor (N.lor (N.land x y) (N.land x z)) (N.land y z).
Definition h (x y z : N) : N := N.lxor (N.lxor x y) z.
(** lib.rs 152-158 *)
Definition op (f : N -> N -> N -> N) (a b c d k s : N) : N :=
  let t := add32 (add32 a (f b c d)) k in rotl32 t s.

Definition v4 := (N * N * N * N)%type.
(** lib.rs 172-177, one iteration *)
Definition round1 (data : list N) (v : v4) (i : nat) : v4 :=
  let '(a, b, c, d) := v in
  let a := op f a b c d (get data i) 3 in
  let d := op f d a b c (get data (i + 1)) 7 in
  let c := op f c d a b (get data (i + 2)) 11 in
  let b := op f b c d a (get data (i + 3)) 19 in
  (a, b, c, d).
(** lib.rs 180-185, one iteration *)
Definition round2 (data : list N) (v : v4) (i : nat) : v4 :=
  let '(a, b, c, d) := v in
  let a := op g a b c d (add32 (get data i) K1) 3 in
  let d := op g d a b c (add32 (get data (i + 4)) K1) 5 in
  let c := op g c d a b (add32 (get data (i + 8)) K1) 9 in
  let b := op g b c d a (add32 (get data (i + 12)) K1) 13 in
  (a, b, c, d).
(** lib.rs 188-193, one iteration *)
Definition round3 (data : list N) (v : v4) (i : nat) : v4 :=
  let '(a, b, c, d) := v in
  let a := op h a b c d (add32 (get data i) K2) 3 in
  let d := op h d a b c (add32 (get data (i + 8)) K2) 9 in
  let c := op h c d a b (add32 (get data (i + 4)) K2) 11 in
  let b := op h b c d a (add32 (get data (i + 12)) K2) 15 in
  (a, b, c, d).

(** lib.rs 139-199 *)
Definition compress_block (state : list N) (input : bytes) : list N :=
  let v := (get state 0, get state 1, get state 2, get state 3) in
  let data := words_of_le 4 input in
  let v := fold_left (round1 data) [0; 4; 8; 12]%nat v in
  let v := fold_left (round2 data) [0; 1; 2; 3]%nat v in
  let v := fold_left (round3 data) [0; 2; 1; 3]%nat v in
  let '(a, b, c, d) := v in
  [add32 (get state 0) a; add32 (get state 1) b; add32 (get state 2) c; add32 (get state 3) d].

(** ** Md4Core (lib.rs 42-45) as (state, block_len) *)
Definition md4_st := (list N * N)%type.
(** lib.rs 68-73 *)
Definition md4_update (_ : mode) (s : md4_st) (blocks : list bytes) : option md4_st :=
  let* block_len := cadd Wrapping 64 (snd s) (N.of_nat (length blocks)) in
  Some (fold_left compress_block blocks (fst s), block_len).
(** lib.rs 78-89 *)
Definition md4_finalize (_ : mode) (s : md4_st) (buffer : bytes) : option (bytes * md4_st) :=
  let tail_len := N.of_nat (length buffer) in
  let bytes_len := wadd 64 (wmul 64 64 (snd s)) tail_len in
  let bits_len := wmul 64 8 bytes_len in
  let state := fold_left compress_block (len64_padding_le 64 bits_len buffer) (fst s) in
  Some (words_to_le 4 state, s).
(** lib.rs 201-230 *)
Definition md4_codec : codec md4_st := mkCodec 24 (ser_counted 4 8) (deser_counted 4 4).
(** lib.rs 48; 92-107 [Default], [Reset] *)
Definition Md4 : core :=
  mkCore md4_st 64 Eager (S0, 0) [] md4_update md4_finalize (fun _ => ((S0, 0), [])) (Some md4_codec).
