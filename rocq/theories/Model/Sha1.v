(** Model of the sha1 crate: portable backend sha1/src/compress/soft.rs and
    hasher sha1/src/lib.rs.  A [u32; 4] is a 4-tuple, [u32; 5] and [u32; 16] are lists. *)
From Verif Require Import Base.Words Base.Bytes Base.Codec Base.BlockBuffer Base.Digest.

(** lib.rs 36, 38 *)
Definition H0 : list N := [0x67452301; 0xEFCDAB89; 0x98BADCFE; 0x10325476; 0xC3D2E1F0].
Definition K : list N := [0x5A827999; 0x6ED9EBA1; 0x8F1BBCDC; 0xCA62C1D6].

Definition v4 := (N * N * N * N)%type.
(** soft.rs 6-13 *)
Definition add (a b : v4) : v4 :=
  let '(a0, a1, a2, a3) := a in let '(b0, b1, b2, b3) := b in
  (add32 a0 b0, add32 a1 b1, add32 a2 b2, add32 a3 b3).
(** soft.rs 16-18 *)
Definition xor (a b : v4) : v4 :=
  let '(a0, a1, a2, a3) := a in let '(b0, b1, b2, b3) := b in
  (N.lxor a0 b0, N.lxor a1 b1, N.lxor a2 b2, N.lxor a3 b3).
(** soft.rs 21-24 *)
Definition sha1_first_add (e : N) (w0 : v4) : v4 :=
  let '(a, b, c, d) := w0 in (add32 e a, b, c, d).
(** soft.rs 26-30 *)
Definition sha1msg1 (a b : v4) : v4 :=
  let '(a0, a1, w2, w3) := a in
  let '(w4, w5, _, _) := b in
  (N.lxor a0 w2, N.lxor a1 w3, N.lxor w2 w4, N.lxor w3 w5).
(** soft.rs 32-42 *)
Definition sha1msg2 (a b : v4) : v4 :=
  let '(x0, x1, x2, x3) := a in
  let '(_, w13, w14, w15) := b in
  let w16 := rotl32 (N.lxor x0 w13) 1 in
  let w17 := rotl32 (N.lxor x1 w14) 1 in
  let w18 := rotl32 (N.lxor x2 w15) 1 in
  let w19 := rotl32 (N.lxor x3 w16) 1 in
  (w16, w17, w18, w19).
(** soft.rs 45-47 *)
Definition sha1_first_half (abcd msg : v4) : v4 :=
  let '(a, _, _, _) := abcd in sha1_first_add (rotl32 a 30) msg.

(** soft.rs 64-68, 102-106, 140-144 *)
Definition bool3ary_202 (a b c : N) : N := N.lxor c (N.land a (N.lxor b c)).
Definition bool3ary_150 (a b c : N) : N := N.lxor (N.lxor a b) c.
Definition bool3ary_232 (a b c : N) : N := N.lxor (N.lxor (N.land a b) (N.land a c)) (N.land b c).
(** The common body of [sha1rnds4c] (soft.rs 59-95), [sha1rnds4p] (97-133) and
    [sha1rnds4m] (135-171): the three functions differ only in the macro used. *)
Definition sha1rnds4 (f : N -> N -> N -> N) (abcd msg : v4) : v4 :=
  let '(a, b, c, d) := abcd in
  let '(t, u, v, w) := msg in
  let e := 0 in
  let e := add32 (add32 (add32 e (rotl32 a 5)) (f b c d)) t in
  let b := rotl32 b 30 in
  let d := add32 (add32 (add32 d (rotl32 e 5)) (f a b c)) u in
  let a := rotl32 a 30 in
  let c := add32 (add32 (add32 c (rotl32 d 5)) (f e a b)) v in
  let e := rotl32 e 30 in
  let b := add32 (add32 (add32 b (rotl32 c 5)) (f d e a)) w in
  let d := rotl32 d 30 in
  (b, c, d, e).
Definition sha1rnds4c := sha1rnds4 bool3ary_202.
Definition sha1rnds4p := sha1rnds4 bool3ary_150.
Definition sha1rnds4m := sha1rnds4 bool3ary_232.
(** soft.rs 49-57; [i] is 0..3 at every call, so [unreachable!] is not modelled *)
Definition sha1_digest_round_x4 (abcd work : v4) (i : nat) : v4 :=
  let k := get K i in
  match i with
  | 0%nat => sha1rnds4c abcd (add work (k, k, k, k))
  | 1%nat => sha1rnds4p abcd (add work (k, k, k, k))
  | 2%nat => sha1rnds4m abcd (add work (k, k, k, k))
  | _ => sha1rnds4p abcd (add work (k, k, k, k))
  end.
(** soft.rs 173-177 *)
Definition rounds4 (h0 h1 wk : v4) (i : nat) : v4 := sha1_digest_round_x4 h0 (sha1_first_half h1 wk) i.
(** soft.rs 179-183 *)
Definition schedule (v0 v1 v2 v3 : v4) : v4 := sha1msg2 (xor (sha1msg1 v0 v1) v2) v3.
(** soft.rs 185-194; returns the assigned [h1] and [w4] *)
Definition schedule_rounds4 (h0 h1 w0 w1 w2 w3 : v4) (i : nat) : v4 * v4 :=
  let w4 := schedule w0 w1 w2 w3 in
  (rounds4 h0 h1 w4 i, w4).

(** soft.rs 197-244 *)
Definition sha1_digest_block_u32 (state block : list N) : list N :=
  let w0 := (get block 0, get block 1, get block 2, get block 3) in
  let w1 := (get block 4, get block 5, get block 6, get block 7) in
  let w2 := (get block 8, get block 9, get block 10, get block 11) in
  let w3 := (get block 12, get block 13, get block 14, get block 15) in
  let h0 := (get state 0, get state 1, get state 2, get state 3) in
  let h1 := sha1_first_add (get state 4) w0 in
  let h1 := sha1_digest_round_x4 h0 h1 0 in
  let h0 := rounds4 h1 h0 w1 0 in
  let h1 := rounds4 h0 h1 w2 0 in
  let h0 := rounds4 h1 h0 w3 0 in
  let '(h1, w4) := schedule_rounds4 h0 h1 w0 w1 w2 w3 0 in
  let '(h0, w0) := schedule_rounds4 h1 h0 w1 w2 w3 w4 1 in
  let '(h1, w1) := schedule_rounds4 h0 h1 w2 w3 w4 w0 1 in
  let '(h0, w2) := schedule_rounds4 h1 h0 w3 w4 w0 w1 1 in
  let '(h1, w3) := schedule_rounds4 h0 h1 w4 w0 w1 w2 1 in
  let '(h0, w4) := schedule_rounds4 h1 h0 w0 w1 w2 w3 1 in
  let '(h1, w0) := schedule_rounds4 h0 h1 w1 w2 w3 w4 2 in
  let '(h0, w1) := schedule_rounds4 h1 h0 w2 w3 w4 w0 2 in
  let '(h1, w2) := schedule_rounds4 h0 h1 w3 w4 w0 w1 2 in
  let '(h0, w3) := schedule_rounds4 h1 h0 w4 w0 w1 w2 2 in
  let '(h1, w4) := schedule_rounds4 h0 h1 w0 w1 w2 w3 2 in
  let '(h0, w0) := schedule_rounds4 h1 h0 w1 w2 w3 w4 3 in
  let '(h1, w1) := schedule_rounds4 h0 h1 w2 w3 w4 w0 3 in
  let '(h0, w2) := schedule_rounds4 h1 h0 w3 w4 w0 w1 3 in
  let '(h1, w3) := schedule_rounds4 h0 h1 w4 w0 w1 w2 3 in
  let '(h0, w4) := schedule_rounds4 h1 h0 w0 w1 w2 w3 3 in
  let '(h10, _, _, _) := h1 in
  let e := rotl32 h10 30 in
  let '(a, b, c, d) := h0 in
  [add32 (get state 0) a; add32 (get state 1) b; add32 (get state 2) c; add32 (get state 3) d; add32 (get state 4) e].

(** soft.rs 246-258, one iteration of the loop over blocks *)
Definition compress_block (state : list N) (block : bytes) : list N :=
  sha1_digest_block_u32 state (words_of_be 4 block).
Definition compress (state : list N) (blocks : list bytes) : list N :=
  fold_left compress_block blocks state.

(** ** Sha1Core (lib.rs 42-45): state words and block counter (u64) *)
Definition sha1_st := (list N * N)%type.
(** lib.rs 66-70 *)
Definition sha1_update (m : mode) (s : sha1_st) (blocks : list bytes) : option sha1_st :=
  let* block_len := cadd m 64 (snd s) (N.of_nat (length blocks)) in
  Some (compress (fst s) blocks, block_len).
(** lib.rs 75-84; the padding works on a copy of [h], the core is unchanged *)
Definition sha1_finalize (m : mode) (s : sha1_st) (buffer : bytes) : option (bytes * sha1_st) :=
  let bs := 64 in
  let* t := cmul m 64 bs (snd s) in
  let* t := cadd m 64 (N.of_nat (length buffer)) t in
  let* bit_len := cmul m 64 8 t in
  let h := compress (fst s) (len64_padding_be 64 bit_len buffer) in
  Some (words_to_be 4 h, s).
(** lib.rs 134-161 *)
Definition sha1_codec : codec sha1_st := mkCodec 28 (ser_counted 4 8) (deser_counted 4 5).
(** lib.rs 48 [CoreWrapper<Sha1Core>]; 87-102 [Default], [Reset] *)
Definition Sha1 : core :=
  mkCore sha1_st 64 Eager (H0, 0) [] sha1_update sha1_finalize (fun _ => ((H0, 0), [])) (Some sha1_codec).
