(** The [Drop] implementations of the core types with the feature [zeroize] on, and the fields of the
    structs.  The buffers of the wrappers are fields of types of the digest and block-buffer crates and are not
    listed, except where the crate itself wipes them. *)
From Verif Require Import Base.Words Base.Bytes Base.BlockBuffer Base.Digest.
From Verif Require Model.Belt Model.Blake2 Model.Gost94 Model.K12 Model.Md2 Model.Sha1Checked Model.Sha3 Model.Shabal Model.Skein
  Model.Streebog Model.Whirlpool.

(** [Zeroize] of an array of integers (crate zeroize) *)
Definition zeroize (l : list N) : list N := map (fun _ => 0) l.

(** A state and a counter.  Fields: sha1/src/lib.rs 42-45, sha2/src/core_api.rs 23-26 and 139-142, sm3/src/lib.rs 35-38,
    md4/src/lib.rs 42-45, md5/src/lib.rs 35-38, ripemd/src/lib.rs 44-47, tiger/src/lib.rs 41-44, groestl/src/lib.rs 35-38 and 166-169,
    kupyna/src/short.rs 22-25, kupyna/src/long.rs 22-25, fsb/src/macros.rs 10-13, jh/src/lib.rs 36-39.
    [Drop]: sha1 121-129, sha2 91-99 and 209-217, sm3 108-116, md4 126-134, md5 118-126, ripemd 123-131, tiger 164-173,
    groestl 121-129 and 252-260, kupyna short.rs 112-121, long.rs 114-123, fsb 85-93, jh 121-134 (a volatile write of
    zero bytes over the compressor). *)
Definition counted_fields (s : list N * N) : list (list N) := [fst s; [snd s]].
Definition counted_drop (s : list N * N) : list N * N := (zeroize (fst s), 0).

(** md2/src/lib.rs 35-38, 143-151; whirlpool/src/lib.rs 36-39, 140-148 *)
Definition pair_fields (s : list N * list N) : list (list N) := [fst s; snd s].
Definition pair_drop (s : list N * list N) : list N * list N := (zeroize (fst s), zeroize (snd s)).
(** streebog/src/core_api.rs 26-30, 158-167; gost94/src/gost94_core.rs 134-139, 282-291 *)
Definition triple_fields (s : list N * list N * list N) : list (list N) := [fst (fst s); snd (fst s); snd s].
Definition triple_drop (s : list N * list N * list N) : list N * list N * list N :=
  (zeroize (fst (fst s)), zeroize (snd (fst s)), zeroize (snd s)).
(** belt-hash/src/lib.rs 37-41, 142-151 *)
Definition belt_fields (s : N * list N * list N) : list (list N) := [[fst (fst s)]; snd (fst s); snd s].
Definition belt_drop (s : N * list N * list N) : N * list N * list N := (0, zeroize (snd (fst s)), zeroize (snd s)).
(** shabal/src/core_api.rs 24-29, 249-259 *)
Definition shabal_fields (s : Model.Shabal.st) : list (list N) :=
  [Model.Shabal.a s; Model.Shabal.b s; Model.Shabal.c s; [Model.Shabal.w s]].
Definition shabal_drop (s : Model.Shabal.st) : Model.Shabal.st :=
  Model.Shabal.mkSt (zeroize (Model.Shabal.a s)) (zeroize (Model.Shabal.b s)) (zeroize (Model.Shabal.c s)) 0.
(** skein/src/lib.rs 48-52, 176-184 *)
Definition skein_fields (s : Model.Skein.st) : list (list N) := [[Model.Skein.t0 s; Model.Skein.t1 s]; Model.Skein.sx s].
Definition skein_drop (s : Model.Skein.st) : Model.Skein.st := Model.Skein.mkSt 0 0 (zeroize (Model.Skein.sx s)).

(** sha3/src/state.rs 5-7, macros.rs 85-92, 225-232; the readers 264-271, 425-432, 629-636 *)
Definition sha3_fields (s : list N) : list (list N) := [s].
Definition sha3_drop (s : list N) : list N := zeroize s.
(** macros.rs 307-310, 385-393 *)
Definition turbo_drop := counted_drop.
(** macros.rs 461-466, 587-597 with the feature [reset]: state, initial state, padding byte *)
Definition cshake_fields (s : Model.Sha3.cshake_st) : list (list N) := [fst (fst s); snd (fst s); [snd s]].
Definition cshake_drop (s : Model.Sha3.cshake_st) : Model.Sha3.cshake_st :=
  let '(st, ist, pad) := s in (zeroize st, zeroize ist, 0).
(** k12/src/lib.rs 33-40, 188-198: the borrowed customization string, buffer, position and chain length, and the states of
    the two TurboSHAKE cores, which their own [Drop] clears (the buffers of the latter are in the wrapper of the digest crate) *)
Definition k12_fields (s : Model.K12.k12_st) : list (list N) :=
  [Model.K12.customization s; Model.K12.buffer s; [N.of_nat (Model.K12.bufpos s)]] ++
  counted_fields (fst (Model.K12.final_tshk s)) ++ counted_fields (fst (Model.K12.chain_tshk s)) ++ [[Model.K12.chain_length s]].
Definition k12_drop (s : Model.K12.k12_st) : Model.K12.k12_st :=
  Model.K12.mkK12 (Model.K12.customization s) (zeroize (Model.K12.buffer s)) 0
    (turbo_drop (fst (Model.K12.final_tshk s)), snd (Model.K12.final_tshk s))
    (turbo_drop (fst (Model.K12.chain_tshk s)), snd (Model.K12.chain_tshk s)) 0.

(** blake2/src/macros.rs 9-14 and 250-258, with the feature [reset]; simd/simdty.rs 56-64 *)
Definition v4_zeroize (v : Model.Blake2.v4) : Model.Blake2.v4 := (0, 0, 0, 0).
Definition v8_list (v : Model.Blake2.v4 * Model.Blake2.v4) : list N := Model.Blake2.v4_list (fst v) ++ Model.Blake2.v4_list (snd v).
Definition blake2_fields (s : Model.Blake2.b2_st) : list (list N) :=
  [v8_list (Model.Blake2.b_h s); [Model.Blake2.b_t s]; v8_list (Model.Blake2.b_h0 s)].
Definition blake2_drop (s : Model.Blake2.b2_st) : Model.Blake2.b2_st :=
  Model.Blake2.mkB2 (v4_zeroize (fst (Model.Blake2.b_h s)), v4_zeroize (snd (Model.Blake2.b_h s))) 0 (Model.Blake2.b_h0 s).
(** The MACs: macros.rs 278-288, 463-480.  The buffer is wiped ([BlockBuffer::zeroize]) and shown as its content padded
    with zeros to the block size [bs], after its length.  [if let Some(mut key_block) = self.key_block] binds a
    copy, the array being [Copy], so the field keeps its value. *)
Definition mac_fields (bs : nat) (s : Model.Blake2.mac) : list (list N) :=
  blake2_fields (Model.Blake2.m_core s) ++
  [N.of_nat (length (Model.Blake2.m_buf s)) :: pad_with_zeros bs (Model.Blake2.m_buf s);
   match Model.Blake2.m_key s with Some k => k | None => [] end].
Definition mac_drop (s : Model.Blake2.mac) : Model.Blake2.mac :=
  Model.Blake2.mkMac (blake2_drop (Model.Blake2.m_core s)) [] (Model.Blake2.m_key s).
(** Without the feature [reset]: neither [h0] nor [key_block]. *)
Definition mac_fields_no_reset (bs : nat) (s : Model.Blake2.mac) : list (list N) :=
  [v8_list (Model.Blake2.b_h (Model.Blake2.m_core s)); [Model.Blake2.b_t (Model.Blake2.m_core s)];
   N.of_nat (length (Model.Blake2.m_buf s)) :: pad_with_zeros bs (Model.Blake2.m_buf s)].

(** sha1-checked/src/lib.rs 48-53 and 339-352; only [DetectionState] has a [Drop] (224-237), [Sha1] has none *)
Definition b2n (b : bool) : N := if b then 1 else 0.
Definition detection_fields (d : Model.Sha1Checked.DetectionState) : list (list N) :=
  [[b2n (Model.Sha1Checked.safe_hash d)]; [b2n (Model.Sha1Checked.use_ubc d)]; [b2n (Model.Sha1Checked.reduced_round_collision d)];
   [b2n (Model.Sha1Checked.found_collision d)]; Model.Sha1Checked.ihv1 d; Model.Sha1Checked.ihv2 d;
   Model.Sha1Checked.m1 d; Model.Sha1Checked.m2 d; Model.Sha1Checked.state_58 d; Model.Sha1Checked.state_65 d].
Definition sha1c_fields (s : Model.Sha1Checked.sha1c_st) : list (list N) :=
  let '((h, detection), block_len) := s in
  h :: [block_len] :: match detection with Some d => detection_fields d | None => [] end.
Definition detection_drop (d : Model.Sha1Checked.DetectionState) : Model.Sha1Checked.DetectionState :=
  Model.Sha1Checked.mkDS (Model.Sha1Checked.safe_hash d) (Model.Sha1Checked.use_ubc d)
    (Model.Sha1Checked.reduced_round_collision d) (Model.Sha1Checked.found_collision d)
    (zeroize (Model.Sha1Checked.ihv1 d)) (zeroize (Model.Sha1Checked.ihv2 d)) (zeroize (Model.Sha1Checked.m1 d))
    (zeroize (Model.Sha1Checked.m2 d)) (zeroize (Model.Sha1Checked.state_58 d)) (zeroize (Model.Sha1Checked.state_65 d)).
Definition sha1c_drop (s : Model.Sha1Checked.sha1c_st) : Model.Sha1Checked.sha1c_st :=
  let '((h, detection), block_len) := s in
  ((h, match detection with Some d => Some (detection_drop d) | None => None end), block_len).
