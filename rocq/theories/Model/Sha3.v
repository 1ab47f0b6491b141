(** Model of the sha3 crate, sha3/src/{state,macros,lib}.rs.
    [debug_assert_eq!(block.len() % 8, 0)] (state.rs 19) holds because every rate
    in lib.rs is a multiple of 8; it is not modelled. *)
From Verif Require Import Base.Words Base.Bytes Base.Codec Base.BlockBuffer Base.Digest Base.Xof.
From Verif Require Spec.Keccak.

(** External crate keccak 0.2.0-pre.0: [keccak::p1600(state, rounds)] is
    Keccak-p[1600, rounds] (trusted contract). *)
Definition p1600 (rounds : nat) (st : list N) : list N := Spec.Keccak.keccak_p rounds st.

(** ** Sha3State (state.rs 5-37): 25 words *)
(** state.rs 9-15: [default] *)
Definition st_default : list N := repeat 0 25.
(** state.rs 21-23: [zip] stops at the shorter of the block and the state. *)
Fixpoint xor_in (st ws : list N) : list N :=
  match st, ws with
  | s :: st, w :: ws => N.lxor s w :: xor_in st ws
  | _, _ => st
  end.
(** state.rs 18-26 *)
Definition absorb_block (rounds : nat) (st : list N) (block : bytes) : list N :=
  p1600 rounds (xor_in st (words_of_le 8 block)).
(** state.rs 28-32, for an output of [n] bytes, [n <= 200] *)
Fixpoint as_bytes (st : list N) (n : nat) : bytes :=
  match st with
  | [] => []
  | s :: st => firstn n (le_bytes 8 s) ++ as_bytes st (n - 8)
  end.

(** The final block (macros.rs 45-49, 183-188, 354-358, 553-558). *)
Definition final_block (rate : nat) (pad : N) (buf : bytes) : bytes :=
  let pos := length buf in
  let block := pad_with_zeros rate buf in
  let block := upd block pos pad in
  upd block (rate - 1) (N.lor (get block (rate - 1)) 0x80).

(** macros.rs 72-76, 171-175, 339-343, 541-545: [update_blocks] *)
Definition update_blocks (rounds : nat) (st : list N) (blocks : list bytes) : list N :=
  fold_left (absorb_block rounds) blocks st.

(** macros.rs 97-127: [SerializableState] *)
Definition sha3_codec : codec (list N) :=
  mkCodec 200 (words_to_le 8) (fun b => Some (words_of_le 8 b)).

(** ** [impl_sha3!] (macros.rs 1-140) *)
Definition sha3_core (rate out : nat) (pad : N) : core :=
  mkCore (list N) rate Eager st_default []
    (fun _ st blocks => Some (update_blocks 24 st blocks))
    (fun _ st buf => let st := absorb_block 24 st (final_block rate pad buf) in Some (as_bytes st out, st))
    (fun _ => (st_default, []))
    (Some sha3_codec).

(** lib.rs 39-42 *)
Definition KECCAK := 0x01.
Definition SHA3 := 0x06.
Definition SHAKE := 0x1f.
Definition CSHAKE := 0x4.
(** lib.rs 45 *)
Definition TURBO_SHAKE_ROUND_COUNT := 12%nat.
(** lib.rs 47-96 *)
Definition Keccak224 := sha3_core 144 28 KECCAK.
Definition Keccak256 := sha3_core 136 32 KECCAK.
Definition Keccak384 := sha3_core 104 48 KECCAK.
Definition Keccak512 := sha3_core 72 64 KECCAK.
Definition Keccak256Full := sha3_core 136 200 KECCAK.
Definition Sha3_224 := sha3_core 144 28 SHA3.
Definition Sha3_256 := sha3_core 136 32 SHA3.
Definition Sha3_384 := sha3_core 104 48 SHA3.
Definition Sha3_512 := sha3_core 72 64 SHA3.

(** macros.rs 254-262, 415-423, 619-627: [read_block] *)
Definition read_block (rounds rate : nat) (st : list N) : bytes * list N :=
  (as_bytes st rate, p1600 rounds st).

(** ** [impl_shake!] (macros.rs 142-295) *)
Definition shake_xof (rate : nat) (pad : N) : xof :=
  mkXof (list N) (list N) rate Eager st_default []
    (fun _ st blocks => Some (update_blocks 24 st blocks))
    (fun _ st buf => let st := absorb_block 24 st (final_block rate pad buf) in Some (st, st))
    (fun _ => (st_default, [])) None
    rate (read_block 24 rate).
(** lib.rs 98-117 *)
Definition Shake128 := shake_xof 168 SHAKE.
Definition Shake256 := shake_xof 136 SHAKE.

(** ** [impl_turbo_shake!] (macros.rs 297-448): state and domain byte *)
(** macros.rs 320-326: [new] *)
Definition turbo_new (ds : N) : option (list N * N) :=
  if (0x01 <=? ds) && (ds <=? 0x7F) then Some (st_default, ds) else None.
(** [reset] (366-371) runs [new] on the stored byte; its assertion cannot fail
    because the byte came through [new], so the panic branch is left out. *)
Definition turbo_xof (rate : nat) (ds : N) : xof :=
  mkXof (list N * N) (list N) rate Eager (st_default, ds) []
    (fun _ st blocks => Some (update_blocks TURBO_SHAKE_ROUND_COUNT (fst st) blocks, snd st))
    (fun _ st buf =>
       let s := absorb_block TURBO_SHAKE_ROUND_COUNT (fst st) (final_block rate (snd st) buf) in
       Some (s, (s, snd st)))
    (fun st => ((st_default, snd st), [])) None
    rate (read_block TURBO_SHAKE_ROUND_COUNT rate).
(** lib.rs 119-134 *)
Definition TurboShake128 := turbo_xof 168.
Definition TurboShake256 := turbo_xof 136.

(** ** [left_encode] (lib.rs 158-163) on the 9-byte scratch array *)
Fixpoint lead_zeros (l : bytes) : nat :=
  match l with
  | b :: l => if b =? 0 then S (lead_zeros l) else 0%nat
  | [] => 0%nat
  end.
Definition left_encode (val : N) (b : bytes) : bytes * bytes :=
  let b := firstn 1 b ++ be_bytes 8 val in
  let i := lead_zeros (firstn 7 (skipn 1 b)) in
  let b := upd b i (8 - N.of_nat i) in
  (skipn i b, b).

(** ** [impl_cshake!] (macros.rs 450-648): state, initial state, padding byte *)
Definition cshake_st := (list N * list N * N)%type.
(** macros.rs 475-527: [new_with_function_name]; the two [len() * 8] are plain
    [usize] products. *)
Definition cshake_new (m : mode) (rate : nat) (fn cust : bytes) : option cshake_st :=
  let state := st_default in
  match fn, cust with
  | [], [] => Some (state, state, SHAKE)
  | _, _ =>
      let absorb st bl := Some (update_blocks 24 st bl) in
      let b := zeros 9 in
      let '(e, b) := left_encode (N.of_nat rate) b in
      let* (state, buf) := digest_blocks absorb Eager rate state [] e in
      let* nbits := cmul m 64 (N.of_nat (length fn)) 8 in
      let '(e, b) := left_encode nbits b in
      let* (state, buf) := digest_blocks absorb Eager rate state buf e in
      let* (state, buf) := digest_blocks absorb Eager rate state buf fn in
      let* cbits := cmul m 64 (N.of_nat (length cust)) 8 in
      let '(e, _) := left_encode cbits b in
      let* (state, buf) := digest_blocks absorb Eager rate state buf e in
      let* (state, buf) := digest_blocks absorb Eager rate state buf cust in
      let state := absorb_block 24 state (pad_with_zeros rate buf) in
      Some (state, state, CSHAKE)
  end.
(** The hasher made from a core value [ini]; 567-573: [reset] restores the state. *)
Definition cshake_xof (rate : nat) (ini : cshake_st) : xof :=
  mkXof cshake_st (list N) rate Eager ini []
    (fun _ '(st, ist, pad) blocks => Some (update_blocks 24 st blocks, ist, pad))
    (fun _ '(st, ist, pad) buf =>
       let s := absorb_block 24 st (final_block rate pad buf) in Some (s, (s, ist, pad)))
    (fun '(_, ist, pad) => ((ist, ist, pad), [])) None
    rate (read_block 24 rate).
(** lib.rs 136-155; macros.rs 641-646: [new_customized] is
    [new_with_function_name] with an empty name. *)
Definition CShake128 := cshake_xof 168.
Definition CShake256 := cshake_xof 136.
Definition cshake_new_customized (m : mode) (rate : nat) (cust : bytes) : option cshake_st :=
  cshake_new m rate [] cust.
