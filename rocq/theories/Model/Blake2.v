(** blake2: BLAKE2b and BLAKE2s hashers and MACs. *)
From Verif Require Import Base.Words Base.Bytes Base.BlockBuffer Base.Digest.

(** blake2/src/simd/simdty.rs 39, 79-84: [Simd4].  What the [simd] feature and the target
    change is in Model/Blake2Target.v. *)
Definition v4 : Type := (N * N * N * N)%type.
Definition vmap2 (f : N -> N -> N) (a b : v4) : v4 :=
  let '(a0, a1, a2, a3) := a in let '(b0, b1, b2, b3) := b in (f a0 b0, f a1 b1, f a2 b2, f a3 b3).
(** simd/simdop.rs 17-34: wrapping addition *)
Definition vadd (w : N) : v4 -> v4 -> v4 := vmap2 (wadd w).
(** simd/simdop.rs 36-53 *)
Definition vxor : v4 -> v4 -> v4 := vmap2 N.lxor.
(** simd/simd_opt.rs 32-44 *)
Definition vrotr (w n : N) (a : v4) : v4 :=
  let '(a0, a1, a2, a3) := a in (rotr w a0 n, rotr w a1 n, rotr w a2 n, rotr w a3 n).
(** simd.rs 97-137 *)
Definition shuffle_left_1 (a : v4) : v4 := let '(a0, a1, a2, a3) := a in (a1, a2, a3, a0).
Definition shuffle_left_2 (a : v4) : v4 := let '(a0, a1, a2, a3) := a in (a2, a3, a0, a1).
Definition shuffle_left_3 (a : v4) : v4 := let '(a0, a1, a2, a3) := a in (a3, a0, a1, a2).
(** simd.rs 30-41 *)
Definition shuffle_right_1 := shuffle_left_3.
Definition shuffle_right_2 := shuffle_left_2.
Definition shuffle_right_3 := shuffle_left_1.
(** simd.rs 49-51 *)
Definition gather (src : list N) (i0 i1 i2 i3 : nat) : v4 := (get src i0, get src i1, get src i2, get src i3).
Definition v4_list (a : v4) : list N := let '(a0, a1, a2, a3) := a in [a0; a1; a2; a3].

(** consts.rs 3-16 *)
Definition SIGMA : list (list nat) := [
  [0; 1; 2; 3; 4; 5; 6; 7; 8; 9; 10; 11; 12; 13; 14; 15];
  [14; 10; 4; 8; 9; 15; 13; 6; 1; 12; 0; 2; 11; 7; 5; 3];
  [11; 8; 12; 0; 5; 2; 15; 13; 10; 14; 3; 6; 7; 1; 9; 4];
  [7; 9; 3; 1; 13; 12; 11; 14; 2; 6; 5; 10; 4; 0; 15; 8];
  [9; 0; 5; 7; 2; 4; 10; 15; 14; 1; 11; 12; 6; 8; 3; 13];
  [2; 12; 6; 10; 0; 11; 8; 3; 4; 13; 7; 5; 15; 14; 1; 9];
  [12; 5; 1; 15; 14; 13; 4; 10; 0; 7; 6; 3; 9; 2; 8; 11];
  [13; 11; 7; 14; 12; 1; 3; 9; 5; 0; 15; 4; 8; 6; 2; 10];
  [6; 15; 14; 9; 11; 3; 0; 8; 12; 2; 13; 7; 1; 4; 10; 5];
  [10; 2; 8; 4; 7; 6; 1; 5; 15; 11; 9; 14; 3; 12; 13; 0];
  [0; 1; 2; 3; 4; 5; 6; 7; 8; 9; 10; 11; 12; 13; 14; 15];
  [14; 10; 4; 8; 9; 15; 13; 6; 1; 12; 0; 2; 11; 7; 5; 3]]%nat.
(** consts.rs 18-27, 37-39 *)
Definition BLAKE2B_IV : list N := [
  0x6a09e667f3bcc908; 0xbb67ae8584caa73b; 0x3c6ef372fe94f82b; 0xa54ff53a5f1d36f1;
  0x510e527fade682d1; 0x9b05688c2b3e6c1f; 0x1f83d9abfb41bd6b; 0x5be0cd19137e2179].
Definition BLAKE2S_IV : list N := [
  0x6A09E667; 0xBB67AE85; 0x3C6EF372; 0xA54FF53A; 0x510E527F; 0x9B05688C; 0x1F83D9AB; 0x5BE0CD19].

(** The parameters of macro [blake2_impl!] (macros.rs 1-6): word size in bytes
    and bits, [$bytes], [$block_size], rotation counts, [$IV]. *)
Record b2p := mkP {
  wb : nat; wbits : N; BYTES : nat; BLOCK : nat;
  ROT1 : N; ROT2 : N; ROT3 : N; ROT4 : N; IV : list N
}.
(** lib.rs 50-64, 82-96 *)
Definition Blake2b : b2p := mkP 8 64 64 128 32 24 16 63 BLAKE2B_IV.
Definition Blake2s : b2p := mkP 4 32 32 64 16 12 8 7 BLAKE2S_IV.

(** macros.rs 9-14: [h], [t], [h0] *)
Record b2_st := mkB2 { b_h : v4 * v4; b_t : N; b_h0 : v4 * v4 }.
(** macros.rs 17-24 *)
Definition iv0 (P : b2p) : v4 := gather (IV P) 0 1 2 3.
Definition iv1 (P : b2p) : v4 := gather (IV P) 4 5 6 7.

(** [assert!]: fails in every build *)
Definition assert (b : bool) : option unit := if b then Some tt else None.
(** macros.rs 47-64, 67-82: two little-endian words from up to [length] bytes;
    [try_into().unwrap()] fails when a slice is not one word long. *)
Definition word_of (P : b2p) (s : bytes) : option N := if (length s =? wb P)%nat then Some (le_val s) else None.
Definition two_words (P : b2p) (len : nat) (s : bytes) : option (N * N) :=
  if (length s <? len)%nat
  then let padded := s ++ zeros (len - length s) in
       let* a := word_of P (firstn (len / 2) padded) in
       let* b := word_of P (skipn (len / 2) padded) in Some (a, b)
  else let* a := word_of P (firstn (length s / 2) s) in
       let* b := word_of P (skipn (length s / 2) s) in Some (a, b).
(** macros.rs 27-92 *)
Definition new_with_params (P : b2p) (salt persona : bytes) (key_size output_size : nat) : option b2_st :=
  let* _ := assert (key_size <=? BYTES P)%nat in
  let* _ := assert (output_size <=? BYTES P)%nat in
  let len := (BYTES P / 4)%nat in
  let* _ := assert (length salt <=? len)%nat in
  let* _ := assert (length persona <=? len)%nat in
  let p0 := N.lxor (N.lxor 0x01010000 (wshl (wbits P) (N.of_nat key_size) 8)) (N.of_nat output_size) in
  let* (p4, p5) := two_words P len salt in
  let* (p6, p7) := two_words P len persona in
  let h := (vxor (iv0 P) (p0, 0, 0, 0), vxor (iv1 P) (p4, p5, p6, p7)) in
  Some (mkB2 h 0 h).

(** macros.rs 109-115 *)
Definition quarter_round (P : b2p) (v : v4 * v4 * v4 * v4) (rd rb : N) (m : v4) : v4 * v4 * v4 * v4 :=
  let '(a, b, c, d) := v in
  let a := vadd (wbits P) (vadd (wbits P) a b) m in
  let d := vrotr (wbits P) rd (vxor d a) in
  let c := vadd (wbits P) c d in
  let b := vrotr (wbits P) rb (vxor b c) in
  (a, b, c, d).
(** macros.rs 117-122 *)
Definition shuffle (v : v4 * v4 * v4 * v4) : v4 * v4 * v4 * v4 :=
  let '(a, b, c, d) := v in (a, shuffle_left_1 b, shuffle_left_2 c, shuffle_left_3 d).
(** macros.rs 124-129 *)
Definition unshuffle (v : v4 * v4 * v4 * v4) : v4 * v4 * v4 * v4 :=
  let '(a, b, c, d) := v in (a, shuffle_right_1 b, shuffle_right_2 c, shuffle_right_3 d).
(** macros.rs 131-140 *)
Definition round (P : b2p) (m : list N) (v : v4 * v4 * v4 * v4) (s : list nat) : v4 * v4 * v4 * v4 :=
  let i j := nth j s 0%nat in
  let v := quarter_round P v (ROT1 P) (ROT2 P) (gather m (i 0) (i 2) (i 4) (i 6))%nat in
  let v := quarter_round P v (ROT3 P) (ROT4 P) (gather m (i 1) (i 3) (i 5) (i 7))%nat in
  let v := shuffle v in
  let v := quarter_round P v (ROT1 P) (ROT2 P) (gather m (i 8) (i 10) (i 12) (i 14))%nat in
  let v := quarter_round P v (ROT3 P) (ROT4 P) (gather m (i 9) (i 11) (i 13) (i 15))%nat in
  unshuffle v.
(** macros.rs 105-179.  [from_ne_bytes] followed by [from_le] in
    [quarter_round] is a little-endian load on every target. *)
Definition compress (P : b2p) (h : v4 * v4) (t : N) (block : bytes) (f0 f1 : N) : v4 * v4 :=
  let m := map le_val (chunks (wb P) block) in
  let t0 := t mod 2 ^ wbits P in
  let t1 := if (BYTES P =? 64)%nat then 0 else N.shiftr t 32 mod 2 ^ wbits P in
  let v := (fst h, snd h, iv0 P, vxor (iv1 P) (t0, t1, f0, f1)) in
  let rows := [0; 1; 2; 3; 4; 5; 6; 7; 8; 9]%nat ++ (if (BYTES P =? 64)%nat then [0; 1]%nat else []) in
  let '(a, b, c, d) := fold_left (round P m) (map (fun i => nth i SIGMA []) rows) v in
  (vxor (fst h) (vxor a c), vxor (snd h) (vxor b d)).
(** macros.rs 192-200 *)
Fixpoint update_blocks (P : b2p) (m : mode) (s : b2_st) (blocks : list bytes) : option b2_st :=
  match blocks with
  | [] => Some s
  | block :: rest =>
      let* t := cadd m 64 (b_t s) (N.of_nat (length block)) in
      update_blocks P m (mkB2 (compress P (b_h s) t block 0 0) t (b_h0 s)) rest
  end.
(** macros.rs 94-103, 218-227; [as_bytes] of the little-endian lanes.  The
    wrappers keep the first [output_size] bytes ([TruncSide::Left], 210). *)
Definition finalize_variable_core (P : b2p) (m : mode) (s : b2_st) (buffer : bytes) : option (bytes * b2_st) :=
  let* t := cadd m 64 (b_t s) (N.of_nat (length buffer)) in
  let h := compress P (b_h s) t (pad_with_zeros (BLOCK P) buffer) (N.ones (wbits P)) 0 in
  Some (concat (map (le_bytes (wb P)) (v4_list (fst h) ++ v4_list (snd h))), mkB2 h t (b_h0 s)).
(** macros.rs 230-235 *)
Definition core_reset (s : b2_st) : b2_st := mkB2 (b_h0 s) 0 (b_h0 s).

(** A hasher over an initialized core with output size [nn].
    blake2 does not implement [SerializableState]. *)
Definition blake2_core (P : b2p) (ini : b2_st) (ibuf : bytes) (nn : nat) : core :=
  mkCore b2_st (BLOCK P) Lazy ini ibuf (update_blocks P)
    (fun m s buf => let* (out, s') := finalize_variable_core P m s buf in Some (firstn nn out, s'))
    (fun s => (core_reset s, ibuf)) None.
(** macros.rs 210-216: [VariableOutputCore::new]; the outer option is a panic,
    the inner one [Err(InvalidOutputSize)]. *)
Definition var_new (P : b2p) (output_size : nat) : option (option b2_st) :=
  if (BYTES P <? output_size)%nat then Some None
  else let* s := new_with_params P [] [] 0 output_size in Some (Some s).
(** macros.rs 260-266 *)
Definition new_customized (P : b2p) (customization : bytes) (output_size : nat) : option b2_st :=
  new_with_params P [] customization 0 output_size.

(** ** The MAC wrapper, macros.rs 272-486.  [OutSize] is [nn]. *)
Inductive outcome (A : Type) := Ok (a : A) | Err | Panic.
Arguments Ok {A}. Arguments Err {A}. Arguments Panic {A}.
Definition or_panic {A} (x : option A) : outcome A := match x with Some a => Ok a | None => Panic end.
(** macros.rs 278-288: [core], [buffer] (its content), [key_block] *)
Record mac := mkMac { m_core : b2_st; m_buf : bytes; m_key : option bytes }.
(** macros.rs 306-335.  [padded_key[..kl].copy_from_slice(k)] needs [kl <= BLOCK],
    [t[..kl].copy_from_slice(k)] needs [kl <= KeySize]; both panic otherwise. *)
Definition copy_into (n : nat) (k : bytes) : option bytes :=
  if (length k <=? n)%nat then Some (k ++ zeros (n - length k)) else None.
Definition new_with_salt_and_personal (P : b2p) (nn : nat) (key : option bytes) (salt persona : bytes) : outcome mac :=
  let kl := match key with None => 0%nat | Some k => length k end in
  let bs := BLOCK P in
  let qbs := (bs / 4)%nat in
  if (match key with Some _ => true | None => false end && (kl =? 0)%nat)
     || (bs <? kl)%nat || (qbs <? length salt)%nat || (qbs <? length persona)%nat
  then Err
  else or_panic
    (let* buffer := match key with Some k => copy_into bs k | None => Some [] end in
     let* c := new_with_params P salt persona kl nn in
     let* kb := match key with Some k => let* t := copy_into (BYTES P) k in Some (Some t) | None => Some None end in
     Some (mkMac c buffer kb)).
(** macros.rs 357-375 *)
Definition new_from_slice (P : b2p) (nn : nat) (key : bytes) : outcome mac :=
  if (BYTES P <? length key)%nat then Err
  else or_panic
    (let* padded := copy_into (BLOCK P) key in
     let* c := new_with_params P [] [] (length key) nn in
     let* t := copy_into (BYTES P) key in
     Some (mkMac c padded (Some t))).
(** macros.rs 384-387 *)
Definition mac_update (P : b2p) (m : mode) (s : mac) (input : bytes) : option mac :=
  let* (c, b) := digest_blocks (update_blocks P m) Lazy (BLOCK P) (m_core s) (m_buf s) input in
  Some (mkMac c b (m_key s)).
(** macros.rs 404-410: the core and buffer as finalization leaves them *)
Definition mac_finalize (P : b2p) (nn : nat) (m : mode) (s : mac) : option (bytes * mac) :=
  let* (out, c) := finalize_variable_core P m (m_core s) (m_buf s) in
  Some (firstn nn out, mkMac c [] (m_key s)).
(** macros.rs 413-430 *)
Definition mac_reset (P : b2p) (s : mac) : option mac :=
  let* b := match m_key s with
            | Some k => copy_into (BLOCK P) k
            | None => Some []
            end in
  Some (mkMac (core_reset (m_core s)) b (m_key s)).
(** macros.rs 432-445 *)
Definition mac_finalize_reset (P : b2p) (nn : nat) (m : mode) (s : mac) : option (bytes * mac) :=
  let* (out, s') := mac_finalize P nn m s in
  let* s' := mac_reset P s' in
  Some (out, s').
