(** Model of the gost94 crate (gost94/src/gost94_core.rs, gost94/src/params.rs). *)
From Verif Require Import Base.Words Base.Bytes Base.Codec Base.BlockBuffer Base.Digest.

(** ** Parameters *)
(** params.rs 8-15, without [NAME] *)
Record params := mkParams { S_BOX : list (list N); H0 : bytes }.
(** params.rs 22-32 *)
Definition CryptoProParam : params := mkParams [
  [10; 4; 5; 6; 8; 1; 3; 7; 13; 12; 14; 0; 9; 2; 11; 15];
  [5; 15; 4; 0; 2; 13; 11; 9; 1; 7; 6; 3; 12; 14; 10; 8];
  [7; 15; 12; 14; 9; 4; 1; 0; 3; 11; 5; 2; 6; 10; 8; 13];
  [4; 10; 7; 12; 0; 15; 2; 8; 14; 1; 6; 5; 13; 11; 9; 3];
  [7; 6; 4; 11; 9; 12; 2; 10; 1; 8; 0; 14; 15; 13; 3; 5];
  [7; 6; 2; 4; 13; 9; 15; 0; 10; 1; 5; 11; 8; 14; 12; 3];
  [13; 14; 4; 1; 7; 0; 5; 10; 3; 12; 8; 15; 6; 2; 9; 11];
  [1; 3; 10; 9; 5; 11; 4; 15; 8; 6; 7; 14; 13; 0; 2; 12]] (zeros 32).
(** params.rs 47-57 *)
Definition S2015Param : params := mkParams [
  [12; 4; 6; 2; 10; 5; 11; 9; 14; 8; 13; 7; 0; 3; 15; 1];
  [6; 8; 2; 3; 9; 10; 5; 12; 1; 14; 4; 7; 11; 13; 0; 15];
  [11; 3; 5; 8; 2; 15; 10; 13; 14; 1; 7; 4; 12; 9; 6; 0];
  [12; 8; 2; 1; 13; 4; 15; 6; 7; 0; 10; 5; 3; 14; 9; 11];
  [7; 15; 5; 10; 8; 1; 6; 13; 0; 9; 3; 14; 11; 4; 2; 12];
  [5; 13; 15; 6; 9; 2; 12; 10; 11; 7; 8; 1; 4; 3; 14; 0];
  [8; 14; 2; 5; 6; 9; 1; 12; 15; 4; 11; 0; 13; 10; 3; 7];
  [1; 7; 14; 13; 0; 5; 8; 3; 4; 15; 10; 6; 9; 12; 11; 2]] (zeros 32).
(** params.rs 66-76 *)
Definition TestParam : params := mkParams [
  [4; 10; 9; 2; 13; 8; 0; 14; 6; 11; 1; 12; 7; 15; 5; 3];
  [14; 11; 4; 12; 6; 13; 15; 10; 2; 3; 8; 1; 0; 7; 5; 9];
  [5; 8; 1; 13; 10; 3; 4; 2; 14; 15; 12; 7; 6; 0; 9; 11];
  [7; 13; 10; 1; 0; 8; 9; 15; 14; 4; 6; 12; 11; 2; 5; 3];
  [6; 12; 7; 1; 5; 15; 13; 8; 4; 10; 9; 14; 0; 3; 11; 2];
  [4; 11; 10; 0; 7; 2; 1; 13; 3; 6; 8; 5; 9; 12; 15; 14];
  [13; 11; 4; 1; 3; 15; 5; 9; 0; 10; 14; 7; 6; 8; 2; 12];
  [1; 15; 13; 0; 5; 7; 10; 4; 9; 2; 3; 14; 6; 11; 8; 12]] (zeros 32).
(** params.rs 91-101 *)
Definition GOST28147UAParam : params := mkParams [
  [10; 9; 13; 6; 14; 11; 4; 5; 15; 1; 3; 12; 7; 0; 8; 2];
  [8; 0; 12; 4; 9; 6; 7; 11; 2; 3; 1; 15; 5; 14; 10; 13];
  [15; 6; 5; 8; 14; 11; 10; 4; 12; 0; 3; 7; 2; 9; 1; 13];
  [3; 8; 13; 9; 6; 11; 15; 0; 2; 5; 12; 10; 4; 14; 1; 7];
  [15; 8; 14; 9; 7; 2; 0; 13; 12; 6; 1; 5; 11; 4; 3; 10];
  [2; 8; 9; 7; 5; 15; 0; 11; 12; 1; 13; 14; 10; 3; 6; 4];
  [3; 8; 11; 5; 6; 4; 14; 10; 2; 12; 1; 7; 9; 15; 13; 0];
  [1; 2; 3; 14; 6; 13; 11; 8; 15; 10; 12; 5; 7; 9; 0; 4]] (zeros 32).

(** ** gost94_core.rs *)
(** lines 20-23 *)
Definition C : bytes := [
  0x00; 0xff; 0x00; 0xff; 0x00; 0xff; 0x00; 0xff; 0xff; 0x00; 0xff; 0x00; 0xff; 0x00; 0xff; 0x00;
  0x00; 0xff; 0xff; 0x00; 0xff; 0x00; 0x00; 0xff; 0xff; 0x00; 0x00; 0x00; 0xff; 0xff; 0x00; 0xff].
(** lines 25-36; [None] is the overflow panic of [v += ...] (in [Checked] mode) *)
Definition sbox (m : mode) (a : N) (s : list (list N)) : option N :=
  fold_left (fun v i =>
    let* v := v in
    let shft := 4 * N.of_nat i in
    let k := N.shiftr (N.land a (wshl 32 15 shft)) shft in
    cadd m 32 v (wshl 32 (get (nth i s []) (N.to_nat k)) shft)) (seq 0 8) (Some 0).
(** lines 38-40 *)
Definition g (m : mode) (a k : N) (s : list (list N)) : option N :=
  let* v := sbox m (add32 a k) s in Some (rotl32 v 11).
(** lines 53-55 and 59-61: one round with key word [k], on (a, b) *)
Definition enc_round (m : mode) (s : list (list N)) (ab : option (N * N)) (k : N) : option (N * N) :=
  let* (a, b) := ab in
  let* v := g m a k s in
  let t := N.lxor b v in
  let b := a in
  let a := t in Some (a, b).
(** lines 42-66, on the eight bytes [msg[..]] *)
Definition encrypt (m : mode) (msg key : bytes) (s : list (list N)) : option bytes :=
  let a := le_val (firstn 4 msg) in
  let b := le_val (skipn 4 msg) in
  let k := words_of_le 4 key in
  let ab := Some (a, b) in
  let ab := fold_left (fun ab (_ : nat) => fold_left (fun ab i => enc_round m s ab (get k i)) (seq 0 8) ab) (seq 0 3) ab in
  let ab := fold_left (fun ab i => enc_round m s ab (get k i)) (rev (seq 0 8)) ab in
  let* (a, b) := ab in
  Some (le_bytes 4 b ++ le_bytes 4 a).
(** lines 68-74, 76-80 *)
Definition x (a b : bytes) : bytes := map (fun i => N.lxor (get a i) (get b i)) (seq 0 32).
(** lines 82-89 *)
Definition a (x : bytes) : bytes := skipn 8 x ++ map (fun i => N.lxor (get x i) (get x (i + 8))) (seq 0 8).
(** lines 91-100 *)
Definition p (y : bytes) : bytes :=
  fold_left (fun out i => fold_left (fun out k => upd out (i + 4 * k) (get y (8 * i + k))) (seq 0 8) out) (seq 0 4) (zeros 32).
(** lines 102-123 *)
Definition psi (block : bytes) : bytes :=
  let out := skipn 2 block ++ firstn 2 block in
  let out := upd out 30 (N.lxor (get out 30) (get block 2)) in
  let out := upd out 31 (N.lxor (get out 31) (get block 3)) in
  let out := upd out 30 (N.lxor (get out 30) (get block 4)) in
  let out := upd out 31 (N.lxor (get out 31) (get block 5)) in
  let out := upd out 30 (N.lxor (get out 30) (get block 6)) in
  let out := upd out 31 (N.lxor (get out 31) (get block 7)) in
  let out := upd out 30 (N.lxor (get out 30) (get block 24)) in
  let out := upd out 31 (N.lxor (get out 31) (get block 25)) in
  let out := upd out 30 (N.lxor (get out 30) (get block 30)) in
  let out := upd out 31 (N.lxor (get out 31) (get block 31)) in
  out.
(** lines 125-130: in [u128] arithmetic; the new [a] and the new carry *)
Definition adc (a b carry : N) : N * N := let ret := a + b + carry in (ret mod 2 ^ 64, N.shiftr ret 64).

(** [Gost94Core] (lines 134-139) as (h, n, sigma) *)
Definition gost_st := (bytes * list N * list N)%type.
Section WithParams.
  Context (Pr : params) (m : mode).
  (** lines 142-154: the new [self.h] *)
  Definition shuffle (h mm s : bytes) : bytes :=
    let res := Nat.iter 12 psi s in
    let res := x res mm in
    let res := psi res in
    let h := x h res in
    Nat.iter 61 psi h.
  (** lines 156-179: the new [self.h]; [s] is a copy of [h], each [encrypt] replacing eight bytes *)
  Definition f (h mm : bytes) : option bytes :=
    let s := h in
    let k := p (x h mm) in
    let* s0 := encrypt m (firstn 8 s) k (S_BOX Pr) in
    let u := a h in
    let v := a (a mm) in
    let k := p (x u v) in
    let* s1 := encrypt m (firstn 8 (skipn 8 s)) k (S_BOX Pr) in
    let u := a u in
    let u := x u C in
    let v := a (a v) in
    let k := p (x u v) in
    let* s2 := encrypt m (firstn 8 (skipn 16 s)) k (S_BOX Pr) in
    let u := a u in
    let v := a (a v) in
    let k := p (x u v) in
    let* s3 := encrypt m (firstn 8 (skipn 24 s)) k (S_BOX Pr) in
    Some (shuffle h mm (s0 ++ s1 ++ s2 ++ s3)).
  (** lines 181-187 *)
  Definition update_sigma (sigma : list N) (mm : bytes) : list N :=
    let bs := words_of_le 8 mm in
    fst (fold_left (fun s i => let '(sigma, carry) := s in
      let '(y, carry) := adc (get sigma i) (get bs i) carry in (upd sigma i y, carry)) (seq 0 4) (sigma, 0)).
  (** lines 189-195 *)
  Definition update_n (n : list N) (len : N) : list N :=
    let '(n0, carry) := adc (get n 0) (wshl 64 len 3) 0 in
    let '(n1, carry) := adc (get n 1) (N.shiftr len 61) carry in
    let '(n2, carry) := adc (get n 2) 0 carry in
    let '(n3, _) := adc (get n 3) 0 carry in
    [n0; n1; n2; n3].
  (** lines 197-201 *)
  Definition compress (s : option gost_st) (block : bytes) : option gost_st :=
    let* (hn, sigma) := s in
    let* h := f (fst hn) block in
    Some (h, snd hn, update_sigma sigma block).
  (** lines 218-225; [usize] is taken to be 64 bits wide *)
  Definition gost_update (s : gost_st) (blocks : list bytes) : option gost_st :=
    let* len := cmul m 64 32 (N.of_nat (length blocks)) in
    let '(h, n, sigma) := s in
    fold_left compress blocks (Some (h, update_n n len, sigma)).
  (** lines 227-248 *)
  Definition gost_finalize (s : gost_st) (buffer : bytes) : option (bytes * gost_st) :=
    let* (hn, sigma) :=
      if negb (length buffer =? 0)%nat then
        let '(h, n, sigma) := s in
        compress (Some (h, update_n n (N.of_nat (length buffer)), sigma)) (pad_with_zeros 32 buffer)
      else Some s in
    let* h := f (fst hn) (words_to_le 8 (snd hn)) in
    let* h := f h (words_to_le 8 sigma) in
    Some (h, (h, snd hn, sigma)).
End WithParams.
(** lines 296-338 *)
Definition gost_codec : codec gost_st :=
  mkCodec 96 (fun s => let '(h, n, sigma) := s in h ++ words_to_le 8 n ++ words_to_le 8 sigma)
    (fun b => Some (firstn 32 b, words_of_le 8 (firstn 32 (skipn 32 b)), words_of_le 8 (skipn 64 b))).
(** lines 206-216, 250-267 *)
Definition gost94_core (Pr : params) : core :=
  let init := (H0 Pr, repeat 0 4, repeat 0 4) in
  mkCore gost_st 32 Eager init [] (gost_update Pr) (gost_finalize Pr) (fun _ => (init, [])) (Some gost_codec).
(** lib.rs *)
Definition Gost94CryptoPro := gost94_core CryptoProParam.
Definition Gost94s2015 := gost94_core S2015Param.
Definition Gost94Test := gost94_core TestParam.
Definition Gost94UA := gost94_core GOST28147UAParam.
