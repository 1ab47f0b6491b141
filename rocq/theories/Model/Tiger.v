(** Model of the tiger crate (tiger/src/compress.rs, tiger/src/lib.rs). *)
From Verif Require Import Base.Words Base.Bytes Base.Codec Base.BlockBuffer Base.Digest Model.TigerTables.

(** [TABLES[t][i]] *)
Definition table (t : nat) (i : N) : N := nth (N.to_nat i) (nth t TABLES []) 0.

(** compress.rs 4-18: the new ([a], [b], [c]) *)
Definition round (a b c x mul : N) : N * N * N :=
  assign c := N.lxor c x in
  assign c2 := le_bytes 8 c in
  assign a2 := N.lxor (N.lxor (N.lxor (table 0 (get c2 0)) (table 1 (get c2 2))) (table 2 (get c2 4))) (table 3 (get c2 6)) in
  assign b2 := N.lxor (N.lxor (N.lxor (table 3 (get c2 1)) (table 2 (get c2 3))) (table 1 (get c2 5))) (table 0 (get c2 7)) in
  (sub64 a a2, mul64 (add64 b b2) mul, c).

(** compress.rs 20-30 *)
Definition pass (a b c : N) (x : list N) (mul : N) : N * N * N :=
  let '(a, b, c) := round a b c (get x 0) mul in
  let '(b, c, a) := round b c a (get x 1) mul in
  let '(c, a, b) := round c a b (get x 2) mul in
  let '(a, b, c) := round a b c (get x 3) mul in
  let '(b, c, a) := round b c a (get x 4) mul in
  let '(c, a, b) := round c a b (get x 5) mul in
  let '(a, b, c) := round a b c (get x 6) mul in
  let '(b, c, a) := round b c a (get x 7) mul in
  (a, b, c).

(** compress.rs 32-50; one [upd] per assignment *)
Definition key_schedule (x : list N) : list N :=
  assign x := upd x 0 (sub64 (get x 0) (N.lxor (get x 7) 0xA5A5A5A5A5A5A5A5)) in
  assign x := upd x 1 (N.lxor (get x 1) (get x 0)) in
  assign x := upd x 2 (add64 (get x 2) (get x 1)) in
  assign x := upd x 3 (sub64 (get x 3) (N.lxor (get x 2) (wshl 64 (not64 (get x 1)) 19))) in
  assign x := upd x 4 (N.lxor (get x 4) (get x 3)) in
  assign x := upd x 5 (add64 (get x 5) (get x 4)) in
  assign x := upd x 6 (sub64 (get x 6) (N.lxor (get x 5) (N.shiftr (not64 (get x 4)) 23))) in
  assign x := upd x 7 (N.lxor (get x 7) (get x 6)) in
  assign x := upd x 0 (add64 (get x 0) (get x 7)) in
  assign x := upd x 1 (sub64 (get x 1) (N.lxor (get x 0) (wshl 64 (not64 (get x 7)) 19))) in
  assign x := upd x 2 (N.lxor (get x 2) (get x 1)) in
  assign x := upd x 3 (add64 (get x 3) (get x 2)) in
  assign x := upd x 4 (sub64 (get x 4) (N.lxor (get x 3) (N.shiftr (not64 (get x 2)) 23))) in
  assign x := upd x 5 (N.lxor (get x 5) (get x 4)) in
  assign x := upd x 6 (add64 (get x 6) (get x 5)) in
  upd x 7 (sub64 (get x 7) (N.lxor (get x 6) 0x0123456789ABCDEF)).

(** compress.rs 52-68; note the argument order of the passes *)
Definition compress (state : list N) (raw_block : bytes) : list N :=
  let block := words_of_le 8 raw_block in
  let '(a, b, c) := pass (get state 0) (get state 1) (get state 2) block 5 in
  let block := key_schedule block in
  let '(c, a, b) := pass c a b block 7 in
  let block := key_schedule block in
  let '(b, c, a) := pass b c a block 9 in
  [N.lxor (get state 0) a; sub64 b (get state 1); add64 c (get state 2)].

(** lib.rs 33-37 *)
Definition S0 : list N := [0x0123456789ABCDEF; 0xFEDCBA9876543210; 0xF096A5B4C3B2E187].
(** ** [TigerCore] (lib.rs 41-44) as (state, block_len) *)
Definition tiger_st := (list N * N)%type.
(** lib.rs 65-71 *)
Definition tiger_update (m : mode) (s : tiger_st) (blocks : list bytes) : option tiger_st :=
  let* block_len := cadd m 64 (snd s) (N.of_nat (length blocks)) in
  Some (fold_left compress blocks (fst s), block_len).
(** lib.rs 74-93 *)
Definition tiger_finalize (ver2 : bool) (m : mode) (s : tiger_st) (buffer : bytes) : option (bytes * tiger_st) :=
  let* t := cmul m 64 64 (snd s) in
  let* t := cadd m 64 (N.of_nat (length buffer)) t in
  let* bit_len := cmul m 64 8 t in
  let blocks := if ver2 then len64_padding_le 64 bit_len buffer else pad_blocks 64 1 (le_bytes 8 bit_len) buffer in
  let state := fold_left compress blocks (fst s) in
  Some (words_to_le 8 state, (state, snd s)).
(** lib.rs 113-140 *)
Definition tiger_codec : codec tiger_st := mkCodec 32 (ser_counted 8 8) (deser_counted 8 3).
(** lib.rs 47-49, 95-110 *)
Definition tiger_core (ver2 : bool) : core :=
  mkCore tiger_st 64 Eager (S0, 0) [] tiger_update (tiger_finalize ver2) (fun _ => ((S0, 0), [])) (Some tiger_codec).
Definition Tiger : core := tiger_core false.
Definition Tiger2 : core := tiger_core true.
