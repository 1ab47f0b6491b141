(** Model of the skein crate (skein/src/lib.rs).  The block cipher of the threefish crate is a
    parameter [E key tweak block] on 64-bit words; [NB] is the state size in bytes
    ([$state_bytes]) and [NO] the output size in bytes (the type parameter [N]). *)
From Verif Require Import Base.Words Base.Bytes Base.Codec Base.BlockBuffer Base.Digest.

(** lines 29-38 *)
Definition VERSION : N := 1.
Definition ID_STRING_LE : N := 0x33414853.
Definition SCHEMA_VER : N := N.lor (N.shiftl VERSION 32) ID_STRING_LE.
Definition CFG_TREE_INFO_SEQUENTIAL : N := 0.
Definition T1_FLAG_FIRST : N := N.shiftl 1 62.
Definition T1_FLAG_FINAL : N := N.shiftl 1 63.
Definition T1_BLK_TYPE_CFG : N := N.shiftl 4 56.
Definition T1_BLK_TYPE_MSG : N := N.shiftl 48 56.
Definition T1_BLK_TYPE_OUT : N := N.shiftl 63 56.
Definition CFG_STR_LEN : N := 4 * 8.

(** lines 48-52 *)
Record st := mkSt { t0 : N; t1 : N; sx : list N }.
Section Skein.
  Context (NB NO : nat) (E : list N -> list N -> list N -> list N).
  (** lines 59-65 *)
  Definition blank_state (t1 : N) (x : list N) : st := mkSt 0 t1 x.
  (** lines 67-85 *)
  Definition process_block (m : mode) (s : st) (block : bytes) (byte_count_add : N) : option st :=
    let* t0 := cadd m 64 (t0 s) byte_count_add in
    let x := words_of_le 8 block in
    let t := x in
    let x := E (sx s) [t0; t1 s] x in
    Some (mkSt t0 (N.land (t1 s) (not64 T1_FLAG_FIRST)) (map (fun i => N.lxor (get t i) (get x i)) (seq 0 (NB / 8)))).
  (** lines 102-109 *)
  Fixpoint update_blocks (m : mode) (s : st) (blocks : list bytes) : option st :=
    match blocks with
    | [] => Some s
    | block :: blocks => let* s := process_block m s block (N.of_nat (length block)) in update_blocks m s blocks
    end.
  (** lines 122-131: one iteration of the output loop on a chunk of [len] bytes (of an array of
      zeros); [chunks_exact_mut(8)] leaves the last [len mod 8] bytes as they are *)
  Definition out_chunk (m : mode) (x : list N) (i len : nat) : option bytes :=
    let flag := N.lor (N.lor T1_FLAG_FIRST T1_BLK_TYPE_OUT) T1_FLAG_FINAL in
    let block := le_bytes 8 (N.of_nat i) ++ zeros (NB - 8) in
    let* ctr := process_block m (blank_state flag x) block 8 in
    Some (words_to_le 8 (firstn (len / 8) (sx ctr)) ++ zeros (len mod 8)).
  (** The chunks of [out.chunks_mut(NB)]: [fuel] bounds their number. *)
  Fixpoint out_chunks (m : mode) (x : list N) (fuel i len : nat) : option bytes :=
    match fuel with
    | O => Some []
    | S fuel =>
        if (len =? 0)%nat then Some []
        else let* a := out_chunk m x i (min NB len) in
             let* b := out_chunks m x fuel (S i) (len - NB) in Some (a ++ b)
    end.
  (** lines 111-133 *)
  Definition finalize_fixed_core (m : mode) (s : st) (buffer : bytes) : option (bytes * st) :=
    let s := mkSt (t0 s) (N.lor (t1 s) T1_FLAG_FINAL) (sx s) in
    let pos := length buffer in
    let final_block := pad_with_zeros NB buffer in
    let* s := process_block m s final_block (N.of_nat pos) in
    let* out := out_chunks m (sx s) (S NO) 0 NO in
    Some (out, s).
  (** lines 135-155 *)
  Definition skein_default (m : mode) : option st :=
    let state := blank_state (N.lor (N.lor T1_FLAG_FIRST T1_BLK_TYPE_CFG) T1_FLAG_FINAL) (repeat 0 (NB / 8)) in
    let* bits := cmul m 64 (N.of_nat NO) 8 in
    let cfg := le_bytes 8 SCHEMA_VER ++ le_bytes 8 bits ++ le_bytes 8 CFG_TREE_INFO_SEQUENTIAL ++ zeros (NB - 24) in
    let* state := process_block m state cfg CFG_STR_LEN in
    Some (mkSt 0 (N.lor T1_FLAG_FIRST T1_BLK_TYPE_MSG) (sx state)).
  (** The core (lines 90-100, 157-162), with its initial state already computed *)
  Definition skein_core (init : st) : core :=
    mkCore st NB Lazy init [] update_blocks finalize_fixed_core (fun _ => (init, [])) None.
  (** [Default::default()], updates, [finalize] *)
  Definition skein_digest (m : mode) (cs : list bytes) : option bytes :=
    let* init := skein_default m in h_digest (skein_core init) m cs.
End Skein.
