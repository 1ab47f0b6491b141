(** Erasing memory: what it means that dropping a value clears what depends on the data. *)
From Verif Require Import Base.Words Base.Bytes Base.BlockBuffer Base.Digest Base.Xof.
From Verif Require Model.Blake2.

(** [fields s] is the content of the fields of the struct, in order, each a list of words. *)
Definition word {S} (fields : S -> list (list N)) (s : S) (i j : nat) : N := nth j (nth i (fields s) []) 0.
(** Two of the values in [P] differ in word [j] of field [i]. *)
Definition depends {S} (P : S -> Prop) (fields : S -> list (list N)) (i j : nat) : Prop :=
  exists s s', P s /\ P s' /\ word fields s i j <> word fields s' i j.
(** Dropping a value of [P] leaves the memory layout, and zero in all words in which values of [P] differ. *)
Definition erases {S} (P : S -> Prop) (fields : S -> list (list N)) (drop : S -> S) : Prop :=
  forall s, P s ->
  map (@length N) (fields (drop s)) = map (@length N) (fields s) /\
  forall i j, depends P fields i j -> word fields (drop s) i j = 0.
(** No part of the value is missing from the fields. *)
Definition complete {S} (fields : S -> list (list N)) : Prop := forall s s', fields s = fields s' -> s = s'.

(** The values a hasher can take.  After a finalization the value is dropped or reset; allowing it to be
    used again only adds values. *)
Inductive reachable (C : core) : hst C -> Prop :=
| at_new : reachable C (h_new C)
| at_update m h b h' : reachable C h -> bytes_ok b -> h_update C m h b = Some h' -> reachable C h'
| at_reset h : reachable C h -> reachable C (h_reset C h)
| at_final m h out s : reachable C h -> c_final C m (fst h) (snd h) = Some (out, s) -> reachable C (s, [])
| at_restore cd b h : c_codec C = Some cd -> bytes_ok b -> h_deserialize C cd b = Some h -> reachable C h.
Definition core_reachable (C : core) (s : cst C) : Prop := exists buf, reachable C (s, buf).
Definition drop_erases (C : core) (fields : cst C -> list (list N)) (drop : cst C -> cst C) : Prop :=
  complete fields /\ erases (core_reachable C) fields drop.

(** The values the reader of an extendable-output hasher can take. *)
Inductive reader_reachable (X : xof) : xrd X -> Prop :=
| at_xof m h r s : reachable (xof_core X []) h -> x_final X m (fst h) (snd h) = Some (r, s) -> reader_reachable X r
| at_read r : reader_reachable X r -> reader_reachable X (snd (x_read X r)).
Definition reader_drop_erases (X : xof) (fields : xrd X -> list (list N)) (drop : xrd X -> xrd X) : Prop :=
  complete fields /\ erases (reader_reachable X) fields drop.

(** The values of a BLAKE2 MAC with output size [nn], for all keys of one length. *)
Inductive mac_reachable (P : Model.Blake2.b2p) (nn klen : nat) (salt persona : bytes) : Model.Blake2.mac -> Prop :=
| mac_new key s : length key = klen -> bytes_ok key ->
    Model.Blake2.new_with_salt_and_personal P nn (Some key) salt persona = Model.Blake2.Ok s -> mac_reachable P nn klen salt persona s
| mac_updated m s b s' : mac_reachable P nn klen salt persona s -> bytes_ok b ->
    Model.Blake2.mac_update P m s b = Some s' -> mac_reachable P nn klen salt persona s'
| mac_finalized m s out s' : mac_reachable P nn klen salt persona s ->
    Model.Blake2.mac_finalize P nn m s = Some (out, s') -> mac_reachable P nn klen salt persona s'
| mac_resetted s s' : mac_reachable P nn klen salt persona s ->
    Model.Blake2.mac_reset P s = Some s' -> mac_reachable P nn klen salt persona s'.
(** The values of a MAC that started as [s0]. *)
Inductive mac_later (P : Model.Blake2.b2p) (nn : nat) (s0 : Model.Blake2.mac) : Model.Blake2.mac -> Prop :=
| later_start : mac_later P nn s0 s0
| later_update m s b s' : mac_later P nn s0 s -> Model.Blake2.mac_update P m s b = Some s' -> mac_later P nn s0 s'
| later_final m s out s' : mac_later P nn s0 s -> Model.Blake2.mac_finalize P nn m s = Some (out, s') -> mac_later P nn s0 s'
| later_reset s s' : mac_later P nn s0 s -> Model.Blake2.mac_reset P s = Some s' -> mac_later P nn s0 s'.
