(** Model of the hasher wrappers of the external crate digest 0.11.0-pre.10
    ([CoreWrapper] and friends; trusted base, see DESIGN.md), and histories of
    API calls over any number of hasher values. *)
From Verif Require Import Base.Words Base.Bytes Base.BlockBuffer.

(** Serialization of a core ([SerializableState]): size, encoder, decoder. *)
Record codec (S : Type) := mkCodec { cd_len : nat; cd_ser : S -> bytes; cd_deser : bytes -> option S }.
Arguments mkCodec {S}. Arguments cd_len {S}. Arguments cd_ser {S}. Arguments cd_deser {S}.
(** [SerializableState] of [CtVariableCoreWrapper]: the core's bytes and the output size, which must be the right one. *)
Definition sized {S} (n : nat) (cd : codec S) : codec S :=
  mkCodec (cd_len cd + 1) (fun s => cd_ser cd s ++ [N.of_nat n])
    (fun b => if nth (cd_len cd) b 0 =? N.of_nat n then cd_deser cd (firstn (cd_len cd) b) else None).

(** A block-level hasher: what a crate provides ([UpdateCore], [FixedOutputCore],
    [Reset], [SerializableState]).  [None] results are panics.  [c_final]
    also returns the core as finalization leaves it. *)
Record core := mkCore {
  cst : Type;
  c_bs : nat;
  c_kind : kind;
  c_init : cst;
  c_ibuf : bytes;                                   (* initial buffer content *)
  c_update : mode -> cst -> list bytes -> option cst;
  c_final : mode -> cst -> bytes -> option (bytes * cst);
  c_reset : cst -> cst * bytes;
  c_codec : option (codec cst)
}.

(** A hasher value: core and buffered bytes. *)
Definition hst (C : core) : Type := (cst C * bytes)%type.
(** [Default::default()] / [new()] *)
Definition h_new (C : core) : hst C := (c_init C, c_ibuf C).
(** [Update::update] *)
Definition h_update (C : core) (m : mode) (h : hst C) (input : bytes) : option (hst C) :=
  digest_blocks (c_update C m) (c_kind C) (c_bs C) (fst h) (snd h) input.
(** [FixedOutput::finalize_into] (the hasher is consumed) *)
Definition h_finalize (C : core) (m : mode) (h : hst C) : option bytes :=
  let* (out, _) := c_final C m (fst h) (snd h) in Some out.
(** [Reset::reset] *)
Definition h_reset (C : core) (h : hst C) : hst C := c_reset C (fst h).
(** [FixedOutputReset::finalize_into_reset]: finalize, then reset what is left *)
Definition h_finalize_reset (C : core) (m : mode) (h : hst C) : option (bytes * hst C) :=
  let* (out, s) := c_final C m (fst h) (snd h) in Some (out, c_reset C s).
(** [SerializableState] of the wrapper: core bytes, then buffer bytes. [h_restore] tells a panic (outer [None]) from
    [Err] (inner [None]); [h_deserialize] does not. *)
Definition h_serialize (C : core) (cd : codec (cst C)) (h : hst C) : bytes :=
  cd_ser cd (fst h) ++ buf_serialize (c_bs C) (snd h).
Definition h_deserialize (C : core) (cd : codec (cst C)) (b : bytes) : option (hst C) :=
  let* s := cd_deser cd (firstn (cd_len cd) b) in
  let* d := buf_deserialize (c_kind C) (c_bs C) (skipn (cd_len cd) b) in
  Some (s, d).

Definition h_restore (C : core) (cd : codec (cst C)) (b : bytes) : option (option (hst C)) :=
  match cd_deser cd (firstn (cd_len cd) b) with
  | None => Some None
  | Some s => let* d := buf_restore (c_kind C) (c_bs C) (skipn (cd_len cd) b) in Some (option_map (pair s) d)
  end.

(** Feeding a list of chunks. *)
Fixpoint h_updates (C : core) (m : mode) (h : hst C) (chunks : list bytes) : option (hst C) :=
  match chunks with
  | [] => Some h
  | c :: cs => let* h' := h_update C m h c in h_updates C m h' cs
  end.
(** [new]; [update] on each chunk in turn; [finalize]. *)
Definition h_digest (C : core) (m : mode) (chunks : list bytes) : option bytes :=
  let* h := h_updates C m (h_new C) chunks in h_finalize C m h.

(** ** Histories *)
Inductive op :=
| New                          (* a new hasher value *)
| Update (i : nat) (b : bytes) (* feed bytes to value i *)
| Clone (i : nat)              (* a new value, copy of value i *)
| Reset (i : nat)
| FinalizeReset (i : nat)      (* outputs a digest, value i goes on *)
| Finalize (i : nat)           (* outputs a digest, value i is consumed *)
| Save (i : nat)               (* serialize value i into a new blob *)
| Restore (j : nat).           (* a new value from blob j *)

(** Concrete machine.  Values are numbered in order of creation; a consumed
    value is [None].  Operations on missing values are ruled out by Rust's
    ownership rules and do nothing here. *)
Record mstate (C : core) := mkM { m_vals : list (option (hst C)); m_blobs : list bytes }.
Arguments mkM {C}. Arguments m_vals {C}. Arguments m_blobs {C}.
Definition lookup {A} (l : list (option A)) (i : nat) : option A :=
  match nth_error l i with Some (Some a) => Some a | _ => None end.

Definition step (C : core) (m : mode) (st : mstate C) (o : op) : option (mstate C * list bytes) :=
  match o with
  | New => Some (mkM (m_vals st ++ [Some (h_new C)]) (m_blobs st), [])
  | Update i b =>
      match lookup (m_vals st) i with
      | None => Some (st, [])
      | Some h => let* h' := h_update C m h b in
                  Some (mkM (upd (m_vals st) i (Some h')) (m_blobs st), [])
      end
  | Clone i =>
      match lookup (m_vals st) i with
      | None => Some (st, [])
      | Some h => Some (mkM (m_vals st ++ [Some h]) (m_blobs st), [])
      end
  | Reset i =>
      match lookup (m_vals st) i with
      | None => Some (st, [])
      | Some h => Some (mkM (upd (m_vals st) i (Some (h_reset C h))) (m_blobs st), [])
      end
  | FinalizeReset i =>
      match lookup (m_vals st) i with
      | None => Some (st, [])
      | Some h => let* (out, h') := h_finalize_reset C m h in
                  Some (mkM (upd (m_vals st) i (Some h')) (m_blobs st), [out])
      end
  | Finalize i =>
      match lookup (m_vals st) i with
      | None => Some (st, [])
      | Some h => let* out := h_finalize C m h in
                  Some (mkM (upd (m_vals st) i None) (m_blobs st), [out])
      end
  | Save i =>
      match lookup (m_vals st) i, c_codec C with
      | Some h, Some cd => Some (mkM (m_vals st) (m_blobs st ++ [h_serialize C cd h]), [])
      | _, _ => Some (st, [])
      end
  | Restore j =>
      match nth_error (m_blobs st) j, c_codec C with
      | Some b, Some cd => Some (mkM (m_vals st ++ [h_deserialize C cd b]) (m_blobs st), [])
      | _, _ => Some (st, [])
      end
  end.
Fixpoint run (C : core) (m : mode) (st : mstate C) (ops : list op) : option (list bytes) :=
  match ops with
  | [] => Some []
  | o :: os => let* (st', out) := step C m st o in
               let* outs := run C m st' os in Some (out ++ outs)
  end.
Definition run_history (C : core) (m : mode) (ops : list op) : option (list bytes) :=
  run C m (mkM [] []) ops.

(** Abstract machine: a hasher value is just the byte string fed to it since
    its creation or last reset, a blob is such a byte string, and a digest is
    [H] of it. *)
Record astate := mkA { a_vals : list (option bytes); a_blobs : list bytes }.
Definition astep (ser : bool) (H : bytes -> bytes) (st : astate) (o : op) : astate * list bytes :=
  match o with
  | New => (mkA (a_vals st ++ [Some []]) (a_blobs st), [])
  | Update i b =>
      match lookup (a_vals st) i with
      | None => (st, [])
      | Some msg => (mkA (upd (a_vals st) i (Some (msg ++ b))) (a_blobs st), [])
      end
  | Clone i =>
      match lookup (a_vals st) i with
      | None => (st, [])
      | Some msg => (mkA (a_vals st ++ [Some msg]) (a_blobs st), [])
      end
  | Reset i =>
      match lookup (a_vals st) i with
      | None => (st, [])
      | Some _ => (mkA (upd (a_vals st) i (Some [])) (a_blobs st), [])
      end
  | FinalizeReset i =>
      match lookup (a_vals st) i with
      | None => (st, [])
      | Some msg => (mkA (upd (a_vals st) i (Some [])) (a_blobs st), [H msg])
      end
  | Finalize i =>
      match lookup (a_vals st) i with
      | None => (st, [])
      | Some msg => (mkA (upd (a_vals st) i None) (a_blobs st), [H msg])
      end
  | Save i =>
      match lookup (a_vals st) i with
      | Some msg => if ser then (mkA (a_vals st) (a_blobs st ++ [msg]), []) else (st, [])
      | None => (st, [])
      end
  | Restore j =>
      match nth_error (a_blobs st) j with
      | Some msg => if ser then (mkA (a_vals st ++ [Some msg]) (a_blobs st), []) else (st, [])
      | None => (st, [])
      end
  end.
Fixpoint arun (ser : bool) (H : bytes -> bytes) (st : astate) (ops : list op) : list bytes :=
  match ops with
  | [] => []
  | o :: os => let (st', out) := astep ser H st o in out ++ arun ser H st' os
  end.
Definition spec_history (ser : bool) (H : bytes -> bytes) (ops : list op) : list bytes :=
  arun ser H (mkA [] []) ops.

(** Total number of bytes fed in a history, and well-formedness of its bytes. *)
Fixpoint fed (ops : list op) : nat :=
  match ops with
  | [] => 0
  | Update _ b :: os => length b + fed os
  | _ :: os => fed os
  end.
Definition ops_ok (ops : list op) : Prop :=
  Forall (fun o => match o with Update _ b => bytes_ok b | _ => True end) ops.
Definition has_codec (C : core) : bool := match c_codec C with Some _ => true | None => false end.
