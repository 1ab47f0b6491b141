(** Extendable-output hashers: model of [XofReaderCoreWrapper] (external crate
    digest 0.11.0-pre.10) over the read buffer of block-buffer 0.11.0-rc.4, both
    part of the trusted base (DESIGN.md). *)
From Verif Require Import Base.Words Base.Bytes Base.BlockBuffer Base.Digest.

Section Reader.
  Context {R : Type} (read_block : R -> bytes * R) (bs : nat).

  (** A reader value: the reader core and the bytes of the last generated block
      that have not been handed out ([buffer[pos..]]). *)
  Definition rdr : Type := (R * bytes)%type.
  Definition rd_new (r : R) : rdr := (r, []).

  (** [k] calls of [read_block]. *)
  Fixpoint gen_blocks (k : nat) (r : R) : bytes * R :=
    match k with
    | O => ([], r)
    | S k => let '(b, r1) := read_block r in
             let '(bs, r2) := gen_blocks k r1 in (b ++ bs, r2)
    end.
  (** [ReadBuffer::read] into an output slice of [n] bytes: first what is left in
      the buffer, then whole blocks straight into the output, then the head of
      one more block whose tail stays in the buffer. *)
  Definition rd_read (s : rdr) (n : nat) : bytes * rdr :=
    let '(r, held) := s in
    if (n <? length held)%nat then (firstn n held, (r, skipn n held))
    else
      let n1 := (n - length held)%nat in
      let '(out, r1) := gen_blocks (n1 / bs) r in
      let t := (n1 mod bs)%nat in
      if (t =? 0)%nat then (held ++ out, (r1, []))
      else let '(b, r2) := read_block r1 in (held ++ out ++ firstn t b, (r2, skipn t b)).
  (** A sequence of reads. *)
  Fixpoint rd_reads (s : rdr) (ns : list nat) : list bytes * rdr :=
    match ns with
    | [] => ([], s)
    | n :: ns => let '(o, s1) := rd_read s n in
                 let '(os, s2) := rd_reads s1 ns in (o :: os, s2)
    end.
End Reader.

(** An extendable-output core ([UpdateCore], [ExtendableOutputCore], [Reset])
    and its reader core ([XofReaderCore]). *)
Record xof := mkXof {
  xst : Type;
  xrd : Type;
  x_bs : nat;
  x_kind : kind;
  x_init : xst;
  x_ibuf : bytes;
  x_update : mode -> xst -> list bytes -> option xst;
  x_final : mode -> xst -> bytes -> option (xrd * xst);
  x_reset : xst -> xst * bytes;
  x_codec : option (codec xst);
  x_rbs : nat;                        (* block size of the reader *)
  x_read : xrd -> bytes * xrd
}.

(** The hasher that finalizes into a reader and reads successively
    [ns] bytes ([finalize_xof] followed by calls of [read]); the pieces are
    output concatenated. *)
Definition xof_core (X : xof) (ns : list nat) : core :=
  mkCore (xst X) (x_bs X) (x_kind X) (x_init X) (x_ibuf X) (x_update X)
    (fun m s buf => let* (r, s') := x_final X m s buf in
                    Some (concat (fst (rd_reads (x_read X) (x_rbs X) (rd_new r) ns)), s'))
    (x_reset X) (x_codec X).
Definition total (ns : list nat) : nat := fold_right Nat.add 0%nat ns.
