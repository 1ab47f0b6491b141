(** C01: how a message is cut into [update] calls never matters.  [hasher] (Model/Hashers.v) is the
    list of the hashers of the workspace; [m] is the overflow-check mode of the build. *)
From Verif Require Import Base.Words Base.Bytes Base.Digest Model.Hashers Proof.Hashers.

(** Any two ways to cut a message give the same result, a digest or a panic, whatever its length. *)
Theorem C01_cut : forall m a C cs cs', params_ok a -> hasher m a = Some C ->
  Forall bytes_ok cs -> Forall bytes_ok cs' -> slices a cs -> slices a cs' -> concat cs = concat cs' ->
  h_digest C m cs = h_digest C m cs'.
Proof. exact (fun m a C cs cs' PO HC => alg_cut m a C PO HC m cs cs'). Qed.
Print Assumptions C01_cut.
(** In particular a single call gives the same digest, which exists within the length limit. *)
Theorem C01_one_call : forall m a C cs, params_ok a -> hasher m a = Some C ->
  Forall bytes_ok cs -> slices a cs -> slices a [concat cs] -> below (max_bytes a) (length (concat cs)) ->
  exists d, h_digest C m cs = Some d /\ h_digest C m [concat cs] = Some d.
Proof. exact alg_one_call. Qed.
Print Assumptions C01_one_call.

(** The slice condition is void except for Whirlpool (calls below 2^61 bytes) and GOST (2^63). *)
Example C01_slices : forall a, a <> Whirlpool -> (forall Pr, a <> Gost94 Pr) -> forall cs, slices a cs.
Proof. exact slices_void. Qed.
(** A concrete case: a message cut at, before and after block boundaries. *)
Example C01_hyps : let cs := [repeat 7 63; []; repeat 8 2; repeat 9 128] in
  params_ok Whirlpool /\ hasher Checked Whirlpool <> None /\ Forall bytes_ok cs /\ slices Whirlpool cs /\
  slices Whirlpool [concat cs] /\ below (max_bytes Whirlpool) (length (concat cs)).
Proof.
  split; [exact I|]. split; [discriminate|]. split; [repeat constructor; cbv; reflexivity|].
  repeat split; repeat constructor; vm_compute; reflexivity.
Qed.
Example C01_case : exists C d, hasher Checked Sha256 = Some C /\
  h_digest C Checked [repeat 7 63; []; repeat 8 2] = Some d /\ h_digest C Checked [repeat 7 63 ++ repeat 8 2] = Some d.
Proof. eexists. eexists. split; [reflexivity|]. split; vm_compute; reflexivity. Qed.
