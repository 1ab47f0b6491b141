(** C02: in any history of calls on any number of hasher values, every digest is the hash of the
    bytes given to that value since its creation or last reset (Base/Digest.v, [spec_history]). *)
From Verif Require Import Base.Words Base.Bytes Base.Digest Base.HistoryFacts Model.Hashers Proof.Hashers.

(** There is one function [H], the one computed by hashing in one go (in whatever pieces), such that
    every history in which each value stays within the length limit outputs what it says. *)
Theorem C02_histories : forall m0 a C, params_ok a -> hasher m0 a = Some C ->
  exists H : bytes -> bytes, forall m,
    (forall cs, Forall bytes_ok cs -> slices a cs -> below (max_bytes a) (length (concat cs)) ->
       h_digest C m cs = Some (H (concat cs))) /\
    (forall ops, ops_ok ops -> op_slices a ops -> kept (has_codec C) (below (max_bytes a)) (mkA [] []) ops ->
       run_history C m ops = Some (spec_history (has_codec C) H ops)).
Proof. exact alg_hash. Qed.
Print Assumptions C02_histories.
(** After any updates, also beyond the limit, [reset] gives a new hasher. *)
Theorem C02_reset : forall m0 a C m cs h, params_ok a -> hasher m0 a = Some C ->
  Forall bytes_ok cs -> slices a cs -> h_updates C m (h_new C) cs = Some h -> h_reset C h = h_new C.
Proof. exact (fun m0 a C m cs h PO HC => alg_reset m0 a C PO HC m cs h). Qed.
Print Assumptions C02_reset.

(** A history with several values that meets the conditions. *)
Example C02_hyps : let ops := [New; Update 0 [1; 2]; Clone 0; Update 1 (repeat 5 70); Save 1; Reset 1; Restore 0;
    FinalizeReset 2; Update 2 [9]; Finalize 2; Finalize 0; New; Update 0 [1]] in
  params_ok Sha512 /\ hasher Checked Sha512 <> None /\ ops_ok ops /\ op_slices Sha512 ops /\
  kept true (below (max_bytes Sha512)) (mkA [] []) ops.
Proof.
  split; [exact I|]. split; [discriminate|]. split; [repeat constructor; cbv; reflexivity|].
  repeat split; repeat constructor; vm_compute; reflexivity.
Qed.
(** What the abstract machine says about it, with the identity for the hash. *)
Example C02_spec : spec_history true (fun msg => msg)
  [New; Update 0 [1; 2]; Clone 0; Update 1 [3]; Save 1; Reset 1; Restore 0; Update 0 [4]; FinalizeReset 2; Update 2 [9];
   Finalize 2; Finalize 0; Finalize 1; Finalize 1] = [[1; 2; 3]; [9]; [1; 2; 4]; []].
Proof. reflexivity. Qed.
