(** C07: within the length limit nothing panics, with or without overflow checks. *)
From Verif Require Import Base.Words Base.Bytes Base.Digest Base.Xof Base.HistoryFacts Model.Hashers Proof.Hashers Proof.XofReads.

(** Constructors panic (or return an error) exactly for parameters outside [accepted]. *)
Theorem C07_new : forall m a, params_ok a -> (exists C, hasher m a = Some C) <-> accepted a.
Proof. exact alg_new. Qed.
Print Assumptions C07_new.
(** No history of calls panics as long as each value stays within the limit. *)
Theorem C07_histories : forall m0 a C m ops, params_ok a -> hasher m0 a = Some C ->
  ops_ok ops -> op_slices a ops -> kept (has_codec C) (below (max_bytes a)) (mkA [] []) ops ->
  exists outs, run_history C m ops = Some outs.
Proof. exact alg_no_panic. Qed.
Print Assumptions C07_histories.
Theorem C07_digest : forall m0 a C m cs, params_ok a -> hasher m0 a = Some C ->
  Forall bytes_ok cs -> slices a cs -> below (max_bytes a) (length (concat cs)) ->
  exists d, h_digest C m cs = Some d.
Proof. exact alg_total. Qed.
Print Assumptions C07_digest.
(** The two builds agree. *)
Theorem C07_modes : forall m0 a C cs, params_ok a -> hasher m0 a = Some C ->
  Forall bytes_ok cs -> slices a cs -> below (max_bytes a) (length (concat cs)) ->
  h_digest C Checked cs = h_digest C Wrapping cs.
Proof. exact alg_modes. Qed.
Print Assumptions C07_modes.

(** The conditions allow messages just below the limit. *)
Example C07_limits : map max_bytes [Sha256; Sha512; Md5; Blake2b [] [] 64; Whirlpool; Streebog512; Jh256]
  = [Some (2 ^ 61); Some (2 ^ 125); None; Some (2 ^ 64); Some (2 ^ 253); Some (2 ^ 445); Some (2 ^ 61)].
Proof. reflexivity. Qed.
Example C07_hyps : let ops := [New; Update 0 (repeat 1 100); Clone 0; FinalizeReset 0; Finalize 1] in
  params_ok (Blake2s [1] [2] 20) /\ accepted (Blake2s [1] [2] 20) /\ ops_ok ops /\ op_slices (Blake2s [1] [2] 20) ops /\
  kept false (below (max_bytes (Blake2s [1] [2] 20))) (mkA [] []) ops.
Proof. vm_compute. repeat (split || constructor || discriminate). Qed.
