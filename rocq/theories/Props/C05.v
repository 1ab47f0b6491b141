(** C05: extendable output is one stream, however it is read. *)
From Verif Require Import Base.Words Base.Bytes Base.Digest Base.Xof Model.Hashers Proof.XofReads.

(** For each extendable-output hasher there is a stream for every message; the pieces returned by
    successive reads have the requested lengths and their concatenation is the beginning of the
    stream; beginnings of different lengths agree. *)
Theorem C05_stream : forall m0 x X, params_ok (read_as x []) -> xhasher m0 x = Some X ->
  exists stream : bytes -> nat -> bytes,
    (forall m cs ns, Forall bytes_ok cs -> below (max_bytes (read_as x [])) (length (concat cs)) ->
      exists ps, xof_pieces X m cs ns = Some ps /\ map (@length N) ps = ns /\ concat ps = stream (concat cs) (total ns)) /\
    (forall M n k, bytes_ok M -> below (max_bytes (read_as x [])) (length M) ->
      length (stream M n) = n /\ firstn n (stream M (n + k)%nat) = stream M n).
Proof. exact xalg_stream. Qed.
Print Assumptions C05_stream.
(** Two ways of reading the same amount, after two ways of feeding the same message. *)
Theorem C05_reads : forall m0 x X m cs cs' ns ns', params_ok (read_as x []) -> xhasher m0 x = Some X ->
  Forall bytes_ok cs -> Forall bytes_ok cs' -> concat cs = concat cs' -> total ns = total ns' ->
  below (max_bytes (read_as x [])) (length (concat cs)) ->
  exists ps ps', xof_pieces X m cs ns = Some ps /\ xof_pieces X m cs' ns' = Some ps' /\ concat ps = concat ps'.
Proof. exact xalg_reads. Qed.
Print Assumptions C05_reads.

Example C05_hyps : (if xhasher Checked (XCShake128 [75; 77] [1]) then True else False) /\ params_ok (read_as (XCShake128 [75; 77] [1]) []) /\
  below (max_bytes (read_as (XCShake128 [75; 77] [1]) [])) 3.
Proof. split; [vm_compute; exact I|]. repeat split; repeat constructor. Qed.
Example C05_case : exists X ps, xhasher Checked XAsconXof128 = Some X /\ xof_pieces X Checked [[1; 2]; [3]] [3; 0; 9]%nat = Some ps /\
  option_map (@concat N) (xof_pieces X Checked [[1; 2; 3]] [12%nat]) = Some (concat ps) /\ map (@length N) ps = [3; 0; 9]%nat.
Proof. eexists. eexists. split; [reflexivity|]. split; [vm_compute; reflexivity|]. split; vm_compute; reflexivity. Qed.
