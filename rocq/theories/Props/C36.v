(** C36: the ascon-hash crate computes Ascon-Hash256 and Ascon-XOF128 (Spec/Ascon.v, S-box by table and
    initial state computed by the permutation) on every message cut into any pieces, whatever the
    sequence of reads; the hard-coded initial states are the permuted initial values. *)
From Verif Require Import Base.Words Base.Bytes Base.Digest Base.DigestFacts Base.Xof Model.Ascon Proof.Ascon.
From Verif Require Spec.Ascon.

Theorem C36_initial_states : Parameters = Spec.Ascon.p12 (0x0000080100cc0002, 0, 0, 0, 0) /\
  ParametersXof = Spec.Ascon.p12 (0x0000080000cc0003, 0, 0, 0, 0).
Proof. exact (conj (eq_sym iv_hash) (eq_sym iv_xof)). Qed.
Print Assumptions C36_initial_states.

Theorem C36_hash256 : forall m cs, Forall bytes_ok cs -> h_digest AsconHash256 m cs = Some (Spec.Ascon.Hash256 (concat cs)).
Proof. exact (fun m cs B => digest_spec _ _ _ _ AsconHash256_ok m cs B I). Qed.
Print Assumptions C36_hash256.

Theorem C36_xof128 : forall ns m cs, Forall bytes_ok cs ->
  h_digest (xof_core AsconXof128 ns) m cs = Some (Spec.Ascon.XOF128 (concat cs) (total ns)).
Proof. exact (fun ns m cs B => digest_spec _ _ _ _ (AsconXof128_ok ns) m cs B I). Qed.
Print Assumptions C36_xof128.

(** Non-vacuity and known answers (tests/data/asconhash.txt count 3, asconxof.txt count 3). *)
Example C36_hyps : Forall bytes_ok [[0]; []; [1]].
Proof. repeat constructor. Qed.
Example C36_kat_hash : option_map be_val (h_digest AsconHash256 Checked [[0]; [1]])
  = Some 0x6115E7C9C4081C2797FC8FE1BC57A836AFA1C5381E556DD583860CA2DFB48DD2.
Proof. vm_compute. reflexivity. Qed.
Example C36_kat_xof : option_map be_val (h_digest (xof_core AsconXof128 [3; 29]%nat) Checked [[0]; [1]])
  = Some 0xA05383077AF971D3830BD37E7B981497A773D441DB077C6494CC73125953846E.
Proof. vm_compute. reflexivity. Qed.
