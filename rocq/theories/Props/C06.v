(** C06: run-time output sizes.  Spec/Sizes.v lists the sizes and the functions. *)
From Verif Require Import Base.Words Base.Bytes Base.BlockBuffer Base.Digest Spec.Sizes Model.VarSizes.
From Verif Require Proof.VarSizes.

(** A constructor succeeds exactly for the supported sizes, among all natural numbers. *)
Theorem C06_accepted : forall f n, (exists C, rt_new f n = Made C) <-> supported f n.
Proof. exact Proof.VarSizes.rt_iff. Qed.
Print Assumptions C06_accepted.
(** For every other size it reports [InvalidOutputSize]; it never panics. *)
Theorem C06_rejected : forall f n, rt_new f n = InvalidOutputSize <-> ~ supported f n.
Proof. exact Proof.VarSizes.rt_err. Qed.
Print Assumptions C06_rejected.
(** The hasher made for size [n] computes the standard's function for that size. *)
Theorem C06_digest : forall f n C m cs, rt_new f n = Made C -> Forall bytes_ok cs -> in_limit f (length (concat cs)) ->
  h_digest C m cs = Some (function f n (concat cs)).
Proof. exact Proof.VarSizes.rt_digest. Qed.
Print Assumptions C06_digest.
(** That function gives [n] bytes. *)
Theorem C06_length : forall f n msg, supported f n -> length (function f n msg) = n.
Proof. exact Proof.VarSizes.function_length. Qed.
Print Assumptions C06_length.
(** The fixed-size types start from the same constructors: they never panic on construction. *)
Theorem C06_fixed : forall f n, (exists C, ct_new f n = Some C) <-> supported f n.
Proof. exact Proof.VarSizes.ct_iff. Qed.
Print Assumptions C06_fixed.

(** The sizes accepted are not the ones the algorithms define: the crates also accept size 0
    (BLAKE2, Groestl, Kupyna), the long Groestl function for sizes up to 32 and the long Kupyna
    function for size 32, where the documents prescribe the short functions. *)
Theorem C06_standard_sizes_refuted : ~ (forall f n, (exists C, rt_new f n = Made C) -> standard f n).
Proof. exact Proof.VarSizes.standard_sizes_refuted. Qed.
Print Assumptions C06_standard_sizes_refuted.
(** All of the deviations: everything else accepted is standard, and everything standard is accepted. *)
Theorem C06_deviations : forall f n, (exists C, rt_new f n = Made C) <->
  standard f n \/ (n = 0%nat /\ In f [FBlake2b; FBlake2s; FGroestlShort; FGroestlLong; FKupynaShort]) \/
  (f = FGroestlLong /\ (n <= 32)%nat) \/ (f = FKupynaLong /\ n = 32%nat).
Proof. exact Proof.VarSizes.deviations. Qed.
Print Assumptions C06_deviations.

Example accepted_size : exists C, rt_new FKupynaLong 48 = Made C.
Proof. now eexists. Qed.
Example rejected_size : rt_new FKupynaLong 31 = InvalidOutputSize /\ rt_new FSha256 64 = InvalidOutputSize.
Proof. now split. Qed.
Example digest_case : exists C, rt_new FShabal 24 = Made C /\ Forall bytes_ok [[97]; [98; 99]] /\ in_limit FShabal 3.
Proof. eexists. split; [reflexivity|]. split; [repeat constructor|exact I]. Qed.
