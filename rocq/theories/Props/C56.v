(** C56: algorithm names.  [alg_name t] is what the hasher type [t] writes as its name; sizes are
    output sizes in bytes. *)
From Coq Require Import String.
From Verif Require Import Model.Names.
From Verif Require Proof.Names.

(** The property is false: the three Skein hashers do not write their output size. *)
Theorem C56_unique_refuted : ~ (forall t u, alg_name t = alg_name u -> t = u).
Proof. exact Proof.Names.names_refuted. Qed.
Print Assumptions C56_unique_refuted.
(** These are the only clashes, for all sizes: types with the same name are equal or
    instances of one Skein variant with different sizes. *)
Theorem C56_only_skein : forall t u, alg_name t = alg_name u ->
  t = u \/ exists s n m, t = Skein s n /\ u = Skein s m /\ n <> m.
Proof. exact Proof.Names.names_unique. Qed.
Print Assumptions C56_only_skein.
(** What [Debug] prints for a Skein core does tell the sizes apart. *)
Theorem C56_skein_debug : forall s r n m, skein_debug s n = skein_debug r m -> s = r /\ n = m.
Proof. exact Proof.Names.skein_debug_unique. Qed.
Print Assumptions C56_skein_debug.

Example C56_clash : alg_name (Skein Skein512 32) = alg_name (Skein Skein512 64).
Proof. reflexivity. Qed.
Example C56_name : alg_name (CtVariable VSha512 28) = "Sha512_28"%string /\ skein_debug Skein256 16 = "Skein256Core<16> { .. }"%string.
Proof. split; reflexivity. Qed.
