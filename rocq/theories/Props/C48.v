(** C48: object identifiers.  [oid t] reads the string in the source of the
    hasher [t]; [implements t] is the algorithm [t] computes; Spec/Oids.v has the registered values. *)
From Coq Require Import List NArith.
From Verif Require Import Spec.Oids Model.Oids.
From Verif Require Proof.Oids.

(** The property is false: two different algorithms carry the same identifier. *)
Theorem C48_distinct_refuted : ~ (forall t u, oid t = oid u -> implements t = implements u).
Proof. exact Proof.Oids.distinct_refuted. Qed.
Print Assumptions C48_distinct_refuted.
(** The culprit is Shake256, which carries the identifier registered for SHAKE128. *)
Theorem C48_shake256_wrong :
  oid TShake256 = Some (registered SHAKE_128) /\ oid TShake256 <> Some (registered SHAKE_256).
Proof. exact Proof.Oids.shake256_wrong. Qed.
Print Assumptions C48_shake256_wrong.
(** It is the only clash. *)
Theorem C48_only_clash : forall t u, oid t = oid u -> implements t <> implements u ->
  (t = TShake128 /\ u = TShake256) \/ (t = TShake256 /\ u = TShake128).
Proof. exact Proof.Oids.only_clash. Qed.
Print Assumptions C48_only_clash.
(** Every other hasher carries the identifier registered for its algorithm. *)
Theorem C48_registered : forall t, t <> TShake256 -> oid t = Some (registered (implements t)).
Proof. exact Proof.Oids.oid_registered. Qed.
Print Assumptions C48_registered.
(** The registered identifiers themselves are distinct. *)
Theorem C48_registry_distinct : forall a b, registered a = registered b -> a = b.
Proof. exact Proof.Oids.registered_inj. Qed.
Print Assumptions C48_registry_distinct.

Example C48_other : TSha512_256 <> TShake256 /\ oid TSha512_256 = Some (2 :: 16 :: 840 :: 1 :: 101 :: 3 :: 4 :: 2 :: 6 :: nil)%N.
Proof. split; [discriminate|reflexivity]. Qed.
Example C48_clash_hyps : oid TShake128 = oid TShake256 /\ implements TShake128 <> implements TShake256.
Proof. split; [reflexivity|discriminate]. Qed.
