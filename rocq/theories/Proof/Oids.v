(** The identifiers of the hashers against the registered ones. *)
From Coq Require Import List NArith.
From Verif Require Import Spec.Oids Model.Oids.
Import ListNotations.
Open Scope N_scope.

Lemma registered_inj a b : registered a = registered b -> a = b.
Proof. destruct a, b; vm_compute; intros H; first [reflexivity|discriminate H]. Qed.
Lemma oid_registered t : t <> TShake256 -> oid t = Some (registered (implements t)).
Proof. destruct t; intros H; first [reflexivity|now contradiction H]. Qed.
Lemma oid_well_formed t : exists l, oid t = Some l.
Proof. destruct t; eexists; reflexivity. Qed.
Lemma shake256_wrong : oid TShake256 = Some (registered SHAKE_128) /\ oid TShake256 <> Some (registered SHAKE_256).
Proof. split; [reflexivity|]. vm_compute. discriminate. Qed.
Lemma distinct_refuted : ~ (forall t u, oid t = oid u -> implements t = implements u).
Proof. intros H. discriminate (H TShake128 TShake256 eq_refl). Qed.
Lemma only_clash t u : oid t = oid u -> implements t <> implements u ->
  (t = TShake128 /\ u = TShake256) \/ (t = TShake256 /\ u = TShake128).
Proof.
  intros E D.
  assert (X : forall v, v <> TShake256 -> oid v = oid TShake256 -> v = TShake128).
  { intros v Hv Ev. rewrite oid_registered in Ev by exact Hv. rewrite (proj1 shake256_wrong) in Ev.
    injection Ev as Ev. apply (registered_inj _ SHAKE_128) in Ev. destruct v; cbn in Ev; first [reflexivity|discriminate Ev]. }
  assert (C : forall v, {v = TShake256} + {v <> TShake256}) by (intros v; destruct v; ((left; reflexivity) || (right; discriminate))).
  destruct (C t) as [->|Ht], (C u) as [->|Hu].
  - now contradiction D.
  - right. split; [reflexivity|]. now apply X.
  - left. split; [|reflexivity]. now apply X.
  - contradiction D. rewrite !oid_registered in E by assumption. injection E as E. now apply registered_inj.
Qed.
