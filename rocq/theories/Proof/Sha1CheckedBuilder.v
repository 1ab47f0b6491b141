(** The builder keeps the last value of each option. *)
From Verif Require Import Base.Words Base.Bytes Base.Digest Base.DigestFacts
  Model.Sha1CheckedTables Model.Sha1Checked Model.Sha1CheckedBuilder Proof.Sha1Checked Spec.Options.
From Verif Require Spec.SHA1 Spec.SHA1C Proof.Sha1CheckedProps.

Lemma in_force_snoc l o x p : in_force (l ++ [(o, x)]) p = if opt_eqb o p then x else in_force l p.
Proof. unfold in_force. rewrite rev_app_distr. cbn. now destruct (opt_eqb o p). Qed.
Lemma configured l : let b := configure l in
  b_detect b = in_force l DetectCollision /\ b_safe b = in_force l SafeHash /\
  b_ubc b = in_force l UseUbc /\ b_reduced b = in_force l ReducedRoundCollision.
Proof.
  cbv zeta. induction l as [|[o x] l IH] using rev_ind; [repeat split|].
  unfold configure in *. rewrite fold_left_app. cbn [fold_left]. rewrite !in_force_snoc.
  set (b := fold_left set_option l builder) in *. destruct IH as (A & B & C & D).
  destruct o; cbn; repeat split; assumption.
Qed.
Lemma outcome l m cs : Forall bytes_ok cs -> 8 * N.of_nat (length (concat cs)) < 2 ^ 64 ->
  let msg := concat cs in
  let filter W i := if in_force l UseUbc then N.testbit (ubc_check W) (N.of_nat i) else true in
  let hit := Spec.SHA1C.hit filter (in_force l ReducedRoundCollision) in
  let detected := in_force l DetectCollision = true /\ Spec.SHA1C.reported hit msg in
  exists r, try_digest (configure l) m cs = Some r /\ h_digest (Sha1Checked (configure l)) m cs = Some (r_hash r) /\
  match r with
  | ROk d => ~ detected /\ d = Spec.SHA1.SHA1 msg
  | RCollision d => detected /\ in_force l SafeHash = false /\ d = Spec.SHA1.SHA1 msg
  | RMitigated d => detected /\ in_force l SafeHash = true /\
      exists v, Spec.SHA1C.safe_chain hit Spec.SHA1.iv (chunks 64 (Spec.SHA1.pad msg)) v /\ d = Spec.SHA1.output v
  end.
Proof.
  intros B W msg filter hit detected.
  destruct (Proof.Sha1CheckedProps.outcome (configure l) m cs B W) as (r & T & D & R).
  exists r. refine (conj T (conj D _)). clear T D. unfold Proof.Sha1CheckedProps.unavoidable in R.
  destruct (configured l) as (E1 & E2 & E3 & E4). rewrite E1, E2, E3, E4 in R. fold msg filter hit in R.
  destruct r as [d|d|d]; unfold detected.
  - destruct R as [R1 R2]. split; [|exact R1]. intros [A1 A2]. exact (R2 A1 A2).
  - destruct R as (R1 & R2 & R3 & R4). auto.
  - destruct R as (R1 & R2 & R3 & R4). auto.
Qed.
