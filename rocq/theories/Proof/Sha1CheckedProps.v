(** Statements about sha1-checked in the form the properties use. *)
From Verif Require Import Base.Words Base.Bytes Base.Digest Base.DigestFacts
  Model.Sha1CheckedTables Model.Sha1Checked Proof.Sha1Checked.
From Verif Require Spec.SHA1 Spec.SHA1C.

Definition unavoidable (b : Builder) (W : list N) (i : nat) : bool :=
  if b_ubc b then N.testbit (ubc_check W) (N.of_nat i) else true.

Lemma outcome b m cs : Forall bytes_ok cs -> 8 * N.of_nat (length (concat cs)) < 2 ^ 64 ->
  let msg := concat cs in
  let reported := Spec.SHA1C.reported (Spec.SHA1C.hit (unavoidable b) (b_reduced b)) msg in
  exists r, try_digest b m cs = Some r /\ h_digest (Sha1Checked b) m cs = Some (r_hash r) /\
  match r with
  | ROk d => d = Spec.SHA1.SHA1 msg /\ (b_detect b = true -> ~ reported)
  | RCollision d => d = Spec.SHA1.SHA1 msg /\ b_detect b = true /\ b_safe b = false /\ reported
  | RMitigated d => b_detect b = true /\ b_safe b = true /\ reported /\
      exists v, Spec.SHA1C.safe_chain (Spec.SHA1C.hit (unavoidable b) (b_reduced b)) Spec.SHA1.iv
                  (chunks 64 (Spec.SHA1.pad msg)) v /\ d = Spec.SHA1.output v
  end.
Proof.
  intros B W msg reported. exists (result b msg). refine (conj (try_digest_spec b m cs B W) (conj _ _)).
  - rewrite r_hash_result. exact (digest_spec _ _ _ _ (Sha1Checked_ok b) m cs B W).
  - exact (result_spec b msg (proj2 (bytes_ok_concat cs) B)).
Qed.
Lemma plain b m cs : Forall bytes_ok cs -> 8 * N.of_nat (length (concat cs)) < 2 ^ 64 ->
  b_detect b = false \/ b_safe b = false ->
  h_digest (Sha1Checked b) m cs = Some (Spec.SHA1.SHA1 (concat cs)).
Proof.
  intros B W D. destruct (outcome b m cs B W) as (r & _ & E & R). rewrite E. f_equal.
  destruct r as [d|d|d]; cbn [r_hash].
  - exact (proj1 R).
  - destruct R as (R1 & R2 & _). destruct D as [D|D]; [rewrite D in R1; discriminate R1|rewrite D in R2; discriminate R2].
  - exact (proj1 R).
Qed.

Lemma dv_listed i : (i < 32)%nat -> exists ty k s, In (ty, k, s) Spec.SHA1C.dvs /\
  snd (Spec.SHA1C.dv_of i) = Spec.SHA1C.dv_diff ty k (N.of_nat s) /\ fst (Spec.SHA1C.dv_of i) = Spec.SHA1C.meet k.
Proof.
  intros H. unfold Spec.SHA1C.dv_of.
  pose proof (nth_In Spec.SHA1C.dvs (Spec.SHA1C.I, 0%nat, 0%nat) H) as I.
  destruct (nth i Spec.SHA1C.dvs (Spec.SHA1C.I, 0%nat, 0%nat)) as [[ty k] s]. exists ty, k, s. auto.
Qed.
Lemma partner_of_report b m cs r : Forall bytes_ok cs -> 8 * N.of_nat (length (concat cs)) < 2 ^ 64 ->
  b_reduced b = false -> try_digest b m cs = Some r -> has_collision r = true ->
  exists pre block post ty k s H2 block2,
    chunks 64 (Spec.SHA1.pad (concat cs)) = pre ++ block :: post /\
    In (ty, k, s) Spec.SHA1C.dvs /\
    length block2 = 64%nat /\ bytes_ok block2 /\ block2 <> block /\ Spec.SHA1C.vars_ok H2 /\
    Spec.SHA1.schedule (Spec.SHA1C.words_of block2)
      = xor_bytes (Spec.SHA1.schedule (Spec.SHA1C.words_of block)) (Spec.SHA1C.dv_diff ty k (N.of_nat s)) /\
    Spec.SHA1.compress H2 block2
      = Spec.SHA1.compress (fold_left Spec.SHA1.compress pre Spec.SHA1.iv) block.
Proof.
  intros B W Er E Hc. destruct (outcome b m cs B W) as (r' & E' & _ & R). rewrite E in E'. injection E' as <-.
  assert (Rep : Spec.SHA1C.reported (Spec.SHA1C.hit (unavoidable b) (b_reduced b)) (concat cs)).
  { destruct r as [d|d|d]; [discriminate Hc| |]; apply R. }
  clear R. destruct Rep as (pre & block & post & Ec & i & Hi & _ & H2 & block2 & Hp & X).
  rewrite Er in X. destruct X as [X|[X _]]; [|discriminate X].
  destruct (pad_blocks_good (concat cs) (proj2 (bytes_ok_concat cs) B)) as [L O]. rewrite Ec in L, O.
  apply Forall_app in L as [_ L]. apply Forall_app in O as [_ O]. inversion L; subst. inversion O; subst.
  pose proof (partner_differs i _ block H2 block2 Hi ltac:(assumption) ltac:(assumption) Hp) as Hd.
  destruct Hp as (P1 & P2 & P3 & P4 & _). destruct (dv_listed i Hi) as (ty & k & s & I & D & _).
  rewrite D in P4. exists pre, block, post, ty, k, s, H2, block2. auto 10.
Qed.
Lemma exact_report b m cs r : Forall bytes_ok cs -> 8 * N.of_nat (length (concat cs)) < 2 ^ 64 ->
  b_detect b = true -> try_digest b m cs = Some r ->
  has_collision r = true <->
  exists pre block post i H2 block2,
    chunks 64 (Spec.SHA1.pad (concat cs)) = pre ++ block :: post /\ (i < 32)%nat /\
    let H := fold_left Spec.SHA1.compress pre Spec.SHA1.iv in
    let W := Spec.SHA1.schedule (Spec.SHA1C.words_of block) in
    (b_ubc b = true -> N.testbit (ubc_check W) (N.of_nat i) = true) /\
    Spec.SHA1C.partner (Spec.SHA1C.dv_of i) H block H2 block2 /\
    (Spec.SHA1.compress H2 block2 = Spec.SHA1.compress H block \/ (b_reduced b = true /\ H2 = H)).
Proof.
  intros B W D E. destruct (outcome b m cs B W) as (r' & E' & _ & R). rewrite E in E'. injection E' as <-.
  assert (Rep : has_collision r = true <-> Spec.SHA1C.reported (Spec.SHA1C.hit (unavoidable b) (b_reduced b)) (concat cs)).
  { destruct r as [d|d|d]; cbn [has_collision]; split; intros X; try reflexivity; try discriminate; try apply R.
    exfalso. exact (proj2 R D X). }
  rewrite Rep. clear. unfold Spec.SHA1C.reported, Spec.SHA1C.hit, unavoidable. split.
  - intros (pre & block & post & Ec & i & Hi & Hf & H2 & block2 & Hp & X).
    exists pre, block, post, i, H2, block2. refine (conj Ec (conj Hi (conj _ (conj Hp X)))).
    intros U. rewrite U in Hf. exact Hf.
  - intros (pre & block & post & i & H2 & block2 & Ec & Hi & Hf & Hp & X).
    exists pre, block, post. split; [exact Ec|]. exists i. split; [exact Hi|]. split.
    + destruct (b_ubc b); [now apply Hf|reflexivity].
    + exists H2, block2. exact (conj Hp X).
Qed.

Lemma histories b : exists H : bytes -> bytes,
  (forall m msg, bytes_ok msg -> 8 * N.of_nat (length msg) < 2 ^ 64 ->
     h_digest (Sha1Checked b) m [msg] = Some (H msg)) /\
  (forall m ops, ops_ok ops -> 8 * N.of_nat (fed ops) < 2 ^ 64 ->
     run_history (Sha1Checked b) m ops = Some (spec_history false H ops)).
Proof.
  exists (digest_of b). split.
  - intros m msg B W. pose proof (digest_spec _ _ _ _ (Sha1Checked_ok b) m [msg]) as D.
    cbn [concat] in D. rewrite app_nil_r in D. apply D; [now repeat constructor|exact W].
  - intros m ops O W. exact (history_spec _ _ _ _ (Sha1Checked_ok b) m ops O W).
Qed.
