(** What the accesses of Model/Pointers.v check. *)
From Verif Require Import Base.Words Base.Bytes Spec.FlatMemory Model.LoongCpu Model.Pointers Proof.LoongCpu.

Lemma allowed_iff rs a n : 0 < n -> allowed rs a n = true <-> exists r, In r rs /\ forall x, a <= x < a + n -> ~ outside r x.
Proof.
  intros P. unfold allowed. rewrite existsb_exists. split.
  - intros (r & I & H). exists r. split; [exact I|]. apply andb_true_iff in H. rewrite !N.leb_le in H.
    intros x X. unfold outside. lia.
  - intros (r & I & H). exists r. split; [exact I|]. apply andb_true_iff. rewrite !N.leb_le.
    pose proof (H a) as H1. pose proof (H (a + n - 1)) as H2. unfold outside in *. lia.
Qed.
Lemma bytes_at_iff m a k b : bytes_at m a k = b <-> length b = k /\ holds m a b.
Proof.
  split.
  - intros <-. assert (L : length (bytes_at m a k) = k) by (unfold bytes_at; now rewrite map_length, seq_length).
    split; [exact L|]. apply holds_bytes_at. now rewrite L.
  - intros [<- H]. now apply bytes_at_holds.
Qed.
Lemma loads rd m a k b : (0 < k)%nat -> ld rd m a k = Some b <->
  (exists r, In r rd /\ forall x, a <= x < a + N.of_nat k -> ~ outside r x) /\ length b = k /\ holds m a b.
Proof.
  intros P. unfold ld. rewrite <- (allowed_iff rd a (N.of_nat k)), <- bytes_at_iff by lia.
  destruct (allowed rd a (N.of_nat k)); split; try (intros [X _]; discriminate X); try discriminate.
  - intros E. injection E as E. now split.
  - intros [_ ->]. reflexivity.
Qed.
Lemma aligned_loads rd m a k b : (0 < k)%nat -> ld_aligned rd m a k = Some b <->
  a mod N.of_nat k = 0 /\ (exists r, In r rd /\ forall x, a <= x < a + N.of_nat k -> ~ outside r x) /\ length b = k /\ holds m a b.
Proof.
  intros P. unfold ld_aligned. rewrite <- loads by exact P. destruct (N.eqb_spec (a mod N.of_nat k) 0) as [E|E].
  - tauto.
  - split; [discriminate|tauto].
Qed.
Lemma word_loads rd m a k b : (0 < k)%nat -> Forall (fun r => 0 < snd r) rd -> ld_word rd m a k = Some b <->
  a mod N.of_nat k = 0 /\ (exists r x, In r rd /\ a <= x < a + N.of_nat k /\ ~ outside r x) /\ length b = k /\ holds m a b.
Proof.
  intros P R. unfold ld_word. rewrite Forall_forall in R.
  assert (X : existsb (fun r => (a <? fst r + snd r) && (fst r <? a + N.of_nat k)) rd = true <->
    exists r x, In r rd /\ a <= x < a + N.of_nat k /\ ~ outside r x).
  { rewrite existsb_exists. split.
    - intros (r & I & H). apply andb_true_iff in H. rewrite !N.ltb_lt in H. exists r, (N.max a (fst r)).
      split; [exact I|]. specialize (R r I). unfold outside. lia.
    - intros (r & x & I & A & O). exists r. split; [exact I|]. apply andb_true_iff. rewrite !N.ltb_lt. unfold outside in O. lia. }
  rewrite <- X, <- bytes_at_iff. destruct (N.eqb_spec (a mod N.of_nat k) 0) as [E|E]; cbn [andb].
  2:{ split; [discriminate|tauto]. }
  destruct (existsb _ rd); split; try discriminate; try (intros (_ & Y & _); discriminate Y).
  - intros F. injection F as F. now split.
  - intros (_ & _ & ->). reflexivity.
Qed.
Lemma stores wr m a l m' : (0 < length l)%nat -> st wr m a l = Some m' ->
  (exists r, In r wr /\ forall x, a <= x < a + N.of_nat (length l) -> ~ outside r x) /\
  holds m' a l /\ unchanged_but [(a, N.of_nat (length l))] m m'.
Proof.
  intros P. unfold st. destruct (allowed wr a (N.of_nat (length l))) eqn:A; [|discriminate]. intros E. injection E as <-.
  apply allowed_iff in A; [|lia]. split; [exact A|]. split.
  - intros i Hi. unfold write. replace (a <=? a + N.of_nat i) with true by (symmetry; apply N.leb_le; lia).
    replace (a + N.of_nat i <? a + N.of_nat (length l)) with true by (symmetry; apply N.ltb_lt; lia).
    cbn [andb]. f_equal. lia.
  - intros x F. apply Forall_inv in F. unfold outside in F. cbn [fst snd] in F. unfold write.
    destruct (N.leb_spec a x), (N.ltb_spec x (a + N.of_nat (length l))); try reflexivity. lia.
Qed.
