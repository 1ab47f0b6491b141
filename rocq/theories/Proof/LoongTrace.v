(** What the LoongArch programs show does not depend on the data. *)
From Verif Require Import Base.Words Base.Bytes Model.Loong Model.LoongLines Model.LoongCpu.

Definition public : list nat := [r_sp; r_a0; r_a1; r_a2; r_a3].
Definition alike (c d : cpu) : Prop := pc c = pc d /\ forall r, In r public -> reg c r = reg d r.

(** Pointers and the counter are changed by addi.d only, from each other. *)
Definition pub (r : nat) : bool := existsb (Nat.eqb r) public.
Definition target (i : instr) : option nat :=
  match i with
  | Ld d _ _ | Revb2h d _ | RevbD d _ | Rotri d _ _ | Srli d _ _ | Xor d _ _ | And d _ _ | Or d _ _ | Andn d _ _ | Orn d _ _
  | Move d _ | Add d _ _ => Some (rn d)
  | St _ _ _ => None
  end.
Definition data_only (a : asm) : bool :=
  match a with
  | Op _ i => match target i with Some r => negb (pub r) | None => true end
  | AddiD d j _ => pub d && pub j
  | Bnez j _ => pub j
  end.
Lemma pub_in r : pub r = true -> In r public.
Proof. intros H. apply existsb_exists in H. destruct H as (x & Hx & E). apply Nat.eqb_eq in E. now subst. Qed.
Lemma in_pub r : In r public -> pub r = true.
Proof. intros H. apply existsb_exists. exists r. split; [exact H|apply Nat.eqb_refl]. Qed.
Lemma base_pub b : In (rb b) public.
Proof. destruct b; cbn; tauto. Qed.

Lemma alike_set c d r v u : alike c d -> pub r = false -> alike (setreg c r v) (setreg d r u).
Proof.
  intros [P R] H. split; cbn [setreg pc reg]; [now rewrite P|]. intros r' Hr.
  destruct (Nat.eqb_spec r' r) as [->|]; [apply in_pub in Hr; congruence|now apply R].
Qed.
Lemma step_alike rd wr prog c d : forallb data_only prog = true -> alike c d ->
  address prog c = address prog d /\
  match step rd wr prog c, step rd wr prog d with Some c', Some d' => alike c' d' | None, None => True | _, _ => False end.
Proof.
  intros F A. pose proof A as [P R]. unfold step, address. rewrite <- P. destruct (nth_error prog (pc c)) as [a|] eqn:E; [|auto].
  apply nth_error_In in E. rewrite forallb_forall in F. specialize (F a E).
  destruct a as [w i|x j imm|j t].
  - destruct i; cbn [data_only target] in F; try apply negb_true_iff in F; cbn [exec64];
      try (split; [reflexivity|now apply alike_set]).
    + rewrite <- (R _ (base_pub b)). split; [reflexivity|]. destruct (allowed _ _ _); [|exact I]. now apply alike_set.
    + rewrite <- (R _ (base_pub b)). split; [reflexivity|]. destruct (allowed _ _ _); [|exact I].
      split; cbn [pc reg]; [now rewrite P|exact R].
  - split; [reflexivity|]. cbn [data_only] in F. apply andb_prop in F. destruct F as [F1 F2]. apply pub_in in F2.
    split; cbn [setreg pc reg]; [now rewrite P|]. intros r Hr. destruct (r =? x)%nat; [now rewrite (R j F2)|now apply R].
  - split; [reflexivity|]. apply pub_in in F. split; cbn [pc reg]; [|exact R]. now rewrite (R j F), P.
Qed.
Lemma observed_alike rd wr prog n : forallb data_only prog = true -> forall c d, alike c d ->
  observed rd wr prog n c = observed rd wr prog n d.
Proof.
  intros F. induction n as [|n IH]; intros c d A; [reflexivity|]. cbn [observed].
  destruct (step_alike rd wr prog c d F A) as [E S]. pose proof A as [P _].
  destruct (step rd wr prog c) as [c'|], (step rd wr prog d) as [d'|]; try contradiction; [|reflexivity].
  rewrite P, E. f_equal. now apply IH.
Qed.
Lemma programs_data_only : forallb (forallb data_only) [prog256; prog512; prog1; prog5] = true.
Proof. vm_compute. reflexivity. Qed.

Lemma constant_time prog rd wr n c d : In prog [prog256; prog512; prog1; prog5] -> pc c = pc d ->
  reg c r_a0 = reg d r_a0 -> reg c r_a1 = reg d r_a1 -> reg c r_a2 = reg d r_a2 -> reg c r_a3 = reg d r_a3 -> reg c r_sp = reg d r_sp ->
  observed rd wr prog n c = observed rd wr prog n d.
Proof.
  intros H P H0 H1 H2 H3 Hs. apply observed_alike.
  - pose proof programs_data_only as F. rewrite forallb_forall in F. exact (F prog H).
  - split; [exact P|]. intros r Hr. cbn in Hr. intuition (subst; assumption).
Qed.
