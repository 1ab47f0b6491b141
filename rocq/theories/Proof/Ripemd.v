(** The ripemd crate computes RIPEMD-128/160/256/320. *)
From Verif Require Import Base.Words Base.Bytes Base.Codec Base.BlockBuffer Base.BlockBufferFacts Base.Digest
  Base.DigestFacts Base.MDFacts Spec.MD Model.Ripemd.
From Verif Require Spec.RIPEMD.
Import Spec.RIPEMD (v4, v5, l4, l5, f, KL, KR, KR128, rL, rR, shifts, step4, step5, left4, right4, left5, right5).

(** Rotating register names: after [n] steps, register k sits at place (k - n). *)
Definition phys4 (n : nat) (v : v4) : list N :=
  let '(A, B, C, D) := v in
  match (n mod 4)%nat with 0%nat => [A; B; C; D] | 1%nat => [B; C; D; A] | 2%nat => [C; D; A; B] | _ => [D; A; B; C] end.
Definition ord4 (n : nat) : list nat :=
  match (n mod 4)%nat with 0%nat => [0; 1; 2; 3]%nat | 1%nat => [3; 0; 1; 2]%nat | 2%nat => [2; 3; 0; 1]%nat | _ => [1; 2; 3; 0]%nat end.
Definition phys5 (n : nat) (v : v5) : list N :=
  let '(A, B, C, D, E) := v in
  match (n mod 5)%nat with
  | 0%nat => [A; B; C; D; E] | 1%nat => [B; C; D; E; A] | 2%nat => [C; D; E; A; B] | 3%nat => [D; E; A; B; C] | _ => [E; A; B; C; D] end.
Definition ord5 (n : nat) : list nat :=
  match (n mod 5)%nat with
  | 0%nat => [0; 1; 2; 3; 4]%nat | 1%nat => [4; 0; 1; 2; 3]%nat | 2%nat => [3; 4; 0; 1; 2]%nat | 3%nat => [2; 3; 4; 0; 1]%nat
  | _ => [1; 2; 3; 4; 0]%nat end.

Lemma mod_S n k : (0 < k)%nat -> (S n mod k = if (S (n mod k) =? k)%nat then 0 else S (n mod k))%nat.
Proof.
  intros H. pose proof (Nat.div_mod n k ltac:(lia)) as E. pose proof (Nat.mod_upper_bound n k ltac:(lia)) as U.
  destruct (Nat.eqb_spec (S (n mod k)) k) as [Q|Q].
  - symmetry. apply (Nat.mod_unique _ _ (S (n / k))); nia.
  - symmetry. apply (Nat.mod_unique _ _ (n / k)); nia.
Qed.
Lemma round4_step w fi k n r s v :
  round4 w fi k (phys4 n v) (ord4 n, r, s) = phys4 (S n) (step4 w fi k r s v).
Proof.
  destruct v as (((A, B), C), D). unfold phys4, ord4. rewrite (mod_S n 4) by lia.
  pose proof (Nat.mod_upper_bound n 4 ltac:(lia)) as U.
  destruct (n mod 4)%nat as [|[|[|[|i]]]]; [reflexivity..|lia].
Qed.
Lemma round5_step w fi k n r s v :
  round5 w fi k (phys5 n v) (ord5 n, r, s) = phys5 (S n) (step5 w fi k r s v).
Proof.
  destruct v as ((((A, B), C), D), E). unfold phys5, ord5. rewrite (mod_S n 5) by lia.
  pose proof (Nat.mod_upper_bound n 5 ltac:(lia)) as U.
  destruct (n mod 5)%nat as [|[|[|[|[|i]]]]]; [reflexivity..|lia].
Qed.

(** Sixteen lines of one round. *)
Definition lines4 (R : nat -> nat -> nat) (r : nat) : list line :=
  map (fun t => (ord4 t, R r (t mod 16)%nat, shifts r (R r (t mod 16)%nat))) (seq (16 * r) 16).
Definition lines5 (R : nat -> nat -> nat) (r : nat) : list line :=
  map (fun t => (ord5 t, R r (t mod 16)%nat, shifts r (R r (t mod 16)%nat))) (seq (16 * r) 16).
Lemma in_round t r : In t (seq (16 * r) 16) -> (t / 16)%nat = r.
Proof. intros H. apply in_seq in H. symmetry. apply (Nat.div_unique _ _ _ (t - 16 * r)); lia. Qed.

Lemma run4 w fi k (g : v4 -> nat -> v4) (idx : nat -> nat) (sh : nat -> N) : forall ts n v,
  (forall v t, In t ts -> g v t = step4 w fi k (idx t) (sh t) v) -> ts = seq n (length ts) ->
  fold_left (round4 w fi k) (map (fun t => (ord4 t, idx t, sh t)) ts) (phys4 n v) = phys4 (n + length ts) (fold_left g ts v).
Proof.
  induction ts as [|t ts IH]; intros n v Hg E; cbn [map fold_left length].
  - now rewrite Nat.add_0_r.
  - cbn [length seq] in E. injection E as -> E. rewrite round4_step. rewrite <- Hg by now left.
    rewrite IH; [f_equal; lia|intros; apply Hg; now right|exact E].
Qed.
Lemma run5 w fi k (g : v5 -> nat -> v5) (idx : nat -> nat) (sh : nat -> N) : forall ts n v,
  (forall v t, In t ts -> g v t = step5 w fi k (idx t) (sh t) v) -> ts = seq n (length ts) ->
  fold_left (round5 w fi k) (map (fun t => (ord5 t, idx t, sh t)) ts) (phys5 n v) = phys5 (n + length ts) (fold_left g ts v).
Proof.
  induction ts as [|t ts IH]; intros n v Hg E; cbn [map fold_left length].
  - now rewrite Nat.add_0_r.
  - cbn [length seq] in E. injection E as -> E. rewrite round5_step. rewrite <- Hg by now left.
    rewrite IH; [f_equal; lia|intros; apply Hg; now right|exact E].
Qed.

Lemma left4_round w r v : fold_left (round4 w (f r) (KL r)) (lines4 rL r) (phys4 (16 * r) v)
  = phys4 (16 * S r) (fold_left (left4 w) (seq (16 * r) 16) v).
Proof.
  unfold lines4. rewrite (run4 w (f r) (KL r) (left4 w) (fun t => rL r (t mod 16)) (fun t => shifts r (rL r (t mod 16)))).
  - rewrite seq_length. f_equal. lia.
  - intros u t Ht. unfold left4. now rewrite (in_round t r Ht).
  - now rewrite seq_length.
Qed.
Lemma right4_round w r v : fold_left (round4 w (f (3 - r)) (KR128 r)) (lines4 rR r) (phys4 (16 * r) v)
  = phys4 (16 * S r) (fold_left (right4 w) (seq (16 * r) 16) v).
Proof.
  unfold lines4. rewrite (run4 w (f (3 - r)) (KR128 r) (right4 w) (fun t => rR r (t mod 16)) (fun t => shifts r (rR r (t mod 16)))).
  - rewrite seq_length. f_equal. lia.
  - intros u t Ht. unfold right4. now rewrite (in_round t r Ht).
  - now rewrite seq_length.
Qed.
Lemma left5_round w r v : fold_left (round5 w (f r) (KL r)) (lines5 rL r) (phys5 (16 * r) v)
  = phys5 (16 * S r) (fold_left (left5 w) (seq (16 * r) 16) v).
Proof.
  unfold lines5. rewrite (run5 w (f r) (KL r) (left5 w) (fun t => rL r (t mod 16)) (fun t => shifts r (rL r (t mod 16)))).
  - rewrite seq_length. f_equal. lia.
  - intros u t Ht. unfold left5. now rewrite (in_round t r Ht).
  - now rewrite seq_length.
Qed.
Lemma right5_round w r v : fold_left (round5 w (f (4 - r)) (KR r)) (lines5 rR r) (phys5 (16 * r) v)
  = phys5 (16 * S r) (fold_left (right5 w) (seq (16 * r) 16) v).
Proof.
  unfold lines5. rewrite (run5 w (f (4 - r)) (KR r) (right5 w) (fun t => rR r (t mod 16)) (fun t => shifts r (rR r (t mod 16)))).
  - rewrite seq_length. f_equal. lia.
  - intros u t Ht. unfold right5. now rewrite (in_round t r Ht).
  - now rewrite seq_length.
Qed.

(** One round in the source's terms. *)
Lemma L4 w r n n' fi k ls v : (r < 4)%nat -> n = (16 * r)%nat -> n' = (16 * S r)%nat ->
  fi = f r -> k = KL r -> ls = lines4 rL r ->
  fold_left (round4 w fi k) ls (phys4 n v) = phys4 n' (fold_left (left4 w) (seq n 16) v).
Proof. intros _ -> -> -> -> ->. apply left4_round. Qed.
Lemma R4 w r n n' fi k ls v : (r < 4)%nat -> n = (16 * r)%nat -> n' = (16 * S r)%nat ->
  fi = f (3 - r) -> k = KR128 r -> ls = lines4 rR r ->
  fold_left (round4 w fi k) ls (phys4 n v) = phys4 n' (fold_left (right4 w) (seq n 16) v).
Proof. intros _ -> -> -> -> ->. apply right4_round. Qed.
Lemma L5 w r n n' fi k ls v : (r < 5)%nat -> n = (16 * r)%nat -> n' = (16 * S r)%nat ->
  fi = f r -> k = KL r -> ls = lines5 rL r ->
  fold_left (round5 w fi k) ls (phys5 n v) = phys5 n' (fold_left (left5 w) (seq n 16) v).
Proof. intros _ -> -> -> -> ->. apply left5_round. Qed.
Lemma R5 w r n n' fi k ls v : (r < 5)%nat -> n = (16 * r)%nat -> n' = (16 * S r)%nat ->
  fi = f (4 - r) -> k = KR r -> ls = lines5 rR r ->
  fold_left (round5 w fi k) ls (phys5 n v) = phys5 n' (fold_left (right5 w) (seq n 16) v).
Proof. intros _ -> -> -> -> ->. apply right5_round. Qed.


(** The tables, constants and functions of the source are those of the specification. *)
Ltac cst := lazymatch goal with |- (_ < _)%nat => lia | |- _ => vm_compute; reflexivity end.
Lemma chain4 {A} (F0 F1 F2 F3 : A -> A) x0 x1 x2 x3 x4 :
  F0 x0 = x1 -> F1 x1 = x2 -> F2 x2 = x3 -> F3 x3 = x4 -> F3 (F2 (F1 (F0 x0))) = x4.
Proof. now intros -> -> -> ->. Qed.
Lemma chain5 {A} (F0 F1 F2 F3 F4 : A -> A) x0 x1 x2 x3 x4 x5 :
  F0 x0 = x1 -> F1 x1 = x2 -> F2 x2 = x3 -> F3 x3 = x4 -> F4 x4 = x5 -> F4 (F3 (F2 (F1 (F0 x0)))) = x5.
Proof. now intros -> -> -> -> ->. Qed.
Lemma fold64 {A} (g : A -> nat -> A) v : fold_left g (seq 0 64) v =
  fold_left g (seq 48 16) (fold_left g (seq 32 16) (fold_left g (seq 16 16) (fold_left g (seq 0 16) v))).
Proof. reflexivity. Qed.
Lemma fold80 {A} (g : A -> nat -> A) v : fold_left g (seq 0 80) v = fold_left g (seq 64 16)
  (fold_left g (seq 48 16) (fold_left g (seq 32 16) (fold_left g (seq 16 16) (fold_left g (seq 0 16) v)))).
Proof. reflexivity. Qed.
Lemma left128 w v :
  fold_left (round4 w bf4 0x8f1bbcdc) l4_128 (fold_left (round4 w bf3 0x6ed9eba1) l3_128
   (fold_left (round4 w bf2 0x5a827999) l2_128 (fold_left (round4 w bf1 0) l1_128 (phys4 0 v))))
  = phys4 64 (fold_left (left4 w) (seq 0 64) v).
Proof.
  rewrite fold64. refine (chain4 _ _ _ _ _ _ _ _ _  (L4 w 0 0 16 bf1 _ l1_128 _ ltac:(cst) eq_refl eq_refl eq_refl ltac:(cst) ltac:(cst)) (L4 w 1 16 32 bf2 _ l2_128 _ ltac:(cst) eq_refl eq_refl eq_refl ltac:(cst) ltac:(cst)) (L4 w 2 32 48 bf3 _ l3_128 _ ltac:(cst) eq_refl eq_refl eq_refl ltac:(cst) ltac:(cst)) (L4 w 3 48 64 bf4 _ l4_128 _ ltac:(cst) eq_refl eq_refl eq_refl ltac:(cst) ltac:(cst))).
Qed.
Lemma right128 w v :
  fold_left (round4 w bf1 0) r4_128 (fold_left (round4 w bf2 0x6d703ef3) r3_128
   (fold_left (round4 w bf3 0x5c4dd124) r2_128 (fold_left (round4 w bf4 0x50a28be6) r1_128 (phys4 0 v))))
  = phys4 64 (fold_left (right4 w) (seq 0 64) v).
Proof.
  rewrite fold64. refine (chain4 _ _ _ _ _ _ _ _ _  (R4 w 0 0 16 bf4 _ r1_128 _ ltac:(cst) eq_refl eq_refl eq_refl ltac:(cst) ltac:(cst)) (R4 w 1 16 32 bf3 _ r2_128 _ ltac:(cst) eq_refl eq_refl eq_refl ltac:(cst) ltac:(cst)) (R4 w 2 32 48 bf2 _ r3_128 _ ltac:(cst) eq_refl eq_refl eq_refl ltac:(cst) ltac:(cst)) (R4 w 3 48 64 bf1 _ r4_128 _ ltac:(cst) eq_refl eq_refl eq_refl ltac:(cst) ltac:(cst))).
Qed.
Lemma left160 w v :
  fold_left (round5 w bf5 0xa953fd4e) l5_160 (fold_left (round5 w bf4 0x8f1bbcdc) l4_160 (fold_left (round5 w bf3 0x6ed9eba1) l3_160
   (fold_left (round5 w bf2 0x5a827999) l2_160 (fold_left (round5 w bf1 0) l1_160 (phys5 0 v)))))
  = phys5 80 (fold_left (left5 w) (seq 0 80) v).
Proof.
  rewrite fold80. refine (chain5 _ _ _ _ _ _ _ _ _ _ _  (L5 w 0 0 16 bf1 _ l1_160 _ ltac:(cst) eq_refl eq_refl eq_refl ltac:(cst) ltac:(cst)) (L5 w 1 16 32 bf2 _ l2_160 _ ltac:(cst) eq_refl eq_refl eq_refl ltac:(cst) ltac:(cst)) (L5 w 2 32 48 bf3 _ l3_160 _ ltac:(cst) eq_refl eq_refl eq_refl ltac:(cst) ltac:(cst)) (L5 w 3 48 64 bf4 _ l4_160 _ ltac:(cst) eq_refl eq_refl eq_refl ltac:(cst) ltac:(cst)) (L5 w 4 64 80 bf5 _ l5_160 _ ltac:(cst) eq_refl eq_refl eq_refl ltac:(cst) ltac:(cst))).
Qed.
Lemma right160 w v :
  fold_left (round5 w bf1 0) r5_160 (fold_left (round5 w bf2 0x7a6d76e9) r4_160 (fold_left (round5 w bf3 0x6d703ef3) r3_160
   (fold_left (round5 w bf4 0x5c4dd124) r2_160 (fold_left (round5 w bf5 0x50a28be6) r1_160 (phys5 0 v)))))
  = phys5 80 (fold_left (right5 w) (seq 0 80) v).
Proof.
  rewrite fold80. refine (chain5 _ _ _ _ _ _ _ _ _ _ _  (R5 w 0 0 16 bf5 _ r1_160 _ ltac:(cst) eq_refl eq_refl eq_refl ltac:(cst) ltac:(cst)) (R5 w 1 16 32 bf4 _ r2_160 _ ltac:(cst) eq_refl eq_refl eq_refl ltac:(cst) ltac:(cst)) (R5 w 2 32 48 bf3 _ r3_160 _ ltac:(cst) eq_refl eq_refl eq_refl ltac:(cst) ltac:(cst)) (R5 w 3 48 64 bf2 _ r4_160 _ ltac:(cst) eq_refl eq_refl eq_refl ltac:(cst) ltac:(cst)) (R5 w 4 64 80 bf1 _ r5_160 _ ltac:(cst) eq_refl eq_refl eq_refl ltac:(cst) ltac:(cst))).
Qed.

(** ** One block *)
Definition vok4 (v : v4) : Prop := words_ok 32 (l4 v).
Definition vok5 (v : v5) : Prop := words_ok 32 (l5 v).
Lemma wok_cons w x l : x < 2 ^ w -> words_ok w l -> words_ok w (x :: l).
Proof. now constructor. Qed.
Ltac wok := unfold vok4, vok5, l4, l5; repeat first [apply wok_cons; [apply wadd_lt|] | apply Forall_nil].

Lemma compress_128_ok v block :
  compress_128 (l4 v) block = l4 (Spec.RIPEMD.compress128 v block) /\ vok4 (Spec.RIPEMD.compress128 v block).
Proof.
  unfold compress_128, process_128, bind, Spec.RIPEMD.compress128, words_of_le.
  set (w := map le_val (chunks 4 block)). clearbody w.
  replace (l4 v) with (phys4 0 v) by now destruct v as (((a, b), c), d).
  rewrite left128, right128.
  destruct (fold_left (left4 w) _ _) as (((A, B), C), D). destruct (fold_left (right4 w) _ _) as (((A', B'), C'), D').
  destruct v as (((h0, h1), h2), h3). split; [|wok].
  unfold phys4, l4, add32. cbv [Nat.modulo Nat.divmod Nat.sub fst snd get nth upd].
  rewrite (wadd_comm 32 D' h1), <- !wadd_assoc, (wadd_comm 32 D' C). reflexivity.
Qed.
Lemma compress_160_ok v block :
  compress_160 (l5 v) block = l5 (Spec.RIPEMD.compress160 v block) /\ vok5 (Spec.RIPEMD.compress160 v block).
Proof.
  unfold compress_160, process_160, bind, Spec.RIPEMD.compress160, words_of_le.
  set (w := map le_val (chunks 4 block)). clearbody w.
  replace (l5 v) with (phys5 0 v) by now destruct v as ((((a, b), c), d), e).
  rewrite left160, right160.
  destruct (fold_left (left5 w) _ _) as ((((A, B), C), D), E).
  destruct (fold_left (right5 w) _ _) as ((((A', B'), C'), D'), E').
  destruct v as ((((h0, h1), h2), h3), h4). split; [|wok].
  unfold phys5, l5, add32. cbv [Nat.modulo Nat.divmod Nat.sub fst snd get nth upd].
  rewrite (wadd_comm 32 D' h1), <- !wadd_assoc, (wadd_comm 32 D' C). reflexivity.
Qed.

(** The two interleaved lines: one round and one exchange. *)
Lemma swap4 r u v : (r < 4)%nat ->
  swap_idx (phys4 (16 * S r) u) (phys4 (16 * S r) v) r =
  let '(A, B, C, D) := u in let '(A', B', C', D') := v in
  let p := match r with
  | 0%nat => ((A', B, C, D), (A, B', C', D'))
  | 1%nat => ((A, B', C, D), (A', B, C', D'))
  | 2%nat => ((A, B, C', D), (A', B', C, D'))
  | _ => ((A, B, C, D'), (A', B', C', D)) end in
  (phys4 (16 * S r) (fst p), phys4 (16 * S r) (snd p)).
Proof.
  intros H. destruct u as (((A, B), C), D), v as (((A', B'), C'), D').
  destruct r as [|[|[|[|r]]]]; [reflexivity..|lia].
Qed.
Lemma swap5 r u v : (r < 5)%nat ->
  swap_idx (phys5 (16 * S r) u) (phys5 (16 * S r) v) r =
  let '(A, B, C, D, E) := u in let '(A', B', C', D', E') := v in
  let p := match r with
  | 0%nat => ((A, B', C, D, E), (A', B, C', D', E'))
  | 1%nat => ((A, B, C, D', E), (A', B', C', D, E'))
  | 2%nat => ((A', B, C, D, E), (A, B', C', D', E'))
  | 3%nat => ((A, B, C', D, E), (A', B', C, D', E'))
  | _ => ((A, B, C, D, E'), (A', B', C', D', E)) end in
  (phys5 (16 * S r) (fst p), phys5 (16 * S r) (snd p)).
Proof.
  intros H. destruct u as ((((A, B), C), D), E), v as ((((A', B'), C'), D'), E').
  destruct r as [|[|[|[|[|r]]]]]; [reflexivity..|lia].
Qed.
Lemma round256_ok w r fi k ls gi q rs (vv : v4 * v4) : (r < 4)%nat ->
  fi = f r -> k = KL r -> ls = lines4 rL r -> gi = f (3 - r) -> q = KR128 r -> rs = lines4 rR r ->
  swap_idx (fold_left (round4 w fi k) ls (phys4 (16 * r) (fst vv))) (fold_left (round4 w gi q) rs (phys4 (16 * r) (snd vv))) r
  = (phys4 (16 * S r) (fst (Spec.RIPEMD.round256 w vv r)), phys4 (16 * S r) (snd (Spec.RIPEMD.round256 w vv r))).
Proof.
  intros H -> -> -> -> -> ->. rewrite left4_round, right4_round, swap4 by exact H. unfold Spec.RIPEMD.round256.
  destruct (fold_left (left4 w) _ _) as (((A, B), C), D). destruct (fold_left (right4 w) _ _) as (((A', B'), C'), D').
  reflexivity.
Qed.
Lemma round320_ok w r fi k ls gi q rs (vv : v5 * v5) : (r < 5)%nat ->
  fi = f r -> k = KL r -> ls = lines5 rL r -> gi = f (4 - r) -> q = KR r -> rs = lines5 rR r ->
  swap_idx (fold_left (round5 w fi k) ls (phys5 (16 * r) (fst vv))) (fold_left (round5 w gi q) rs (phys5 (16 * r) (snd vv))) r
  = (phys5 (16 * S r) (fst (Spec.RIPEMD.round320 w vv r)), phys5 (16 * S r) (snd (Spec.RIPEMD.round320 w vv r))).
Proof.
  intros H -> -> -> -> -> ->. rewrite left5_round, right5_round, swap5 by exact H. unfold Spec.RIPEMD.round320.
  destruct (fold_left (left5 w) _ _) as ((((A, B), C), D), E).
  destruct (fold_left (right5 w) _ _) as ((((A', B'), C'), D'), E'). reflexivity.
Qed.
Definition l44 (v : v4 * v4) : list N := l4 (fst v) ++ l4 (snd v).
Definition l55 (v : v5 * v5) : list N := l5 (fst v) ++ l5 (snd v).
Lemma fold_four {A} (g : A -> nat -> A) a : fold_left g (seq 0 4) a = g (g (g (g a 0%nat) 1%nat) 2%nat) 3%nat.
Proof. reflexivity. Qed.
Lemma fold_five {A} (g : A -> nat -> A) a : fold_left g (seq 0 5) a = g (g (g (g (g a 0%nat) 1%nat) 2%nat) 3%nat) 4%nat.
Proof. reflexivity. Qed.
Lemma bind_swap {R} x y r a b (k : list N * list N -> R) : swap_idx x y r = (a, b) ->
  bind x (fun bb => bind y (fun bbb => bind (swap_idx bb bbb r) k)) = k (a, b).
Proof. unfold bind. now intros ->. Qed.
Lemma compress_256_ok v block :
  compress_256 (l44 v) block = l44 (Spec.RIPEMD.compress256 v block) /\ words_ok 32 (l44 (Spec.RIPEMD.compress256 v block)).
Proof.
  unfold compress_256, process_256, Spec.RIPEMD.compress256, words_of_le.
  set (w := map le_val (chunks 4 block)). clearbody w.
  split; [|destruct (fold_left _ _ v) as [(((A, B), C), D) (((A', B'), C'), D')]; destruct v as [(((h0, h1), h2), h3) (((h4, h5), h6), h7)]; unfold l44, l4, fst, snd; cbn [app]; wok].
  assert (E1 : firstn 4 (l44 v) = phys4 (16 * 0) (fst v)) by now destruct v as [(((a, b), c), d) (((a', b'), c'), d')].
  assert (E2 : skipn 4 (l44 v) = phys4 (16 * 0) (snd v)) by now destruct v as [(((a, b), c), d) (((a', b'), c'), d')].
  unfold bind at 1 2. rewrite E1, E2. clear E1 E2.
  refine (eq_trans (bind_swap _ _ _ _ _ _ (round256_ok w 0 bf1 _ l1_256 bf4 _ r1_256 _ ltac:(cst) eq_refl ltac:(cst) ltac:(cst) eq_refl ltac:(cst) ltac:(cst))) _). cbv beta iota.
  refine (eq_trans (bind_swap _ _ _ _ _ _ (round256_ok w 1 bf2 _ l2_256 bf3 _ r2_256 _ ltac:(cst) eq_refl ltac:(cst) ltac:(cst) eq_refl ltac:(cst) ltac:(cst))) _). cbv beta iota.
  refine (eq_trans (bind_swap _ _ _ _ _ _ (round256_ok w 2 bf3 _ l3_256 bf2 _ r3_256 _ ltac:(cst) eq_refl ltac:(cst) ltac:(cst) eq_refl ltac:(cst) ltac:(cst))) _). cbv beta iota.
  refine (eq_trans (bind_swap _ _ _ _ _ _ (round256_ok w 3 bf4 _ l4_256 bf1 _ r4_256 _ ltac:(cst) eq_refl ltac:(cst) ltac:(cst) eq_refl ltac:(cst) ltac:(cst))) _). cbv beta iota.
  rewrite fold_four. destruct (Spec.RIPEMD.round256 w _ 3) as [(((A, B), C), D) (((A', B'), C'), D')].
  destruct v as [(((h0, h1), h2), h3) (((h4, h5), h6), h7)].
  reflexivity.
Qed.
Lemma compress_320_ok v block :
  compress_320 (l55 v) block = l55 (Spec.RIPEMD.compress320 v block) /\ words_ok 32 (l55 (Spec.RIPEMD.compress320 v block)).
Proof.
  unfold compress_320, process_320, Spec.RIPEMD.compress320, words_of_le.
  set (w := map le_val (chunks 4 block)). clearbody w.
  split; [|destruct (fold_left _ _ v) as [((((A, B), C), D), E) ((((A', B'), C'), D'), E')]; destruct v as [((((h0, h1), h2), h3), h4) ((((h5, h6), h7), h8), h9)]; unfold l55, l5, fst, snd; cbn [app]; wok].
  assert (E1 : firstn 5 (l55 v) = phys5 (16 * 0) (fst v)) by now destruct v as [((((a, b), c), d), e) ((((a', b'), c'), d'), e')].
  assert (E2 : skipn 5 (l55 v) = phys5 (16 * 0) (snd v)) by now destruct v as [((((a, b), c), d), e) ((((a', b'), c'), d'), e')].
  unfold bind at 1 2. rewrite E1, E2. clear E1 E2.
  refine (eq_trans (bind_swap _ _ _ _ _ _ (round320_ok w 0 bf1 _ l1_320 bf5 _ r1_320 _ ltac:(cst) eq_refl ltac:(cst) ltac:(cst) eq_refl ltac:(cst) ltac:(cst))) _). cbv beta iota.
  refine (eq_trans (bind_swap _ _ _ _ _ _ (round320_ok w 1 bf2 _ l2_320 bf4 _ r2_320 _ ltac:(cst) eq_refl ltac:(cst) ltac:(cst) eq_refl ltac:(cst) ltac:(cst))) _). cbv beta iota.
  refine (eq_trans (bind_swap _ _ _ _ _ _ (round320_ok w 2 bf3 _ l3_320 bf3 _ r3_320 _ ltac:(cst) eq_refl ltac:(cst) ltac:(cst) eq_refl ltac:(cst) ltac:(cst))) _). cbv beta iota.
  refine (eq_trans (bind_swap _ _ _ _ _ _ (round320_ok w 3 bf4 _ l4_320 bf2 _ r4_320 _ ltac:(cst) eq_refl ltac:(cst) ltac:(cst) eq_refl ltac:(cst) ltac:(cst))) _). cbv beta iota.
  refine (eq_trans (bind_swap _ _ _ _ _ _ (round320_ok w 4 bf5 _ l5_320 bf1 _ r5_320 _ ltac:(cst) eq_refl ltac:(cst) ltac:(cst) eq_refl ltac:(cst) ltac:(cst))) _). cbv beta iota.
  rewrite fold_five. destruct (Spec.RIPEMD.round320 w _ 4) as [((((A, B), C), D), E) ((((A', B'), C'), D'), E')].
  destruct v as [((((h0, h1), h2), h3), h4) ((((h5, h6), h7), h8), h9)].
  reflexivity.
Qed.

(** ** The hashers *)
Definition within (len : nat) : Prop := 8 * N.of_nat len < 2 ^ 64.
Section Hasher.
  Context {V : Type} (ls : V -> list N) (n : nat) (cspec : V -> bytes -> V) (iv : V).
  Context (compress : list N -> bytes -> list N) (h0 : list N) (H : bytes -> bytes).
  Hypothesis Lls : forall v, length (ls v) = n.
  Hypothesis Civ : h0 = ls iv.
  Hypothesis Civok : words_ok 32 (ls iv).
  Hypothesis Cok : forall v b, compress (ls v) b = ls (cspec v b) /\ words_ok 32 (ls (cspec v b)).
  Hypothesis Hdef : forall msg, H msg = concat (map (le_bytes 4) (ls (md_iterate cspec 64 iv (Spec.RIPEMD.pad msg)))).
  Definition P (s : list N) : Prop := exists v, words_ok 32 (ls v) /\ s = ls v.
  Definition inv (st : list N * N) : Prop := P (fst st) /\ snd st < 2 ^ 64.
  Lemma rmd_ok : core_ok (rmd_core n h0 compress) inv H within.
  Proof using All.
    apply (counted_core_ok 64 64 compress h0 P).
    - lia.
    - exists iv. split; [exact Civok|exact Civ].
    - intros s b (v & V0 & ->) Lb Bb. destruct (Cok v b) as [-> V']. eexists. split; [exact V'|reflexivity].
    - unfold within. intros. lia.
    - intros len W. now apply (count_lt 64 8).
    - reflexivity.
    - reflexivity.
    - intros m msg W B. unfold rmd_finalize. cbn [fst snd].
      rewrite remainder_length by lia. rewrite (bit_len_ok m 64 64 (length msg)); [|lia|reflexivity|exact W].
      eexists. split; [|reflexivity]. f_equal. f_equal. rewrite Hdef. unfold Spec.RIPEMD.pad, len64_padding_le.
      pose proof (md_sim (fun s v => s = ls v) compress cspec 64 h0 iv
        0x80 (le_bytes 8 (8 * blen msg)) msg) as S.
      unfold blen in *. rewrite S.
      + reflexivity.
      + lia.
      + rewrite le_bytes_length. lia.
      + reflexivity.
      + apply le_bytes_ok.
      + exact B.
      + intros s v x -> L Bx. apply Cok.
      + exact Civ.
    - intros cd st E (v & V0 & Es) C. injection E as <-. cbn [cd_len cd_ser cd_deser rmd_codec].
      apply (counted_roundtrip 4 n 8 st ltac:(lia)); [rewrite Es; apply Lls|rewrite Es; exact V0|exact C].
  Qed.
End Hasher.

Lemma wok_bool w l : forallb (fun x => x <? 2 ^ w) l = true -> words_ok w l.
Proof. intros E. rewrite forallb_forall in E. apply Forall_forall. intros x Hx. now apply N.ltb_lt, E. Qed.
Lemma Ripemd128_ok : core_ok Ripemd128 (inv l4) Spec.RIPEMD.RIPEMD128 within.
Proof.
  apply (rmd_ok l4 4 Spec.RIPEMD.compress128 Spec.RIPEMD.iv128).
  - now intros (((a, b), c), d).
  - reflexivity.
  - apply wok_bool. reflexivity.
  - exact compress_128_ok.
  - reflexivity.
Qed.
Lemma Ripemd160_ok : core_ok Ripemd160 (inv l5) Spec.RIPEMD.RIPEMD160 within.
Proof.
  apply (rmd_ok l5 5 Spec.RIPEMD.compress160 Spec.RIPEMD.iv160).
  - now intros ((((a, b), c), d), e).
  - reflexivity.
  - apply wok_bool. reflexivity.
  - exact compress_160_ok.
  - reflexivity.
Qed.
Lemma Ripemd256_ok : core_ok Ripemd256 (inv l44) Spec.RIPEMD.RIPEMD256 within.
Proof.
  apply (rmd_ok l44 8 Spec.RIPEMD.compress256 Spec.RIPEMD.iv256).
  - now intros [(((a, b), c), d) (((a', b'), c'), d')].
  - reflexivity.
  - apply wok_bool. reflexivity.
  - exact compress_256_ok.
  - intros msg. unfold Spec.RIPEMD.RIPEMD256. now destruct (md_iterate _ _ _ _).
Qed.
Lemma Ripemd320_ok : core_ok Ripemd320 (inv l55) Spec.RIPEMD.RIPEMD320 within.
Proof.
  apply (rmd_ok l55 10 Spec.RIPEMD.compress320 Spec.RIPEMD.iv320).
  - now intros [((((a, b), c), d), e) ((((a', b'), c'), d'), e')].
  - reflexivity.
  - apply wok_bool. reflexivity.
  - exact compress_320_ok.
  - intros msg. unfold Spec.RIPEMD.RIPEMD320. now destruct (md_iterate _ _ _ _).
Qed.
