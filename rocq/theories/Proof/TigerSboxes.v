(** The S-boxes in tiger/src/tables.bin are those of the generation program. *)
From Verif Require Import Base.Words Base.Bytes Spec.Tiger Model.TigerTables.

(** The same computation with masks for remainders and the key schedule of the
    constant text taken out of the loop, so that it runs faster. *)
Definition M64 : N := 0xffffffffffffffff.
Definition fadd a b := N.land (a + b) M64.
Definition fmul a b := N.land (a * b) M64.
Definition fsub a b := N.land (a + (0x10000000000000000 - N.land b M64)) M64.
Definition fround (T : sboxes) (mul : N) (v : vars) (x : N) : vars :=
  let '(a, b, c) := v in
  let c := N.lxor c x in
  let a := fsub a (N.lxor (N.lxor (T 0%nat (byte c 0)) (T 1%nat (byte c 2))) (N.lxor (T 2%nat (byte c 4)) (T 3%nat (byte c 6)))) in
  let b := fmul (fadd b (N.lxor (N.lxor (T 3%nat (byte c 1)) (T 2%nat (byte c 3))) (N.lxor (T 1%nat (byte c 5)) (T 0%nat (byte c 7))))) mul in
  (b, c, a).
Definition keys3 := (list N * list N * list N)%type.
Definition fcompress (T : sboxes) (v : vars) (k : keys3) : vars :=
  let '(k1, k2, k3) := k in
  let '(a0, b0, c0) := v in
  let '(a, b, c) := fold_left (fround T 9) k3 (fold_left (fround T 7) k2 (fold_left (fround T 5) k1 v)) in
  (N.lxor a a0, fsub b b0, fadd c c0).
Definition fgen_step (k : keys3) (g : gen_st) (in_ : N * nat) : gen_st :=
  let '(t, v, ws) := g in
  let '(i, n) := in_ in
  match ws with
  | w :: ws => (tab_set t n (scramble (tab_get t n) i w), v, ws)
  | [] => let '(a, b, c) := fcompress (look t) v k in
          (tab_set t n (scramble (tab_get t n) i a), (a, b, c), [b; c])
  end.
Definition fgen_pass k (g : gen_st) : gen_st :=
  fold_left (fgen_step k) (flat_map (fun i => [(i, 0%nat); (i, 1%nat); (i, 2%nat); (i, 3%nat)]) bytes256) g.
Definition fgenerate k : tabs := let '(t, _, _) := Nat.iter 5 (fgen_pass k) (start, iv, []) in t.
Definition keys_for (x : list N) : keys3 :=
  (words_of (keys_of x), words_of (schedule (keys_of x)), words_of (schedule (schedule (keys_of x)))).
Definition list_of_tabs (t : tabs) : list (list N) := map (fun n => map (look t n) bytes256) [0; 1; 2; 3]%nat.

Lemma mask x : N.land x M64 = x mod 2 ^ 64.
Proof. change M64 with (N.ones 64). apply N.land_ones. Qed.
Lemma fadd_ok a b : fadd a b = add64 a b.
Proof. apply mask. Qed.
Lemma fmul_ok a b : fmul a b = mul64 a b.
Proof. apply mask. Qed.
Lemma fsub_ok a b : fsub a b = sub64 a b.
Proof. unfold fsub. now rewrite !mask. Qed.
Lemma fold_ext {A B} (f g : A -> B -> A) l : (forall a b, f a b = g a b) -> forall a, fold_left f l a = fold_left g l a.
Proof. intros E. induction l as [|x l IH]; intros a; cbn; [reflexivity|]. now rewrite E, IH. Qed.
Lemma fround_ok T mul v x : fround T mul v x = round T mul v x.
Proof. destruct v as [[a b] c]. unfold fround, round. now rewrite fsub_ok, fmul_ok, fadd_ok. Qed.
Lemma fcompress_ok T v x : fcompress T v (keys_for x) = compress_words T v x.
Proof.
  unfold fcompress, keys_for, compress_words, pass. cbv zeta. destruct v as [[a0 b0] c0].
  rewrite (fold_ext _ _ (words_of (keys_of x)) (fround_ok T 5)).
  rewrite (fold_ext _ _ (words_of (schedule (keys_of x))) (fround_ok T 7)).
  rewrite (fold_ext _ _ (words_of (schedule (schedule (keys_of x)))) (fround_ok T 9)).
  destruct (fold_left _ _ _) as [[a b] c]. now rewrite fsub_ok, fadd_ok.
Qed.
Lemma fgen_step_ok x g i : fgen_step (keys_for x) g i = gen_step x g i.
Proof. destruct g as [[t v] ws], i as [i n]. unfold fgen_step, gen_step. now rewrite fcompress_ok. Qed.
Lemma fgen_pass_ok x g : fgen_pass (keys_for x) g = gen_pass x g.
Proof. unfold fgen_pass, gen_pass. generalize (flat_map (fun i => [(i, 0%nat); (i, 1%nat); (i, 2%nat); (i, 3%nat)]) bytes256). intros l. apply fold_ext, fgen_step_ok. Qed.
Lemma iter_ext {A} (f g : A -> A) n x : (forall a, f a = g a) -> Nat.iter n f x = Nat.iter n g x.
Proof. intros E. unfold Nat.iter. induction n as [|n IH]; cbn [nat_rect]; [reflexivity|]. now rewrite IH, E. Qed.
Lemma fgenerate_ok : fgenerate (keys_for (map le_val (chunks 8 text))) = generate.
Proof.
  unfold fgenerate, generate. cbv zeta. now rewrite (iter_ext _ _ 5 _ (fgen_pass_ok (map le_val (chunks 8 text)))).
Qed.

Lemma fast_tables : (let t := fgenerate (keys_for (map le_val (chunks 8 text))) in list_of_tabs t) = TABLES.
Proof. vm_cast_no_check (eq_refl TABLES). Qed.
Theorem tiger_sboxes : SBOXES = TABLES.
Proof. rewrite <- fast_tables. cbv zeta. rewrite fgenerate_ok. reflexivity. Qed.
