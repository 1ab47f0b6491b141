(** The kupyna crate computes Kupyna. *)
From Verif Require Import Base.Words Base.Bytes Base.ByteFacts Base.Codec Base.BlockBuffer Base.BlockBufferFacts Base.Digest
  Base.DigestFacts Base.MDFacts Spec.MD Spec.GF Proof.GF Proof.ColMatrix Model.KupynaTables Model.Kupyna.
From Verif Require Spec.Groestl Spec.Kupyna Spec.KupynaTables.
Import Spec.Groestl (at_, build, sum).
Import Spec.Kupyna (params, kappa, zeta, eta, sub, pi', shift, tau, psi, Txor, Tplus).

Lemma sboxes_eq : SBOXES = Spec.KupynaTables.PI.
Proof. reflexivity. Qed.
Lemma mds_eq : MDS_MATRIX = circulant [1; 1; 5; 1; 8; 6; 7; 4].
Proof. reflexivity. Qed.
Lemma mul_check : forallb (fun y => forallb (fun x => multiply_gf (N.of_nat x) (N.of_nat y) =? gmul 0x11d (N.of_nat y) (N.of_nat x)) (seq 0 256)) (seq 0 9) = true.
Proof. vm_compute. reflexivity. Qed.
Lemma pi_check : forallb (fun i => forallb (fun x => x <? 256) (nth i Spec.KupynaTables.PI [])) (seq 0 4) = true.
Proof. vm_compute. reflexivity. Qed.
Definition cst_ok (p : params) : Prop := forall r j, (r < 14)%nat -> (j < Spec.Kupyna.c p)%nat ->
  N.lxor 0x00F0F0F0F0F0F0F3 (wshl 64 (N.lxor (N.of_nat (Spec.Kupyna.c p - j - 1) * 0x10) (N.of_nat r)) 56) = le_val (zeta p r j).
Lemma kappa_check : forallb (fun r => forallb (fun j => N.lxor (16 * N.of_nat j) (N.of_nat r) <? 256) (seq 0 16)) (seq 0 14) = true.
Proof. vm_compute. reflexivity. Qed.
Lemma cst_use p : forallb (fun r => forallb (fun j =>
  N.lxor 0x00F0F0F0F0F0F0F3 (wshl 64 (N.lxor (N.of_nat (Spec.Kupyna.c p - j - 1) * 0x10) (N.of_nat r)) 56) =? le_val (zeta p r j))
  (seq 0 (Spec.Kupyna.c p))) (seq 0 14) = true -> cst_ok p.
Proof.
  intros C r j Hr Hj. rewrite forallb_forall in C. specialize (C r ltac:(apply in_seq; lia)).
  rewrite forallb_forall in C. apply N.eqb_eq, C, in_seq. lia.
Qed.
Lemma cst_short : cst_ok Spec.Kupyna.short.
Proof. apply cst_use. vm_compute. reflexivity. Qed.
Lemma cst_long : cst_ok Spec.Kupyna.long.
Proof. apply cst_use. vm_compute. reflexivity. Qed.
Local Opaque SBOXES MDS_MATRIX Spec.KupynaTables.PI.

Lemma kappa_lt r j : (r < 14)%nat -> (j < 16)%nat -> N.lxor (16 * N.of_nat j) (N.of_nat r) < 256.
Proof.
  intros Hr Hj. pose proof kappa_check as C. rewrite forallb_forall in C. specialize (C r ltac:(apply in_seq; lia)).
  rewrite forallb_forall in C. apply N.ltb_lt, C, in_seq. lia.
Qed.
Lemma sub_lt i x : sub i x < 256.
Proof.
  unfold sub. change 256 with (2 ^ 8). apply get_ok; [|reflexivity]. apply Forall_forall. intros y Hy.
  pose proof pi_check as C. rewrite forallb_forall in C.
  specialize (C (i mod 4)%nat ltac:(apply in_seq; pose proof (Nat.mod_upper_bound i 4); lia)).
  rewrite forallb_forall in C. now apply N.ltb_lt, C.
Qed.
Lemma mul_ok x y : x < 256 -> y < 9 -> multiply_gf x y = gmul 0x11d y x.
Proof.
  intros Hx Hy. pose proof mul_check as C. rewrite forallb_forall in C. specialize (C (N.to_nat y) ltac:(apply in_seq; lia)).
  rewrite forallb_forall in C. specialize (C (N.to_nat x) ltac:(apply in_seq; lia)). rewrite !N2Nat.id in C. now apply N.eqb_eq.
Qed.

(** ** The steps on matrices *)
Section Steps.
  Context (v : variant) (p : params).
  Let n := COLS v.
  Definition matches : Prop := COLS v = Spec.Kupyna.c p /\ ROUNDS v = Spec.Kupyna.rounds p /\ last_shift v = Spec.Kupyna.last_shift p /\
    (v = vshort \/ v = vlong) /\ cst_ok p.
  Context (MV : matches).
  Lemma n_c : Spec.Kupyna.c p = n.
  Proof using MV. destruct MV as (E & _). now symmetry. Qed.
  Lemma n_cases : (n = 8 \/ n = 16)%nat.
  Proof using MV. destruct MV as (_ & _ & _ & [->| ->] & _); cbn; auto. Qed.
  Lemma col_ext (A B : Kupyna.matrix) : length A = n -> length B = n -> (forall j, (j < n)%nat -> nth j A [] = nth j B []) -> A = B.
  Proof. intros LA LB H. apply (nth_ext _ _ [] []); [congruence|]. intros j Hj. apply H. lia. Qed.

  Lemma kappa_spec A r : mok n A -> (r < 14)%nat -> add_constant_xor A r = kappa p r A /\ mok n (kappa p r A).
  Proof using MV.
    intros OK Hr. assert (OB : mok n (kappa p r A)).
    { unfold kappa. rewrite n_c. apply build_ok. intros i j Hi Hj. change 256 with (2 ^ 8). apply lxor_lt; [now apply (at_lt n)|].
      destruct (i =? 0)%nat; [|reflexivity]. apply kappa_lt; [exact Hr|]. destruct n_cases; lia. }
    split; [|exact OB]. unfold add_constant_xor. destruct OK as [L F]. rewrite L.
    apply col_ext; [now rewrite map_length, seq_length|apply OB|]. intros j Hj.
    rewrite nth_map_seq by exact Hj. unfold kappa, build. rewrite n_c, nth_map_seq by exact Hj.
    destruct (mok_col n A j (conj L F) Hj) as [Lc _]. unfold at_. set (row := nth j A []) in *. clearbody row.
    change (2 ^ 8) with 256. rewrite (N.mul_comm _ 16), N.mod_small by (apply kappa_lt; [exact Hr|destruct n_cases; lia]).
    explode row. cbn [upd seq map Nat.eqb get nth]. now rewrite !N.lxor_0_r.
  Qed.
  Lemma eta_spec A r : mok n A -> (r < 14)%nat -> add_constant_plus A r = eta p r A /\ mok n (eta p r A).
  Proof using MV.
    intros OK Hr. destruct MV as (E & _ & _ & _ & K). unfold add_constant_plus, eta. destruct OK as [L F]. rewrite L.
    rewrite n_c. split.
    - apply map_ext_in. intros j Hj. apply in_seq in Hj. cbv zeta.
      specialize (K r j Hr). rewrite n_c in K. rewrite K by lia. reflexivity.
    - split; [now rewrite map_length, seq_length|]. apply Forall_forall. intros c Hc. apply in_map_iff in Hc as (j & <- & _).
      split; [apply le_bytes_length|apply le_bytes_ok].
  Qed.
  Lemma sbox_gen (g : nat -> N -> N) A : mok n A ->
    fold_left (fun state i => map (fun row => upd row i (g i (get row i))) state) (seq 0 8) A
    = build n (fun i j => g i (at_ A i j)).
  Proof.
    intros [L F]. transitivity (map (fun row => fold_left (fun row i => upd row i (g i (get row i))) (seq 0 8) row) A).
    - cbn [seq fold_left]. now rewrite !map_map.
    - apply col_ext; [now rewrite map_length|unfold build; now rewrite map_length, seq_length|]. intros j Hj.
      unfold build. rewrite nth_map_seq by exact Hj.
      set (h := fun row => fold_left _ (seq 0 8) row). rewrite (nth_indep _ [] (h [])) by (rewrite map_length; lia). rewrite map_nth.
      destruct (mok_col n A j (conj L F) Hj) as [Lc _]. unfold at_, h. set (row := nth j A []) in *. clearbody row.
      explode row. reflexivity.
  Qed.
  Lemma pi_spec A : mok n A -> apply_s_box A = pi' p A /\ mok n (pi' p A).
  Proof using MV.
    intros OK. split.
    - unfold apply_s_box, pi', sub. rewrite sboxes_eq, n_c. exact (sbox_gen (fun i x => get (nth (i mod 4) Spec.KupynaTables.PI []) (N.to_nat x)) A OK).
    - unfold pi'. rewrite n_c. apply build_ok. intros. apply sub_lt.
  Qed.
  Lemma tau_ok A : mok n A -> mok n (tau p A).
  Proof using MV. intros OK. unfold tau. rewrite n_c. apply build_ok. intros i j _ _. now apply (at_lt n). Qed.
End Steps.
Lemma explode_cols (A : Kupyna.matrix) n : mok n A -> Forall (fun r => exists a b c d e f g h, r = [a; b; c; d; e; f; g; h]) A.
Proof.
  intros [_ F]. eapply Forall_impl; [|exact F]. intros r [L _]. explode r. repeat eexists.
Qed.
Ltac open_cols A F :=
  match type of F with
  | Forall _ (_ :: ?A') => let H := fresh in let F' := fresh in
      inversion F as [|? ? H F']; subst; clear F; destruct H as (? & ? & ? & ? & ? & ? & ? & ? & ->); open_cols A' F'
  | Forall _ [] => idtac
  end.
Lemma rotate_short A : mok 8 A -> rotate_rows vshort A = tau Spec.Kupyna.short A.
Proof.
  intros OK. pose proof (explode_cols A 8 OK) as F. destruct OK as [L _]. explode A.
  open_cols A F. vm_compute. reflexivity.
Qed.
Lemma rotate_long A : mok 16 A -> rotate_rows vlong A = tau Spec.Kupyna.long A.
Proof.
  intros OK. pose proof (explode_cols A 16 OK) as F. destruct OK as [L _]. explode A.
  open_cols A F. vm_compute. reflexivity.
Qed.
Lemma chunks_short b : length b = 64%nat -> block_to_matrix vshort b = chunks 8 b.
Proof. intros L. explode b. vm_compute. reflexivity. Qed.
Lemma chunks_long b : length b = 128%nat -> block_to_matrix vlong b = chunks 8 b.
Proof. intros L. explode b. vm_compute. reflexivity. Qed.

Lemma mds_small : Forall (Forall (fun y => y < 9)) (circulant [1; 1; 5; 1; 8; 6; 7; 4]).
Proof. repeat constructor. Qed.
Lemma mds_rows : map (fun row => nth row (circulant [1; 1; 5; 1; 8; 6; 7; 4]) []) (seq 0 8) = circulant [1; 1; 5; 1; 8; 6; 7; 4].
Proof. reflexivity. Qed.
Lemma fold_xors (f : nat -> N) l a : fold_left (fun x b => N.lxor x (f b)) l a = N.lxor a (xors (map f l)).
Proof.
  revert a. induction l as [|b l IH]; intros a; cbn [fold_left map]; [now rewrite N.lxor_0_r|].
  rewrite IH, xors_cons. now rewrite N.lxor_assoc.
Qed.
Lemma get_small l k : Forall (fun y => y < 9) l -> get l k < 9.
Proof.
  intros F. unfold get. destruct (Nat.lt_ge_cases k (length l)) as [H|H].
  - apply (proj1 (Forall_forall _ _) F). now apply nth_In.
  - rewrite nth_overflow by exact H. eapply N.lt_trans; [exact oob_bit|reflexivity].
Qed.
Lemma psi_spec n A : mok n A -> mix_columns A = psi A /\ mok n (psi A).
Proof.
  intros [L F]. split.
  - unfold mix_columns, psi. apply map_ext_in. intros col Hc. rewrite Forall_forall in F. destruct (F col Hc) as [_ Bc].
    unfold mat_vec. rewrite mds_eq. rewrite <- mds_rows. rewrite map_map. apply map_ext_in. intros row Hr. apply in_seq in Hr.
    rewrite (fold_xors (fun b => multiply_gf (get col b) (get (nth row _ []) b))), N.lxor_0_l. unfold dot. f_equal.
    apply map_ext. intros k. apply mul_ok; [change 256 with (2 ^ 8); now apply get_ok|]. apply get_small.
    apply (proj1 (Forall_forall _ _) mds_small). apply nth_In. exact (proj2 Hr).
  - unfold psi. split; [now rewrite map_length|]. apply Forall_map. eapply Forall_impl; [|exact F].
    intros c [Lc Bc]. unfold mat_vec. split; [now rewrite map_length|].
    apply Forall_map. eapply Forall_impl; [|exact mds_small]. intros r Br. unfold dot. change 256 with (2 ^ 8). apply xors_lt, Forall_forall.
    intros y Hy. apply in_map_iff in Hy as (k & <- & _). change (2 ^ 8) with 256. apply gmul_lt; [now vm_compute|].
    pose proof (get_small r k Br). lia.
Qed.

Section Variant.
  Context (v : variant) (p : params) (MV : matches v p).
  Let n := COLS v.
  Lemma rotate_spec A : mok n A -> rotate_rows v A = tau p A.
  Proof using MV.
    intros OK. destruct MV as (E1 & _ & E3 & C & _). unfold tau, shift. rewrite <- E1, <- E3. subst n. clear MV E1 E3.
    destruct C as [C|C]; subst v.
    - exact (rotate_short A OK).
    - exact (rotate_long A OK).
  Qed.
  Lemma chunks_spec b : length b = (8 * n)%nat -> block_to_matrix v b = chunks 8 b.
  Proof using MV.
    intros L. destruct MV as (_ & _ & _ & [C|C] & _); subst n; subst v.
    - apply chunks_short, L.
    - apply chunks_long, L.
  Qed.
  Lemma fold_same (f g : Kupyna.matrix -> nat -> Kupyna.matrix) :
    (forall A r, mok n A -> (r < 14)%nat -> f A r = g A r /\ mok n (g A r)) ->
    forall k a A, (a + k <= 14)%nat -> mok n A ->
    fold_left f (seq a k) A = fold_left g (seq a k) A /\ mok n (fold_left g (seq a k) A).
  Proof.
    intros H k. induction k as [|k IH]; intros a A L OK; [split; [reflexivity|exact OK]|].
    cbn [seq fold_left]. destruct (H A a OK ltac:(lia)) as [-> O]. apply IH; [lia|exact O].
  Qed.
  Lemma rest_spec A : mok n A -> mix_columns (rotate_rows v (apply_s_box A)) = psi (tau p (pi' p A)) /\ mok n (psi (tau p (pi' p A))).
  Proof using MV.
    intros OK. destruct (pi_spec v p MV A OK) as [-> O1]. rewrite rotate_spec by exact O1.
    apply psi_spec. now apply tau_ok with (v := v).
  Qed.
  Lemma rounds_le : (0 + ROUNDS v <= 14)%nat.
  Proof using MV. destruct MV as (_ & _ & _ & [->| ->] & _); cbn; lia. Qed.
  Lemma txor_spec A : mok n A -> fold_left (fun state nu => mix_columns (rotate_rows v (apply_s_box (add_constant_xor state nu)))) (seq 0 (ROUNDS v)) A
    = Txor p A /\ mok n (Txor p A).
  Proof using MV.
    intros OK. pose proof rounds_le as R. unfold Txor. destruct MV as (_ & Er & _). rewrite <- Er. apply fold_same; [|exact R|exact OK].
    intros B r OB Hr. destruct (kappa_spec v p MV B r OB Hr) as [-> O1]. now apply rest_spec.
  Qed.
  Lemma tplus_spec A : mok n A -> fold_left (fun state nu => mix_columns (rotate_rows v (apply_s_box (add_constant_plus state nu)))) (seq 0 (ROUNDS v)) A
    = Tplus p A /\ mok n (Tplus p A).
  Proof using MV.
    intros OK. pose proof rounds_le as R. unfold Tplus. destruct MV as (_ & Er & _). rewrite <- Er. apply fold_same; [|exact R|exact OK].
    intros B r OB Hr. destruct (eta_spec v p MV B r OB Hr) as [-> O1]. now apply rest_spec.
  Qed.

  (** ** Blocks *)
  Lemma flat_length (A : list (list N)) : mok n A -> length (concat A) = (8 * n)%nat.
  Proof. intros [L F]. rewrite concat_length8, L; [reflexivity|]. eapply Forall_impl; [|exact F]. now intros ? []. Qed.
  Lemma flat_chunks (A : list (list N)) : mok n A -> chunks 8 (concat A) = A.
  Proof. intros [L F]. apply chunks_concat; [lia|]. eapply Forall_impl; [|exact F]. now intros ? []. Qed.
  Lemma chunks_flat (b : bytes) : length b = (8 * n)%nat -> concat (chunks 8 b) = b.
  Proof.
    intros L. rewrite <- (concat_chunks_rem 8 b) at 2 by lia.
    assert (R : remainder 8 b = []).
    { apply length_zero_iff_nil. rewrite remainder_length by lia. rewrite L, Nat.mul_comm. apply Nat.mod_mul. lia. }
    now rewrite R, app_nil_r.
  Qed.
  Lemma txor_l_spec (A : list (list N)) : mok n A -> t_xor_l v (concat A) = concat (Txor p A).
  Proof using MV.
    intros OK. unfold t_xor_l, matrix_to_block. rewrite chunks_spec, flat_chunks by (try apply flat_length; exact OK).
    now rewrite (proj1 (txor_spec A OK)).
  Qed.
  Lemma tplus_l_spec (A : list (list N)) : mok n A -> t_plus_l v (concat A) = concat (Tplus p A).
  Proof using MV.
    intros OK. unfold t_plus_l, matrix_to_block. rewrite chunks_spec, flat_chunks by (try apply flat_length; exact OK).
    now rewrite (proj1 (tplus_spec A OK)).
  Qed.
  Lemma xor_bytes_app a1 a2 b1 b2 : length a1 = length b1 -> xor_bytes (a1 ++ a2) (b1 ++ b2) = xor_bytes a1 b1 ++ xor_bytes a2 b2.
  Proof.
    revert b1. induction a1 as [|x a1 IH]; intros [|y b1] L; try discriminate; [reflexivity|].
    cbn [app]. unfold xor_bytes. cbn [combine map app]. f_equal. apply IH. now injection L.
  Qed.
  Lemma flat_sum (X Y : list (list N)) : mok n X -> mok n Y -> xor_bytes (concat X) (concat Y) = concat (sum X Y).
  Proof.
    intros [LX FX] [LY FY]. rewrite <- LX in LY. clear LX. revert Y LY FY. induction FX as [|x X [Lx _] FX IH]; intros [|y Y] LY FY; try discriminate; [reflexivity|].
    inversion FY as [|? ? [Ly _] FY']; subst. cbn [concat]. rewrite xor_bytes_app by congruence. unfold sum. cbn [combine map concat fst snd].
    f_equal. apply IH; [now injection LY|exact FY'].
  Qed.
  Lemma xor_bytes_comm a b : xor_bytes a b = xor_bytes b a.
  Proof.
    revert b. induction a as [|x a IH]; intros [|y b]; try reflexivity. unfold xor_bytes in *. cbn [combine map fst snd].
    f_equal; [apply N.lxor_comm|apply IH].
  Qed.
  Lemma sum_comm X Y : sum X Y = sum Y X.
  Proof.
    unfold sum. revert Y. induction X as [|x X IH]; intros [|y Y]; try reflexivity. cbn [combine map fst snd].
    f_equal; [apply xor_bytes_comm|apply IH].
  Qed.
  Lemma enc_flat (A : list (list N)) : mok n A -> words_of_be 8 (concat A) = enc A.
  Proof. intros OK. unfold words_of_be. now rewrite flat_chunks. Qed.

  Lemma compress_spec h b : mok n h -> length b = (8 * n)%nat -> bytes_ok b ->
    compress v (enc h) b = enc (Spec.Kupyna.compress p h b) /\ mok n (Spec.Kupyna.compress p h b).
  Proof using MV.
    intros OH L B. unfold compress, Spec.Kupyna.compress. cbv zeta. pose proof (block_ok n b L B) as OM.
    rewrite (enc_bytes n) by exact OH. rewrite <- (chunks_flat b L) at 1 2. set (M := chunks 8 b) in *. clearbody M.
    rewrite flat_sum by assumption. rewrite (sum_comm M h). destruct (sum_spec n h M OH OM) as [OS _].
    rewrite txor_l_spec, tplus_l_spec by assumption.
    destruct (txor_spec _ OS) as [_ OP]. destruct (tplus_spec _ OM) as [_ OQ].
    rewrite flat_sum by assumption. destruct (sum_spec n _ _ OP OQ) as [OPQ _]. rewrite flat_sum by assumption.
    destruct (sum_spec n _ _ OPQ OH) as [OR _]. rewrite enc_flat by exact OR. now split.
  Qed.
  Lemma output_spec k (h : list (list N)) : (k <= 4 * n)%nat -> mok n h ->
    skipn (out_size v - k) (words_to_be 8 (skipn (n / 2) (words_of_be 8 (xor_bytes (concat h) (t_xor_l v (concat h))))))
    = Spec.Kupyna.R k (concat (sum (Txor p h) h)).
  Proof using MV.
    intros Hk OH. rewrite txor_l_spec by exact OH. destruct (txor_spec h OH) as [_ OP]. rewrite flat_sum by assumption.
    rewrite (sum_comm h). destruct (sum_spec n _ _ OP OH) as [OR _]. set (R := sum (Txor p h) h) in *. clearbody R.
    rewrite enc_flat by exact OR. unfold enc. rewrite skipn_map.
    assert (OT : mok (n - n / 2) (skipn (n / 2) R)).
    { destruct OR as [L F]. split; [now rewrite skipn_length, L|]. apply Forall_forall. intros c Hc. rewrite Forall_forall in F. apply F.
      rewrite <- (firstn_skipn (n / 2) R). apply in_or_app. now right. }
    change (map be_val (skipn (n / 2) R)) with (enc (skipn (n / 2) R)). rewrite (enc_bytes _ _ OT).
    assert (F8 : Forall (fun r : list N => length r = 8%nat) R) by (destruct OR as [_ F]; eapply Forall_impl; [|exact F]; now intros ? []).
    rewrite concat_skipn, skipn_skipn by exact F8. unfold Spec.Kupyna.R. rewrite (flat_length R OR). f_equal.
    unfold out_size. fold n. destruct (n_cases v p MV) as [H|H]; fold n in H; rewrite H in Hk |- *;
      [change (8 / 2)%nat with 4%nat | change (16 / 2)%nat with 8%nat]; lia.
  Qed.
  Definition Pst (s : list N) : Prop := exists A, mok n A /\ s = enc A.
  Lemma Pst_words s : Pst s -> length s = n /\ words_ok 64 s.
  Proof.
    intros (A & [L F] & ->). unfold enc. split; [now rewrite map_length|]. apply Forall_map.
    eapply Forall_impl; [|exact F]. intros r [Lr Br]. pose proof (be_val_lt r Br) as Lt. rewrite Lr in Lt. exact Lt.
  Qed.
  Definition within (len : nat) : Prop := N.of_nat (len / Spec.Kupyna.l p) < 2 ^ 64.
  Let bs := (8 * n)%nat.
  Lemma l_bs : Spec.Kupyna.l p = bs.
  Proof using MV. unfold Spec.Kupyna.l. now rewrite (n_c v p MV). Qed.
  Lemma firstn_le_bytes a b x : (a <= b)%nat -> firstn a (le_bytes b x) = le_bytes a x.
  Proof.
    intros H. replace b with (a + (b - a))%nat by lia. rewrite le_bytes_app. apply firstn_app_exact, le_bytes_length.
  Qed.
  Lemma core_kupyna_ok k x : (k <= 4 * n)%nat -> init_state v x = enc (Spec.Kupyna.iv p) -> mok n (Spec.Kupyna.iv p) ->
    core_ok (kupyna_core v x k) (fun st => Pst (fst st) /\ snd st < 2 ^ 64) (Spec.Kupyna.hash p k) within.
  Proof using MV.
    intros Hk EI OI. assert (HB : (64 <= bs <= 128)%nat) by (unfold bs; destruct (n_cases v p MV) as [H|H]; fold n in H; lia).
    apply (counted_core_ok bs 64 (compress v) (init_state v x) Pst).
    - lia.
    - exists (Spec.Kupyna.iv p). now split.
    - intros s b (A & O & ->) L B. destruct (compress_spec A b O L B) as [-> O']. eexists. split; [exact O'|reflexivity].
    - unfold within. rewrite l_bs. intros a b H W. pose proof (Nat.div_le_mono a b bs ltac:(lia) H). lia.
    - unfold within. rewrite l_bs. auto.
    - reflexivity.
    - reflexivity.
    - intros m msg W B. unfold ku_finalize. cbn [fst snd]. change (block_size v) with bs.
      unfold within in W. rewrite l_bs in W. rewrite remainder_length by lia.
      pose proof (len_split bs (length msg) ltac:(lia)) as ES.
      pose proof (Nat.mod_upper_bound (length msg) bs ltac:(lia)) as EU.
      assert (W8 : N.of_nat bs * N.of_nat (length msg / bs) <= 128 * 2 ^ 64) by nia.
      unfold cmul, cadd. rewrite fit_small by (change (2 ^ 128) with (2 ^ 64 * 2 ^ 64); lia). cbn [obind].
      rewrite (N.mul_comm (N.of_nat (length msg / bs))), ES.
      rewrite fit_small by (change (2 ^ 128) with (2 ^ 64 * 2 ^ 64); lia). cbn [obind].
      rewrite fit_small by (change (2 ^ 128) with (2 ^ 64 * 2 ^ 64); lia). cbn [obind].
      eexists. split; [|reflexivity]. apply f_equal, f_equal2; [|reflexivity]. unfold Spec.Kupyna.hash. cbv zeta.
      rewrite l_bs, firstn_le_bytes by lia.
      pose proof (md_sim (fun s A => mok n A /\ s = enc A) (compress v) (Spec.Kupyna.compress p) bs (init_state v x) (Spec.Kupyna.iv p)
        0x80 (le_bytes 12 (8 * N.of_nat (length msg))) msg) as S.
      destruct S as [O S].
      + lia.
      + rewrite le_bytes_length. lia.
      + reflexivity.
      + apply le_bytes_ok.
      + exact B.
      + intros s A y [O ->] L By. destruct (compress_spec A y O L By) as [-> O']. split; [exact O'|reflexivity].
      + split; assumption.
      + rewrite S. rewrite (enc_bytes n) by exact O. fold n. now apply output_spec.
    - intros cd st [= <-] PP C. apply Pst_words in PP as [L Wd]. apply sized_roundtrip. cbn [cd_len cd_ser cd_deser ku_codec].
      exact (counted_roundtrip 8 n 8 st ltac:(lia) L Wd C).
  Qed.
End Variant.
Lemma short_matches : matches vshort Spec.Kupyna.short.
Proof. repeat split; auto. exact cst_short. Qed.
Lemma long_matches : matches vlong Spec.Kupyna.long.
Proof. repeat split; auto. exact cst_long. Qed.
Lemma KupynaShort_ok k : (k <= 32)%nat -> core_ok (KupynaShort k) (fun st => Pst vshort (fst st) /\ snd st < 2 ^ 64)
  (Spec.Kupyna.hash Spec.Kupyna.short k) (within Spec.Kupyna.short).
Proof. intros H. apply (core_kupyna_ok _ _ short_matches); [exact H|reflexivity|]. apply block_ok; [reflexivity|]. repeat constructor. Qed.
Lemma KupynaLong_ok k : (k <= 64)%nat -> core_ok (KupynaLong k) (fun st => Pst vlong (fst st) /\ snd st < 2 ^ 64)
  (Spec.Kupyna.hash Spec.Kupyna.long k) (within Spec.Kupyna.long).
Proof. intros H. apply (core_kupyna_ok _ _ long_matches); [exact H|reflexivity|]. apply block_ok; [reflexivity|]. repeat constructor. Qed.
Lemma within_bytes v p len : matches v p -> N.of_nat len < 2 ^ 70 -> within p len.
Proof.
  intros MV H. unfold within. rewrite (l_bs v p MV).
  assert (Hb : (64 <= 8 * COLS v)%nat) by (destruct (n_cases v p MV) as [E|E]; lia).
  assert (Q : (len / (8 * COLS v) <= len / 64)%nat) by (apply Nat.div_le_compat_l; lia).
  pose proof (Nat.mul_div_le len 64 ltac:(lia)). set (q := (len / 64)%nat) in *. clearbody q. lia.
Qed.
Lemma Kupyna_short_digest k m cs : (k <= 32)%nat -> Forall bytes_ok cs -> N.of_nat (length (concat cs)) < 2 ^ 70 ->
  h_digest (KupynaShort k) m cs = Some (Spec.Kupyna.hash Spec.Kupyna.short k (concat cs)).
Proof. intros K B H. exact (digest_spec _ _ _ _ (KupynaShort_ok k K) m cs B (within_bytes _ _ _ short_matches H)). Qed.
Lemma Kupyna_long_digest k m cs : (k <= 64)%nat -> Forall bytes_ok cs -> N.of_nat (length (concat cs)) < 2 ^ 70 ->
  h_digest (KupynaLong k) m cs = Some (Spec.Kupyna.hash Spec.Kupyna.long k (concat cs)).
Proof. intros K B H. exact (digest_spec _ _ _ _ (KupynaLong_ok k K) m cs B (within_bytes _ _ _ long_matches H)). Qed.
