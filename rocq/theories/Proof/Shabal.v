(** The shabal crate computes Shabal. *)
From Verif Require Import Base.Words Base.Bytes Base.ByteFacts Base.Codec Base.BlockBuffer Base.BlockBufferFacts Base.Digest Base.DigestFacts Base.MDFacts.
From Verif Require Import Spec.MD Model.ShabalTables Model.Shabal.
From Verif Require Spec.Shabal.

Definition wk (n : nat) (x : list N) : Prop := length x = n /\ words_ok 32 x.
Definition Pst (s : st) : Prop := wk 12 (a s) /\ wk 16 (b s) /\ wk 16 (c s) /\ w s < 2 ^ 64.
Definition abs (s : st) : Spec.Shabal.state := (a s, b s, c s).

Lemma map2_map f x y n : length x = n -> length y = n -> map (fun i => f (get x i) (get y i)) (seq 0 n) = Spec.Shabal.map2 f x y.
Proof.
  revert x y. induction n as [|n IH]; intros [|u x] [|v y] Lx Ly; try discriminate; [reflexivity|].
  cbn [seq map]. unfold Spec.Shabal.map2 in *. cbn [combine map fst snd]. f_equal.
  rewrite <- seq_shift, map_map. apply (IH x y); [now injection Lx|now injection Ly].
Qed.
Lemma map2_length f x y : length (Spec.Shabal.map2 f x y) = min (length x) (length y).
Proof. unfold Spec.Shabal.map2. now rewrite map_length, combine_length. Qed.
Lemma map2_wk f x y n : (forall u v, u < 2 ^ 32 -> v < 2 ^ 32 -> f u v < 2 ^ 32) -> wk n x -> wk n y -> wk n (Spec.Shabal.map2 f x y).
Proof.
  intros Hf [Lx Ox] [Ly Oy]. split; [rewrite map2_length; lia|]. unfold Spec.Shabal.map2. apply Forall_map, Forall_forall. intros [u v] I.
  pose proof (in_combine_l _ _ _ _ I) as I1. pose proof (in_combine_r _ _ _ _ I) as I2. cbn [fst snd].
  apply Hf; [exact (proj1 (Forall_forall _ _) Ox u I1)|exact (proj1 (Forall_forall _ _) Oy v I2)].
Qed.
Lemma get_wk n x i : wk n x -> get x i < 2 ^ 32.
Proof. intros [_ O]. now apply get_ok. Qed.
Lemma upd_wk n x i v : wk n x -> (i < n)%nat -> v < 2 ^ 32 -> wk n (upd x i v).
Proof.
  intros [L O] I V. split; [rewrite upd_length; lia|]. assert (I' : (i < length x)%nat) by lia. clear L I. revert i I'.
  induction O as [|y x Hy O IH]; intros [|i] I; cbn [upd length] in *; try lia; constructor; auto. apply IH. lia.
Qed.
Lemma not32_lt x : not32 x < 2 ^ 32.
Proof. apply wnot_lt. Qed.
Lemma not_xor t x : t < 2 ^ 32 -> not32 (N.lxor t x) = N.lxor t (not32 x).
Proof.
  intros T. unfold not32, wnot. apply N.bits_inj. intros i. rewrite N.ldiff_spec, !N.lxor_spec, N.ldiff_spec.
  destruct (N.lt_ge_cases i 32) as [Q|Q].
  - rewrite N.ones_spec_low by exact Q. now destruct (N.testbit t i), (N.testbit x i).
  - rewrite N.ones_spec_high by exact Q. cbn [andb]. rewrite (proj1 (lt_pow2_bits t 32) T i Q). reflexivity.
Qed.

(** ** The permutation *)
Definition ix_of (n : nat) : list nat :=
  [n mod 12; (n + 11) mod 12; n mod 16; (n mod 16 + 13) mod 16; (n mod 16 + 9) mod 16; (n mod 16 + 6) mod 16; (24 - n mod 16) mod 16; n mod 16]%nat.
Lemma perm_blocks_rule : PERM_BLOCKS = map ix_of (seq 0 48).
Proof. reflexivity. Qed.
Lemma perm_elt_spec m A B C W n : wk 12 A -> wk 16 B -> wk 16 C -> wk 16 m ->
  perm_elt m (mkSt A B C W) (ix_of n) = (let '(A', B') := Spec.Shabal.step m C (A, B) n in mkSt A' B' C W) /\
  wk 12 (fst (Spec.Shabal.step m C (A, B) n)) /\ wk 16 (snd (Spec.Shabal.step m C (A, B) n)).
Proof.
  intros WA WB WC Wm. unfold perm_elt, ix_of. cbn [nth a b c w].
  assert (Hu : (n mod 12 < length A)%nat) by (destruct WA as [-> _]; apply Nat.mod_upper_bound; lia).
  unfold Spec.Shabal.step, Spec.Shabal.U, Spec.Shabal.V. unfold get at 9. rewrite nth_upd_eq by exact Hu.
  unfold mul32, wmul. rewrite (N.mul_comm 3), (N.mul_comm 5).
  set (x := N.lxor (N.lxor (N.lxor _ _) _) _).
  assert (Hx : x < 2 ^ 32).
  { unfold x. repeat apply (lxor_lt 32).
    - apply N.mod_lt. discriminate.
    - now apply (get_wk 16).
    - apply (land_lt_l 32). now apply (get_wk 16).
    - now apply (get_wk 16). }
  assert (Hr : rotl32 (get B (n mod 16)) 1 < 2 ^ 32) by (apply (rotl_lt 32); now apply (get_wk 16)).
  rewrite not_xor by exact Hr. split; [reflexivity|]. cbn [fst snd]. split.
  - apply upd_wk; [exact WA|apply Nat.mod_upper_bound; lia|exact Hx].
  - apply upd_wk; [exact WB|apply Nat.mod_upper_bound; lia|]. apply (lxor_lt 32); [exact Hr|apply not32_lt].
Qed.
Lemma perm_blocks_spec m C W l : wk 16 C -> wk 16 m -> forall A B, wk 12 A -> wk 16 B ->
  exists A' B', fold_left (perm_elt m) (map ix_of l) (mkSt A B C W) = mkSt A' B' C W /\
    fold_left (Spec.Shabal.step m C) l (A, B) = (A', B') /\ wk 12 A' /\ wk 16 B'.
Proof.
  intros WC Wm. induction l as [|n l IH]; intros A B WA WB; cbn [map fold_left].
  - exists A, B. auto.
  - destruct (perm_elt_spec m A B C W n WA WB WC Wm) as (-> & W1 & W2).
    destruct (Spec.Shabal.step m C (A, B) n) as [A1 B1] eqn:Es. cbn [fst snd] in *. now apply IH.
Qed.
Lemma add_c_spec C A : wk 12 A ->
  fold_left (fun a ix => let i := nth 0 ix 0%nat in
      upd a i (add32 (get a i) (add32 (add32 (get C (nth 1 ix 0%nat)) (get C (nth 2 ix 0%nat))) (get C (nth 3 ix 0%nat))))) ADD_C A
  = fold_left (fun A j => upd A (j mod 12) (add32 (get A (j mod 12)) (get C ((j + 3) mod 16)))) (seq 0 36) A.
Proof.
  intros [L _]. explode A. unfold ADD_C. generalize (get C). intros g.
  cbv beta iota zeta delta [fold_left seq nth upd get Nat.modulo Nat.divmod Nat.add Nat.sub snd fst].
  assert (Q : forall x u v z, add32 x (add32 (add32 u v) z) = add32 (add32 (add32 x z) v) u).
  { intros. unfold add32. now rewrite (wadd_comm 32 (wadd 32 u v) z), (wadd_comm 32 u v), !wadd_assoc. }
  rewrite !Q. reflexivity.
Qed.
Lemma add_c_wk C A : wk 12 A -> forall l, wk 12 (fold_left (fun A j => upd A (j mod 12) (add32 (get A (j mod 12)) (get C ((j + 3) mod 16)))) l A).
Proof. intros WA l. revert A WA. induction l as [|j l IH]; intros A WA; [exact WA|]. cbn [fold_left]. apply IH. apply upd_wk; [exact WA|apply Nat.mod_upper_bound; lia|apply wadd_lt]. Qed.
Lemma perm_spec m A B C W : wk 12 A -> wk 16 B -> wk 16 C -> wk 16 m ->
  exists A' B', perm (mkSt A B C W) m = mkSt A' B' C W /\ Spec.Shabal.P m A B C = (A', B') /\ wk 12 A' /\ wk 16 B'.
Proof.
  intros WA WB WC Wm. unfold perm, perm_blocks, Spec.Shabal.P. cbn [a b c w]. rewrite perm_blocks_rule.
  destruct (perm_blocks_spec m C W (seq 0 48) WC Wm A (map (fun x => rotl32 x 17) B) WA) as (A' & B' & E1 & E2 & W1 & W2).
  - destruct WB as [L O]. split; [now rewrite map_length|]. apply Forall_map. eapply Forall_impl; [|exact O]. intros x Hx. now apply (rotl_lt 32).
  - rewrite E1, E2. cbn [a b c w]. rewrite add_c_spec by exact W1. eexists _, B'. split; [reflexivity|]. split; [reflexivity|]. split; [now apply add_c_wk|exact W2].
Qed.

(** ** Rounds *)
Lemma add_m_spec s m : wk 16 (b s) -> wk 16 m -> add_m s m = mkSt (a s) (Spec.Shabal.map2 add32 (b s) m) (c s) (w s).
Proof. intros [L _] [Lm _]. unfold add_m. now rewrite map2_map by assumption. Qed.
Lemma sub_m_spec s m : wk 16 (c s) -> wk 16 m -> sub_m s m = mkSt (a s) (b s) (Spec.Shabal.map2 sub32 (c s) m) (w s).
Proof. intros [L _] [Lm _]. unfold sub_m. now rewrite map2_map by assumption. Qed.
Definition wwords (x : N) : list N := [x mod 2 ^ 32; x / 2 ^ 32] ++ repeat 0 10.
Lemma xor_w_spec s : wk 12 (a s) -> w s < 2 ^ 64 -> xor_w s = mkSt (Spec.Shabal.map2 N.lxor (a s) (wwords (w s))) (b s) (c s) (w s).
Proof.
  intros [L O] Hw. unfold xor_w, wwords. rewrite N.shiftr_div_pow2. rewrite (N.mod_small (w s / _)).
  - destruct s as [A B C W]. cbn [a b c w] in *. clear O Hw. generalize (W mod 2 ^ 32) (W / 2 ^ 32). intros u v.
    explode A. unfold Spec.Shabal.map2. cbn [upd get nth app repeat combine map fst snd]. now rewrite !N.lxor_0_r.
  - apply N.div_lt_upper_bound; [discriminate|]. exact Hw.
Qed.
Lemma wwords_wk x : x < 2 ^ 64 -> wk 12 (wwords x).
Proof.
  intros H. split; [reflexivity|]. unfold wwords. cbn [app repeat]. constructor; [apply N.mod_lt; discriminate|].
  constructor; [apply N.div_lt_upper_bound; [discriminate|exact H]|]. repeat constructor.
Qed.
Lemma lxor32 u v : u < 2 ^ 32 -> v < 2 ^ 32 -> N.lxor u v < 2 ^ 32. Proof. exact (lxor_lt 32 u v). Qed.
Lemma add32_any u v : u < 2 ^ 32 -> v < 2 ^ 32 -> add32 u v < 2 ^ 32. Proof. intros _ _. apply wadd_lt. Qed.
Lemma sub32_any u v : u < 2 ^ 32 -> v < 2 ^ 32 -> sub32 u v < 2 ^ 32. Proof. intros _ _. apply wsub_lt. Qed.
Lemma read_wk x : length x = 64%nat -> bytes_ok x -> wk 16 (read_m x).
Proof. intros L B. split; [unfold read_m; now rewrite words_of_le_length, L by lia|]. exact (words_of_le_ok 4 x ltac:(lia) B). Qed.
(** The part common to both kinds of rounds: addition, counter, permutation *)
Lemma mix_spec A B C W m : wk 12 A -> wk 16 B -> wk 16 C -> W < 2 ^ 64 -> wk 16 m ->
  exists A' B', perm (xor_w (mkSt A B C W)) m = mkSt A' B' C W /\
    Spec.Shabal.P m (Spec.Shabal.map2 N.lxor A (wwords W)) B C = (A', B') /\ wk 12 A' /\ wk 16 B'.
Proof.
  intros WA WB WC HW Wm. rewrite xor_w_spec by assumption. cbn [a b c w]. apply perm_spec; try assumption.
  apply map2_wk; [exact lxor32|exact WA|now apply wwords_wk].
Qed.
Lemma block_step_spec s x : Pst s -> length x = 64%nat -> bytes_ok x ->
  abs (block_step s x) = Spec.Shabal.round (abs s) (w s) (words_of_le 4 x) /\ w (block_step s x) = (w s + 1) mod 2 ^ 64 /\ Pst (block_step s x).
Proof.
  intros (WA & WB & WC & HW) L B. pose proof (read_wk x L B) as Wm. unfold block_step. change (words_of_le 4 x) with (read_m x). set (m := read_m x) in *. clearbody m.
  rewrite add_m_spec by assumption. destruct s as [A Bs C W]. cbn [a b c w] in *.
  assert (WB' : wk 16 (Spec.Shabal.map2 add32 Bs m)) by (apply map2_wk; [exact add32_any|assumption|assumption]).
  destruct (mix_spec A _ C W m WA WB' WC HW Wm) as (A' & B' & E1 & E2 & W1 & W2). rewrite E1.
  rewrite sub_m_spec by assumption. unfold swap_b_c, abs. cbn [a b c w]. split; [|split].
  - unfold Spec.Shabal.round. fold (wwords W). rewrite E2. reflexivity.
  - reflexivity.
  - unfold Pst. cbn [a b c w]. split; [exact W1|]. split; [|split; [exact W2|apply wadd_lt]]. apply map2_wk; [exact sub32_any|exact WC|exact Wm].
Qed.
Lemma fold_spec bl : Forall (fun x => length x = 64%nat) bl -> Forall bytes_ok bl -> forall s, Pst s ->
  abs (fold_left block_step bl s) = Spec.Shabal.rounds (abs s) (w s) (map (words_of_le 4) bl) /\
  w (fold_left block_step bl s) = (w s + N.of_nat (length bl)) mod 2 ^ 64 /\ Pst (fold_left block_step bl s).
Proof.
  intros FL FB. induction bl as [|x bl IH]; intros s Ps; cbn [fold_left map Spec.Shabal.rounds length].
  - split; [reflexivity|]. split; [|exact Ps]. rewrite N.add_0_r. symmetry. apply N.mod_small. apply Ps.
  - apply Forall_cons_iff in FL as [Lx FL]. apply Forall_cons_iff in FB as [Bx FB].
    destruct (block_step_spec s x Ps Lx Bx) as (E1 & E2 & P1). destruct (IH FL FB _ P1) as (E3 & E4 & P2).
    rewrite E3, E4, E1, E2. split; [reflexivity|]. split; [|exact P2].
    rewrite N.add_mod_idemp_l by discriminate. f_equal. lia.
Qed.
Lemma rounds_app S w l1 : forall l2, Spec.Shabal.rounds S w (l1 ++ l2) = Spec.Shabal.rounds (Spec.Shabal.rounds S w l1) ((w + N.of_nat (length l1)) mod 2 ^ 64) l2 \/ 2 ^ 64 <= w.
Proof.
  revert S w. induction l1 as [|M l1 IH]; intros S w l2; cbn [app Spec.Shabal.rounds length].
  - destruct (N.lt_ge_cases w (2 ^ 64)); [left; now rewrite N.add_0_r, N.mod_small|now right].
  - left. destruct (IH (Spec.Shabal.round S w M) ((w + 1) mod 2 ^ 64) l2) as [->|Q].
    + rewrite N.add_mod_idemp_l by discriminate. f_equal. f_equal. lia.
    + exfalso. pose proof (N.mod_lt (w + 1) (2 ^ 64) ltac:(discriminate)). lia.
Qed.
Lemma add_sub x m : forall n, wk n x -> wk n m -> Spec.Shabal.map2 add32 (Spec.Shabal.map2 sub32 x m) m = x.
Proof.
  revert m. induction x as [|u x IH]; intros [|v m] n [Lx Ox] [Lm Om]; cbn in Lx, Lm; try (exfalso; congruence); [reflexivity|].
  destruct n as [|n]; [discriminate|]. apply Forall_cons_iff in Ox as [Hu Ox]. apply Forall_cons_iff in Om as [_ Om].
  unfold Spec.Shabal.map2 in *. cbn [combine map fst snd]. f_equal.
  - apply wadd_wsub. exact Hu.
  - apply (IH m n); split; (now injection Lx) || (now injection Lm) || assumption.
Qed.
(** A final round of the specification after a round, and of the code *)
Lemma final_step A B C W m : wk 12 A -> wk 16 B -> wk 16 C -> W < 2 ^ 64 -> wk 16 m ->
  exists A' B', perm (xor_w (swap_b_c (mkSt A B C W))) m = mkSt A' B' B W /\ wk 12 A' /\ wk 16 B' /\
    Spec.Shabal.round (A, Spec.Shabal.map2 sub32 C m, B) W m = (A', Spec.Shabal.map2 sub32 B m, B').
Proof.
  intros WA WB WC HW Wm. unfold swap_b_c. cbn [a b c w]. destruct (mix_spec A C B W m WA WC WB HW Wm) as (A' & B' & E1 & E2 & W1 & W2).
  exists A', B'. split; [exact E1|]. split; [exact W1|]. split; [exact W2|]. unfold Spec.Shabal.round. rewrite (add_sub C m 16) by assumption.
  fold (wwords W). now rewrite E2.
Qed.
Lemma finalize_spec s x : Pst s -> length x = 64%nat -> bytes_ok x ->
  let m := read_m x in
  let S := Spec.Shabal.round (abs s) (w s) m in
  words_to_le 4 (b (fold_left (fun s _ => perm (xor_w (swap_b_c s)) m) (seq 0 3) (perm (xor_w (add_m s m)) m)))
  = words_to_le 4 (snd (Spec.Shabal.round (Spec.Shabal.round (Spec.Shabal.round S (w s) m) (w s) m) (w s) m)).
Proof.
  intros (WA & WB & WC & HW) L B. pose proof (read_wk x L B) as Wm. cbv zeta. set (m := read_m x) in *. clearbody m.
  rewrite add_m_spec by assumption. destruct s as [A Bs C W]. cbn [a b c w] in *. unfold abs. cbn [a b c].
  assert (WB' : wk 16 (Spec.Shabal.map2 add32 Bs m)) by (apply map2_wk; [exact add32_any|assumption|assumption]).
  destruct (mix_spec A _ C W m WA WB' WC HW Wm) as (A1 & B1 & E1 & E2 & W1 & W2). rewrite E1.
  assert (ER : Spec.Shabal.round (A, Bs, C) W m = (A1, Spec.Shabal.map2 sub32 C m, B1)) by (unfold Spec.Shabal.round; fold (wwords W); now rewrite E2).
  rewrite ER. cbn [seq fold_left].
  destruct (final_step A1 B1 C W m W1 W2 WC HW Wm) as (A2 & B2 & -> & W3 & W4 & ->).
  destruct (final_step A2 B2 B1 W m W3 W4 W2 HW Wm) as (A3 & B3 & -> & W5 & W6 & ->).
  destruct (final_step A3 B3 B2 W m W5 W6 W4 HW Wm) as (A4 & B4 & -> & _ & _ & ->). reflexivity.
Qed.

(** ** The hash functions *)
Lemma last_block r : (length r < 64)%nat -> pad_blocks 64 0x80 [] r = [upd (pad_with_zeros 64 r) (length r) 0x80].
Proof.
  intros H. unfold pad_with_zeros. rewrite upd_app_r by lia. rewrite Nat.sub_diag.
  replace (64 - length r)%nat with (S (63 - length r)) by lia. unfold zeros. cbn [repeat upd].
  assert (P : concat (pad_blocks 64 0x80 [] r) = r ++ 0x80 :: repeat 0 (63 - length r)).
  { rewrite pad_blocks_spec by (cbn; lia). f_equal. cbn [app length]. f_equal. rewrite app_nil_r. unfold zeros. f_equal.
    unfold zpad. rewrite Nat.add_0_r. destruct (Nat.eq_dec (length r) 63) as [->|Q]; [reflexivity|].
    rewrite (Nat.mod_small (length r + 1)) by lia. rewrite Nat.mod_small by lia. lia. }
  pose proof (pad_blocks_length 64 0x80 [] r H ltac:(cbn; lia)) as F.
  rewrite <- (chunks_concat 64 (pad_blocks 64 0x80 [] r)) by (lia || exact F). rewrite P. apply chunks_one; [lia|].
  rewrite app_length. cbn [length]. rewrite repeat_length. lia.
Qed.
Section Size.
  Context (init : list N * list N * list N) (k : nat).
  Context (HI : init = Spec.Shabal.iv (8 * k)) (Hk : Pst (of_init init)).
  Lemma shabal_ok : core_ok (shabal_core init k) Pst (Spec.Shabal.Shabal k) (fun _ => True).
  Proof using HI Hk.
    apply (fold_core_ok 64 block_step (of_init init) Pst).
    - lia.
    - exact Hk.
    - intros s x Ps L B. now apply block_step_spec.
    - auto.
    - reflexivity.
    - reflexivity.
    - intros m msg _ B. unfold sh_finalize. eexists. split; [|reflexivity]. apply f_equal, f_equal2; [|reflexivity].
      unfold Spec.Shabal.Shabal.
      assert (HR : (length (remainder 64 msg) < 64)%nat) by (rewrite remainder_length by lia; apply Nat.mod_upper_bound; lia).
      assert (EC : chunks 64 (md_pad 64 0x80 [] msg) = chunks 64 msg ++ [upd (pad_with_zeros 64 (remainder 64 msg)) (length (remainder 64 msg)) 0x80]).
      { unfold md_pad. rewrite <- last_block by exact HR. apply chunks_padded; cbn; lia. }
      set (x := upd (pad_with_zeros 64 (remainder 64 msg)) (length (remainder 64 msg)) 0x80) in *. rewrite EC.
      assert (Lx : length x = 64%nat) by (unfold x, pad_with_zeros; rewrite upd_length, app_length, zeros_length by (rewrite app_length, zeros_length; lia); lia).
      assert (Bx : bytes_ok x).
      { unfold x, pad_with_zeros. rewrite upd_app_r by lia. apply bytes_ok_app. split; [now apply remainder_ok|].
        rewrite Nat.sub_diag. replace (64 - length (remainder 64 msg))%nat with (S (63 - length (remainder 64 msg))) by lia. unfold zeros. cbn [repeat upd].
        constructor; [reflexivity|apply zeros_ok]. }
      pose proof (chunks_block_length 64 msg ltac:(lia)) as FL. pose proof (chunks_ok 64 msg ltac:(lia) B) as FB.
      rewrite map_app, app_length, !map_length. cbn [map length]. rewrite app_nth2 by (rewrite map_length; lia). rewrite map_length.
      replace (length (chunks 64 msg) + 1 - 1 - length (chunks 64 msg))%nat with 0%nat by lia. cbn [nth].
      destruct (fold_spec (chunks 64 msg) FL FB (of_init init) Hk) as (E1 & E2 & E3).
      set (s := fold_left block_step (chunks 64 msg) (of_init init)) in *. clearbody s.
      pose proof (finalize_spec s x E3 Lx Bx) as F. cbv zeta in F |- *. rewrite F. clear F. fold (read_m x).
      assert (Ew : N.of_nat (length (chunks 64 msg) + 1) mod 2 ^ 64 = w s).
      { rewrite E2. destruct init as [[ia ib] ic]. cbn [of_init w]. f_equal. lia. }
      rewrite Ew. destruct (rounds_app (Spec.Shabal.iv (8 * k)) 1 (map (words_of_le 4) (chunks 64 msg)) [read_m x]) as [->|Q]; [|exfalso; apply Q; reflexivity].
      cbn [Spec.Shabal.rounds]. rewrite map_length.
      assert (Ew1 : (1 + N.of_nat (length (chunks 64 msg))) mod 2 ^ 64 = w s) by (rewrite E2; destruct init as [[ia ib] ic]; reflexivity).
      rewrite Ew1. assert (E0 : abs (of_init init) = Spec.Shabal.iv (8 * k) /\ w (of_init init) = 1) by (rewrite <- HI; destruct init as [[ia ib] ic]; split; reflexivity).
      destruct E0 as [E0 E0w]. rewrite E0, E0w in E1. rewrite <- E1.
      destruct (Spec.Shabal.round (Spec.Shabal.round (Spec.Shabal.round (Spec.Shabal.round (abs s) (w s) (read_m x)) (w s) (read_m x)) (w s) (read_m x)) (w s) (read_m x)) as [[? ?] ?]. reflexivity.
    - intros cd s [= <-] ([LA OA] & [LB OB] & [LC OC] & HW). apply sized_roundtrip. cbn [cd_len cd_ser cd_deser]. unfold sh_ser. split.
      + now rewrite !app_length, !words_to_le_length, le_bytes_length, LA, LB, LC.
      + unfold sh_deser. rewrite !skipn_app_exact, !firstn_app_exact by (rewrite words_to_le_length; lia).
        rewrite !words_le_roundtrip by (lia || assumption). rewrite le_val_bytes, N.mod_small by exact HW. clear. destruct s. reflexivity.
  Qed.
End Size.

(** The tables of initial values are the computed ones. *)
Lemma wk_check n x : (Nat.eqb (length x) n && forallb (fun y => y <? 2 ^ 32) x)%bool = true -> wk n x.
Proof.
  intros H. apply andb_prop in H as [H1 H2]. apply Nat.eqb_eq in H1. split; [exact H1|]. apply Forall_forall. intros y Hy.
  apply N.ltb_lt. exact (proj1 (forallb_forall _ _) H2 y Hy).
Qed.
Lemma INIT_192_ok : INIT_192 = Spec.Shabal.iv (8 * 24).
Proof. vm_compute. reflexivity. Qed.
Lemma Shabal192_ok : core_ok Shabal192 Pst (Spec.Shabal.Shabal 24) (fun _ => True).
Proof. apply shabal_ok; [exact INIT_192_ok|]. refine (conj _ (conj _ (conj _ eq_refl))); apply wk_check; reflexivity. Qed.
Lemma INIT_224_ok : INIT_224 = Spec.Shabal.iv (8 * 28).
Proof. vm_compute. reflexivity. Qed.
Lemma Shabal224_ok : core_ok Shabal224 Pst (Spec.Shabal.Shabal 28) (fun _ => True).
Proof. apply shabal_ok; [exact INIT_224_ok|]. refine (conj _ (conj _ (conj _ eq_refl))); apply wk_check; reflexivity. Qed.
Lemma INIT_256_ok : INIT_256 = Spec.Shabal.iv (8 * 32).
Proof. vm_compute. reflexivity. Qed.
Lemma Shabal256_ok : core_ok Shabal256 Pst (Spec.Shabal.Shabal 32) (fun _ => True).
Proof. apply shabal_ok; [exact INIT_256_ok|]. refine (conj _ (conj _ (conj _ eq_refl))); apply wk_check; reflexivity. Qed.
Lemma INIT_384_ok : INIT_384 = Spec.Shabal.iv (8 * 48).
Proof. vm_compute. reflexivity. Qed.
Lemma Shabal384_ok : core_ok Shabal384 Pst (Spec.Shabal.Shabal 48) (fun _ => True).
Proof. apply shabal_ok; [exact INIT_384_ok|]. refine (conj _ (conj _ (conj _ eq_refl))); apply wk_check; reflexivity. Qed.
Lemma INIT_512_ok : INIT_512 = Spec.Shabal.iv (8 * 64).
Proof. vm_compute. reflexivity. Qed.
Lemma Shabal512_ok : core_ok Shabal512 Pst (Spec.Shabal.Shabal 64) (fun _ => True).
Proof. apply shabal_ok; [exact INIT_512_ok|]. refine (conj _ (conj _ (conj _ eq_refl))); apply wk_check; reflexivity. Qed.
Lemma Shabal_digest m cs : Forall bytes_ok cs ->
  h_digest Shabal192 m cs = Some (Spec.Shabal.Shabal 24 (concat cs)) /\ h_digest Shabal224 m cs = Some (Spec.Shabal.Shabal 28 (concat cs)) /\
  h_digest Shabal256 m cs = Some (Spec.Shabal.Shabal 32 (concat cs)) /\ h_digest Shabal384 m cs = Some (Spec.Shabal.Shabal 48 (concat cs)) /\
  h_digest Shabal512 m cs = Some (Spec.Shabal.Shabal 64 (concat cs)).
Proof.
  intros B. refine (conj _ (conj _ (conj _ (conj _ _)))).
  - exact (digest_spec _ _ _ _ Shabal192_ok m cs B I).
  - exact (digest_spec _ _ _ _ Shabal224_ok m cs B I).
  - exact (digest_spec _ _ _ _ Shabal256_ok m cs B I).
  - exact (digest_spec _ _ _ _ Shabal384_ok m cs B I).
  - exact (digest_spec _ _ _ _ Shabal512_ok m cs B I).
Qed.
Lemma block_bytes A B C W x : length A = 12%nat -> words_ok 32 A -> length B = 16%nat -> words_ok 32 B -> length C = 16%nat -> words_ok 32 C ->
  W < 2 ^ 64 -> length x = 64%nat -> bytes_ok x ->
  block_step (mkSt A B C W) x = (let '(A', B', C') := Spec.Shabal.round (A, B, C) W (words_of_le 4 x) in mkSt A' B' C' ((W + 1) mod 2 ^ 64)).
Proof.
  intros LA OA LB OB LC OC HW L Bx. destruct (block_step_spec (mkSt A B C W) x) as (E1 & E2 & _); [repeat split; assumption|exact L|exact Bx|].
  unfold abs in E1. cbn [a b c w] in E1, E2. destruct (block_step _ x) as [A' B' C' W']. cbn [a b c w] in *. rewrite <- E1. now rewrite E2.
Qed.
