(** The sm3 crate computes SM3. *)
From Verif Require Import Base.Words Base.Bytes Base.Codec Base.BlockBuffer Base.BlockBufferFacts Base.Digest
  Base.DigestFacts Base.MDFacts Base.Sched Base.Unroll Model.Sm3.
From Verif Require Spec.SM3.
Import Spec.SM3 (vars, round).

Lemma extend_g n W : Spec.SM3.extend n W = gextend Spec.SM3.next_w n W.
Proof. revert W; induction n as [|n IH]; intros W; cbn; [reflexivity|apply IH]. Qed.

(** ** The circular buffer holds the last sixteen schedule words *)
Section Window.
  Variable M : list N.
  Hypothesis LM : length M = 16%nat.
  Variable W : list N.
  Hypothesis Wold : forall t, (t < 16)%nat -> get W t = get M t.
  Hypothesis Wnew : forall t, (16 <= t < 68)%nat -> get W t =
    N.lxor (N.lxor (Spec.SM3.P1 (Spec.SM3.xor3 (get W (t - 16)) (get W (t - 9)) (rotl32 (get W (t - 3)) 15)))
      (rotl32 (get W (t - 13)) 7)) (get W (t - 6)).

  Fixpoint win (k : nat) : list N :=
    match k with O => M | S k => upd (win k) (k mod 16) (get W (16 + k)) end.
  Lemma win_length k : length (win k) = 16%nat.
  Proof using LM. clear Wold Wnew. induction k as [|k IH]; cbn [win]; [exact LM|]. rewrite upd_length; [exact IH|]. rewrite IH. apply Nat.mod_upper_bound. lia. Qed.
  Lemma win_get k i : (k <= i < k + 16)%nat -> w1 (win k) i = get W i.
  Proof using LM Wold. clear Wnew.
    revert i; induction k as [|k IH]; intros i Hi.
    - cbn [win]. unfold w1. rewrite Nat.mod_small by lia. symmetry. apply Wold. lia.
    - cbn [win]. unfold w1, get. destruct (Nat.eq_dec i (16 + k)) as [->|Hne].
      + replace ((16 + k) mod 16)%nat with (k mod 16)%nat.
        * apply nth_upd_eq. rewrite win_length. apply Nat.mod_upper_bound. lia.
        * replace (16 + k)%nat with (k + 1 * 16)%nat by lia. now rewrite Nat.mod_add by lia.
      + rewrite nth_upd_neq.
        * apply (IH i). lia.
        * intros E. assert (i = k + (i - k))%nat as Ei by lia. rewrite Ei in E.
          rewrite (Nat.div_mod k 16) in Ei by lia.
          pose proof (Nat.div_mod k 16 ltac:(lia)). pose proof (Nat.div_mod (k + (i - k)) 16 ltac:(lia)).
          rewrite <- E in H0.
          pose proof (Nat.mod_upper_bound k 16 ltac:(lia)).
          assert (16 * (k / 16) + (i - k) = 16 * ((k + (i - k)) / 16))%nat by lia. nia.
        * rewrite win_length. apply Nat.mod_upper_bound. lia.
  Qed.
  Lemma w2_win k : (k < 52)%nat -> w2 (win k) (16 + k) = (win (S k), get W (16 + k)).
  Proof using LM Wold Wnew.
    intros Hk.
    assert (E0 : w1 (win k) (16 + k) = get W k).
    { rewrite <- (win_get k k) by lia. unfold w1.
      replace (16 + k)%nat with (k + 1 * 16)%nat by lia. now rewrite Nat.mod_add by lia. }
    assert (E : get W (16 + k) = snd (w2 (win k) (16 + k))).
    { unfold w2. cbn [snd]. rewrite E0, !win_get by lia. rewrite Wnew by lia.
      replace (16 + k - 16)%nat with k by lia. reflexivity. }
    cbn [win]. rewrite E. unfold w2. cbn [snd].
    replace ((16 + k) mod 16)%nat with (k mod 16)%nat; [reflexivity|].
    replace (16 + k)%nat with (k + 1 * 16)%nat by lia. now rewrite Nat.mod_add by lia.
  Qed.
End Window.

(** ** One round *)
Lemma T_ok : map (fun j => rotl32 (Spec.SM3.T j) (N.of_nat (j mod 32))) (seq 0 64) = T32.
Proof. vm_compute. reflexivity. Qed.
Lemma t_spec j : (j < 64)%nat -> t j = rotl32 (Spec.SM3.T j) (N.of_nat (j mod 32)).
Proof.
  intros H. unfold t, get. rewrite <- T_ok.
  rewrite (nth_indep _ oob ((fun j => rotl32 (Spec.SM3.T j) (N.of_nat (j mod 32))) 0%nat))
    by (rewrite map_length, seq_length; exact H).
  rewrite (map_nth (fun j => rotl32 (Spec.SM3.T j) (N.of_nat (j mod 32)))), seq_nth by exact H. reflexivity.
Qed.
Lemma gg2_ok x y z : z < 2 ^ 32 -> gg2 x y z = N.lor (N.land x y) (N.land (not32 x) z).
Proof.
  intros Hz. unfold gg2, not32. apply N.bits_inj; intros i.
  rewrite ?N.lxor_spec, ?N.lor_spec, ?N.land_spec, ?N.lxor_spec, ?testbit_wnot.
  destruct (i <? 32) eqn:Hi.
  - now destruct (N.testbit x i), (N.testbit y i), (N.testbit z i).
  - apply N.ltb_ge in Hi. rewrite (proj1 (lt_pow2_bits z 32) Hz i Hi).
    now destruct (N.testbit x i), (N.testbit y i).
Qed.

Lemma P0_lt x : x < 2 ^ 32 -> Spec.SM3.P0 x < 2 ^ 32.
Proof. intros H. unfold Spec.SM3.P0, Spec.SM3.xor3, rotl32. auto with words. Qed.

Definition post := vars -> list N.
Lemma step_gen W i n A B C D E F G H (rnd : v8) (k : v8 -> list N) (post : post) :
  (i < 64)%nat -> E < 2 ^ 32 -> F < 2 ^ 32 -> G < 2 ^ 32 -> H < 2 ^ 32 ->
  rnd = (let ss1 := rotl32 (add32 (add32 (rotl32 A 12) E) (t i)) 7 in
    let ss2 := N.lxor ss1 (rotl32 A 12) in
    (A, rotl32 B 9, C, add32 (add32 (add32 D (Spec.SM3.FF i A B C)) ss2) (N.lxor (get W i) (get W (i + 4))),
     E, rotl32 F 19, G, Spec.SM3.P0 (add32 (add32 (add32 H (Spec.SM3.GG i E F G)) ss1) (get W i)))) ->
  (forall b' d' f' h', f' < 2 ^ 32 -> h' < 2 ^ 32 ->
     k (A, b', C, d', E, f', G, h') = post (fold_left (round W) (seq (S i) n) (d', A, b', C, h', E, f', G))) ->
  bind rnd k = post (fold_left (round W) (seq i (S n)) (A, B, C, D, E, F, G, H)).
Proof.
  intros Hi HE HF HG HH -> K. unfold bind. cbv zeta. rewrite K.
  - f_equal. rewrite fold_seq_S. f_equal. unfold round. rewrite <- t_spec by exact Hi. unfold add32.
    tuple_eq; try reflexivity.
    + now rewrite (wadd_comm 32 D).
    + now rewrite (wadd_comm 32 H).
  - unfold rotl32. now apply rotl_lt.
  - apply P0_lt. apply wadd_lt.
Qed.
Lemma step1 W i n A B C D E F G H (k : v8 -> list N) (post : post) :
  (i < 16)%nat -> E < 2 ^ 32 -> F < 2 ^ 32 -> G < 2 ^ 32 -> H < 2 ^ 32 ->
  (forall b' d' f' h', f' < 2 ^ 32 -> h' < 2 ^ 32 ->
     k (A, b', C, d', E, f', G, h') = post (fold_left (round W) (seq (S i) n) (d', A, b', C, h', E, f', G))) ->
  bind (sm3_round1 A B C D E F G H (t i) (get W i) (get W (i + 4))) k
  = post (fold_left (round W) (seq i (S n)) (A, B, C, D, E, F, G, H)).
Proof.
  intros Hi HE HF HG HH K. apply step_gen; try assumption; [lia|].
  unfold sm3_round1, Spec.SM3.FF, Spec.SM3.GG. rewrite (proj2 (Nat.ltb_lt i 16) Hi). reflexivity.
Qed.
Lemma step2 W i n A B C D E F G H (k : v8 -> list N) (post : post) :
  (16 <= i < 64)%nat -> E < 2 ^ 32 -> F < 2 ^ 32 -> G < 2 ^ 32 -> H < 2 ^ 32 ->
  (forall b' d' f' h', f' < 2 ^ 32 -> h' < 2 ^ 32 ->
     k (A, b', C, d', E, f', G, h') = post (fold_left (round W) (seq (S i) n) (d', A, b', C, h', E, f', G))) ->
  bind (sm3_round2 A B C D E F G H (t i) (get W i) (get W (i + 4))) k
  = post (fold_left (round W) (seq i (S n)) (A, B, C, D, E, F, G, H)).
Proof.
  intros Hi HE HF HG HH K. apply step_gen; try assumption; [lia|].
  unfold sm3_round2, Spec.SM3.FF, Spec.SM3.GG. rewrite gg2_ok by exact HG.
  rewrite (proj2 (Nat.ltb_ge i 16) ltac:(lia)). reflexivity.
Qed.

Definition list_of_vars (v : vars) : list N := let '(a, b, c, d, e, f, g, h) := v in [a; b; c; d; e; f; g; h].
Definition vok (v : vars) : Prop :=
  let '(a, b, c, d, e, f, g, h) := v in
  a < 2 ^ 32 /\ b < 2 ^ 32 /\ c < 2 ^ 32 /\ d < 2 ^ 32 /\ e < 2 ^ 32 /\ f < 2 ^ 32 /\ g < 2 ^ 32 /\ h < 2 ^ 32.
Definition xorv (st : list N) (v : vars) : list N :=
  let '(a, b, c, d, e, f, g, h) := v in
  [N.lxor (get st 0) a; N.lxor (get st 1) b; N.lxor (get st 2) c; N.lxor (get st 3) d;
   N.lxor (get st 4) e; N.lxor (get st 5) f; N.lxor (get st 6) g; N.lxor (get st 7) h].

Section Unrolled.
  Variables (M W : list N).
  Hypothesis LM : length M = 16%nat.
  Hypothesis Wold : forall t, (t < 16)%nat -> get W t = get M t.
  Hypothesis Wnew : forall t, (16 <= t < 68)%nat -> get W t =
    N.lxor (N.lxor (Spec.SM3.P1 (Spec.SM3.xor3 (get W (t - 16)) (get W (t - 9)) (rotl32 (get W (t - 3)) 15)))
      (rotl32 (get W (t - 13)) 7)) (get W (t - 6)).

  (** The two arguments read from the buffer, with and without update. *)
  Lemma args1 {R} k i (f : N -> list N * N -> R) rhs : (k <= i)%nat -> (i + 4 < k + 16)%nat ->
    f (get W i) (win M W k, get W (i + 4)) = rhs ->
    bind (w1 (win M W k) i) (fun u => bind (win M W k, w1 (win M W k) (i + 4)) (f u)) = rhs.
  Proof using LM Wold. clear Wnew.
    intros H1 H2 E. unfold bind. rewrite !(win_get M LM W Wold) by lia. exact E.
  Qed.
  Lemma args2 {R} k i (f : N -> list N * N -> R) rhs : (i = k + 12)%nat -> (k < 52)%nat ->
    f (get W i) (win M W (S k), get W (i + 4)) = rhs ->
    bind (w1 (win M W k) i) (fun u => bind (w2 (win M W k) (i + 4)) (f u)) = rhs.
  Proof using LM Wold Wnew.
    intros -> H2 E. unfold bind. rewrite (win_get M LM W Wold) by lia.
    replace (k + 12 + 4)%nat with (16 + k)%nat in * by lia. now rewrite (w2_win M LM W Wold Wnew) by exact H2.
  Qed.
  Ltac bnd := lazymatch goal with Hx : ?x < 2 ^ 32 |- ?x < 2 ^ 32 => exact Hx end.
  Ltac nlt := clear; lazymatch goal with
    | |- (_ <= _ < _)%nat => split; [apply Nat.leb_le|apply Nat.ltb_lt]; reflexivity
    | |- (_ <= _)%nat => apply Nat.leb_le; reflexivity
    | |- (_ < _)%nat => apply Nat.ltb_lt; reflexivity end.
  Ltac rnd stepL i n :=
    cbv beta iota; apply (stepL W i n); [nlt|bnd|bnd|bnd|bnd|];
    let b := fresh "b" in let d := fresh "d" in let f := fresh "f" in let h := fresh "h" in
    let Hf := fresh "Hf" in let Hh := fresh "Hh" in intros b d f h Hf Hh; cbv beta iota.
  (** Rounds 0..11 read both words from the block, 12..15 start updating the buffer, 16..63 use the second round function. *)
  Ltac stps ph i n stop :=
    lazymatch i with
    | stop => idtac
    | _ => lazymatch n with
    | S ?m =>
        lazymatch ph with
        | 1%nat => refine (args1 0 i _ _ ltac:(nlt) ltac:(nlt) _); rnd step1 i m
        | 2%nat => let k := eval compute in (i - 12)%nat in refine (args2 k i _ _ eq_refl ltac:(nlt) _); rnd step1 i m
        | 3%nat => let k := eval compute in (i - 12)%nat in refine (args2 k i _ _ eq_refl ltac:(nlt) _); rnd step2 i m
        end;
        let j := eval compute in (S i) in stps ph j m stop
    end end.

  Lemma compress_u32_spec a0 b0 c0 d0 e0 f0 g0 h0 : vok (a0, b0, c0, d0, e0, f0, g0, h0) ->
    compress_u32 [a0; b0; c0; d0; e0; f0; g0; h0] M =
    xorv [a0; b0; c0; d0; e0; f0; g0; h0] (fold_left (round W) (seq 0 64) (a0, b0, c0, d0, e0, f0, g0, h0)).
  Proof using LM Wold Wnew.
    intros (Ha & Hb & Hc & Hd & He & Hf & Hg & Hh). unfold compress_u32.
    set (st := [a0; b0; c0; d0; e0; f0; g0; h0]). set (post := xorv st).
    assert (Hpost : forall a b c d e f g h, [N.lxor (get st 0) a; N.lxor (get st 1) b; N.lxor (get st 2) c; N.lxor (get st 3) d;
     N.lxor (get st 4) e; N.lxor (get st 5) f; N.lxor (get st 6) g; N.lxor (get st 7) h] = post (a, b, c, d, e, f, g, h)) by reflexivity.
    apply (bind_eq M (win M W 0)); [reflexivity|]. cbv beta zeta.
    clearbody post. subst st.
    assert (G : get [a0; b0; c0; d0; e0; f0; g0; h0] 0 = a0 /\ get [a0; b0; c0; d0; e0; f0; g0; h0] 1 = b0 /\
      get [a0; b0; c0; d0; e0; f0; g0; h0] 2 = c0 /\ get [a0; b0; c0; d0; e0; f0; g0; h0] 3 = d0 /\
      get [a0; b0; c0; d0; e0; f0; g0; h0] 4 = e0 /\ get [a0; b0; c0; d0; e0; f0; g0; h0] 5 = f0 /\
      get [a0; b0; c0; d0; e0; f0; g0; h0] 6 = g0 /\ get [a0; b0; c0; d0; e0; f0; g0; h0] 7 = h0)
      by (repeat split; reflexivity).
    destruct G as (G0 & G1 & G2 & G3 & G4 & G5 & G6 & G7).
    rewrite G0, G1, G2, G3, G4, G5, G6, G7 in Hpost |- *. clear G0 G1 G2 G3 G4 G5 G6 G7.
    stps 1%nat 0%nat 64%nat 12%nat. stps 2%nat 12%nat 52%nat 16%nat. stps 3%nat 16%nat 48%nat 64%nat.
    rewrite fold_seq_0. apply Hpost.
  Qed.
End Unrolled.

Lemma compress_block_spec v block : vok v -> length block = 64%nat -> bytes_ok block ->
  compress_block (list_of_vars v) block = list_of_vars (Spec.SM3.compress v block) /\ vok (Spec.SM3.compress v block).
Proof.
  intros V Lb Bb. unfold compress_block, words_of_be, Spec.SM3.compress. cbv zeta.
  set (M := map be_val (chunks 4 block)).
  assert (LM : length M = 16%nat) by (unfold M; rewrite map_length, chunks_length, Lb by lia; reflexivity).
  set (W := Spec.SM3.expand M).
  assert (Wold : forall t, (t < 16)%nat -> get W t = get M t).
  { intros t Ht. unfold W, Spec.SM3.expand. rewrite extend_g. apply gextend_old. lia. }
  assert (Wnew : forall t, (16 <= t < 68)%nat -> get W t =
    N.lxor (N.lxor (Spec.SM3.P1 (Spec.SM3.xor3 (get W (t - 16)) (get W (t - 9)) (rotl32 (get W (t - 3)) 15)))
      (rotl32 (get W (t - 13)) 7)) (get W (t - 6))).
  { intros t Ht. unfold W, Spec.SM3.expand. rewrite extend_g. rewrite gextend_new by lia.
    unfold Spec.SM3.next_w at 1. rewrite firstn_length, gextend_length, LM.
    replace (Nat.min t (16 + 52)) with t by lia. now rewrite !get_firstn by lia. }
  assert (MW : words_ok 32 M).
  { unfold M. exact (words_of_be_ok 4 block ltac:(lia) Bb). }
  assert (WW : words_ok 32 W).
  { unfold W, Spec.SM3.expand. rewrite extend_g. apply gextend_ok; [|exact MW].
    intros l Hl. unfold Spec.SM3.next_w, Spec.SM3.P1, Spec.SM3.xor3, rotl32. auto 20 with words. }
  clearbody W M.
  assert (Rok : forall n s u, vok u -> vok (fold_left (round W) (seq s n) u)).
  { induction n as [|n IH]; intros s u U; cbn [seq fold_left]; [exact U|]. apply IH.
    destruct u as (((((((a, b), c), d), e), f), g), h). destruct U as (?&?&?&?&?&?&?&?).
    unfold round, vok, rotl32, add32. repeat split; auto with words. apply P0_lt. auto with words. }
  pose proof (Rok 64%nat 0%nat v V) as V'.
  destruct v as (((((((a0, b0), c0), d0), e0), f0), g0), h0).
  unfold list_of_vars at 1. rewrite (compress_u32_spec M W LM Wold Wnew _ _ _ _ _ _ _ _ V).
  destruct (fold_left _ _ _) as (((((((a, b), c), d), e), f), g), h). split.
  - unfold xorv, list_of_vars. cbv [get nth].
    now rewrite (N.lxor_comm a0), (N.lxor_comm b0), (N.lxor_comm c0), (N.lxor_comm d0),
      (N.lxor_comm e0), (N.lxor_comm f0), (N.lxor_comm g0), (N.lxor_comm h0).
  - destruct V as (?&?&?&?&?&?&?&?). destruct V' as (?&?&?&?&?&?&?&?). unfold vok. repeat split; auto with words.
Qed.

Definition within (len : nat) : Prop := 8 * N.of_nat len < 2 ^ 64.
Definition P (s : list N) : Prop := exists v, vok v /\ s = list_of_vars v.
Definition inv (st : list N * N) : Prop := P (fst st) /\ snd st < 2 ^ 64.
Lemma P_state s : P s -> length s = 8%nat /\ words_ok 32 s.
Proof.
  intros (v & V & ->). destruct v as (((((((a, b), c), d), e), f), g), h). destruct V as (?&?&?&?&?&?&?&?).
  split; [reflexivity|]. repeat constructor; assumption.
Qed.
Lemma iv_ok : vok Spec.SM3.iv.
Proof. unfold vok, Spec.SM3.iv. repeat split; reflexivity. Qed.

Lemma Sm3_ok : core_ok Sm3 inv Spec.SM3.SM3 within.
Proof.
  apply (counted_core_ok 64 64 compress_block H0 P).
  - lia.
  - exists Spec.SM3.iv. split; [exact iv_ok|reflexivity].
  - intros s b (v & V & ->) Lb Bb. destruct (compress_block_spec v b V Lb Bb) as [-> V'].
    eexists. split; [exact V'|reflexivity].
  - unfold within. intros. lia.
  - intros len W. now apply (count_lt 64 8).
  - reflexivity.
  - reflexivity.
  - intros m msg W B. unfold sm3_finalize. cbn [fst snd].
    rewrite remainder_length by lia. rewrite (bit_len_ok m 64 64 (length msg)); [|lia|reflexivity|exact W].
    eexists. split; [|reflexivity]. f_equal. f_equal. unfold Spec.SM3.SM3, Spec.SM3.pad, compress, len64_padding_be.
    pose proof (md_sim (fun s v => vok v /\ s = list_of_vars v) compress_block Spec.SM3.compress 64 H0 Spec.SM3.iv
      0x80 (be_bytes 8 (8 * blen msg)) msg) as S.
    destruct S as [_ S].
    + lia.
    + rewrite be_bytes_length. lia.
    + reflexivity.
    + apply be_bytes_ok.
    + exact B.
    + intros s v x [V ->] L Bx. destruct (compress_block_spec v x V L Bx) as [-> V']. split; [exact V'|reflexivity].
    + split; [exact iv_ok|reflexivity].
    + unfold blen in S. rewrite S. unfold words_to_be, Spec.SM3.output, list_of_vars, blen.
      now destruct (md_iterate _ _ _ _) as (((((((a, b), c), d), e), f), g), h).
  - intros cd st [= <-] PP C. apply P_state in PP as [L Wd]. cbn [cd_len cd_ser cd_deser sm3_codec].
    exact (counted_roundtrip 4 8 8 st ltac:(lia) L Wd C).
Qed.
