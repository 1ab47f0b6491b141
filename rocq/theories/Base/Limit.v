(** Cores whose [update] is only well behaved when one call gets fewer than [B] bytes: the
    Whirlpool crate multiplies the number of blocks of a call by 512 in [u64] arithmetic
    (B = 2^61), the gost94 crate multiplies it by 32 in [usize] arithmetic (B = 2^63, which
    holds for every Rust slice). *)
From Verif Require Import Base.Words Base.Bytes Base.BlockBuffer Base.Digest.

Definition slice_below (B : N) (c : bytes) : Prop := N.of_nat (length c) < B.
Definition slices_below (B : N) (ops : list op) : Prop :=
  Forall (fun o => match o with Update _ b => slice_below B b | _ => True end) ops.
Notation slice_ok := (slice_below (2 ^ 61)).
Notation slices_ok := (slices_below (2 ^ 61)).

Section Limit.
  Context (C : core) (B : N) (u : mode -> cst C -> list bytes -> option (cst C)).
  (** The core with another [update]. *)
  Definition with_update : core :=
    mkCore (cst C) (c_bs C) (c_kind C) (c_init C) (c_ibuf C) u (c_final C) (c_reset C) (c_codec C).
  Context (Hbs : (0 < c_bs C)%nat) (Hb1 : N.of_nat (c_bs C) < B)
    (Hu : forall m s bl, N.of_nat (c_bs C * length bl) < B -> c_update C m s bl = u m s bl).

  Lemma limit_update m (h : hst C) input : (slice_below B) input -> h_update C m h input = h_update with_update m h input.
  Proof using Hbs Hb1 Hu.
    intros L. destruct h as [s d]. unfold h_update, digest_blocks. cbn [c_kind c_bs c_update with_update cst fst snd].
    destruct (pos_ok _ _ _); [reflexivity|].
    assert (E : forall s1 input1, (length input1 <= length input)%nat ->
      (let nb := n_blocks (c_kind C) (c_bs C) (length input1) in
       let* s2 := if (nb =? 0)%nat then Some s1 else c_update C m s1 (chunks (c_bs C) (firstn (nb * c_bs C) input1)) in
       Some (s2, skipn (nb * c_bs C) input1)) =
      (let nb := n_blocks (c_kind C) (c_bs C) (length input1) in
       let* s2 := if (nb =? 0)%nat then Some s1 else u m s1 (chunks (c_bs C) (firstn (nb * c_bs C) input1)) in
       Some (s2, skipn (nb * c_bs C) input1))).
    { intros s1 i1 Li. cbv zeta. destruct (_ =? 0)%nat; [reflexivity|]. rewrite Hu; [reflexivity|].
      rewrite chunks_length by exact Hbs. unfold slice_below in L.

      rewrite firstn_length in *. pose proof (Nat.mul_div_le (min (n_blocks (c_kind C) (c_bs C) (length i1) * c_bs C) (length i1)) (c_bs C)). lia. }
    destruct (length d =? 0)%nat; cbn [obind].
    - apply E. lia.
    - rewrite Hu by (cbn [length]; lia). apply obind_ext. intros [s1 i1] Es.
      destruct (u m s _) as [s1'|]; [|discriminate]. cbn [obind] in Es. injection Es as <- <-.
      apply E. rewrite skipn_length. lia.
  Qed.

  Lemma limit_updates m cs : forall h : hst C, Forall (slice_below B) cs -> h_updates C m h cs = h_updates with_update m h cs.
  Proof using Hbs Hb1 Hu.
    induction cs as [|c cs IH]; intros h F; [reflexivity|]. inversion F; subst. cbn [h_updates].
    rewrite limit_update by assumption. apply obind_ext. intros h' _. now apply IH.
  Qed.
  Lemma limit_digest m cs : Forall (slice_below B) cs -> h_digest C m cs = h_digest with_update m cs.
  Proof using Hbs Hb1 Hu. intros F. unfold h_digest. now rewrite limit_updates. Qed.

  Definition to_ideal (st : mstate C) : mstate with_update := @mkM with_update (m_vals st) (m_blobs st).
  Lemma limit_step m st o : match o with Update _ b => (slice_below B) b | _ => True end ->
    (let* (st', out) := step C m st o in Some (to_ideal st', out)) = step with_update m (to_ideal st) o.
  Proof using Hbs Hb1 Hu.
    intros L. destruct st as [vals blobs].
    destruct o as [|i b|i|i|i|i|i|j]; unfold step; cbn [to_ideal m_vals m_blobs]; change (hst with_update) with (hst C).
    - reflexivity.
    - destruct (lookup vals i) as [h|]; [|reflexivity]. rewrite limit_update by exact L.
      now destruct (h_update with_update m h b).
    - now destruct (lookup vals i) as [h|].
    - now destruct (lookup vals i) as [h|].
    - destruct (lookup vals i) as [h|]; [|reflexivity].
      change (h_finalize_reset with_update m h) with (h_finalize_reset C m h).
      now destruct (h_finalize_reset C m h) as [[out h']|].
    - destruct (lookup vals i) as [h|]; [|reflexivity].
      change (h_finalize with_update m h) with (h_finalize C m h). now destruct (h_finalize C m h).
    - destruct (lookup vals i) as [h|]; [|reflexivity]. cbn [c_codec with_update]. now destruct (c_codec C).
    - cbn [c_codec with_update]. destruct (nth_error _ j), (c_codec C); reflexivity.
  Qed.
  Lemma limit_run m ops : forall st, (slices_below B) ops -> run C m st ops = run with_update m (to_ideal st) ops.
  Proof using Hbs Hb1 Hu.
    induction ops as [|o os IH]; intros st F; [reflexivity|]. inversion F as [|? ? L Fs]; subst. cbn [run].
    rewrite <- (limit_step m st o L). destruct (step C m st o) as [[st' out]|]; [|reflexivity]. cbn [obind].
    now rewrite IH.
  Qed.
  Lemma limit_history m ops : (slices_below B) ops -> run_history C m ops = run_history with_update m ops.
  Proof using Hbs Hb1 Hu. intros F. unfold run_history. now rewrite limit_run. Qed.
End Limit.
