(** Resetting a hasher after any updates, with no limit on the amount of data. *)
From Verif Require Import Base.Words Base.Bytes Base.BlockBuffer Base.BlockBufferFacts Base.Digest Base.DigestFacts.

Section Reset.
  Context (C : core) (inv : cst C -> Prop) (H : bytes -> bytes) (within : nat -> Prop) (OK : core_ok C inv H within).
  Let sane (h : hst C) : Prop :=
    inv (fst h) /\ pos_ok (c_kind C) (c_bs C) (length (snd h)) = true /\ bytes_ok (snd h).
  Lemma sane_new : sane (h_new C).
  Proof using OK.
    exact (conj (ok_init _ _ _ _ OK) (conj (ok_ibuf _ _ _ _ OK) (ok_ibuf_bytes _ _ _ _ OK))).
  Qed.
  Lemma rem_pos k bs len : (0 < bs)%nat -> pos_ok k bs (len - n_blocks k bs len * bs) = true.
  Proof using.
    intros Hb. pose proof (Nat.div_mod len bs ltac:(lia)) as E. pose proof (Nat.mod_upper_bound len bs ltac:(lia)) as U.
    destruct k; cbn [pos_ok n_blocks].
    - apply Nat.ltb_lt. nia.
    - apply Nat.leb_le. destruct (Nat.eqb_spec len 0) as [->|Hl]; [lia|].
      destruct (Nat.eqb_spec (len mod bs) 0) as [Z|Z]; nia.
  Qed.
  Lemma sane_update m h input h' : sane h -> bytes_ok input -> h_update C m h input = Some h' -> sane h'.
  Proof using OK.
    destruct h as [s data]. intros (I & Pp & B) Bi E. cbn [fst snd] in *.
    pose proof (ok_bs _ _ _ _ OK) as Hbs.
    unfold h_update, digest_blocks in E. cbn [fst snd] in E.
    set (K := c_kind C) in *. set (bs := c_bs C) in *.
    destruct (pos_ok K (bs - length data) (length input)) eqn:Ep.
    - injection E as <-. split; [exact I|]. cbn [fst snd]. split; [|apply bytes_ok_app; now split].
      rewrite app_length. destruct K; cbn [pos_ok] in *.
      + apply Nat.ltb_lt in Ep. apply Nat.ltb_lt. lia.
      + apply Nat.leb_le in Ep, Pp. apply Nat.leb_le. lia.
    - assert (Ln : (bs - length data <= length input)%nat).
      { destruct K; cbn [pos_ok] in Ep; [apply Nat.ltb_ge in Ep|apply Nat.leb_gt in Ep]; lia. }
      assert (Ld : (length data <= bs)%nat).
      { destruct K; cbn [pos_ok] in Pp; [apply Nat.ltb_lt in Pp|apply Nat.leb_le in Pp]; lia. }
      assert (Q : forall s1 input1, inv s1 -> bytes_ok input1 ->
        (let nb := n_blocks K bs (length input1) in
         let* s2 := if (nb =? 0)%nat then Some s1 else c_update C m s1 (chunks bs (firstn (nb * bs) input1)) in
         Some (s2, skipn (nb * bs) input1)) = Some h' -> sane h').
      { clear E. intros s1 i1 I1 B1 E. cbv zeta in E. set (nb := n_blocks K bs (length i1)) in *.
        assert (T : forall s2, inv s2 -> Some (s2, skipn (nb * bs) i1) = Some h' -> sane h').
        { intros s2 I2 E2. injection E2 as <-. split; [exact I2|]. cbn [fst snd]. split; [|now apply bytes_ok_skipn].
          rewrite skipn_length. now apply rem_pos. }
        destruct (nb =? 0)%nat; [exact (T s1 I1 E)|].
        destruct (c_update C m s1 _) as [s2|] eqn:U; [|discriminate E]. cbn [obind] in E.
        refine (T s2 _ E). refine (ok_inv _ _ _ _ OK m s1 _ s2 I1 _ _ U).
        - now apply chunks_block_length.
        - apply chunks_ok; [exact Hbs|]. now apply bytes_ok_firstn. }
      destruct (length data =? 0)%nat eqn:Z; cbn [obind] in E; [exact (Q _ _ I Bi E)|].
      destruct (c_update C m s _) as [s1|] eqn:U; [|discriminate E]. cbn [obind] in E.
      refine (Q s1 _ _ (bytes_ok_skipn _ _ Bi) E).
      refine (ok_inv _ _ _ _ OK m s _ s1 I _ _ U).
      + constructor; [|constructor]. rewrite app_length, firstn_length. fold bs. lia.
      + constructor; [|constructor]. apply bytes_ok_app. split; [exact B|now apply bytes_ok_firstn].
  Qed.
  Lemma sane_updates m cs : forall h h', sane h -> Forall bytes_ok cs -> h_updates C m h cs = Some h' -> sane h'.
  Proof using OK.
    induction cs as [|c cs IH]; intros h h' S B E; cbn [h_updates] in E; [injection E as <-; exact S|].
    inversion B; subst. destruct (h_update C m h c) as [h1|] eqn:U; [|discriminate E]. cbn [obind] in E.
    apply (IH h1); [|assumption|exact E]. eapply sane_update; eassumption.
  Qed.
  (** Whatever was fed, [reset] gives a new hasher. *)
  Lemma reset_spec m cs h : Forall bytes_ok cs -> h_updates C m (h_new C) cs = Some h -> h_reset C h = h_new C.
  Proof using OK.
    intros B E. apply (ok_reset _ _ _ _ OK). exact (proj1 (sane_updates m cs _ _ sane_new B E)).
  Qed.
End Reset.
