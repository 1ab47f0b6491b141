(** Reading an extendable output piecewise is reading its prefix. *)
From Verif Require Import Base.Words Base.Bytes Base.BlockBuffer Base.Digest Base.DigestFacts Base.Xof.

Section Reader.
  Context {R : Type} (read_block : R -> bytes * R) (bs : nat).
  Hypothesis Hbs : (0 < bs)%nat.
  Context (P : R -> Prop).
  Hypothesis Hlen : forall r, P r -> length (fst (read_block r)) = bs.
  Hypothesis Hinv : forall r, P r -> P (snd (read_block r)).

  (** First [n] bytes of the output stream of [r] ([n] blocks are enough). *)
  Definition stream (r : R) (n : nat) : bytes := firstn n (fst (gen_blocks read_block n r)).

  Lemma gen_length k r : P r ->
    length (fst (gen_blocks read_block k r)) = (k * bs)%nat /\ P (snd (gen_blocks read_block k r)).
  Proof.
    revert r. induction k as [|k IH]; intros r HP; cbn [gen_blocks]; [now split|].
    pose proof (Hlen r HP) as L. pose proof (Hinv r HP) as V.
    destruct (read_block r) as [b r1] eqn:E. specialize (IH r1 V).
    destruct (gen_blocks read_block k r1) as [o r2]. cbn [fst snd] in *.
    rewrite app_length. destruct IH as [-> IH]. split; [lia|exact IH].
  Qed.
  Lemma gen_app j k r :
    gen_blocks read_block (j + k) r =
    let '(a, r1) := gen_blocks read_block j r in
    let '(b, r2) := gen_blocks read_block k r1 in (a ++ b, r2).
  Proof.
    revert r. induction j as [|j IH]; intros r; cbn [Nat.add gen_blocks].
    - now destruct (gen_blocks read_block k r).
    - destruct (read_block r) as [b r1]. rewrite IH.
      destruct (gen_blocks read_block j r1) as [a r2].
      destruct (gen_blocks read_block k r2) as [c r3]. now rewrite app_assoc.
  Qed.
  Lemma gen_prefix j k n r : P r -> (n <= j * bs)%nat -> (n <= k * bs)%nat ->
    firstn n (fst (gen_blocks read_block j r)) = firstn n (fst (gen_blocks read_block k r)).
  Proof.
    intros HP.
    assert (K : forall j k, (j <= k)%nat -> (n <= j * bs)%nat ->
      firstn n (fst (gen_blocks read_block j r)) = firstn n (fst (gen_blocks read_block k r))).
    { clear j k. intros j k L E. replace k with (j + (k - j))%nat by lia. rewrite gen_app.
      destruct (gen_length j r HP) as [G _].
      destruct (gen_blocks read_block j r) as [a r1].
      destruct (gen_blocks read_block (k - j) r1) as [b r2]. cbn [fst] in *.
      rewrite firstn_app. replace (n - length a)%nat with 0%nat by lia. now rewrite firstn_O, app_nil_r. }
    intros A B. destruct (Nat.le_ge_cases j k); [now apply K|symmetry; now apply K].
  Qed.

  (** What a reader value will still produce: its first [n] bytes. *)
  Definition ahead (s : R * bytes) (n : nat) : bytes :=
    firstn n (snd s ++ fst (gen_blocks read_block n (fst s))).
  Lemma mul_ge n : (n <= n * bs)%nat.
  Proof. nia. Qed.
  Lemma ahead_blocks r held k n : P r -> (n <= length held + k * bs)%nat ->
    ahead (r, held) n = firstn n (held ++ fst (gen_blocks read_block k r)).
  Proof.
    intros HP H. unfold ahead. cbn [fst snd]. rewrite !firstn_app. f_equal.
    pose proof (mul_ge n). apply gen_prefix; (exact HP || lia).
  Qed.
  Lemma rd_read_spec s n k : P (fst s) ->
    exists s', rd_read read_block bs s n = (ahead s n, s') /\ ahead s (n + k) = ahead s n ++ ahead s' k /\ P (fst s').
  Proof.
    destruct s as [r held]. cbn [fst]. intros HP. unfold rd_read.
    destruct (Nat.ltb_spec n (length held)) as [H|H].
    - exists (r, skipn n held). unfold ahead at 1. cbn [fst snd]. rewrite firstn_app.
      replace (n - length held)%nat with 0%nat by lia. rewrite firstn_O, app_nil_r. split; [reflexivity|]. split; [|exact HP].
      pose proof (mul_ge k).
      rewrite (ahead_blocks r held k n), (ahead_blocks r held k (n + k)) by (exact HP || lia).
      rewrite (ahead_blocks r (skipn n held) k k) by (exact HP || lia).
      rewrite <- (firstn_skipn n held) at 1. rewrite <- app_assoc, firstn_app, firstn_length_le by lia.
      rewrite (firstn_all2 (firstn n held)) by (rewrite firstn_length; lia).
      replace (n + k - n)%nat with k by lia. f_equal.
      rewrite firstn_app. replace (n - length held)%nat with 0%nat by lia. now rewrite firstn_O, app_nil_r.
    - set (n1 := (n - length held)%nat).
      pose proof (Nat.div_mod n1 bs ltac:(lia)) as D.
      pose proof (Nat.mod_upper_bound n1 bs ltac:(lia)) as M.
      set (q := (n1 / bs)%nat) in *. set (t := (n1 mod bs)%nat) in *.
      destruct (gen_length q r HP) as [G V].
      pose proof (gen_app q 1 r) as G1. pose proof (gen_app q k r) as G2.
      pose proof (gen_app q (1 + k) r) as G3.
      destruct (gen_blocks read_block q r) as [out r1] eqn:E1. cbn [fst snd] in G, V.
      pose proof (mul_ge k).
      destruct (Nat.eqb_spec t 0) as [T|T].
      + exists (r1, []).
        assert (A : ahead (r, held) n = held ++ out).
        { rewrite (ahead_blocks r held q n) by (exact HP || lia). rewrite E1. cbn [fst].
          apply firstn_all2. rewrite app_length. lia. }
        split; [now rewrite A|]. split; [|exact V]. rewrite A.
        rewrite (ahead_blocks r held (q + k) (n + k)) by (exact HP || lia). rewrite G2.
        unfold ahead. cbn [fst snd app].
        destruct (gen_blocks read_block k r1) as [o2 r2]. cbn [fst].
        rewrite app_assoc, firstn_app, app_length.
        rewrite (firstn_all2 (held ++ out)) by (rewrite app_length; lia). f_equal. f_equal. lia.
      + pose proof (Hlen r1 V) as L. pose proof (Hinv r1 V) as V2.
        destruct (read_block r1) as [b r2] eqn:E2. exists (r2, skipn t b). cbn [fst snd] in L, V2.
        cbn [gen_blocks] in G1, G3. rewrite E2 in G1. rewrite app_nil_r in G1.
        assert (A : ahead (r, held) n = held ++ out ++ firstn t b).
        { rewrite (ahead_blocks r held (q + 1) n) by (exact HP || lia). rewrite G1. cbn [fst].
          rewrite app_assoc, firstn_app, app_length.
          rewrite (firstn_all2 (held ++ out)) by (rewrite app_length; lia).
          rewrite <- app_assoc. f_equal. f_equal. f_equal. lia. }
        split; [now rewrite A|]. split; [|exact V2]. rewrite A.
        rewrite (ahead_blocks r held (q + (1 + k)) (n + k)) by (exact HP || lia). rewrite G3.
        cbn [Nat.add gen_blocks]. rewrite E2.
        unfold ahead. cbn [fst snd].
        destruct (gen_blocks read_block k r2) as [o2 r3]. cbn [fst].
        rewrite <- (firstn_skipn t b) at 1. rewrite !app_assoc, <- (app_assoc _ (skipn t b)).
        rewrite firstn_app, !app_length, firstn_length_le by lia.
        rewrite (firstn_all2 ((held ++ out) ++ firstn t b)) by (rewrite !app_length, firstn_length; lia).
        f_equal. f_equal. lia.
  Qed.
  Lemma rd_reads_spec ns : forall s, P (fst s) ->
    concat (fst (rd_reads read_block bs s ns)) = ahead s (total ns).
  Proof.
    induction ns as [|n ns IH]; intros s HP; cbn [rd_reads total fold_right].
    - reflexivity.
    - destruct (rd_read_spec s n (total ns) HP) as (s' & E & A & HP'). rewrite E.
      specialize (IH s' HP'). destruct (rd_reads read_block bs s' ns) as [os s2]. cbn [fst concat] in *.
      rewrite IH. symmetry. exact A.
  Qed.
  Lemma reads_stream r ns : P r -> concat (fst (rd_reads read_block bs (rd_new r) ns)) = stream r (total ns).
  Proof. exact (rd_reads_spec ns (rd_new r)). Qed.
  Lemma stream_length r n : P r -> length (stream r n) = n.
  Proof. intros HP. unfold stream. rewrite firstn_length. destruct (gen_length n r HP) as [-> _]. pose proof (mul_ge n). lia. Qed.
  Lemma rd_reads_lengths ns : forall s, P (fst s) -> (length (snd s) < bs)%nat ->
    map (@length N) (fst (rd_reads read_block bs s ns)) = ns.
  Proof.
    induction ns as [|n ns IH]; intros s HP H; cbn [rd_reads]; [reflexivity|].
    assert (K : P (fst (snd (rd_read read_block bs s n))) /\ length (fst (rd_read read_block bs s n)) = n /\ (length (snd (snd (rd_read read_block bs s n))) < bs)%nat).
    { destruct s as [r held]. cbn [fst snd] in H, HP. unfold rd_read.
      destruct (Nat.ltb_spec n (length held)) as [L|L]; cbn [fst snd].
      - rewrite firstn_length, skipn_length. split; [exact HP|lia].
      - pose proof (Nat.div_mod (n - length held) bs ltac:(lia)) as D.
        pose proof (Nat.mod_upper_bound (n - length held) bs ltac:(lia)) as M.
        destruct (gen_length ((n - length held) / bs) r HP) as [G V].
        destruct (gen_blocks read_block ((n - length held) / bs) r) as [out r1]. cbn [fst snd] in G, V.
        destruct (Nat.eqb_spec ((n - length held) mod bs) 0) as [T|T]; cbn [fst snd length].
        + rewrite app_length. split; [exact V|lia].
        + pose proof (Hlen r1 V) as L2. pose proof (Hinv r1 V) as V2. destruct (read_block r1) as [b r2]. cbn [fst snd] in *.
          rewrite !app_length, firstn_length, skipn_length. split; [exact V2|lia]. }
    destruct (rd_read read_block bs s n) as [o s1]. cbn [fst snd] in K. destruct K as (K0 & K1 & K2).
    specialize (IH s1 K0 K2). destruct (rd_reads read_block bs s1 ns) as [os s2]. cbn [fst map] in *.
    now rewrite K1, IH.
  Qed.
End Reader.
