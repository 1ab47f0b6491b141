(** Facts about the block buffer: after any sequence of inputs, the blocks
    processed and the bytes held depend only on the concatenated input. *)
From Verif Require Import Base.Words Base.Bytes Base.BlockBuffer.
From Verif Require Export Spec.MD.

Lemma n_blocks_le k bs len : (0 < bs)%nat -> (n_blocks k bs len * bs <= len)%nat.
Proof.
  intros H. pose proof (Nat.div_mod len bs ltac:(lia)) as E.
  destruct k; cbn [n_blocks].
  - lia.
  - destruct (len =? 0)%nat; [lia|]. destruct (len mod bs =? 0)%nat; nia.
Qed.
Lemma krem_pos k bs l : (0 < bs)%nat -> pos_ok k bs (length (krem k bs l)) = true.
Proof.
  intros H. unfold krem. rewrite skipn_length.
  pose proof (Nat.div_mod (length l) bs ltac:(lia)) as E.
  pose proof (Nat.mod_upper_bound (length l) bs ltac:(lia)).
  destruct k; cbn [n_blocks pos_ok].
  - apply Nat.ltb_lt. lia.
  - apply Nat.leb_le. destruct (Nat.eqb_spec (length l) 0); [lia|].
    destruct (Nat.eqb_spec (length l mod bs) 0); nia.
Qed.
Lemma kblocks_krem k bs l : (0 < bs)%nat -> concat (kblocks k bs l) ++ krem k bs l = l.
Proof.
  intros H. unfold kblocks, krem.
  pose proof (n_blocks_le k bs (length l) H) as Hle.
  set (n := n_blocks k bs (length l)) in *.
  assert (E : remainder bs (firstn (n * bs) l) = []).
  { apply length_zero_iff_nil. rewrite remainder_length, firstn_length, Nat.min_l by lia.
    apply Nat.mod_mul; lia. }
  pose proof (concat_chunks_rem bs (firstn (n * bs) l) H) as C. rewrite E, app_nil_r in C.
  rewrite C. apply firstn_skipn.
Qed.
Lemma kblocks_length k bs l : (0 < bs)%nat -> Forall (fun b => length b = bs) (kblocks k bs l).
Proof. intros H. now apply chunks_block_length. Qed.
Lemma kblocks_count k bs l : (0 < bs)%nat -> length (kblocks k bs l) = n_blocks k bs (length l).
Proof.
  intros H. unfold kblocks. rewrite chunks_length by exact H.
  rewrite firstn_length, Nat.min_l by now apply n_blocks_le.
  apply Nat.div_mul. lia.
Qed.

(** The lazy buffer is empty only when no input has been seen. *)
Definition tail_ok (k : kind) (bs : nat) (blocks : list bytes) (t : bytes) : Prop :=
  match k with
  | Eager => (length t < bs)%nat
  | Lazy => (length t <= bs)%nat /\ (blocks <> [] -> t <> [])
  end.
Lemma krem_tail_ok k bs l : (0 < bs)%nat -> tail_ok k bs (kblocks k bs l) (krem k bs l).
Proof.
  intros H. pose proof (krem_pos k bs l H) as P. destruct k; cbn [pos_ok tail_ok] in *.
  - now apply Nat.ltb_lt.
  - apply Nat.leb_le in P. split; [exact P|]. intros N0 N1. apply N0.
    apply length_zero_iff_nil. rewrite kblocks_count by exact H.
    apply (f_equal (@length _)) in N1. unfold krem in N1. rewrite skipn_length in N1. cbn [length] in N1.
    pose proof (n_blocks_le Lazy bs (length l) H).
    cbn [n_blocks] in *. destruct (Nat.eqb_spec (length l) 0); [reflexivity|].
    pose proof (Nat.div_mod (length l) bs ltac:(lia)).
    destruct (Nat.eqb_spec (length l mod bs) 0); nia.
Qed.

(** Uniqueness of the split. *)
Lemma split_unique k bs blocks t : (0 < bs)%nat ->
  Forall (fun b => length b = bs) blocks -> tail_ok k bs blocks t ->
  kblocks k bs (concat blocks ++ t) = blocks /\ krem k bs (concat blocks ++ t) = t.
Proof.
  intros H Hb Ht.
  assert (L : length (concat blocks ++ t) = (length blocks * bs + length t)%nat).
  { rewrite app_length, (concat_length_blocks bs) by exact Hb. lia. }
  assert (N0 : n_blocks k bs (length (concat blocks ++ t)) = length blocks).
  { rewrite L. destruct k; cbn [n_blocks tail_ok] in *.
    - rewrite Nat.div_add_l by lia. rewrite Nat.div_small by exact Ht. lia.
    - destruct Ht as [Ht1 Ht2].
      destruct (Nat.eqb_spec (length blocks * bs + length t) 0) as [Z|Z].
      + destruct blocks; cbn in *; [reflexivity|nia].
      + destruct (Nat.eq_dec (length t) bs) as [E|E].
        * rewrite E. replace (length blocks * bs + bs)%nat with ((length blocks + 1) * bs)%nat by lia.
          rewrite Nat.mod_mul, Nat.div_mul by lia. cbn [Nat.eqb]. lia.
        * rewrite Nat.div_add_l, (Nat.div_small (length t)) by lia.
          rewrite Nat.add_comm, Nat.mod_add, Nat.mod_small by lia.
          destruct (Nat.eqb_spec (length t) 0) as [Z2|Z2]; [|lia].
          destruct blocks; [cbn; lia|]. exfalso. apply Ht2; [discriminate|].
          now apply length_zero_iff_nil. }
  unfold kblocks, krem. rewrite N0.
  assert (C : length (concat blocks) = (length blocks * bs)%nat).
  { rewrite (concat_length_blocks bs) by exact Hb. lia. }
  rewrite <- C. rewrite firstn_app, Nat.sub_diag, firstn_all, firstn_O, app_nil_r.
  rewrite skipn_app, Nat.sub_diag, skipn_all, skipn_O. split; [|reflexivity].
  now apply chunks_concat.
Qed.

Section Generic.
  Context {S : Type} (compress : S -> list bytes -> option S) (inv : S -> Prop).
  Context (k : kind) (bs : nat) (Hbs : (0 < bs)%nat).
  Hypothesis compress_nil : forall s, inv s -> compress s [] = Some s.
  Hypothesis compress_app : forall s a b, inv s ->
    compress s (a ++ b) = obind (compress s a) (fun s' => compress s' b).
  Hypothesis compress_inv : forall s a s', inv s -> compress s a = Some s' -> inv s'.

  Lemma digest_blocks_spec s data input :
    inv s -> pos_ok k bs (length data) = true ->
    digest_blocks compress k bs s data input =
      let* s' := compress s (kblocks k bs (data ++ input)) in Some (s', krem k bs (data ++ input)).
  Proof using Hbs compress_nil compress_app compress_inv.
    intros Hs Hd. unfold digest_blocks.
    assert (Hd' : (length data <= bs)%nat).
    { destruct k; cbn in Hd; [apply Nat.ltb_lt in Hd; lia|now apply Nat.leb_le in Hd]. }
    destruct (pos_ok k (bs - length data) (length input)) eqn:P.
    - (* everything fits in the buffer *)
      destruct (split_unique k bs [] (data ++ input) Hbs (Forall_nil _)) as [E1 E2].
      { destruct k; cbn in P |- *; rewrite app_length.
        - apply Nat.ltb_lt in P. lia.
        - apply Nat.leb_le in P. split; [lia|congruence]. }
      cbn [concat app] in E1, E2. rewrite E1, E2, compress_nil by exact Hs. reflexivity.
    - assert (P' : (bs - length data <= length input)%nat).
      { destruct k; cbn in P; [apply Nat.ltb_ge in P; lia | apply Nat.leb_gt in P; lia]. }
      destruct (Nat.eqb_spec (length data) 0) as [Z|Z].
      + apply length_zero_iff_nil in Z. subst data. cbn [app obind].
        fold (krem k bs input) (kblocks k bs input).
        destruct (Nat.eqb_spec (n_blocks k bs (length input)) 0) as [Z|Z]; cbn [obind].
        * replace (kblocks k bs input) with (@nil bytes).
          -- now rewrite compress_nil.
          -- symmetry. apply length_zero_iff_nil. now rewrite kblocks_count.
        * reflexivity.
      + set (rem := (bs - length data)%nat) in *.
        set (b1 := data ++ firstn rem input). set (in1 := skipn rem input).
        assert (Lb1 : length b1 = bs).
        { unfold b1. rewrite app_length, firstn_length. lia. }
        assert (E : data ++ input = concat (b1 :: kblocks k bs in1) ++ krem k bs in1).
        { cbn [concat]. rewrite <- app_assoc, kblocks_krem by exact Hbs.
          unfold b1, in1. now rewrite <- app_assoc, firstn_skipn. }
        destruct (split_unique k bs (b1 :: kblocks k bs in1) (krem k bs in1) Hbs) as [E1 E2].
        { constructor; [exact Lb1|now apply kblocks_length]. }
        { pose proof (krem_tail_ok k bs in1 Hbs) as T. destruct k; cbn [tail_ok] in *.
          - exact T.
          - destruct T as [T1 T2]. split; [exact T1|]. intros _ K.
            assert (in1 = []) as I.
            { rewrite <- (kblocks_krem Lazy bs in1 Hbs). rewrite K, app_nil_r.
              destruct (kblocks Lazy bs in1) as [|c cs] eqn:Q; [reflexivity|].
              exfalso. apply T2; [discriminate|exact K]. }
            apply (f_equal (@length _)) in I. unfold in1 in I. rewrite skipn_length in I.
            cbn in I, P. apply Nat.leb_gt in P. lia. }
        rewrite E, E1, E2.
        change (b1 :: kblocks k bs in1) with ([b1] ++ kblocks k bs in1).
        rewrite compress_app by exact Hs.
        destruct (compress s [b1]) as [s1|] eqn:C1; cbn [obind]; [|reflexivity].
        fold (krem k bs in1) (kblocks k bs in1).
        destruct (Nat.eqb_spec (n_blocks k bs (length in1)) 0) as [Z'|Z']; cbn [obind].
        * replace (kblocks k bs in1) with (@nil bytes).
          -- now rewrite compress_nil by (eapply compress_inv; eassumption).
          -- symmetry. apply length_zero_iff_nil. now rewrite kblocks_count.
        * reflexivity.
  Qed.

  (** Continuing from the state reached on [l]. *)
  Lemma kblocks_continue s l input :
    inv s ->
    (let* s1 := compress s (kblocks k bs l) in
     digest_blocks compress k bs s1 (krem k bs l) input)
    = let* s' := compress s (kblocks k bs (l ++ input)) in Some (s', krem k bs (l ++ input)).
  Proof using Hbs compress_nil compress_app compress_inv.
    intros Hs.
    set (r := krem k bs l).
    assert (E : l ++ input = concat (kblocks k bs l ++ kblocks k bs (r ++ input)) ++ krem k bs (r ++ input)).
    { rewrite concat_app, <- app_assoc, kblocks_krem by exact Hbs.
      rewrite app_assoc. f_equal. symmetry. now apply kblocks_krem. }
    destruct (split_unique k bs (kblocks k bs l ++ kblocks k bs (r ++ input)) (krem k bs (r ++ input)) Hbs) as [E1 E2].
    { apply Forall_app. split; now apply kblocks_length. }
    { pose proof (krem_tail_ok k bs (r ++ input) Hbs) as T. destruct k; cbn [tail_ok] in *; [exact T|].
      destruct T as [T1 T2]. split; [exact T1|]. intros NE K.
      assert (kblocks Lazy bs (r ++ input) = []) as B.
      { destruct (kblocks Lazy bs (r ++ input)); [reflexivity|]. exfalso. apply T2; [discriminate|exact K]. }
      rewrite B, app_nil_r in NE.
      pose proof (krem_tail_ok Lazy bs l Hbs) as [T3 T4]. specialize (T4 NE).
      pose proof (kblocks_krem Lazy bs (r ++ input) Hbs) as Q. rewrite B, K in Q. cbn in Q.
      symmetry in Q. apply app_eq_nil in Q. now apply T4. }
    rewrite E, E1, E2, compress_app by exact Hs.
    destruct (compress s (kblocks k bs l)) as [s1|] eqn:C1; cbn [obind]; [|reflexivity].
    apply digest_blocks_spec.
    - eapply compress_inv; eassumption.
    - now apply krem_pos.
  Qed.
End Generic.

(** ** Padding *)
Lemma zpad_mod bs sl len : (0 < bs)%nat -> ((len + 1 + zpad bs sl len + sl) mod bs = 0)%nat.
Proof.
  intros H. unfold zpad.
  replace (len + 1 + (bs - (len + 1 + sl) mod bs) mod bs + sl)%nat
    with ((len + 1 + sl) + (bs - (len + 1 + sl) mod bs) mod bs)%nat by lia.
  rewrite Nat.add_mod_idemp_r by lia.
  pose proof (Nat.div_mod (len + 1 + sl) bs ltac:(lia)) as E.
  pose proof (Nat.mod_upper_bound (len + 1 + sl) bs ltac:(lia)).
  replace (len + 1 + sl + (bs - (len + 1 + sl) mod bs))%nat
    with ((1 + (len + 1 + sl) / bs) * bs)%nat by lia.
  apply Nat.mod_mul. lia.
Qed.

Lemma pad_blocks_length bs delim suffix data :
  (length data < bs)%nat -> (length suffix <= bs)%nat ->
  Forall (fun b => length b = bs) (pad_blocks bs delim suffix data).
Proof.
  intros Hd Hs. unfold pad_blocks.
  destruct (bs - length data - 1 <? length suffix)%nat; repeat constructor;
    rewrite ?app_length, ?firstn_length, ?app_length; cbn [length]; rewrite ?app_length, ?zeros_length; lia.
Qed.

(** The padded blocks are the blocks of [message ++ delim ++ zeros ++ suffix]. *)
Lemma pad_blocks_spec bs delim suffix data :
  (length data < bs)%nat -> (length suffix < bs)%nat ->
  concat (pad_blocks bs delim suffix data)
  = data ++ [delim] ++ zeros (zpad bs (length suffix) (length data)) ++ suffix.
Proof.
  intros Hd Hs. unfold pad_blocks.
  set (sl := length suffix) in *. set (dl := length data) in *.
  destruct (Nat.ltb_spec (bs - dl - 1) sl) as [C|C]; cbn [concat].
  - rewrite app_nil_r, <- !app_assoc. cbn [app]. do 2 f_equal.
    rewrite app_assoc. f_equal. unfold zeros. rewrite <- repeat_app. f_equal.
    unfold zpad. replace (dl + 1 + sl)%nat with ((dl + 1 + sl - bs) + 1 * bs)%nat by lia.
    rewrite Nat.mod_add by lia. rewrite (Nat.mod_small (dl + 1 + sl - bs)) by lia.
    rewrite Nat.mod_small by lia. lia.
  - rewrite app_nil_r. rewrite firstn_app.
    rewrite firstn_all2 by lia. rewrite <- app_assoc. f_equal.
    fold dl. replace (bs - sl - dl)%nat with (S (bs - sl - dl - 1)) by lia. cbn [firstn app].
    f_equal. f_equal. unfold zeros.
    assert (FR : forall a b, (a <= b)%nat -> firstn a (repeat (0:N) b) = repeat 0 a).
    { induction a as [|a IH]; intros [|b] Hab; cbn; try lia; auto. f_equal. apply IH. lia. }
    rewrite FR by lia. f_equal. unfold zpad.
    destruct (Nat.eq_dec (dl + 1 + sl) bs) as [E|E].
    + rewrite E, Nat.mod_same, Nat.sub_0_r, Nat.mod_same by lia. lia.
    + rewrite (Nat.mod_small (dl + 1 + sl)) by lia. rewrite Nat.mod_small by lia. lia.
Qed.

Lemma zpad_add_blocks bs sl n len : (0 < bs)%nat -> zpad bs sl (n * bs + len) = zpad bs sl len.
Proof.
  intros H. unfold zpad. replace (n * bs + len + 1 + sl)%nat with (len + 1 + sl + n * bs)%nat by lia.
  now rewrite Nat.mod_add by lia.
Qed.

Lemma chunks_padded bs delim suffix msg :
  (0 < bs)%nat -> (length suffix < bs)%nat ->
  chunks bs (msg ++ [delim] ++ zeros (zpad bs (length suffix) (length msg)) ++ suffix)
  = chunks bs msg ++ pad_blocks bs delim suffix (remainder bs msg).
Proof.
  intros H Hs.
  assert (Hr : (length (remainder bs msg) < bs)%nat).
  { rewrite remainder_length by exact H. apply Nat.mod_upper_bound. lia. }
  pose proof (concat_chunks_rem bs msg H) as C.
  assert (Lc : length (concat (chunks bs msg)) = (length (chunks bs msg) * bs)%nat).
  { rewrite (concat_length_blocks bs); [lia|]. now apply chunks_block_length. }
  rewrite <- C at 1 2. rewrite app_length, Lc, zpad_add_blocks by exact H.
  rewrite <- !app_assoc. rewrite chunks_app; [|exact H|].
  2:{ rewrite Lc. apply Nat.mod_mul. lia. }
  f_equal.
  - apply chunks_concat; [exact H|]. now apply chunks_block_length.
  - rewrite <- pad_blocks_spec by assumption. apply chunks_concat; [exact H|].
    apply pad_blocks_length; lia.
Qed.

Lemma kblocks_eager bs l : (0 < bs)%nat -> kblocks Eager bs l = chunks bs l.
Proof.
  intros H.
  destruct (split_unique Eager bs (chunks bs l) (remainder bs l) H) as [E _].
  - now apply chunks_block_length.
  - cbn. rewrite remainder_length by exact H. apply Nat.mod_upper_bound. lia.
  - now rewrite concat_chunks_rem in E.
Qed.
Lemma krem_eager bs l : krem Eager bs l = remainder bs l.
Proof. unfold krem, remainder. cbn [n_blocks]. f_equal. lia. Qed.

Lemma kblocks_ok k bs l : (0 < bs)%nat -> bytes_ok l -> Forall bytes_ok (kblocks k bs l).
Proof. intros H B. apply chunks_ok; [exact H|]. now apply bytes_ok_firstn. Qed.
Lemma krem_ok k bs l : bytes_ok l -> bytes_ok (krem k bs l).
Proof. apply bytes_ok_skipn. Qed.

(** ** Serialization of the buffer *)
Lemma firstn_all' {A} (a : list A) : firstn (length a) a = a.
Proof. apply firstn_all. Qed.
Lemma pos_le k bs n : pos_ok k bs n = true -> (n <= bs)%nat.
Proof. destruct k; cbn; intros P; [apply Nat.ltb_lt in P|apply Nat.leb_le in P]; lia. Qed.
Lemma buf_roundtrip k bs data : pos_ok k bs (length data) = true -> buf_deserialize k bs (buf_serialize bs data) = Some data.
Proof.
  intros P. pose proof (pos_le _ _ _ P) as L. unfold buf_serialize, buf_deserialize, buf_restore, pad_with_zeros. rewrite Nnat.Nat2N.id, P.
  rewrite app_length, zeros_length. replace (length data + (bs - length data))%nat with bs by lia.
  rewrite Nat.eqb_refl. cbn [negb]. replace (bs <? length data)%nat with false by (symmetry; apply Nat.ltb_ge; lia).
  rewrite firstn_app, firstn_all, Nat.sub_diag, firstn_O, app_nil_r. reflexivity.
Qed.
(** What an accepted buffer is: the position byte tells how many of the following bytes count. *)
Lemma buf_accepted k bs b data : buf_deserialize k bs b = Some data <->
  length b = S bs /\ pos_ok k bs (length data) = true /\ firstn (S (length data)) b = N.of_nat (length data) :: data.
Proof.
  unfold buf_deserialize, buf_restore. destruct b as [|p block].
  { split; [discriminate|]. intros (L & _). discriminate L. }
  cbn [length firstn]. destruct (Nat.eqb_spec (length block) bs) as [L|NL]; cbn [negb].
  2: { split; [discriminate|]. intros (L & _). exfalso. apply NL. now injection L. }
  destruct (Nat.ltb_spec bs (N.to_nat p)) as [G|G].
  { split; [discriminate|]. intros (_ & P & E). exfalso. injection E as E1 E2. apply pos_le in P. lia. }
  destruct (pos_ok k bs (N.to_nat p)) eqn:P.
  - split.
    + intros [= <-]. rewrite firstn_length, L, Nat.min_l by lia. rewrite N2Nat.id. split; [congruence|]. split; [exact P|reflexivity].
    + intros (_ & _ & E). injection E as E1 E2. f_equal. subst p. now rewrite Nnat.Nat2N.id.
  - split; [discriminate|]. intros (_ & P' & E). injection E as E1 E2. subst p. rewrite Nnat.Nat2N.id in P. congruence.
Qed.
Lemma buf_serialize_length k bs data : pos_ok k bs (length data) = true -> length (buf_serialize bs data) = S bs.
Proof.
  intros P. apply pos_le in P. unfold buf_serialize, pad_with_zeros. cbn [length]. f_equal. rewrite app_length, zeros_length. lia.
Qed.
