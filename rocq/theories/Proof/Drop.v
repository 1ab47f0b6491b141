(** Dropping the hashers erases what depends on the data. *)
From Verif Require Import Base.Words Base.Bytes Base.BlockBuffer Base.BlockBufferFacts Base.Codec Base.Digest Base.Xof Spec.Erase Model.Drop.
From Verif Require Model.Belt Model.Blake2 Model.Gost94 Model.K12 Model.Md2 Model.Sha1Checked Model.Sha3 Model.Shabal Model.Skein
  Model.Streebog Model.Whirlpool.
From Verif Require Model.Sha1 Model.Sha2 Model.Sm3 Model.Md4 Model.Md5 Model.Ripemd Model.Tiger Model.Groestl Model.Kupyna Model.Fsb Model.Jh.
From Verif Require Proof.Blake2.

Lemma zeroize_zero l : Forall (eq 0) (zeroize l).
Proof. apply Forall_forall. intros x H. apply in_map_iff in H as (y & <- & _). reflexivity. Qed.
Lemma zeroize_length l : length (zeroize l) = length l.
Proof. apply map_length. Qed.
Lemma nth_zero l j : Forall (eq 0) l -> nth j l 0 = 0.
Proof. intros H. destruct (Nat.lt_ge_cases j (length l)) as [L|L]; [|now apply nth_overflow]. symmetry. now apply (proj1 (Forall_nth (eq 0) l) H). Qed.
Lemma erases_const {S} (P : S -> Prop) fields drop :
  (forall s, P s -> map (@length N) (fields (drop s)) = map (@length N) (fields s)) ->
  (forall s i, P s -> Forall (eq 0) (nth i (fields (drop s)) []) \/ (forall s1 s2, P s1 -> P s2 -> nth i (fields s1) [] = nth i (fields s2) [])) ->
  erases P fields drop.
Proof.
  intros HL HZ s Ps. split; [now apply HL|]. intros i j (s1 & s2 & P1 & P2 & D). unfold word in *. destruct (HZ s i Ps) as [Z|Q].
  - now apply nth_zero.
  - exfalso. apply D. now rewrite (Q s1 s2 P1 P2).
Qed.
Lemma erases_all {S} (P : S -> Prop) fields drop :
  (forall s, map (@length N) (fields (drop s)) = map (@length N) (fields s)) ->
  (forall s, Forall (Forall (eq 0)) (fields (drop s))) -> erases P fields drop.
Proof.
  intros HL HZ. apply erases_const; [intros s _; apply HL|]. intros s i _. left.
  destruct (Nat.lt_ge_cases i (length (fields (drop s)))) as [L|L]; [|now rewrite nth_overflow].
  now apply (proj1 (Forall_nth _ _) (HZ s)).
Qed.
Ltac shape := intros; cbn; rewrite ?zeroize_length; reflexivity.
Ltac cleared := intros; repeat (constructor; try apply zeroize_zero).
Lemma counted_complete : complete counted_fields.
Proof. intros [l n] [l' n'] E. injection E as -> ->. reflexivity. Qed.
Lemma counted_erases (P : list N * N -> Prop) : erases P counted_fields counted_drop.
Proof. apply erases_all; [shape|cleared]. Qed.
Lemma pair_complete : complete pair_fields.
Proof. intros [l n] [l' n'] E. injection E as -> ->. reflexivity. Qed.
Lemma pair_erases P : erases P pair_fields pair_drop.
Proof. apply erases_all; [shape|cleared]. Qed.
Lemma triple_complete : complete triple_fields.
Proof. intros [[a b] c] [[a' b'] c'] E. injection E as -> -> ->. reflexivity. Qed.
Lemma triple_erases P : erases P triple_fields triple_drop.
Proof. apply erases_all; [shape|cleared]. Qed.
Lemma belt_complete : complete belt_fields.
Proof. intros [[a b] c] [[a' b'] c'] E. injection E as -> -> ->. reflexivity. Qed.
Lemma belt_erases P : erases P belt_fields belt_drop.
Proof. apply erases_all; [shape|cleared]. Qed.
Lemma shabal_complete : complete shabal_fields.
Proof. intros [a b c w] [a' b' c' w'] E. injection E as -> -> -> ->. reflexivity. Qed.
Lemma shabal_erases P : erases P shabal_fields shabal_drop.
Proof. apply erases_all; [shape|cleared]. Qed.
Lemma skein_complete : complete skein_fields.
Proof. intros [a b c] [a' b' c'] E. injection E as -> -> ->. reflexivity. Qed.
Lemma skein_erases P : erases P skein_fields skein_drop.
Proof. apply erases_all; [shape|cleared]. Qed.
Lemma sha3_complete : complete sha3_fields.
Proof. intros a b E. injection E as ->. reflexivity. Qed.
Lemma sha3_erases P : erases P sha3_fields sha3_drop.
Proof. apply erases_all; [shape|cleared]. Qed.
Lemma cshake_complete : complete cshake_fields.
Proof. intros [[a b] c] [[a' b'] c'] E. injection E as -> -> ->. reflexivity. Qed.
Lemma cshake_erases P : erases P cshake_fields cshake_drop.
Proof. apply erases_all; intros [[a b] c]; [shape|cleared]. Qed.

(** ** Invariants of all reachable values *)
Lemma digest_blocks_keeps {S} (I : S -> Prop) compress k bs s data input s' d :
  (forall s bl s', I s -> compress s bl = Some s' -> I s') -> I s -> digest_blocks compress k bs s data input = Some (s', d) -> I s'.
Proof.
  intros K H. unfold digest_blocks. destruct (pos_ok _ _ _); [intros [= <- _]; exact H|].
  destruct (if (length data =? 0)%nat then _ else _) as [[s1 i1]|] eqn:E1; [|discriminate]. cbn [obind].
  assert (H1 : I s1).
  { destruct (length data =? 0)%nat; [injection E1 as <- _; exact H|]. destruct (compress s [_]) as [t|] eqn:E; [|discriminate].
    injection E1 as <- _. exact (K _ _ _ H E). }
  cbv zeta. set (nb := n_blocks k bs (length i1)). clearbody nb.
  destruct (nb =? 0)%nat; cbn [obind]; [intros [= <- _]; exact H1|].
  destruct (compress s1 _) as [s2|] eqn:E2; cbn [obind]; [|discriminate]. intros [= <- _]. exact (K _ _ _ H1 E2).
Qed.
Lemma reachable_keeps C (I : cst C -> Prop) : c_codec C = None -> I (c_init C) ->
  (forall m s bl s', I s -> c_update C m s bl = Some s' -> I s') ->
  (forall m s buf out s', I s -> c_final C m s buf = Some (out, s') -> I s') ->
  (forall s, I s -> I (fst (c_reset C s))) -> forall s, core_reachable C s -> I s.
Proof.
  intros HC H0 HU HF HR s [buf R]. change s with (fst (s, buf)). revert R. generalize (s, buf). clear s buf. intros h R.
  induction R as [|m h b h' R IH B E|h R IH|m h out s R IH E|cd b h E B D].
  - exact H0.
  - unfold h_update in E. destruct h' as [s' d]. exact (digest_blocks_keeps I _ _ _ _ _ _ _ _ (HU m) IH E).
  - exact (HR _ IH).
  - exact (HF _ _ _ _ _ IH E).
  - rewrite HC in E. discriminate.
Qed.

(** ** BLAKE2 *)
Lemma blake2_h0 P m bl : forall s s', Model.Blake2.update_blocks P m s bl = Some s' -> Model.Blake2.b_h0 s' = Model.Blake2.b_h0 s.
Proof.
  induction bl as [|b bl IH]; intros s s'; cbn [Model.Blake2.update_blocks]; [now intros [= <-]|].
  destruct (cadd m 64 _ _); [|discriminate]. cbn [obind]. intros E. now rewrite (IH _ _ E).
Qed.
Lemma final_h0 P m s buf out s' : Model.Blake2.finalize_variable_core P m s buf = Some (out, s') -> Model.Blake2.b_h0 s' = Model.Blake2.b_h0 s.
Proof. unfold Model.Blake2.finalize_variable_core. destruct (cadd m 64 _ _); [|discriminate]. cbn [obind]. now intros [= _ <-]. Qed.
Lemma blake2_complete : complete blake2_fields.
Proof.
  intros [[[[[a b] c] d] [[[e f] g] h]] t [[[[a1 b1] c1] d1] [[[e1 f1] g1] h1]]]
    [[[[[a' b'] c'] d'] [[[e' f'] g'] h']] t' [[[[a1' b1'] c1'] d1'] [[[e1' f1'] g1'] h1']]] E.
  injection E. intros. now subst.
Qed.
Lemma v8_length v : length (v8_list v) = 8%nat.
Proof. destruct v as [[[[a b] c] d] [[[e f] g] h]]. reflexivity. Qed.
Lemma blake2_erases P ini ibuf nn : drop_erases (Model.Blake2.blake2_core P ini ibuf nn) blake2_fields blake2_drop.
Proof.
  split; [exact blake2_complete|]. apply erases_const.
  - intros s _. cbn [blake2_fields map blake2_drop Model.Blake2.b_h Model.Blake2.b_t Model.Blake2.b_h0]. now rewrite !v8_length.
  - assert (K : forall s, core_reachable (Model.Blake2.blake2_core P ini ibuf nn) s -> Model.Blake2.b_h0 s = Model.Blake2.b_h0 ini).
    { apply reachable_keeps; cbn [c_codec c_init c_update c_final c_reset Model.Blake2.blake2_core]; try reflexivity.
      - intros m s bl s' H E. now rewrite (blake2_h0 _ _ _ _ _ E).
      - intros m s buf out s' H E. destruct (Model.Blake2.finalize_variable_core P m s buf) as [[o s1]|] eqn:E1; [|discriminate].
        injection E as _ <-. now rewrite (final_h0 _ _ _ _ _ _ E1).
      - intros s H. exact H. }
    intros s [|[|[|i]]] _.
    + left. repeat constructor.
    + left. repeat constructor.
    + right. intros s1 s2 H1 H2. cbn [nth blake2_fields]. now rewrite (K _ H1), (K _ H2).
    + left. cbn. destruct i; constructor.
Qed.

(** ** KangarooTwelve *)
Section K12.
  Import Model.K12.
  Lemma chaining_cust m s s' : process_chaining_chunk m s = Some s' -> customization s' = customization s.
  Proof.
    unfold process_chaining_chunk. destruct (dassert _ _); [|discriminate]. cbn [obind].
    destruct (if chain_length s =? 1 then _ else _); [|discriminate]. cbn [obind].
    destruct (t_update _ m (chain_tshk s) _); [|discriminate]. cbn [obind]. destruct (t_finalize_reset _ m _) as [[rd ct]|]; [|discriminate].
    cbn [obind]. destruct (t_update _ m _ _); [|discriminate]. now intros [= <-].
  Qed.
  Lemma chunk_cust m s s' : process_chunk m s = Some s' -> customization s' = customization s.
  Proof.
    unfold process_chunk. destruct (dassert _ _); [|discriminate]. cbn [obind].
    destruct (if chain_length s =? 0 then _ else _) as [s1|] eqn:E; [|discriminate]. cbn [obind].
    assert (C : customization s1 = customization s).
    { destruct (chain_length s =? 0); [|exact (chaining_cust _ _ _ E)]. destruct (t_update _ m _ _); [|discriminate]. now injection E as <-. }
    destruct (cadd m 64 _ 1); [|discriminate]. cbn [obind]. now intros [= <-].
  Qed.
  Lemma update_cust m bl : forall s s', update_blocks m s bl = Some s' -> customization s' = customization s.
  Proof.
    induction bl as [|b bl IH]; intros s s'; cbn [update_blocks]; [now intros [= <-]|]. unfold update_block.
    destruct (if (bufpos s =? CHUNK_SIZE)%nat then _ else _) as [s1|] eqn:E; [|discriminate]. cbn [obind].
    assert (C : customization s1 = customization s).
    { destruct (bufpos s =? CHUNK_SIZE)%nat; [exact (chunk_cust _ _ _ E)|now injection E as <-]. }
    destruct (splice _ _ _); [|discriminate]. cbn [obind]. intros E1. rewrite (IH _ _ E1). exact C.
  Qed.
  Lemma final_cust m s buf r s' : finalize_xof_core m s buf = Some (r, s') -> customization s' = customization s.
  Proof.
    unfold finalize_xof_core. set (I := fun t => customization t = customization s).
    assert (KI : forall m t bl t', I t -> update_blocks m t bl = Some t' -> I t').
    { intros m0 t bl t' H E. unfold I in *. now rewrite (update_cust _ _ _ _ E). }
    destruct (digest_blocks _ _ _ s buf _) as [[s1 b1]|] eqn:E1; [|discriminate]. cbn [obind].
    pose proof (digest_blocks_keeps I _ _ _ _ _ _ _ _ (KI m) (eq_refl : I s) E1) as I1. destruct (length_encode _) as [le|]; [|discriminate]. cbn [obind].
    destruct (digest_blocks _ _ _ s1 b1 _) as [[s2 b2]|] eqn:E2; [|discriminate]. cbn [obind].
    pose proof (digest_blocks_keeps I _ _ _ _ _ _ _ _ (KI m) I1 E2) as I2.
    destruct (if _ && _ then _ else _) as [s3|] eqn:E3; [|discriminate]. cbn [obind].
    assert (I3 : I s3).
    { destruct (_ && _); [|now injection E3 as <-]. unfold I. now rewrite (chunk_cust _ _ _ E3). }
    destruct (splice _ _ _) as [b|]; [|discriminate]. cbn [obind]. cbn [chain_length].
    destruct (chain_length s3 =? 0).
    - destruct (t_new 7); [|discriminate]. cbn [obind]. destruct (t_update _ m _ _); [|discriminate]. cbn [obind].
      destruct (t_finalize_reset _ m _) as [[rd t']|]; [|discriminate]. cbn [obind]. intros [= _ <-]. exact I3.
    - destruct (process_chaining_chunk m _) as [s4|] eqn:E4; [|discriminate]. cbn [obind]. apply chaining_cust in E4. cbn [customization] in E4.
      destruct (length_encode _); [|discriminate]. cbn [obind]. destruct (t_update _ m _ _); [|discriminate]. cbn [obind].
      destruct (t_update _ m _ _); [|discriminate]. cbn [obind]. destruct (t_finalize_reset _ m _) as [[rd t']|]; [|discriminate].
      cbn [obind]. intros [= _ <-]. cbn [customization]. rewrite E4. exact I3.
  Qed.
  Lemma k12_erases cust ns : erases (core_reachable (xof_core (K12 cust) ns)) k12_fields k12_drop.
  Proof.
    apply erases_const.
    - intros s _. unfold k12_fields, k12_drop. cbn. now rewrite !zeroize_length.
    - assert (K : forall s, core_reachable (xof_core (K12 cust) ns) s -> customization s = cust).
      { apply reachable_keeps.
        - reflexivity.
        - reflexivity.
        - intros m s bl s' H E. change (update_blocks m s bl = Some s') in E. now rewrite (update_cust _ _ _ _ E).
        - intros m s buf out s' H E. cbn [c_final xof_core] in E. change (x_final (K12 cust)) with finalize_xof_core in E.
          destruct (finalize_xof_core m s buf) as [[r s1]|] eqn:E1; [|discriminate].
          cbn [obind] in E. injection E as _ <-. now rewrite (final_cust _ _ _ _ _ E1).
        - intros s H. exact H. }
      intros s [|i] H.
      + right. intros s1 s2 H1 H2. cbn [nth k12_fields app]. now rewrite (K _ H1), (K _ H2).
      + left. do 7 (destruct i as [|i]; [cbn; first [apply zeroize_zero | repeat constructor]|]). cbn. destruct i; constructor.
  Qed.
End K12.

(** ** The BLAKE2 MACs *)
Section Mac.
  Import Model.Blake2.
  Context (P : b2p) (V : Spec.BLAKE2.variant) (SV : Proof.Blake2.same P V).
  Let BP : (0 < BLOCK P)%nat.
  Proof. destruct (Proof.Blake2.s_two _ _ SV) as [(_ & _ & _ & -> & _)|(_ & _ & _ & -> & _)]; lia. Qed.
  Lemma copy_length n k b : copy_into n k = Some b -> length b = n.
  Proof. unfold copy_into. destruct (Nat.leb_spec (length k) n); [|discriminate]. intros [= <-]. rewrite app_length, zeros_length. lia. Qed.
  Lemma mac_buffer nn klen salt persona s : mac_reachable P nn klen salt persona s -> (length (m_buf s) <= BLOCK P)%nat.
  Proof using BP.
    induction 1 as [key s L B E|m s b s' H IH B E|m s out s' H IH E|s s' H IH E].
    - unfold new_with_salt_and_personal in E. destruct (_ || _); [discriminate|].
      destruct (copy_into (BLOCK P) key) as [b|] eqn:E1; [|discriminate]. cbn [obind] in E.
      destruct (new_with_params P salt persona (length key) nn); [|discriminate]. cbn [obind] in E.
      destruct (copy_into (BYTES P) key); [|discriminate]. cbn [obind or_panic] in E. injection E as <-. cbn [m_buf]. now rewrite (copy_length _ _ _ E1).
    - unfold mac_update in E.
      rewrite (digest_blocks_spec (update_blocks P m) (fun _ => True) Lazy (BLOCK P) BP) in E; try exact I.
      + destruct (update_blocks P m _ _); [|discriminate]. cbn [obind] in E. injection E as <-. cbn [m_buf].
        apply (krem_tail_ok Lazy (BLOCK P) _ BP).
      + intros; reflexivity.
      + intros t a c _. apply Proof.Blake2.update_app.
      + intros; exact I.
      + cbn [pos_ok]. now apply Nat.leb_le.
    - unfold mac_finalize in E. destruct (finalize_variable_core _ _ _ _) as [[o c]|]; [|discriminate]. cbn [obind] in E. injection E as _ <-. cbn. lia.
    - unfold mac_reset in E. destruct (m_key s) as [k|].
      + destruct (copy_into (BLOCK P) k) as [b|] eqn:E1; [|discriminate]. cbn [obind] in E. injection E as <-. cbn [m_buf]. now rewrite (copy_length _ _ _ E1).
      + cbn [obind] in E. injection E as <-. cbn. lia.
  Qed.
  Lemma mac_erases nn klen salt persona : erases (mac_reachable P nn klen salt persona) (mac_fields_no_reset (BLOCK P)) mac_drop.
  Proof using BP.
    apply erases_const.
    - intros s H. apply mac_buffer in H. unfold mac_fields_no_reset, mac_drop, pad_with_zeros. cbn [map m_core m_buf length].
      rewrite !v8_length, !app_length, !zeros_length. cbn [length]. f_equal. f_equal. f_equal. lia.
    - intros s [|[|[|i]]] _; left; try (repeat constructor; fail).
      + cbn [nth mac_fields_no_reset mac_drop m_buf length]. constructor; [reflexivity|]. unfold pad_with_zeros. cbn [app].
        apply Forall_forall. intros x Hx. apply repeat_spec in Hx. now symmetry.
      + cbn. destruct i; constructor.
  Qed.
  Lemma mac_refuted nn klen salt persona : (nn <= BYTES P)%nat -> (0 < klen <= BYTES P)%nat ->
    (length salt <= BYTES P / 4)%nat -> (length persona <= BYTES P / 4)%nat ->
    ~ erases (mac_reachable P nn klen salt persona) (mac_fields (BLOCK P)) mac_drop.
  Proof using SV.
    intros Hn Hk Hs Hp E.
    assert (K : forall x, x < 256 -> exists s,
      mac_reachable P nn klen salt persona s /\ word (mac_fields (BLOCK P)) s 4 0 = x /\ word (mac_fields (BLOCK P)) (mac_drop s) 4 0 = x).
    { intros x Hx. set (key := x :: zeros (klen - 1)).
      assert (Lk : length key = klen) by (cbn [length key]; rewrite zeros_length; lia).
      destruct (Proof.Blake2.wsp_ok P V nn (Some key) salt persona SV) as (h & Eh & _).
      - split; [exact Hn|]. split; [rewrite Lk; exact Hk|]. split; assumption.
      - eexists. split; [|split].
        + refine (mac_new P nn klen salt persona key _ Lk _ Eh). constructor; [exact Hx|apply zeros_ok].
        + unfold word. cbn [mac_fields blake2_fields app nth m_core m_key]. reflexivity.
        + unfold word. cbn [mac_drop mac_fields blake2_fields app nth m_core m_key]. reflexivity. }
    destruct (K 1 eq_refl) as (s1 & R1 & W1 & D1). destruct (K 2 eq_refl) as (s2 & R2 & W2 & D2).
    destruct (E s1 R1) as [_ Z]. specialize (Z 4%nat 0%nat). rewrite D1 in Z.
    assert (Q : 1 = 0); [|discriminate]. apply Z. exists s1, s2. rewrite W1, W2. repeat split; (assumption || discriminate).
  Qed.
End Mac.

(** ** sha1-checked *)
Section Checked.
  Import Model.Sha1Checked.
  Lemma update_one h d block : exists h' d', sha1c_update Checked ((h, d), 0) [block] = Some ((h', d'), 1).
  Proof.
    unfold sha1c_update. change (cadd Checked 64 0 (N.of_nat (length [block]))) with (Some 1). cbn [obind].
    destruct d as [d|]; [destruct (compress h d [block]) as [h' d']|]; eexists; eexists; reflexivity.
  Qed.
  Lemma sha1c_not_erased b : ~ erases (core_reachable (Sha1Checked b)) sha1c_fields sha1c_drop.
  Proof.
    intros E.
    assert (R0 : core_reachable (Sha1Checked b) (c_init (Sha1Checked b))) by (exists []; exact (at_new (Sha1Checked b))).
    assert (R1 : exists h d, core_reachable (Sha1Checked b) ((h, d), 1)).
    { destruct (update_one INITIAL_H (into_detection_state b) (zeros 64)) as (h & d & U). exists h, d, [].
      refine (at_update _ Checked _ (zeros 64) _ (at_new _) _ _); [apply zeros_ok|].
      unfold h_update, h_new, digest_blocks. cbn [fst snd Sha1Checked c_init c_ibuf c_update c_kind c_bs length Nat.sub].
      rewrite zeros_length. change (pos_ok Eager 64 64) with false. cbn [Nat.eqb obind n_blocks].
      rewrite zeros_length. change (64 / 64 =? 0)%nat with false. cbv iota.
      replace (chunks 64 (firstn (64 / 64 * 64) (zeros 64))) with [zeros 64] by reflexivity.
      rewrite U. reflexivity. }
    destruct R1 as (h & d & R1). destruct (E _ R1) as [_ Z]. specialize (Z 1%nat 0%nat).
    assert (Q : 1 = 0); [|discriminate]. apply Z. exists ((h, d), 1), (c_init (Sha1Checked b)). split; [exact R1|]. split; [exact R0|]. discriminate.
  Qed.
  (** What finalization leaves in memory is the digest. *)
  Lemma sha1c_leaks b m s buf out s' : c_final (Sha1Checked b) m s buf = Some (out, s') ->
    words_to_be 4 (nth 0 (sha1c_fields (sha1c_drop s')) []) = out.
  Proof.
    cbn [c_final Sha1Checked]. destruct s as [[h d] n]. unfold finalize_inner. destruct (cmul m 64 64 n) as [t|]; [|now destruct d]. cbn [obind]. destruct d as [d|].
    - destruct (finalize m h t buf d) as [[h1 d1]|]; [|discriminate]. cbn [obind]. now intros [= <- <-].
    - destruct (cadd m 64 _ t); [|discriminate]. cbn [obind]. destruct (cmul m 64 8 _); [|discriminate]. cbn [obind]. now intros [= <- <-].
  Qed.
  Lemma detection_erases s :
    map (@length N) (detection_fields (detection_drop s)) = map (@length N) (detection_fields s) /\
    forall i j, (4 <= i)%nat -> word detection_fields (detection_drop s) i j = 0.
  Proof.
    split; [unfold detection_fields, detection_drop; cbn; now rewrite !zeroize_length|].
    intros i j Hi. do 4 (destruct i as [|i]; [lia|]). unfold word. apply nth_zero.
    do 6 (destruct i as [|i]; [apply zeroize_zero|]). cbn. destruct i; constructor.
  Qed.
End Checked.

(** ** What the fields shown leave out *)
Lemma k12_whole s s' : k12_fields s = k12_fields s' ->
  snd (Model.K12.final_tshk s) = snd (Model.K12.final_tshk s') -> snd (Model.K12.chain_tshk s) = snd (Model.K12.chain_tshk s') -> s = s'.
Proof.
  destruct s as [c b p [[f g] fb] [[h i] hb] n], s' as [c' b' p' [[f' g'] fb'] [[h' i'] hb'] n'].
  unfold k12_fields, counted_fields. cbn. intros E F G. injection E as -> -> P -> -> -> -> ->. apply Nnat.Nat2N.inj in P. now subst.
Qed.
Lemma mac_no_reset_whole bs s s' : mac_fields_no_reset bs s = mac_fields_no_reset bs s' ->
  Model.Blake2.b_h (Model.Blake2.m_core s) = Model.Blake2.b_h (Model.Blake2.m_core s') /\
  Model.Blake2.b_t (Model.Blake2.m_core s) = Model.Blake2.b_t (Model.Blake2.m_core s') /\
  Model.Blake2.m_buf s = Model.Blake2.m_buf s'.
Proof.
  destruct s as [[[[[[a b] c] d] [[[e f] g] h]] t h0] u k], s' as [[[[[[a' b'] c'] d'] [[[e' f'] g'] h']] t' h0'] u' k'].
  unfold mac_fields_no_reset, pad_with_zeros. cbn. intros E. injection E. intros B L. intros. subst.
  repeat split; try reflexivity. apply Nnat.Nat2N.inj in L. rewrite L in B. apply app_inv_tail in B. exact B.
Qed.
Lemma mac_whole bs s s' : mac_fields bs s = mac_fields bs s' -> Model.Blake2.m_key s <> Some [] -> Model.Blake2.m_key s' <> Some [] -> s = s'.
Proof.
  destruct s as [[[[[[a b] c] d] [[[e f] g] h]] t [[[[a1 b1] c1] d1] [[[e1 f1] g1] h1]]] u k].
  destruct s' as [[[[[[a' b'] c'] d'] [[[e' f'] g'] h']] t' [[[[a1' b1'] c1'] d1'] [[[e1' f1'] g1'] h1']]] u' k'].
  unfold mac_fields, pad_with_zeros. cbn. intros E K K'. injection E. intros Y B L. intros. subst.
  apply Nnat.Nat2N.inj in L. rewrite L in B. apply app_inv_tail in B. subst u'. f_equal.
  destruct k as [k|], k' as [k'|]; subst; congruence.
Qed.
Section MacKey.
  Import Model.Blake2.
  Lemma copied n k b : copy_into n k = Some b -> b = k ++ repeat 0 (n - length k)%nat /\ length b = n.
  Proof. unfold copy_into. destruct (Nat.leb_spec (length k) n); [|discriminate]. intros [= <-]. split; [reflexivity|]. rewrite app_length, zeros_length. lia. Qed.
  Lemma started P nn key salt persona s : new_with_salt_and_personal P nn (Some key) salt persona = Ok s ->
    exists k, copy_into (BYTES P) key = Some k /\ m_key s = Some k.
  Proof.
    unfold new_with_salt_and_personal. destruct (_ || _); [discriminate|].
    destruct (copy_into (BLOCK P) key); [|discriminate]. cbn [obind].
    destruct (new_with_params P salt persona (length key) nn); [|discriminate]. cbn [obind].
    destruct (copy_into (BYTES P) key) as [k|]; [|discriminate]. cbn [obind or_panic]. intros [= <-]. now exists k.
  Qed.
  Lemma started_slice P nn key s : new_from_slice P nn key = Ok s -> exists k, copy_into (BYTES P) key = Some k /\ m_key s = Some k.
  Proof.
    unfold new_from_slice. destruct (_ <? _)%nat; [discriminate|].
    destruct (copy_into (BLOCK P) key); [|discriminate]. cbn [obind].
    destruct (new_with_params P [] [] (length key) nn); [|discriminate]. cbn [obind].
    destruct (copy_into (BYTES P) key) as [k|]; [|discriminate]. cbn [obind or_panic]. intros [= <-]. now exists k.
  Qed.
  Lemma update_key P m s b s' : mac_update P m s b = Some s' -> m_key s' = m_key s.
  Proof. unfold mac_update. destruct (digest_blocks _ _ _ _ _ _) as [[c b']|]; [|discriminate]. cbn [obind]. now intros [= <-]. Qed.
  Lemma final_key P nn m s out s' : mac_finalize P nn m s = Some (out, s') -> m_key s' = m_key s.
  Proof. unfold mac_finalize. destruct (finalize_variable_core _ _ _ _) as [[o c]|]; [|discriminate]. cbn [obind]. now intros [= _ <-]. Qed.
  Lemma reset_key P s s' : mac_reset P s = Some s' -> m_key s' = m_key s.
  Proof. unfold mac_reset. destruct (match m_key s with Some _ => _ | None => _ end); [|discriminate]. cbn [obind]. now intros [= <-]. Qed.
  Lemma later_key P nn s0 s : mac_later P nn s0 s -> m_key s = m_key s0.
  Proof.
    induction 1 as [|m s b s' H IH E|m s out s' H IH E|s s' H IH E]; [reflexivity|..]; rewrite <- IH;
      [exact (update_key _ _ _ _ _ E)|exact (final_key _ _ _ _ _ _ E)|exact (reset_key _ _ _ E)].
  Qed.
  Lemma reachable_key P nn klen salt persona s : mac_reachable P nn klen salt persona s -> exists k, m_key s = Some k /\ length k = BYTES P.
  Proof.
    induction 1 as [key s L B E|m s b s' H IH B E|m s out s' H IH E|s s' H IH E].
    - destruct (started _ _ _ _ _ _ E) as (k & C & K). exists k. split; [exact K|]. exact (proj2 (copied _ _ _ C)).
    - now rewrite (update_key _ _ _ _ _ E).
    - now rewrite (final_key _ _ _ _ _ _ E).
    - now rewrite (reset_key _ _ _ E).
  Qed.
  Lemma mac_whole_reachable P bs nn klen salt persona s s' : (0 < BYTES P)%nat ->
    mac_reachable P nn klen salt persona s -> mac_reachable P nn klen salt persona s' -> mac_fields bs s = mac_fields bs s' -> s = s'.
  Proof.
    intros H R R' E. destruct (reachable_key _ _ _ _ _ _ R) as (k & K & L). destruct (reachable_key _ _ _ _ _ _ R') as (k' & K' & L').
    apply (mac_whole bs _ _ E); [rewrite K|rewrite K']; intros [= ->]; cbn in *; lia.
  Qed.
  Lemma key_stays P bs nn key s0 s : ((exists salt persona, new_with_salt_and_personal P nn (Some key) salt persona = Ok s0) \/ new_from_slice P nn key = Ok s0) ->
    mac_later P nn s0 s -> nth 4 (mac_fields bs (mac_drop s)) [] = key ++ repeat 0 (BYTES P - length key)%nat.
  Proof.
    intros N L. assert (Q : exists k, copy_into (BYTES P) key = Some k /\ m_key s0 = Some k).
    { destruct N as [(salt & persona & E)|E]; [exact (started _ _ _ _ _ _ E)|exact (started_slice _ _ _ _ E)]. }
    destruct Q as (k & C & K). unfold mac_fields, mac_drop, blake2_fields. cbn [app nth m_core m_key]. rewrite (later_key _ _ _ _ L), K.
    exact (proj1 (copied _ _ _ C)).
  Qed.
  Lemma mac_whole_b nn klen salt persona s s' : mac_reachable Blake2b nn klen salt persona s -> mac_reachable Blake2b nn klen salt persona s' ->
    mac_fields 128 s = mac_fields 128 s' -> s = s'.
  Proof. apply mac_whole_reachable. apply Nat.lt_0_succ. Qed.
  Lemma mac_whole_s nn klen salt persona s s' : mac_reachable Blake2s nn klen salt persona s -> mac_reachable Blake2s nn klen salt persona s' ->
    mac_fields 64 s = mac_fields 64 s' -> s = s'.
  Proof. apply mac_whole_reachable. apply Nat.lt_0_succ. Qed.
End MacKey.
Lemma sha1c_whole h d n h' d' n' : sha1c_fields ((h, d), n) = sha1c_fields ((h', d'), n') -> ((h, d), n) = ((h', d'), n').
Proof.
  assert (B : forall x y, b2n x = b2n y -> x = y) by (intros [|] [|]; (reflexivity || discriminate)).
  unfold sha1c_fields. intros E. injection E as -> -> D. f_equal. f_equal.
  destruct d as [[? ? ? ? ? ? ? ? ? ?]|], d' as [[? ? ? ? ? ? ? ? ? ?]|]; cbn in D; try discriminate; [|reflexivity].
  injection D. intros. f_equal. subst. f_equal; now apply B.
Qed.
