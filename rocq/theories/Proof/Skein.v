(** The skein crate computes Skein 1.3, except for the last [NO mod 8] bytes, which it leaves zero. *)
From Verif Require Import Base.Words Base.Bytes Base.ByteFacts Base.Codec Base.BlockBuffer Base.BlockBufferFacts Base.Digest Base.DigestFacts Base.MDFacts.
From Verif Require Import Spec.MD Proof.GF Model.Skein.
From Verif Require Spec.Skein Spec.Threefish.

Lemma xor_bytes_app a1 a2 b1 b2 : length a1 = length b1 -> xor_bytes (a1 ++ a2) (b1 ++ b2) = xor_bytes a1 b1 ++ xor_bytes a2 b2.
Proof.
  revert b1. induction a1 as [|x a1 IH]; intros [|y b1] L; try discriminate; [reflexivity|].
  unfold xor_bytes in *. cbn [app combine map]. f_equal. apply IH. now injection L.
Qed.
Lemma words_to_le_xor k a : forall b, length a = length b ->
  words_to_le k (xor_bytes a b) = xor_bytes (words_to_le k a) (words_to_le k b).
Proof.
  induction a as [|x a IH]; intros [|y b] L; try discriminate; [reflexivity|].
  change (xor_bytes (x :: a) (y :: b)) with (N.lxor x y :: xor_bytes a b). unfold words_to_le in *. cbn [map concat].
  rewrite xor_bytes_app by now rewrite !le_bytes_length. rewrite le_bytes_lxor. f_equal. apply IH. now injection L.
Qed.
Lemma get_xor a b i : length a = length b -> (i < length a)%nat -> get (xor_bytes a b) i = N.lxor (get a i) (get b i).
Proof.
  revert b i. induction a as [|x a IH]; intros [|y b] i L H; try discriminate; [cbn in H; lia|].
  destruct i as [|i]; [reflexivity|]. apply (IH b i); [now injection L|cbn in H; lia].
Qed.
Lemma xor_map a : forall b n, length a = n -> length b = n -> map (fun i => N.lxor (get a i) (get b i)) (seq 0 n) = xor_bytes a b.
Proof.
  intros b n La Lb. apply list_eq_get.
  - rewrite map_length, seq_length, xor_bytes_length. lia.
  - intros i Hi. rewrite map_length, seq_length in Hi. rewrite get_map_seq by exact Hi. symmetry. apply get_xor; congruence.
Qed.
Lemma xor_comm a : forall b, xor_bytes a b = xor_bytes b a.
Proof.
  induction a as [|x a IH]; intros [|y b]; try reflexivity. unfold xor_bytes in *. cbn [combine map fst snd]. rewrite N.lxor_comm. f_equal. apply IH.
Qed.
Lemma skipn_words k n ws : (n <= length ws)%nat -> firstn (k * n) (words_to_le k ws) = words_to_le k (firstn n ws).
Proof.
  revert ws. induction n as [|n IH]; intros ws L; [now rewrite Nat.mul_0_r|]. destruct ws as [|w ws]; [cbn in L; lia|].
  unfold words_to_le in *. cbn [map concat firstn]. rewrite firstn_app, le_bytes_length.
  rewrite firstn_all2 by (rewrite le_bytes_length; lia). f_equal. rewrite <- IH by (cbn in L; lia). f_equal. lia.
Qed.

Section Skein.
  Context (nw NO : nat) (E : list N -> list N -> list N -> list N).
  Context (Hnw : (4 <= nw)%nat).
  Notation NB := (8 * nw)%nat.
  Definition wk (x : list N) : Prop := length x = nw /\ words_ok 64 x.
  (** What is required of the cipher: [nw] words from [nw] words. *)
  Definition cipher_ok : Prop := forall K T P, wk K -> length T = 2%nat -> words_ok 64 T -> wk P -> wk (E K T P).
  Context (HE : cipher_ok).
  Notation Eb := (Spec.Skein.on_words E).
  Notation step := (Spec.Skein.step Eb).

  Lemma block_wk b : length b = NB -> bytes_ok b -> wk (words_of_le 8 b) /\ words_to_le 8 (words_of_le 8 b) = b.
  Proof using Hnw.
    intros L B. split; [split|].
    - rewrite words_of_le_length, L by lia. rewrite Nat.mul_comm. apply Nat.div_mul. lia.
    - exact (words_of_le_ok 8 b ltac:(lia) B).
    - now apply (words_le_canonical 8 nw); [lia| |].
  Qed.
  Lemma process_spec m s block add : wk (sx s) -> length block = NB -> bytes_ok block -> t0 s + add < 2 ^ 64 -> t1 s < 2 ^ 64 ->
    exists x', process_block NB E m s block add = Some (mkSt (t0 s + add) (N.land (t1 s) (not64 T1_FLAG_FIRST)) x') /\
      wk x' /\ words_to_le 8 x' = step (words_to_le 8 (sx s)) (t0 s + add + 2 ^ 64 * t1 s) block.
  Proof using HE Hnw.
    intros Wx L B T0 T1. unfold process_block, cadd. rewrite fit_small by exact T0. cbn [obind].
    destruct (block_wk block L B) as [Wb Eb0]. set (e := E (sx s) [t0 s + add; t1 s] (words_of_le 8 block)).
    assert (We : wk e) by (apply HE; [exact Wx|reflexivity|repeat constructor; assumption|exact Wb]).
    replace (8 * nw / 8)%nat with nw by (rewrite Nat.mul_comm, Nat.div_mul by lia; reflexivity).
    rewrite xor_map by (apply Wb || apply We). eexists. split; [reflexivity|]. split.
    - destruct Wb as [L1 O1], We as [L2 O2]. split; [rewrite xor_bytes_length; lia|]. clear - O1 O2.
      unfold xor_bytes. apply Forall_map. apply Forall_forall. intros [u v] I. pose proof (in_combine_l _ _ _ _ I) as I1. pose proof (in_combine_r _ _ _ _ I) as I2.
      cbn [fst snd]. apply (lxor_lt 64); [exact (proj1 (Forall_forall _ _) O1 u I1)|exact (proj1 (Forall_forall _ _) O2 v I2)].
    - unfold Spec.Skein.step. rewrite words_to_le_xor by (destruct Wb as [-> _], We as [-> _]; reflexivity). rewrite Eb0, xor_comm. f_equal.
      unfold Spec.Skein.on_words. unfold e. f_equal. f_equal.
      + symmetry. apply words_le_roundtrip; [lia|]. apply Wx.
      + rewrite (le_bytes_app 8 8). change (256 ^ N.of_nat 8) with (2 ^ 64).
        rewrite (N.mul_comm (2 ^ 64)), N.div_add, N.div_small, N.add_0_l by (exact T0 || discriminate).
        assert (Elo : le_bytes 8 (t0 s + add + t1 s * 2 ^ 64) = le_bytes 8 (t0 s + add)).
        { rewrite <- (le_bytes_mod 8 (_ + _ * _)). change (2 ^ (8 * N.of_nat 8)) with (2 ^ 64). rewrite N.mod_add by discriminate. f_equal. now apply N.mod_small. }
        rewrite Elo. pose proof (words_le_roundtrip 8 [t0 s + add; t1 s] ltac:(lia)) as RT. unfold words_to_le in RT. cbn [map concat] in RT.
        rewrite app_nil_r in RT. symmetry. apply RT. repeat constructor; assumption.
  Qed.

  (** ** UBI *)
  Definition t1_of (first : bool) : N := if first then N.lor T1_FLAG_FIRST T1_BLK_TYPE_MSG else T1_BLK_TYPE_MSG.
  Lemma t1_next first : N.land (t1_of first) (not64 T1_FLAG_FIRST) = t1_of false.
  Proof using. destruct first; reflexivity. Qed.
  Lemma t1_lt first : t1_of first < 2 ^ 64 /\ N.lor (t1_of first) T1_FLAG_FINAL < 2 ^ 64.
  Proof using. destruct first; split; reflexivity. Qed.
  Lemma t1_val first : 2 ^ 64 * t1_of first = Spec.Skein.T_msg + N.b2n first * 2 ^ 126.
  Proof using. destruct first; reflexivity. Qed.
  Lemma t1_fin first : 2 ^ 64 * N.lor (t1_of first) T1_FLAG_FINAL = Spec.Skein.T_msg + N.b2n first * 2 ^ 126 + 2 ^ 127.
  Proof using. destruct first; reflexivity. Qed.
  Definition last_block (m : mode) (s : st) (r : bytes) : option st :=
    process_block NB E m (mkSt (t0 s) (N.lor (t1 s) T1_FLAG_FINAL) (sx s)) (pad_with_zeros NB r) (N.of_nat (length r)).
  Lemma ubi_spec m bl : Forall (fun b => length b = NB) bl -> Forall bytes_ok bl ->
    forall fuel s first r, (length bl < fuel)%nat -> (length r <= NB)%nat -> bytes_ok r -> (bl <> [] -> r <> []) ->
    wk (sx s) -> t1 s = t1_of first -> t0 s + N.of_nat (length (concat bl ++ r)) < 2 ^ 64 ->
    exists s1 s2, update_blocks NB E m s bl = Some s1 /\ last_block m s1 r = Some s2 /\ wk (sx s2) /\
      words_to_le 8 (sx s2) = Spec.Skein.UBI_from NB Eb fuel (words_to_le 8 (sx s)) (t0 s) first (concat bl ++ r) Spec.Skein.T_msg.
  Proof using HE Hnw.
    intros FL FB. induction bl as [|b bl IH]; intros [|fuel] s first r Hf Lr Br NE Wx T1 T0; cbn [length] in Hf; try lia.
    - cbn [concat app Spec.Skein.UBI_from update_blocks] in *. exists s. destruct (Nat.leb_spec (length r) NB); [|lia].
      assert (Lp : length (pad_with_zeros NB r) = NB) by (unfold pad_with_zeros; rewrite app_length, zeros_length; lia).
      assert (Bp : bytes_ok (pad_with_zeros NB r)) by (apply bytes_ok_app; split; [exact Br|apply zeros_ok]).
      destruct (process_spec m (mkSt (t0 s) (N.lor (t1 s) T1_FLAG_FINAL) (sx s)) (pad_with_zeros NB r) (N.of_nat (length r)) Wx Lp Bp T0)
        as (x' & P1 & P2 & P3); [cbn [t1]; rewrite T1; apply t1_lt|].
      eexists. split; [reflexivity|]. split; [exact P1|]. split; [exact P2|]. cbn [sx t0 t1] in *. rewrite P3. rewrite T1, t1_fin.
      unfold Spec.Skein.zpad, pad_with_zeros. f_equal. lia.
    - apply Forall_cons_iff in FL as [Lb FL]. apply Forall_cons_iff in FB as [Bb FB].
      assert (Rn : (0 < length r)%nat) by (specialize (NE ltac:(discriminate)); destruct r; [contradiction|cbn; lia]).
      cbn [concat update_blocks Spec.Skein.UBI_from] in *. rewrite <- app_assoc in *. rewrite app_length in T0.
      destruct (Nat.leb_spec (length (b ++ concat bl ++ r)) NB) as [Q|Q]; [rewrite !app_length in Q; lia|].
      rewrite firstn_app_exact, skipn_app_exact by exact Lb.
      destruct (process_spec m s b (N.of_nat (length b)) Wx Lb Bb ltac:(lia)) as (x' & P1 & P2 & P3); [rewrite T1; apply t1_lt|].
      rewrite P1. cbn [obind]. rewrite T1, t1_next.
      destruct (IH FL FB fuel (mkSt (t0 s + N.of_nat (length b)) (t1_of false) x') false r) as (s1 & s2 & Q1 & Q2 & Q3 & Q4);
        [lia|exact Lr|exact Br|intros _ Z; rewrite Z in Rn; cbn in Rn; lia|exact P2|reflexivity|cbn [t0]; lia|].
      exists s1, s2. split; [exact Q1|]. split; [exact Q2|]. split; [exact Q3|]. rewrite Q4. cbn [sx t0]. rewrite P3, T1, t1_val, Lb. f_equal. f_equal. lia.
  Qed.

  (** ** Configuration and output *)
  Lemma wk_zeros : wk (repeat 0 nw) /\ words_to_le 8 (repeat 0 nw) = zeros NB.
  Proof using Hnw.
    split; [split; [apply repeat_length|]|].
    - apply Forall_forall. intros y Hy. apply repeat_spec in Hy. subst y. reflexivity.
    - clear. unfold words_to_le, zeros. induction nw as [|n IH]; [reflexivity|]. cbn [repeat map concat]. rewrite IH.
      replace (8 * S n)%nat with (8 + 8 * n)%nat by lia. rewrite repeat_app. reflexivity.
  Qed.
  Lemma default_spec m : N.of_nat NO < 2 ^ 61 ->
    exists x, skein_default NB NO E m = Some (mkSt 0 (N.lor T1_FLAG_FIRST T1_BLK_TYPE_MSG) x) /\ wk x /\
      words_to_le 8 x = Spec.Skein.UBI NB Eb (zeros NB) (Spec.Skein.config NO) Spec.Skein.T_cfg.
  Proof using HE Hnw.
    intros HN. unfold skein_default, cmul. rewrite fit_small by (change (2 ^ 64) with (2 ^ 61 * 8); lia). cbn [obind].
    replace (8 * nw / 8)%nat with nw by (rewrite Nat.mul_comm, Nat.div_mul by lia; reflexivity).
    destruct wk_zeros as [Wz Ez].
    set (cfg := le_bytes 8 SCHEMA_VER ++ le_bytes 8 (N.of_nat NO * 8) ++ le_bytes 8 CFG_TREE_INFO_SEQUENTIAL ++ zeros (NB - 24)).
    assert (Ecfg : cfg = Spec.Skein.zpad NB (Spec.Skein.config NO)).
    { unfold cfg, Spec.Skein.zpad, Spec.Skein.config. rewrite N.mul_comm. rewrite !app_length, !le_bytes_length, !zeros_length. cbn [length].
      change (le_bytes 8 SCHEMA_VER) with ([0x53; 0x48; 0x41; 0x33] ++ le_bytes 2 1 ++ zeros 2). change (le_bytes 8 CFG_TREE_INFO_SEQUENTIAL) with (zeros 8).
      rewrite <- !app_assoc. do 4 f_equal. unfold zeros. rewrite <- !repeat_app. f_equal. lia. }
    assert (Lc : length cfg = NB) by (unfold cfg; rewrite !app_length, !le_bytes_length, zeros_length; lia).
    assert (Bc : bytes_ok cfg) by (unfold cfg; repeat (apply bytes_ok_app; split; [apply le_bytes_ok|]); apply zeros_ok).
    destruct (process_spec m (blank_state (N.lor (N.lor T1_FLAG_FIRST T1_BLK_TYPE_CFG) T1_FLAG_FINAL) (repeat 0 nw)) cfg CFG_STR_LEN Wz Lc Bc)
      as (x' & P1 & P2 & P3); [reflexivity|reflexivity|].
    rewrite P1. cbn [obind sx]. exists x'. split; [reflexivity|]. split; [exact P2|]. rewrite P3, Ecfg. cbn [blank_state sx t0 t1]. rewrite Ez.
    unfold Spec.Skein.UBI. assert (LC : length (Spec.Skein.config NO) = 32%nat) by (unfold Spec.Skein.config; now rewrite !app_length, !le_bytes_length, !zeros_length).
    rewrite LC. cbn [Spec.Skein.UBI_from]. rewrite LC. destruct (Nat.leb_spec 32 NB); [|lia]. reflexivity.
  Qed.
  Definition B (x : list N) (i : nat) : bytes := Spec.Skein.UBI NB Eb (words_to_le 8 x) (le_bytes 8 (N.of_nat i)) Spec.Skein.T_out.
  Lemma out_chunk_spec m x i len : wk x -> (len <= NB)%nat ->
    out_chunk NB E m x i len = Some (firstn (len - len mod 8) (B x i) ++ zeros (len mod 8)) /\ length (B x i) = NB.
  Proof using HE Hnw.
    intros Wx Hl. unfold out_chunk. set (block := le_bytes 8 (N.of_nat i) ++ zeros (NB - 8)).
    assert (Lc : length block = NB) by (unfold block; rewrite !app_length, !le_bytes_length, zeros_length; lia).
    assert (Bc : bytes_ok block) by (unfold block; repeat (apply bytes_ok_app; split; [apply le_bytes_ok|]); apply zeros_ok).
    destruct (process_spec m (blank_state (N.lor (N.lor T1_FLAG_FIRST T1_BLK_TYPE_OUT) T1_FLAG_FINAL) x) block 8 Wx Lc Bc)
      as (x' & P1 & P2 & P3); [reflexivity|reflexivity|].
    rewrite P1. cbn [obind sx]. cbn [blank_state sx t0 t1] in P3.
    assert (EB : B x i = words_to_le 8 x').
    { rewrite P3. unfold B, Spec.Skein.UBI. rewrite le_bytes_length. cbn [Spec.Skein.UBI_from]. rewrite le_bytes_length.
      destruct (Nat.leb_spec 8 NB); [|lia]. unfold Spec.Skein.zpad. rewrite le_bytes_length. reflexivity. }
    rewrite EB. destruct P2 as [L' _]. split; [|now rewrite words_to_le_length, L']. do 2 f_equal.
    rewrite <- skipn_words.
    - f_equal. pose proof (Nat.div_mod_eq len 8). lia.
    - rewrite L'. apply Nat.div_le_upper_bound; lia.
  Qed.
  Definition ceil (len : nat) : nat := ((len + NB - 1) / NB)%nat.
  Lemma out_spec m x : wk x -> forall fuel i len, (len < fuel)%nat ->
    out_chunks NB E m x fuel i len = Some (firstn (len - len mod 8) (flat_map (B x) (seq i (ceil len))) ++ zeros (len mod 8)).
  Proof using HE Hnw.
    intros Wx. induction fuel as [|fuel IH]; intros i len Hf; [lia|]. cbn [out_chunks].
    destruct (Nat.eqb_spec len 0) as [->|N0].
    - cbn [Nat.modulo Nat.sub firstn app]. reflexivity.
    - destruct (out_chunk_spec m x i (min NB len) Wx ltac:(lia)) as [-> LB]. cbn [obind]. rewrite IH by lia. cbn [obind]. f_equal.
      destruct (Nat.leb_spec len NB) as [Q|Q].
      + rewrite Nat.min_r by exact Q. replace (len - NB)%nat with 0%nat by lia. cbn [Nat.modulo Nat.sub firstn app]. rewrite app_nil_r.
        assert (Ec : ceil len = 1%nat) by (unfold ceil; symmetry; apply (Nat.div_unique _ _ _ (len - 1)); lia).
        rewrite Ec. cbn [seq flat_map]. now rewrite app_nil_r.
      + rewrite Nat.min_l by lia. assert (M0 : (NB mod 8 = 0)%nat) by (rewrite Nat.mul_comm; apply Nat.mod_mul; lia). rewrite M0, Nat.sub_0_r.
        rewrite firstn_all2 by lia. cbn [zeros repeat]. rewrite app_nil_r.
        assert (Em : ((len - NB) mod 8 = len mod 8)%nat).
        { replace (len mod 8)%nat with ((len - NB + nw * 8) mod 8)%nat by (f_equal; lia). symmetry. apply Nat.mod_add. lia. }
        assert (Ec : ceil len = S (ceil (len - NB))).
        { unfold ceil. replace (len + NB - 1)%nat with (len - NB + NB - 1 + 1 * NB)%nat by lia. rewrite Nat.div_add by lia. lia. }
        rewrite Em, Ec. cbn [seq flat_map]. rewrite app_assoc. f_equal.
        pose proof (Nat.mod_upper_bound len 8 ltac:(lia)). pose proof (Nat.mod_le (len - NB) 8 ltac:(lia)).
        rewrite firstn_app, LB. rewrite (firstn_all2 (B x i)) by lia. f_equal. f_equal. lia.
  Qed.
  Definition H (msg : bytes) : bytes := firstn (NO - NO mod 8) (Spec.Skein.Skein NB Eb NO msg) ++ zeros (NO mod 8).
  Definition within (len : nat) : Prop := N.of_nat len < 2 ^ 64.
  Lemma update_app m a : forall s b, update_blocks NB E m s (a ++ b) = obind (update_blocks NB E m s a) (fun s' => update_blocks NB E m s' b).
  Proof using.
    induction a as [|y a IH]; intros s b; [reflexivity|]. cbn [app update_blocks]. destruct (process_block _ _ _ s _ _); [|reflexivity]. cbn [obind]. apply IH.
  Qed.
  Lemma skein_ok init m0 : N.of_nat NO < 2 ^ 61 -> skein_default NB NO E m0 = Some init ->
    core_ok (skein_core NB NO E init) (fun _ => True) H within.
  Proof using HE Hnw.
    intros HN HD. destruct (default_spec m0 HN) as (x0 & D1 & D2 & D3). rewrite D1 in HD. injection HD as HD.
    constructor; cbn [skein_core cst c_bs c_kind c_init c_ibuf c_update c_final c_reset c_codec].
    - lia.
    - reflexivity.
    - unfold within. lia.
    - exact I.
    - auto.
    - reflexivity.
    - intros m s a b _. apply update_app.
    - intros m msg W Bm. unfold within in W. cbn [app]. assert (BP : (0 < NB)%nat) by lia.
      pose proof (kblocks_krem Lazy NB msg BP) as KD. pose proof (kblocks_length Lazy NB msg BP) as KL.
      pose proof (krem_tail_ok Lazy NB msg BP) as [KT1 KT2].
      set (bl := kblocks Lazy NB msg) in *. set (r := krem Lazy NB msg) in *.
      assert (BB : Forall bytes_ok bl /\ bytes_ok r).
      { rewrite <- KD in Bm. apply bytes_ok_app in Bm as [B1 B2]. split; [now apply bytes_ok_concat|exact B2]. }
      destruct BB as [BB Br].
      assert (LD : (length (concat bl) + length r = length msg)%nat) by now rewrite <- KD, app_length.
      rewrite (concat_length_blocks NB) in LD by exact KL.
      destruct (ubi_spec m bl KL BB (S (length msg)) init true r) as (s1 & s2 & Q1 & Q2 & Q3 & Q4);
        [nia|exact KT1|exact Br|exact KT2|rewrite <- HD; exact D2|rewrite <- HD; reflexivity|rewrite <- HD, KD; exact W|].
      exists s1, s2. split; [exact Q1|]. split; [|reflexivity].
      unfold finalize_fixed_core. unfold last_block in Q2. cbv zeta. rewrite Q2. cbn [obind].
      rewrite (out_spec m (sx s2) Q3) by lia. cbn [obind]. apply f_equal, f_equal2; [|reflexivity]. unfold H. apply (f_equal (fun q => q ++ zeros _)).
      rewrite KD in Q4. unfold Spec.Skein.Skein, Spec.Skein.Output. rewrite firstn_firstn. rewrite Nat.min_l by lia.
      unfold ceil. apply (f_equal (firstn _)). apply flat_map_ext. intros i. unfold B. rewrite Q4. unfold Spec.Skein.UBI at 2 3. rewrite <- D3, <- HD. reflexivity.
    - reflexivity.
    - constructor.
    - discriminate.
  Qed.
  Lemma skein_spec m cs : N.of_nat NO < 2 ^ 61 -> Forall bytes_ok cs -> N.of_nat (length (concat cs)) < 2 ^ 64 ->
    skein_digest NB NO E m cs = Some (H (concat cs)).
  Proof using HE Hnw.
    intros HN BC W. unfold skein_digest. destruct (default_spec m HN) as (x0 & D1 & D2 & D3). rewrite D1. cbn [obind].
    exact (digest_spec _ _ _ _ (skein_ok _ m HN D1) m cs BC W).
  Qed.
End Skein.

(** ** The three ciphers *)
Lemma threefish_cipher V : cipher_ok (Spec.Threefish.Nw V) (Spec.Threefish.encrypt V).
Proof.
  intros K T P _ _ _ _. unfold Spec.Threefish.encrypt, Spec.Threefish.addk. split; [now rewrite map_length, seq_length|].
  apply Forall_map, Forall_forall. intros i _. apply wadd_lt.
Qed.
(** When 8 divides the output size nothing is lost. *)
Lemma H_whole nw NO E msg : (4 <= nw)%nat -> (NO mod 8 = 0)%nat -> H nw NO E msg = Spec.Skein.Skein (8 * nw) (Spec.Skein.on_words E) NO msg.
Proof.
  intros _ Z. unfold H. rewrite Z, Nat.sub_0_r. cbn [zeros repeat]. rewrite app_nil_r. unfold Spec.Skein.Skein, Spec.Skein.Output.
  rewrite firstn_firstn. now rewrite Nat.min_id.
Qed.
Lemma skein_whole V : (4 <= Spec.Threefish.Nw V)%nat -> forall NO m cs, (NO mod 8 = 0)%nat -> N.of_nat NO < 2 ^ 61 ->
  Forall bytes_ok cs -> N.of_nat (length (concat cs)) < 2 ^ 64 ->
  skein_digest (8 * Spec.Threefish.Nw V) NO (Spec.Threefish.encrypt V) m cs =
    Some (Spec.Skein.Skein (8 * Spec.Threefish.Nw V) (Spec.Skein.on_words (Spec.Threefish.encrypt V)) NO (concat cs)).
Proof.
  intros Hn NO m cs Z HN BC W. rewrite (skein_spec _ NO _ Hn (threefish_cipher V) m cs HN BC W). f_equal. now apply H_whole.
Qed.
Lemma skein_small V : (4 <= Spec.Threefish.Nw V)%nat -> forall NO m cs, (NO < 8)%nat ->
  Forall bytes_ok cs -> N.of_nat (length (concat cs)) < 2 ^ 64 ->
  skein_digest (8 * Spec.Threefish.Nw V) NO (Spec.Threefish.encrypt V) m cs = Some (zeros NO).
Proof.
  intros Hn NO m cs Z BC W. rewrite (skein_spec _ NO _ Hn (threefish_cipher V) m cs) by (assumption || lia). f_equal.
  unfold H. rewrite Nat.mod_small by exact Z. now rewrite Nat.sub_diag.
Qed.
Lemma skein_refuted : ~ (forall NO m cs, N.of_nat NO < 2 ^ 61 ->
  Forall bytes_ok cs -> N.of_nat (length (concat cs)) < 2 ^ 64 ->
  skein_digest 32 NO (Spec.Threefish.encrypt Spec.Threefish.Threefish256) m cs = Some (Spec.Skein.Skein256 NO (concat cs))).
Proof.
  intros A. specialize (A 1%nat Checked [] eq_refl (Forall_nil _) eq_refl).
  pose proof (skein_small Spec.Threefish.Threefish256 ltac:(cbn; lia) 1 Checked [] ltac:(lia) (Forall_nil _) eq_refl) as S.
  assert (D : Spec.Skein.Skein256 1 [] <> zeros 1) by (vm_compute; discriminate).
  apply D. change (8 * Spec.Threefish.Nw Spec.Threefish.Threefish256)%nat with 32%nat in S. cbn [concat] in A.
  exact (f_equal (fun o => match o with Some x => x | None => [] end) (eq_trans (eq_sym A) S)).
Qed.
