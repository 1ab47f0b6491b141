(** Hashers whose digest is their whole chaining value can be resumed from it. *)
From Verif Require Import Base.Words Base.Bytes Base.Codec Base.BlockBuffer Base.BlockBufferFacts Base.Digest Base.DigestFacts Base.MDFacts
  Spec.MD Spec.Resume.
From Verif Require Proof.Collision Model.Sha1 Model.Sha2 Model.Md5 Model.Md4 Model.Sm3 Model.Ripemd Model.Tiger Proof.Tiger Spec.Tiger
  Proof.Sha1 Proof.Sha2 Proof.Sha2Spec Proof.Md5 Proof.Md4 Proof.Sm3 Proof.Ripemd Spec.SHA2 Spec.SHA1 Spec.MD5 Spec.MD4 Spec.SM3 Spec.RIPEMD.

Section Resume.
  Context (C : core) (inv : cst C -> Prop) (H : bytes -> bytes) (within : nat -> Prop) (OK : core_ok C inv H within).
  Context (pad : bytes -> bytes) (w : N) (saved : bytes -> N -> bytes).
  Hypothesis HE : c_kind C = Eager.
  Hypothesis HI : c_ibuf C = [].
  Hypothesis HW : forall len, 8 * N.of_nat len < 2 ^ w -> within len.
  Hypothesis HB : forall msg, bytes_ok msg -> bytes_ok (pad msg).
  Hypothesis HL : forall msg, (length msg <= length (pad msg))%nat.
  Hypothesis HM : forall msg, exists k, length (pad msg) = (c_bs C * k)%nat.
  Hypothesis HS : forall cd m msg, c_codec C = Some cd -> bytes_ok msg -> 8 * N.of_nat (length (pad msg)) < 2 ^ w ->
    exists s, c_update C m (c_init C) (chunks (c_bs C) (pad msg)) = Some s /\
    cd_ser cd s ++ 0 :: zeros (c_bs C) = saved (H msg) (N.of_nat (length (pad msg) / c_bs C)).
  Lemma resume : continues C pad w saved.
  Proof using All.
    intros cd m msg d Hc B W D. pose proof (ok_bs _ _ _ _ OK) as Hbs.
    rewrite (digest_spec _ _ _ _ OK) in D.
    2:{ repeat constructor. exact B. }
    2:{ cbn [concat]. rewrite app_nil_r. apply HW. specialize (HL msg). lia. }
    cbn [concat] in D. rewrite app_nil_r in D. injection D as <-.
    destruct (HS cd m msg Hc B W) as (s & U & S). rewrite <- S.
    assert (R : reached C inv m (s, []) (pad msg)).
    { unfold reached. rewrite HE, HI. cbn [app fst snd]. rewrite kblocks_eager, krem_eager by exact Hbs. split; [exact U|]. split.
      - destruct (HM msg) as (k & K). symmetry. apply length_zero_iff_nil. rewrite remainder_length by exact Hbs.
        rewrite K, Nat.mul_comm. apply Nat.mod_mul. lia.
      - apply (ok_inv _ _ _ _ OK m (c_init C) (chunks (c_bs C) (pad msg)) s (ok_init _ _ _ _ OK));
          [now apply chunks_block_length|apply chunks_ok; [exact Hbs|now apply HB]|exact U]. }
    exists (s, []). split.
    - replace (cd_ser cd s ++ 0 :: zeros (c_bs C)) with (h_serialize C cd (s, [])).
      + exact (reached_roundtrip _ _ _ _ OK m (s, []) (pad msg) cd Hc R).
      + unfold h_serialize, buf_serialize, pad_with_zeros. cbn [fst snd length app]. now rewrite Nat.sub_0_r.
    - intros cs Bc Wc. rewrite (digest_spec _ _ _ _ OK).
      2:{ constructor; [|constructor]. apply bytes_ok_app. split; [now apply HB|now apply bytes_ok_concat]. }
      2:{ cbn [concat]. rewrite app_nil_r. now apply HW. }
      cbn [concat]. rewrite app_nil_r.
      destruct (updates_spec _ _ _ _ OK m cs (s, []) (pad msg) (HB _ B) Bc R (HW _ Wc)) as (h' & -> & R'). cbn [obind].
      unfold h_finalize. destruct (final_spec _ _ _ _ OK m h' (pad msg ++ concat cs)) as (s' & -> & _).
      + apply bytes_ok_app. split; [now apply HB|now apply bytes_ok_concat].
      + exact R'.
      + now apply HW.
      + reflexivity.
  Qed.
End Resume.

Lemma md_pad_ok bs delim suf msg : delim < 256 -> bytes_ok suf -> bytes_ok msg -> bytes_ok (md_pad bs delim suf msg).
Proof.
  intros Hd Bs Bm. unfold md_pad. apply bytes_ok_app. split; [exact Bm|]. apply bytes_ok_app. split; [now repeat constructor|].
  apply bytes_ok_app. split; [apply zeros_ok|exact Bs].
Qed.
Lemma md_pad_longer bs delim suf msg : (length msg <= length (md_pad bs delim suf msg))%nat.
Proof. unfold md_pad. rewrite app_length. lia. Qed.
Lemma md_pad_blocks bs delim suf msg : (0 < bs)%nat -> exists k, length (md_pad bs delim suf msg) = (bs * k)%nat.
Proof. intros H. destruct (Proof.Collision.md_pad_length bs delim suf msg H) as (k & K & _). now exists (S k). Qed.
Lemma swap_be k ws : (0 < k)%nat -> swap_words k (concat (map (be_bytes k) ws)) = words_to_le k ws.
Proof.
  intros H. unfold swap_words, words_to_le. rewrite chunks_concat; [|exact H|].
  - rewrite map_map. f_equal. apply map_ext. intros x. apply rev_involutive.
  - apply Forall_forall. intros x Hx. apply in_map_iff in Hx. destruct Hx as (y & <- & _). apply be_bytes_length.
Qed.
Lemma lt_div w bs len : 8 * N.of_nat len < 2 ^ w -> N.of_nat (len / bs) < 2 ^ w.
Proof. intros W. now apply (count_lt w 8). Qed.
(** The chaining value after the blocks of [l], by simulation *)
Lemma iterate_sim {V} (ok : V -> Prop) (ls : V -> list N) (f : list N -> bytes -> list N) (g : V -> bytes -> V) bs iv l :
  (0 < bs)%nat -> bytes_ok l -> ok iv ->
  (forall v b, ok v -> length b = bs -> bytes_ok b -> f (ls v) b = ls (g v b) /\ ok (g v b)) ->
  fold_left f (chunks bs l) (ls iv) = ls (md_iterate g bs iv l).
Proof.
  intros Hbs B Hv S. unfold md_iterate.
  refine (proj2 (fold_sim (fun s v => ok v /\ s = ls v) f g (fun b => length b = bs /\ bytes_ok b) _ (chunks bs l) (ls iv) iv _ (conj Hv eq_refl))).
  - intros a v b [Vv ->] [L Bb]. destruct (S v b Vv L Bb) as [-> V']. now split.
  - apply Forall_and; [now apply chunks_block_length|now apply chunks_ok].
Qed.

Ltac go := try reflexivity; try (intros; lia); try (intros; apply md_pad_ok; [reflexivity|first [apply be_bytes_ok | apply le_bytes_ok]|assumption]);
  try (intros; apply md_pad_longer); try (intros; apply md_pad_blocks; cbn; lia).

Lemma sha1 : continues Model.Sha1.Sha1 Spec.SHA1.pad 64 (fun d n => swap_words 4 d ++ le_bytes 8 n ++ 0 :: zeros 64).
Proof.
  apply (resume _ _ _ _ Proof.Sha1.Sha1_ok); go; try (intros len W; exact W).
  intros cd m msg [= <-] B W.
  eexists. split; [apply (counted_update_chunks 64 64 Model.Sha1.compress_block); [lia|now apply lt_div]|].
  cbn [cd_ser Model.Sha1.sha1_codec]. unfold ser_counted. cbn [fst snd]. rewrite <- app_assoc. f_equal.
  change Model.Sha1.H0 with (Proof.Sha1.list_of_vars Spec.SHA1.iv).
  rewrite (iterate_sim Proof.Sha1.vok Proof.Sha1.list_of_vars Model.Sha1.compress_block Spec.SHA1.compress 64); [|lia|now go|exact Proof.Sha1.iv_ok|].
  - unfold Spec.SHA1.SHA1, Spec.SHA1.output. destruct (md_iterate _ _ _ _) as ((((a, b), c), d), e). now rewrite swap_be by lia.
  - intros v b V L _. now apply Proof.Sha1.compress_block_spec.
Qed.
Lemma sm3 : continues Model.Sm3.Sm3 Spec.SM3.pad 64 (fun d n => swap_words 4 d ++ le_bytes 8 n ++ 0 :: zeros 64).
Proof.
  apply (resume _ _ _ _ Proof.Sm3.Sm3_ok); go; try (intros len W; exact W).
  intros cd m msg [= <-] B W.
  eexists. split; [apply (counted_update_chunks 64 64 Model.Sm3.compress_block); [lia|now apply lt_div]|].
  cbn [cd_ser Model.Sm3.sm3_codec]. unfold ser_counted. cbn [fst snd]. rewrite <- app_assoc. f_equal.
  change Model.Sm3.H0 with (Proof.Sm3.list_of_vars Spec.SM3.iv).
  rewrite (iterate_sim Proof.Sm3.vok Proof.Sm3.list_of_vars Model.Sm3.compress_block Spec.SM3.compress 64); [|lia|now go|exact Proof.Sm3.iv_ok|].
  - unfold Spec.SM3.SM3, Spec.SM3.output. destruct (md_iterate _ _ _ _) as (((((((a, b), c), d), e), f), g), h). now rewrite swap_be by lia.
  - intros v b V L Bb. now apply Proof.Sm3.compress_block_spec.
Qed.
Lemma md5 : continues Model.Md5.Md5 Spec.MD5.pad 64 (fun d n => d ++ le_bytes 8 n ++ 0 :: zeros 64).
Proof.
  apply (resume _ _ _ _ Proof.Md5.Md5_ok); go; try (intros len W; exact I).
  intros cd m msg [= <-] B W.
  eexists. split; [apply (counted_update_chunks 64 64 Model.Md5.compress_block Model.Md5.STATE_INIT Wrapping); [lia|now apply lt_div]|].
  cbn [cd_ser Model.Md5.md5_codec]. unfold ser_counted. cbn [fst snd]. rewrite <- app_assoc. f_equal.
  change Model.Md5.STATE_INIT with (Proof.Md5.list_of_vars Spec.MD5.iv).
  rewrite (iterate_sim Proof.Md5.vok Proof.Md5.list_of_vars Model.Md5.compress_block Spec.MD5.compress 64); [|lia|now go|exact Proof.Md5.iv_ok|].
  - unfold Spec.MD5.MD5, Spec.MD5.output. now destruct (md_iterate _ _ _ _) as (((a, b), c), d).
  - intros v b V L _. now apply Proof.Md5.compress_block_spec.
Qed.
Lemma md4 : continues Model.Md4.Md4 Spec.MD4.pad 64 (fun d n => d ++ le_bytes 8 n ++ 0 :: zeros 64).
Proof.
  apply (resume _ _ _ _ Proof.Md4.Md4_ok); go; try (intros len W; exact I).
  intros cd m msg [= <-] B W.
  eexists. split; [apply (counted_update_chunks 64 64 Model.Md4.compress_block Model.Md4.S0 Wrapping); [lia|now apply lt_div]|].
  cbn [cd_ser Model.Md4.md4_codec]. unfold ser_counted. cbn [fst snd]. rewrite <- app_assoc. f_equal.
  change Model.Md4.S0 with (Proof.Md4.list_of_vars Spec.MD4.iv).
  rewrite (iterate_sim Proof.Md4.vok Proof.Md4.list_of_vars Model.Md4.compress_block Spec.MD4.compress 64); [|lia|now go|exact Proof.Md4.iv_ok|].
  - unfold Spec.MD4.MD4, Spec.MD4.output. now destruct (md_iterate _ _ _ _) as (((a, b), c), d).
  - intros v b V L _. now apply Proof.Md4.compress_block_spec.
Qed.

Lemma sha256 : continues Model.Sha2.Sha256 Spec.SHA2.pad256 64 (fun d n => swap_words 4 d ++ le_bytes 8 n ++ 32 :: 0 :: zeros 64).
Proof.
  apply (resume _ _ _ _ Proof.Sha2.Sha256_ok); go; try (intros len W; exact W).
  intros cd m msg [= <-] B W.
  eexists. split; [apply (counted_update_chunks 64 64 Model.Sha256Soft.compress_block); [lia|now apply lt_div]|].
  cbn [cd_ser sized Model.Sha2.sha256_codec]. unfold ser_counted. cbn [fst snd]. rewrite <- !app_assoc. f_equal.
  unfold Spec.SHA2.SHA256. rewrite Proof.Sha2.iv256_ok.
  destruct (Proof.Sha2.fold256 (chunks 64 (Spec.SHA2.pad256 msg)) Model.Sha2Consts.H256_256) as [-> _].
  - split; [reflexivity|]. unfold words_ok. repeat constructor.
  - apply chunks_block_length. lia.
  - unfold Spec.SHA2.hash256, Spec.SHA2.output, md_iterate.
    rewrite firstn_all2; [now rewrite swap_be by lia|].
    change (concat (map (be_bytes 4) ?l)) with (words_to_be 4 l). rewrite words_to_be_length, Proof.Sha2.list_of_vars_length. lia.
Qed.
Lemma sha512 : continues Model.Sha2.Sha512 Spec.SHA2.pad512 128 (fun d n => swap_words 8 d ++ le_bytes 16 n ++ 64 :: 0 :: zeros 128).
Proof.
  apply (resume _ _ _ _ Proof.Sha2.Sha512_ok); go; try (intros len W; exact W).
  intros cd m msg [= <-] B W.
  eexists. split; [apply (counted_update_chunks 128 128 Model.Sha512Soft.compress_block); [lia|now apply lt_div]|].
  cbn [cd_ser sized Model.Sha2.sha512_codec]. unfold ser_counted. cbn [fst snd]. rewrite <- !app_assoc. f_equal.
  unfold Spec.SHA2.SHA512. rewrite Proof.Sha2.iv512_ok.
  destruct (Proof.Sha2.fold512 (chunks 128 (Spec.SHA2.pad512 msg)) Model.Sha2Consts.H512_512) as [-> _].
  - split; [reflexivity|]. unfold words_ok. repeat constructor.
  - apply chunks_block_length. lia.
  - unfold Spec.SHA2.hash512, Spec.SHA2.output, md_iterate.
    rewrite firstn_all2; [now rewrite swap_be by lia|].
    change (concat (map (be_bytes 8) ?l)) with (words_to_be 8 l). rewrite words_to_be_length, Proof.Sha2.list_of_vars_length. lia.
Qed.

Lemma tiger_any (ver2 : bool) : let delim := if ver2 then 0x80 else 0x01 in
  continues (Model.Tiger.tiger_core ver2) (fun msg => md_pad 64 delim (le_bytes 8 (8 * blen msg)) msg) 64 (fun d n => d ++ le_bytes 8 n ++ 0 :: zeros 64).
Proof.
  intros delim. assert (Hd : delim < 256) by (unfold delim; now destruct ver2).
  apply (resume _ _ _ _ (Proof.Tiger.tiger_ok ver2)).
  - reflexivity.
  - reflexivity.
  - intros len W. exact W.
  - intros msg B. apply md_pad_ok; [exact Hd|apply le_bytes_ok|exact B].
  - intros msg. apply md_pad_longer.
  - intros msg. apply md_pad_blocks. cbn. lia.
  - intros cd m msg E B W. injection E as <-.
    eexists. split; [apply (counted_update_chunks 64 64 Model.Tiger.compress); [lia|now apply lt_div]|].
    cbn [cd_ser Model.Tiger.tiger_codec]. unfold ser_counted. cbn [fst snd]. rewrite <- app_assoc. f_equal.
    change Model.Tiger.S0 with (Proof.Tiger.list_of_vars Spec.Tiger.iv).
    rewrite (iterate_sim Proof.Tiger.vok Proof.Tiger.list_of_vars Model.Tiger.compress (Spec.Tiger.compress Spec.Tiger.T) 64);
      [|lia|apply md_pad_ok; [exact Hd|apply le_bytes_ok|exact B]|exact Proof.Tiger.iv_ok|].
    + unfold Spec.Tiger.hash, Spec.Tiger.output. fold delim. destruct (md_iterate _ _ _ _) as [[a b] c].
      unfold words_to_le, Proof.Tiger.list_of_vars. cbn [map concat]. now rewrite app_nil_r.
    + intros v b V L _. now apply Proof.Tiger.compress_spec.
Qed.
Lemma tiger : continues Model.Tiger.Tiger (fun msg => md_pad 64 0x01 (le_bytes 8 (8 * blen msg)) msg) 64 (fun d n => d ++ le_bytes 8 n ++ 0 :: zeros 64).
Proof. exact (tiger_any false). Qed.
Lemma tiger2 : continues Model.Tiger.Tiger2 (fun msg => md_pad 64 0x80 (le_bytes 8 (8 * blen msg)) msg) 64 (fun d n => d ++ le_bytes 8 n ++ 0 :: zeros 64).
Proof. exact (tiger_any true). Qed.

Section Ripemd.
  Context {V : Type} (ls : V -> list N) (n : nat) (cspec : V -> bytes -> V) (iv : V).
  Context (compress : list N -> bytes -> list N) (h0 : list N) (H : bytes -> bytes).
  Hypothesis OK : core_ok (Model.Ripemd.rmd_core n h0 compress) (Proof.Ripemd.inv ls) H Proof.Ripemd.within.
  Hypothesis Civ : h0 = ls iv.
  Hypothesis Cok : forall v b, compress (ls v) b = ls (cspec v b) /\ words_ok 32 (ls (cspec v b)).
  Hypothesis Hdef : forall msg, H msg = concat (map (le_bytes 4) (ls (md_iterate cspec 64 iv (Spec.RIPEMD.pad msg)))).
  Lemma rmd : continues (Model.Ripemd.rmd_core n h0 compress) Spec.RIPEMD.pad 64 (fun d n => d ++ le_bytes 8 n ++ 0 :: zeros 64).
  Proof using All.
    apply (resume _ _ _ _ OK); go; try (intros len W; exact W).
    intros cd m msg E B W. injection E as <-.
    eexists. split; [apply (counted_update_chunks 64 64 compress); [lia|now apply lt_div]|].
    cbn [cd_ser Model.Ripemd.rmd_codec]. unfold ser_counted. cbn [fst snd]. rewrite <- app_assoc. f_equal. rewrite Civ.
    rewrite (iterate_sim (fun _ => True) ls compress cspec 64); [now rewrite Hdef|lia|now go|exact I|].
    intros v b _ _ _. split; [apply Cok|exact I].
  Qed.
End Ripemd.
Lemma ripemd128 : continues Model.Ripemd.Ripemd128 Spec.RIPEMD.pad 64 (fun d n => d ++ le_bytes 8 n ++ 0 :: zeros 64).
Proof. apply (rmd _ _ Spec.RIPEMD.compress128 Spec.RIPEMD.iv128 _ _ _ Proof.Ripemd.Ripemd128_ok); [reflexivity|exact Proof.Ripemd.compress_128_ok|reflexivity]. Qed.
Lemma ripemd160 : continues Model.Ripemd.Ripemd160 Spec.RIPEMD.pad 64 (fun d n => d ++ le_bytes 8 n ++ 0 :: zeros 64).
Proof. apply (rmd _ _ Spec.RIPEMD.compress160 Spec.RIPEMD.iv160 _ _ _ Proof.Ripemd.Ripemd160_ok); [reflexivity|exact Proof.Ripemd.compress_160_ok|reflexivity]. Qed.
Lemma ripemd256 : continues Model.Ripemd.Ripemd256 Spec.RIPEMD.pad 64 (fun d n => d ++ le_bytes 8 n ++ 0 :: zeros 64).
Proof.
  apply (rmd _ _ Spec.RIPEMD.compress256 Spec.RIPEMD.iv256 _ _ _ Proof.Ripemd.Ripemd256_ok); [reflexivity|exact Proof.Ripemd.compress_256_ok|].
  intros msg. unfold Spec.RIPEMD.RIPEMD256. now destruct (md_iterate _ _ _ _).
Qed.
Lemma ripemd320 : continues Model.Ripemd.Ripemd320 Spec.RIPEMD.pad 64 (fun d n => d ++ le_bytes 8 n ++ 0 :: zeros 64).
Proof.
  apply (rmd _ _ Spec.RIPEMD.compress320 Spec.RIPEMD.iv320 _ _ _ Proof.Ripemd.Ripemd320_ok); [reflexivity|exact Proof.Ripemd.compress_320_ok|].
  intros msg. unfold Spec.RIPEMD.RIPEMD320. now destruct (md_iterate _ _ _ _).
Qed.
Lemma ripemd C : In C [Model.Ripemd.Ripemd128; Model.Ripemd.Ripemd160; Model.Ripemd.Ripemd256; Model.Ripemd.Ripemd320] ->
  continues C Spec.RIPEMD.pad 64 (fun d n => d ++ le_bytes 8 n ++ 0 :: zeros 64).
Proof. intros [<-|[<-|[<-|[<-|[]]]]]; [exact ripemd128|exact ripemd160|exact ripemd256|exact ripemd320]. Qed.
