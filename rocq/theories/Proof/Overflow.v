(** Behaviour at the counter limits. *)
From Verif Require Import Base.Words Base.Bytes Base.Codec Base.BlockBuffer Base.BlockBufferFacts Base.Digest
  Base.DigestFacts Base.MDFacts Base.Overflow Spec.MD Spec.Overflow.
From Verif Require Model.Sha1 Model.Sha2 Model.Sm3 Model.Ripemd Model.Tiger Model.Md4 Model.Md5 Model.Jh Model.JhTables.
From Verif Require Spec.SHA1 Spec.SHA2 Spec.SM3 Spec.RIPEMD Spec.Tiger Spec.MD4 Spec.MD5 Spec.JH.
From Verif Require Model.Sha1Checked Proof.Sha1Checked Model.Skein Model.Blake2 Spec.BLAKE2 Proof.Blake2.
From Verif Require Proof.ColMatrix Model.Groestl Model.Kupyna Spec.Groestl Spec.Kupyna Proof.Groestl Proof.Kupyna.
From Verif Require Model.Sha256Soft Model.Sha512Soft Proof.Sha2Spec.
From Verif Require Proof.Sha1 Proof.Sha2 Proof.Sm3 Proof.Ripemd Proof.Tiger Proof.Md4 Proof.Md5 Proof.Jh.

Lemma sha1_limit : panics_or_wraps Model.Sha1.Sha1 64 sha1_len.
Proof.
  refine (over_checked 64 64 Model.Sha1.compress_block Model.Sha1.H0 _ _ _ _ _ Spec.SHA1.compress Spec.SHA1.iv
    (fun s v => Proof.Sha1.vok v /\ s = Proof.Sha1.list_of_vars v) (words_to_be 4) Spec.SHA1.output 0x80 (be_bytes 8) 8 64
    (fun st _ _ => st) eq_refl _ _ _ _ _ _ _ _ _).
  - lia.
  - apply be_bytes_length.
  - apply be_bytes_ok.
  - lia.
  - reflexivity.
  - split; [exact Proof.Sha1.iv_ok|reflexivity].
  - intros s v x [V ->] L _. destruct (Proof.Sha1.compress_block_spec v x V L) as [-> V']. split; [exact V'|reflexivity].
  - intros s v [_ ->]. now destruct v as ((((a, b), c), d), e).
  - reflexivity.
  - reflexivity.
Qed.
Lemma sm3_limit : panics_or_wraps Model.Sm3.Sm3 64 sm3_len.
Proof.
  refine (over_checked 64 64 Model.Sm3.compress_block Model.Sm3.H0 _ _ _ _ _ Spec.SM3.compress Spec.SM3.iv
    (fun s v => Proof.Sm3.vok v /\ s = Proof.Sm3.list_of_vars v) (words_to_be 4) Spec.SM3.output 0x80 (be_bytes 8) 8 64
    (fun st _ _ => st) eq_refl _ _ _ _ _ _ _ _ _).
  - lia.
  - apply be_bytes_length.
  - apply be_bytes_ok.
  - lia.
  - reflexivity.
  - split; [exact Proof.Sm3.iv_ok|reflexivity].
  - intros s v x [V ->] L B. destruct (Proof.Sm3.compress_block_spec v x V L B) as [-> V']. split; [exact V'|reflexivity].
  - intros s v [_ ->]. now destruct v as (((((((a, b), c), d), e), f), g), h).
  - reflexivity.
  - reflexivity.
Qed.
Lemma sha256_limit iv n : Proof.Sha2.state_ok 32 iv ->
  panics_or_wraps (Model.Sha2.sha256_var_core iv n) 64 (sha256_len (Spec.SHA2.vars_of_list iv) n).
Proof.
  intros Hiv.
  refine (over_checked 64 64 Model.Sha256Soft.compress_block iv _ _ _ _ _ (Spec.SHA2.compress Spec.SHA2.sha256_params) (Spec.SHA2.vars_of_list iv)
    (fun s v => s = Spec.SHA2.list_of_vars v /\ Proof.Sha2Spec.vars_ok Spec.SHA2.sha256_params v) (fun s => firstn n (words_to_be 4 s))
    (fun v => firstn n (Spec.SHA2.output 4 v)) 0x80 (be_bytes 8) 8 64
    (fun st buf l => (Model.Sha256Soft.compress (fst st) (len64_padding_be 64 l buf), snd st)) eq_refl _ _ _ _ _ _ _ _ _).
  - lia.
  - apply be_bytes_length.
  - apply be_bytes_ok.
  - lia.
  - reflexivity.
  - now apply Proof.Sha2.state_vars256.
  - intros s v x H L _. now apply Proof.Sha2.step256.
  - intros s v [-> _]. reflexivity.
  - reflexivity.
  - intros m h k buf. unfold bit_length, Model.Sha2.sha256_finalize. cbn [fst snd]. cbv zeta.
    destruct (cmul m 64 64 k); [|reflexivity]. cbn [obind]. destruct (cadd m 64 _ _); [|reflexivity]. cbn [obind].
    destruct (cmul m 64 8 _); [|reflexivity]. reflexivity.
Qed.
Lemma sha512_limit iv n : Proof.Sha2.state_ok 64 iv ->
  panics_or_wraps (Model.Sha2.sha512_var_core iv n) 128 (sha512_len (Spec.SHA2.vars_of_list iv) n).
Proof.
  intros Hiv.
  refine (over_checked 128 128 Model.Sha512Soft.compress_block iv _ _ _ _ _ (Spec.SHA2.compress Spec.SHA2.sha512_params) (Spec.SHA2.vars_of_list iv)
    (fun s v => s = Spec.SHA2.list_of_vars v /\ Proof.Sha2Spec.vars_ok Spec.SHA2.sha512_params v) (fun s => firstn n (words_to_be 8 s))
    (fun v => firstn n (Spec.SHA2.output 8 v)) 0x80 (be_bytes 16) 16 128
    (fun st buf l => (Model.Sha512Soft.compress (fst st) (len128_padding_be 128 l buf), snd st)) eq_refl _ _ _ _ _ _ _ _ _).
  - lia.
  - apply be_bytes_length.
  - apply be_bytes_ok.
  - lia.
  - reflexivity.
  - now apply Proof.Sha2.state_vars512.
  - intros s v x H L _. now apply Proof.Sha2.step512.
  - intros s v [-> _]. reflexivity.
  - reflexivity.
  - intros m h k buf. unfold bit_length, Model.Sha2.sha512_finalize. cbn [fst snd]. cbv zeta.
    destruct (cmul m 128 128 k); [|reflexivity]. cbn [obind]. destruct (cadd m 128 _ _); [|reflexivity]. cbn [obind].
    destruct (cmul m 128 8 _); [|reflexivity]. reflexivity.
Qed.
Lemma sha2_limits :
  panics_or_wraps Model.Sha2.Sha224 64 (sha256_len Spec.SHA2.iv224 28) /\
  panics_or_wraps Model.Sha2.Sha256 64 (sha256_len Spec.SHA2.iv256 32) /\
  panics_or_wraps Model.Sha2.Sha384 128 (sha512_len Spec.SHA2.iv384 48) /\
  panics_or_wraps Model.Sha2.Sha512 128 (sha512_len Spec.SHA2.iv512 64) /\
  panics_or_wraps Model.Sha2.Sha512_224 128 (sha512_len (Spec.SHA2.iv512t Spec.SHA2.name512_224) 28) /\
  panics_or_wraps Model.Sha2.Sha512_256 128 (sha512_len (Spec.SHA2.iv512t Spec.SHA2.name512_256) 32).
Proof.
  rewrite Proof.Sha2.iv224_ok, Proof.Sha2.iv256_ok, Proof.Sha2.iv384_ok, Proof.Sha2.iv512_ok, Proof.Sha2.iv512_224_ok, Proof.Sha2.iv512_256_ok.
  refine (conj (sha256_limit _ _ _) (conj (sha256_limit _ _ _) (conj (sha512_limit _ _ _) (conj (sha512_limit _ _ _)
    (conj (sha512_limit _ _ _) (sha512_limit _ _ _)))))); Proof.Sha2.const_ok.
Qed.
Lemma rmd_limit {V} (ls : V -> list N) n f ivs compress h0 :
  (forall v b, compress (ls v) b = ls (f v b) /\ words_ok 32 (ls (f v b))) -> h0 = ls ivs ->
  panics_or_wraps (Model.Ripemd.rmd_core n h0 compress) 64
    (fun bits msg => words_to_le 4 (ls (md_iterate f 64 ivs (md_pad 64 0x80 (le_bytes 8 bits) msg)))).
Proof.
  intros Cok E0. refine (over_checked 64 64 compress h0 _ _ _ _ _ f ivs
    (fun s v => s = ls v) (words_to_le 4) (fun v => words_to_le 4 (ls v)) 0x80 (le_bytes 8) 8 64
    (fun st _ _ => st) eq_refl _ _ _ _ _ _ _ _ _).
  - lia.
  - apply le_bytes_length.
  - apply le_bytes_ok.
  - lia.
  - reflexivity.
  - exact E0.
  - intros s v x -> _ _. apply Cok.
  - now intros s v ->.
  - reflexivity.
  - reflexivity.
Qed.
Lemma panics_or_wraps_ext C w H H' : (forall bits msg, H bits msg = H' bits msg) -> panics_or_wraps C w H -> panics_or_wraps C w H'.
Proof. intros E P cs B. destruct (P cs B) as [P1 P2]. now rewrite P1, P2, !E. Qed.
Lemma ripemd_limits :
  panics_or_wraps Model.Ripemd.Ripemd128 64 rmd128_len /\ panics_or_wraps Model.Ripemd.Ripemd160 64 rmd160_len /\
  panics_or_wraps Model.Ripemd.Ripemd256 64 rmd256_len /\ panics_or_wraps Model.Ripemd.Ripemd320 64 rmd320_len.
Proof.
  refine (conj _ (conj _ (conj _ _))).
  - exact (rmd_limit Spec.RIPEMD.l4 4 Spec.RIPEMD.compress128 Spec.RIPEMD.iv128 Model.Ripemd.compress_128 Model.Ripemd.H0_128 Proof.Ripemd.compress_128_ok eq_refl).
  - exact (rmd_limit Spec.RIPEMD.l5 5 Spec.RIPEMD.compress160 Spec.RIPEMD.iv160 Model.Ripemd.compress_160 Model.Ripemd.H0_160 Proof.Ripemd.compress_160_ok eq_refl).
  - refine (panics_or_wraps_ext _ _ _ _ _ (rmd_limit Proof.Ripemd.l44 8 Spec.RIPEMD.compress256 Spec.RIPEMD.iv256 Model.Ripemd.compress_256 Model.Ripemd.H0_256 Proof.Ripemd.compress_256_ok eq_refl)).
    intros bits msg. unfold rmd256_len. now destruct (md_iterate _ _ _ _).
  - refine (panics_or_wraps_ext _ _ _ _ _ (rmd_limit Proof.Ripemd.l55 10 Spec.RIPEMD.compress320 Spec.RIPEMD.iv320 Model.Ripemd.compress_320 Model.Ripemd.H0_320 Proof.Ripemd.compress_320_ok eq_refl)).
    intros bits msg. unfold rmd320_len. now destruct (md_iterate _ _ _ _).
Qed.
Lemma tiger_limit ver2 : panics_or_wraps (Model.Tiger.tiger_core ver2) 64 (tiger_len (if ver2 then 0x80 else 0x01)).
Proof.
  refine (over_checked 64 64 Model.Tiger.compress Model.Tiger.S0 _ _ _ _ _ (Spec.Tiger.compress Spec.Tiger.T) Spec.Tiger.iv
    (fun s v => Proof.Tiger.vok v /\ s = Proof.Tiger.list_of_vars v) (words_to_le 8) Spec.Tiger.output (if ver2 then 0x80 else 0x01) (le_bytes 8) 8 64
    (fun st buf l => (fold_left Model.Tiger.compress (pad_blocks 64 (if ver2 then 0x80 else 0x01) (le_bytes 8 l) buf) (fst st), snd st)) eq_refl _ _ _ _ _ _ _ _ _).
  - lia.
  - apply le_bytes_length.
  - apply le_bytes_ok.
  - lia.
  - now destruct ver2.
  - split; [exact Proof.Tiger.iv_ok|reflexivity].
  - intros s v x [V ->] L _. destruct (Proof.Tiger.compress_spec v x V L) as [-> V']. split; [exact V'|reflexivity].
  - intros s v [_ ->]. destruct v as [[a b] c]. unfold words_to_le. cbn [map Proof.Tiger.list_of_vars concat Spec.Tiger.output].
    now rewrite app_nil_r.
  - reflexivity.
  - now destruct ver2.
Qed.
Lemma md4_limit : always_wraps Model.Md4.Md4 64 md4_len.
Proof.
  refine (over_wrapping 64 64 Model.Md4.compress_block Model.Md4.S0 _ _ _ _ _ Spec.MD4.compress Spec.MD4.iv
    (fun s v => Proof.Md4.vok v /\ s = Proof.Md4.list_of_vars v) (words_to_le 4) Spec.MD4.output 0x80 (le_bytes 8) 8 64
    (fun st _ _ => st) eq_refl _ _ _ _ _ _ _ _ _).
  - lia.
  - apply le_bytes_length.
  - apply le_bytes_ok.
  - lia.
  - reflexivity.
  - split; [exact Proof.Md4.iv_ok|reflexivity].
  - intros s v x [V ->] L _. destruct (Proof.Md4.compress_block_spec v x V) as [-> V']. split; [exact V'|reflexivity].
  - intros s v [_ ->]. now destruct v as (((a, b), c), d).
  - reflexivity.
  - intros m h n buf. unfold Model.Md4.md4_finalize, bit_length, cmul, cadd, wmul, wadd, fit. cbn [fst snd obind].
    now rewrite (N.add_comm ((64 * n) mod 2 ^ 64)).
Qed.
Lemma md5_limit : always_wraps Model.Md5.Md5 64 md5_len.
Proof.
  refine (over_wrapping 64 64 Model.Md5.compress_block Model.Md5.STATE_INIT _ _ _ _ _ Spec.MD5.compress Spec.MD5.iv
    (fun s v => Proof.Md5.vok v /\ s = Proof.Md5.list_of_vars v) (words_to_le 4) Spec.MD5.output 0x80 (le_bytes 8) 8 64
    (fun st _ _ => st) eq_refl _ _ _ _ _ _ _ _ _).
  - lia.
  - apply le_bytes_length.
  - apply le_bytes_ok.
  - lia.
  - reflexivity.
  - split; [exact Proof.Md5.iv_ok|reflexivity].
  - intros s v x [V ->] L _. destruct (Proof.Md5.compress_block_spec v x) as [-> V']. split; [exact V'|reflexivity].
  - intros s v [_ ->]. now destruct v as (((a, b), c), d).
  - reflexivity.
  - intros m h n buf. unfold Model.Md5.md5_finalize, bit_length, cmul, cadd, wmul, wadd, fit. cbn [fst snd obind].
    now rewrite (N.mul_comm n), (N.add_comm ((64 * n) mod 2 ^ 64)), (N.mul_comm 8).
Qed.

Lemma jh_split n msg : bytes_ok msg -> n < 2 ^ 64 ->
  chunks 64 (msg ++ [0x80] ++ zeros (47 + (64 - length msg mod 64) mod 64) ++ be_bytes 16 n)
  = chunks 64 msg ++ Proof.Jh.last_blocks (remainder 64 msg) n.
Proof.
  intros B H. pose proof (Nat.mod_upper_bound (length msg) 64 ltac:(lia)) as EU.
  assert (LR : length (remainder 64 msg) = (length msg mod 64)%nat) by (apply remainder_length; lia).
  destruct (Proof.Jh.last_blocks_ok (remainder 64 msg) n ltac:(lia) (remainder_ok _ _ B) H) as [F E].
  rewrite <- (chunks_concat 64 (chunks 64 msg ++ Proof.Jh.last_blocks (remainder 64 msg) n)); [|lia|].
  - f_equal. rewrite concat_app, E. rewrite LR. rewrite <- (concat_chunks_rem 64 msg) at 1 by lia. now rewrite <- app_assoc.
  - apply Forall_app. split; [apply chunks_block_length; lia|]. eapply Forall_impl; [|exact F]. now intros ? [].
Qed.
Lemma jh_limit h0 k : (k <= 64)%nat -> h0 = words_of_le 16 (Spec.JH.H0 k) -> Proof.Jh.vok (Spec.JH.H0 k) ->
  always_wraps (Model.Jh.jh_core h0 k) 64 (jh_len k).
Proof.
  intros Hk EI VI m cs BC. pose proof (concat_ok cs BC) as B.
  unfold Model.Jh.jh_core. rewrite (counted_digest 64 64 Model.Jh.f8_impl h0 _ _ _ _ ltac:(lia) m Wrapping) by reflexivity.
  set (msg := concat cs) in *. clearbody msg. clear cs BC. unfold cadd. rewrite N.add_0_l, fit_mod. cbn [obind]. unfold Model.Jh.jh_finalize.
  assert (LR : length (remainder 64 msg) = (length msg mod 64)%nat) by (apply remainder_length; lia).
  assert (EB : wmul 64 (wadd 64 (wmul 64 (N.of_nat (length msg / 64) mod 2 ^ 64) 64) (N.of_nat (length (remainder 64 msg)))) 8
    = (8 * blen msg) mod 2 ^ 64).
  { pose proof (@bit_length_wrapping N 64 64 (N.of_nat (length msg / 64)) (N.of_nat (length msg mod 64)) Some) as E.
    pose proof (len_split 64 (length msg) ltac:(lia)) as ES. change (N.of_nat 64) with 64 in ES. rewrite ES in E.
    unfold bit_length, cmul, cadd, fit in E. cbn [obind] in E. injection E as E. unfold wmul, wadd, blen. rewrite LR, <- E.
    now rewrite (N.mul_comm _ 8), (N.add_comm ((_ * 64) mod _)), (N.mul_comm _ 64). }
  rewrite EB. unfold jh_len. assert (W : (8 * blen msg) mod 2 ^ 64 < 2 ^ 64) by (apply N.mod_lt; discriminate).
  set (n := (8 * blen msg) mod 2 ^ 64) in *. clearbody n. cbv zeta. cbn [obind]. apply f_equal.
  assert (EF : forall st, (if (length (remainder 64 msg) =? 0)%nat then fold_left Model.Jh.f8_impl (len64_padding_be 64 n (remainder 64 msg)) st
      else fold_left Model.Jh.f8_impl (pad_blocks 64 0 (be_bytes 8 n) []) (fold_left Model.Jh.f8_impl (pad_blocks 64 128 [] (remainder 64 msg)) st))
      = fold_left Model.Jh.f8_impl (Proof.Jh.last_blocks (remainder 64 msg) n) st).
  { intros st. unfold Proof.Jh.last_blocks. destruct (_ =? _)%nat; [reflexivity|]. symmetry. apply fold_left_app. }
  rewrite EF, <- fold_left_app, <- jh_split by assumption. rewrite EI.
  destruct (Proof.Jh.blocks_spec (chunks 64 (msg ++ [0x80] ++ zeros (47 + (64 - length msg mod 64) mod 64) ++ be_bytes 16 n)) (Spec.JH.H0 k)) as [-> [LV BV]].
  - rewrite jh_split by assumption. apply Forall_app. split.
    + apply Forall_forall. intros c Hc. split.
      * exact (proj1 (Forall_forall _ _) (chunks_block_length 64 msg ltac:(lia)) c Hc).
      * exact (proj1 (Forall_forall _ _) (chunks_ok 64 msg ltac:(lia) B) c Hc).
    + apply Proof.Jh.last_blocks_ok; [|now apply remainder_ok|exact W]. rewrite LR. apply Nat.mod_upper_bound. lia.
  - exact VI.
  - rewrite (words_le_canonical 16 8) by (lia || assumption).
    rewrite <- (firstn_skipn 64 (fold_left Spec.JH.F8 _ _)) at 2. rewrite skipn_app.
    rewrite (skipn_all2 (n := 128 - k) (firstn 64 _)) by (rewrite firstn_length; lia). rewrite firstn_length, LV. change (Init.Nat.min 64 128) with 64%nat. replace (128 - k - 64)%nat with (64 - k)%nat by lia. reflexivity.
Qed.
Lemma jh_limits :
  always_wraps Model.Jh.Jh224 64 (jh_len 28) /\ always_wraps Model.Jh.Jh256 64 (jh_len 32) /\
  always_wraps Model.Jh.Jh384 64 (jh_len 48) /\ always_wraps Model.Jh.Jh512 64 (jh_len 64).
Proof.
  refine (conj _ (conj _ (conj _ _))).
  - destruct Proof.Jh.H0_224. apply jh_limit; [lia|assumption|assumption].
  - destruct Proof.Jh.H0_256. apply jh_limit; [lia|assumption|assumption].
  - destruct Proof.Jh.H0_384. apply jh_limit; [lia|assumption|assumption].
  - destruct Proof.Jh.H0_512. apply jh_limit; [lia|assumption|assumption].
Qed.

Section Groestl.
  Import Model.Groestl.
  Context (v : variant) (p : Spec.Groestl.params).
  Hypothesis MV : Proof.Groestl.matches v p.
  Let bs := block_size v.
  Lemma groestl_count m len : (if (bs - len mod bs <=? 8)%nat then cadd m 64 (N.of_nat (len / bs)) 2 else cadd m 64 (N.of_nat (len / bs)) 1)
    = fit m 64 (Spec.Groestl.padded_blocks p len).
  Proof using MV.
    rewrite (Proof.Groestl.blocks_formula v p MV). pose proof (Proof.Groestl.bs_pos v p MV) as HB. change (8 * COLS v)%nat with bs in *. unfold cadd.
    pose proof (Nat.div_mod_eq len bs) as E. pose proof (Nat.mod_upper_bound len bs ltac:(lia)) as U.
    set (q := (len / bs)%nat) in *. set (r := (len mod bs)%nat) in *. clearbody q r.
    destruct (Nat.leb_spec (bs - r) 8) as [H|H].
    - assert (Q : ((len + 8) / bs)%nat = (q + 1)%nat).
      { symmetry. apply (Nat.div_unique _ _ _ (r + 8 - bs)); [lia|]. nia. }
      rewrite Q. f_equal. lia.
    - assert (Q : ((len + 8) / bs)%nat = q).
      { symmetry. apply (Nat.div_unique _ _ _ (r + 8)); [lia|]. nia. }
      now rewrite Q.
  Qed.
  Lemma groestl_sim k l msg : (k <= 4 * COLS v)%nat -> Proof.Groestl.iv_words v k = Proof.ColMatrix.enc (Spec.Groestl.iv p k) ->
    Proof.ColMatrix.mok (COLS v) (Spec.Groestl.iv p k) -> bytes_ok msg ->
    skipn (out_size v - k) (words_to_be 8 (skipn (COLS v / 2) (Model.Groestl.p v
      (fold_left (compress v) (len64_padding_be bs l (remainder bs msg)) (fold_left (compress v) (chunks bs msg) (Proof.Groestl.iv_words v k))))))
    = groestl_len p k l msg.
  Proof using MV.
    intros Hk EI OI B. pose proof (Proof.Groestl.bs_pos v p MV) as HB. change (8 * COLS v)%nat with bs in *.
    unfold groestl_len, len64_padding_be. rewrite (Proof.Groestl.l_bs v p MV). change (8 * COLS v)%nat with bs.
    pose proof (md_sim (fun s A => Proof.ColMatrix.mok (COLS v) A /\ s = Proof.ColMatrix.enc A) (compress v) (Spec.Groestl.f p) bs
      (Proof.Groestl.iv_words v k) (Spec.Groestl.iv p k) 0x80 (be_bytes 8 l) msg) as S.
    destruct S as [O S].
    - lia.
    - rewrite be_bytes_length. lia.
    - reflexivity.
    - apply be_bytes_ok.
    - exact B.
    - intros s A x [O ->] L Bx. destruct (Proof.Groestl.compress_spec v p MV A x O L Bx) as [-> O']. split; [exact O'|reflexivity].
    - split; assumption.
    - rewrite S. now apply (Proof.Groestl.omega_spec v p MV).
  Qed.
  Lemma groestl_limit k : (k <= 4 * COLS v)%nat -> Proof.Groestl.iv_words v k = Proof.ColMatrix.enc (Spec.Groestl.iv p k) ->
    Proof.ColMatrix.mok (COLS v) (Spec.Groestl.iv p k) -> groestl_panics_or_wraps (groestl_core v k) p k.
  Proof using MV.
    intros Hk EI OI cs BC msg. pose proof (concat_ok cs BC) as B. fold msg in B. pose proof (Proof.Groestl.bs_pos v p MV) as HB. change (8 * COLS v)%nat with bs in *.
    assert (EC : forall m, h_digest (groestl_core v k) m cs
      = let* n := fit m 64 (N.of_nat (length msg / bs)) in
        let* l := if (bs - length msg mod bs <=? 8)%nat then cadd m 64 n 2 else cadd m 64 n 1 in Some (groestl_len p k l msg)).
    { intros m. unfold groestl_core. cbv zeta. rewrite (counted_digest (block_size v) 64 (compress v) _ _ _ _ _ ltac:(unfold bs in *; lia) m m) by reflexivity.
      fold bs. fold msg. unfold cadd at 1. rewrite N.add_0_l. apply obind_ext. intros n _. unfold gr_finalize. cbn [fst snd]. fold bs.
      rewrite remainder_length by lia. rewrite obind_assoc. apply obind_ext. intros l _. cbv zeta. cbn [obind].
      apply f_equal. apply groestl_sim; assumption. }
    pose proof (groestl_count Checked (length msg)) as G1. pose proof (groestl_count Wrapping (length msg)) as G2.
    assert (Z : 2 ^ 64 <> 0) by discriminate. cbv zeta. rewrite !EC. split.
    - destruct (fit Checked 64 (N.of_nat (length msg / bs))) as [n|] eqn:En.
      + assert (n = N.of_nat (length msg / bs)) as ->.
        { unfold fit in En. destruct (_ <? _); [|discriminate]. congruence. }
        cbn [obind]. rewrite G1. unfold fit. now destruct (_ <? _).
      + cbn [obind]. unfold fit in En. destruct (N.ltb_spec (N.of_nat (length msg / bs)) (2 ^ 64)) as [|H]; [discriminate|].
        rewrite (Proof.Groestl.blocks_formula v p MV). change (8 * COLS v)%nat with bs.
        pose proof (Nat.div_le_mono (length msg) (length msg + 8) bs ltac:(lia) ltac:(lia)).
        destruct (N.ltb_spec (N.of_nat ((length msg + 8) / bs) + 1) (2 ^ 64)); [lia|reflexivity].
    - cbn [fit obind]. unfold cadd in *. cbn [fit] in *.
      set (n := N.of_nat (length msg / bs)) in *. set (d := Spec.Groestl.padded_blocks p (length msg)) in *. clearbody n d.
      destruct (_ <=? _)%nat; cbn [obind]; rewrite N.add_mod_idemp_l by exact Z; injection G2 as ->; reflexivity.
  Qed.
End Groestl.
Lemma groestl_limits : (forall k, (k <= 32)%nat -> groestl_panics_or_wraps (Model.Groestl.GroestlShort k) Spec.Groestl.short k) /\
  (forall k, (k <= 64)%nat -> groestl_panics_or_wraps (Model.Groestl.GroestlLong k) Spec.Groestl.long k).
Proof.
  split; intros k H.
  - apply (groestl_limit _ _ Proof.Groestl.short_matches); [exact H| |exact (Proof.Groestl.iv_mok _ _ _ Proof.Groestl.short_matches)].
    apply Proof.Groestl.list_eqb_eq. apply (proj1 (forallb_forall _ _) Proof.Groestl.iv_short). apply in_seq. lia.
  - apply (groestl_limit _ _ Proof.Groestl.long_matches); [exact H| |exact (Proof.Groestl.iv_mok _ _ _ Proof.Groestl.long_matches)].
    apply Proof.Groestl.list_eqb_eq. apply (proj1 (forallb_forall _ _) Proof.Groestl.iv_long). apply in_seq. lia.
Qed.

Section Kupyna.
  Import Model.Kupyna.
  Context (v : variant) (p : Spec.Kupyna.params).
  Hypothesis MV : Proof.Kupyna.matches v p.
  Let bs := block_size v.
  Lemma kupyna_bs : (64 <= bs <= 128)%nat.
  Proof using MV. unfold bs, block_size. destruct (Proof.Kupyna.n_cases v p MV) as [H|H]; lia. Qed.
  Lemma kupyna_sim k x l msg : (k <= 4 * COLS v)%nat -> init_state v x = Proof.ColMatrix.enc (Spec.Kupyna.iv p) ->
    Proof.ColMatrix.mok (COLS v) (Spec.Kupyna.iv p) -> bytes_ok msg ->
    (let state := fold_left (compress v) (pad_blocks bs 0x80 (firstn 12 (le_bytes 16 l)) (remainder bs msg)) (fold_left (compress v) (chunks bs msg) (init_state v x)) in
     skipn (out_size v - k) (words_to_be 8 (skipn (COLS v / 2) (words_of_be 8 (xor_bytes (words_to_be 8 state) (t_xor_l v (words_to_be 8 state)))))))
    = kupyna_len p k l msg.
  Proof using MV.
    intros Hk EI OI B. pose proof kupyna_bs as HB. unfold kupyna_len.
    rewrite (Proof.Kupyna.l_bs v p MV). change (8 * COLS v)%nat with bs. rewrite (Proof.Kupyna.firstn_le_bytes v 12 16 l) by (apply Nat.leb_le; reflexivity).
    pose proof (md_sim (fun s A => Proof.ColMatrix.mok (COLS v) A /\ s = Proof.ColMatrix.enc A) (compress v) (Spec.Kupyna.compress p) bs
      (init_state v x) (Spec.Kupyna.iv p) 0x80 (le_bytes 12 l) msg) as S.
    destruct S as [O S].
    - lia.
    - rewrite le_bytes_length. lia.
    - reflexivity.
    - apply le_bytes_ok.
    - exact B.
    - intros s A y [O ->] L By. destruct (Proof.Kupyna.compress_spec v p MV A y O L By) as [-> O']. split; [exact O'|reflexivity].
    - split; assumption.
    - cbv zeta. rewrite S. rewrite (Proof.ColMatrix.enc_bytes (COLS v)) by exact O. now apply (Proof.Kupyna.output_spec v p MV).
  Qed.
  Lemma kupyna_limit k x : (k <= 4 * COLS v)%nat -> init_state v x = Proof.ColMatrix.enc (Spec.Kupyna.iv p) ->
    Proof.ColMatrix.mok (COLS v) (Spec.Kupyna.iv p) -> kupyna_panics_or_wraps (kupyna_core v x k) p k.
  Proof using MV.
    intros Hk EI OI cs BC msg. pose proof (concat_ok cs BC) as B. fold msg in B. pose proof kupyna_bs as HB.
    assert (EC : forall m, h_digest (kupyna_core v x k) m cs
      = let* n := fit m 64 (N.of_nat (length msg / bs)) in
        Some (kupyna_len p k (8 * (N.of_nat bs * n + N.of_nat (length msg mod bs))) msg)).
    { intros m. unfold kupyna_core. cbv zeta. rewrite (counted_digest (block_size v) 64 (compress v) _ _ _ _ _ ltac:(unfold bs in *; lia) m m) by reflexivity.
      fold bs. fold msg. unfold cadd at 1. rewrite N.add_0_l. apply obind_ext. intros n En. apply fit_some in En. unfold ku_finalize. cbn [fst snd]. fold bs.
      rewrite remainder_length by lia. pose proof (Nat.mod_upper_bound (length msg) bs ltac:(lia)) as EU.
      assert (W8 : n * N.of_nat bs <= 128 * 2 ^ 64) by nia.
      unfold cmul, cadd. rewrite fit_small by (change (2 ^ 128) with (2 ^ 64 * 2 ^ 64); lia). cbn [obind].
      rewrite fit_small by (change (2 ^ 128) with (2 ^ 64 * 2 ^ 64); lia). cbn [obind].
      rewrite fit_small by (change (2 ^ 128) with (2 ^ 64 * 2 ^ 64); lia). cbn [obind].
      rewrite (N.mul_comm n). cbv zeta. apply f_equal. exact (kupyna_sim k x _ msg Hk EI OI B). }
    cbv zeta. rewrite !EC, (Proof.Kupyna.l_bs v p MV). change (8 * COLS v)%nat with bs. unfold blen. rewrite <- Nat2N.inj_div, <- Nat2N.inj_mod.
    split; [|reflexivity]. unfold fit. destruct (_ <? _); [|reflexivity]. cbn [obind]. now rewrite len_split by lia.
  Qed.
End Kupyna.
Lemma kupyna_limits : (forall k, (k <= 32)%nat -> kupyna_panics_or_wraps (Model.Kupyna.KupynaShort k) Spec.Kupyna.short k) /\
  (forall k, (k <= 64)%nat -> kupyna_panics_or_wraps (Model.Kupyna.KupynaLong k) Spec.Kupyna.long k).
Proof.
  split; intros k H.
  - apply (kupyna_limit _ _ Proof.Kupyna.short_matches); [exact H|reflexivity|]. apply Proof.ColMatrix.block_ok; [reflexivity|]. repeat constructor.
  - apply (kupyna_limit _ _ Proof.Kupyna.long_matches); [exact H|reflexivity|]. apply Proof.ColMatrix.block_ok; [reflexivity|]. repeat constructor.
Qed.

(** A message of [n] zero bytes, in one chunk. *)
Lemma zeros_message n : Forall bytes_ok [repeat 0 (N.to_nat n)] /\ blen (concat [repeat 0 (N.to_nat n)]) = n.
Proof.
  split.
  - constructor; [|constructor]. apply Forall_forall. intros x Hx. apply repeat_spec in Hx. now subst x.
  - unfold blen. cbn [concat]. now rewrite app_nil_r, repeat_length, N2Nat.id.
Qed.
Lemma panic_case C w H n : panics_or_wraps C w H -> 2 ^ w <= 8 * n -> h_digest C Checked [repeat 0 (N.to_nat n)] = None.
Proof.
  intros P L. destruct (zeros_message n) as [B E]. destruct (P _ B) as [P1 _]. rewrite P1, E.
  destruct (N.ltb_spec (8 * n) (2 ^ w)); [lia|reflexivity].
Qed.
Lemma wrap_case C w H n : panics_or_wraps C w H ->
  h_digest C Wrapping [repeat 0 (N.to_nat n)] = Some (H ((8 * n) mod 2 ^ w) (concat [repeat 0 (N.to_nat n)])).
Proof. intros P. destruct (zeros_message n) as [B E]. destruct (P _ B) as [_ P2]. now rewrite P2, E. Qed.
Lemma always_case C w H n m : always_wraps C w H ->
  h_digest C m [repeat 0 (N.to_nat n)] = Some (H ((8 * n) mod 2 ^ w) (concat [repeat 0 (N.to_nat n)])).
Proof. intros P. destruct (zeros_message n) as [B E]. now rewrite (P m _ B), E. Qed.

(** ** Byte counters *)
Section Blake2.
  Import Model.Blake2.
  Context (P : b2p) (V : Spec.BLAKE2.variant).
  Hypothesis SV : Proof.Blake2.same P V.
  Lemma blake2_checked bl : Forall (fun b => length b = BLOCK P) bl -> forall s, b_t s < 2 ^ 64 ->
    match update_blocks P Checked s bl with
    | Some s' => b_t s' = b_t s + N.of_nat (length (concat bl)) /\ b_t s' < 2 ^ 64
    | None => 2 ^ 64 <= b_t s + N.of_nat (length (concat bl))
    end.
  Proof.
    induction 1 as [|b bl Lb F IH]; intros s T; cbn [update_blocks concat length].
    - cbn. lia.
    - unfold cadd, fit. destruct (N.ltb_spec (b_t s + N.of_nat (length b)) (2 ^ 64)) as [Q|Q]; cbn [obind].
      + match goal with |- context [update_blocks P Checked ?s1 bl] => specialize (IH s1); cbn [b_t] in IH; specialize (IH Q);
          destruct (update_blocks P Checked s1 bl) end; rewrite app_length; lia.
      + rewrite app_length. lia.
  Qed.
  Definition wfold (bl : list bytes) (h : list N) (t : N) : list N :=
    fst (fold_left (fun ht b => (Spec.BLAKE2.F V (fst ht) (Spec.BLAKE2.le_words V b) ((snd ht + N.of_nat (Spec.BLAKE2.bb V)) mod 2 ^ 64) false,
                                 snd ht + N.of_nat (Spec.BLAKE2.bb V))) bl (h, t)).
  Lemma absorb64_spec bl : (0 < Spec.BLAKE2.bb V)%nat -> Forall (fun b => length b = Spec.BLAKE2.bb V) bl ->
    forall fuel h t r, (length bl < fuel)%nat -> (length r <= Spec.BLAKE2.bb V)%nat -> (bl <> [] -> r <> []) ->
    absorb64 V fuel h t (concat bl ++ r) =
    Spec.BLAKE2.F V (wfold bl h t) (Spec.BLAKE2.le_words V (Spec.BLAKE2.zpad (Spec.BLAKE2.bb V) r))
       ((t + N.of_nat (length (concat bl ++ r))) mod 2 ^ 64) true.
  Proof.
    intros HB FL. induction bl as [|b bl IH]; intros [|fuel] h t r Hf Lr NE; cbn [length] in Hf; try lia.
    - cbn [concat app absorb64]. destruct (Nat.leb_spec (length r) (Spec.BLAKE2.bb V)); [|lia]. reflexivity.
    - apply Forall_cons_iff in FL. destruct FL as [Lb FL]. cbn [concat absorb64]. rewrite <- app_assoc.
      assert (Rn : (0 < length r)%nat) by (specialize (NE ltac:(discriminate)); destruct r; [contradiction|cbn; lia]).
      destruct (Nat.leb_spec (length (b ++ concat bl ++ r)) (Spec.BLAKE2.bb V)) as [Q|Q]; [rewrite !app_length in Q; lia|].
      rewrite firstn_app_exact, skipn_app_exact by exact Lb.
      rewrite IH; [|exact FL|lia|exact Lr|intros _ Z; rewrite Z in Rn; cbn in Rn; lia].
      unfold wfold. cbn [fold_left fst snd]. f_equal. f_equal. rewrite !app_length, Lb. lia.
  Qed.
  Lemma blake2_wrapping bl : Forall (fun b => length b = BLOCK P) bl -> forall s t, b_t s = t mod 2 ^ 64 ->
    exists s', update_blocks P Wrapping s bl = Some s' /\ b_t s' = (t + N.of_nat (length (concat bl))) mod 2 ^ 64 /\
      Proof.Blake2.h8 (b_h s') = wfold bl (Proof.Blake2.h8 (b_h s)) t.
  Proof using SV.
    assert (Z : 2 ^ 64 <> 0) by discriminate.
    induction 1 as [|b bl Lb F IH]; intros s t T.
    - exists s. cbn. rewrite N.add_0_r. auto.
    - cbn [update_blocks concat]. unfold cadd. rewrite fit_mod, T, N.add_mod_idemp_l by exact Z. cbn [obind].
      destruct (IH (mkB2 (compress P (b_h s) ((t + N.of_nat (length b)) mod 2 ^ 64) b 0 0) ((t + N.of_nat (length b)) mod 2 ^ 64) (b_h0 s)) (t + N.of_nat (length b)))
        as (s' & E & E1 & E2); [reflexivity|]. cbn [b_h] in E2.
      exists s'. split; [exact E|]. split; [rewrite E1, app_length; f_equal; lia|]. rewrite E2. unfold wfold. cbn [fold_left fst snd].
      change 0 with (Proof.Blake2.flag P false) at 1. rewrite (Proof.Blake2.compress_spec P V) by (assumption || now apply N.mod_lt).
      rewrite <- (Proof.Blake2.s_block _ _ SV), Lb. reflexivity.
  Qed.
  Lemma blake2_limit salt persona nn s : new_with_params P salt persona 0 nn = Some s ->
    blake2_panics_or_wraps (blake2_core P s [] nn) V salt persona nn.
  Proof using SV.
    intros EN cs B. pose proof (Proof.Blake2.unkeyed_ok P V salt persona nn s SV EN) as OK.
    assert (D : Proof.Blake2.params_ok P salt persona 0 nn).
    { unfold new_with_params, assert in EN. unfold Proof.Blake2.params_ok.
      do 4 (match type of EN with context [if (?a <=? ?b)%nat then _ else _] => destruct (Nat.leb_spec a b); [|discriminate] end; cbn [obind] in EN).
      lia. }
    destruct (Proof.Blake2.new_spec P V salt persona 0 nn SV D) as (h & E2 & E3). rewrite E2 in EN. injection EN as <-.
    assert (BP : (0 < BLOCK P)%nat) by (destruct (Proof.Blake2.s_two _ _ SV) as [(_ & _ & _ & -> & _)|(_ & _ & _ & -> & _)]; lia).
    cbv zeta. set (msg := concat cs). set (C := blake2_core P (mkB2 h 0 h) [] nn) in *.
    assert (U : forall m, h_updates C m (h_new C) cs = let* s := update_blocks P m (mkB2 h 0 h) (kblocks Lazy (BLOCK P) msg) in Some (s, krem Lazy (BLOCK P) msg)).
    { intros m. exact (any_updates C m BP eq_refl (fun s => eq_refl) (fun s a b => Proof.Blake2.update_app P m a s b) cs). }
    pose proof (kblocks_krem Lazy (BLOCK P) msg BP) as KD. pose proof (kblocks_length Lazy (BLOCK P) msg BP) as KL.
    pose proof (krem_tail_ok Lazy (BLOCK P) msg BP) as [KT1 KT2].
    assert (LD : (length (concat (kblocks Lazy (BLOCK P) msg)) + length (krem Lazy (BLOCK P) msg) = length msg)%nat) by now rewrite <- app_length, KD.
    split.
    - destruct (N.ltb_spec (blen msg) (2 ^ 64)) as [W|W].
      + exact (digest_spec _ _ _ _ OK Checked cs B W).
      + unfold h_digest. rewrite U. pose proof (blake2_checked _ KL (mkB2 h 0 h) ltac:(cbn; reflexivity)) as K. cbn [b_t] in K.
        destruct (update_blocks P Checked (mkB2 h 0 h) _) as [s'|]; [|reflexivity]. cbn [obind]. unfold h_finalize. cbn [fst snd C c_final blake2_core].
        unfold finalize_variable_core, cadd, fit. unfold blen in W.
        destruct (N.ltb_spec (b_t s' + N.of_nat (length (krem Lazy (BLOCK P) msg))) (2 ^ 64)); [lia|reflexivity].
    - unfold h_digest. rewrite U. destruct (blake2_wrapping _ KL (mkB2 h 0 h) 0 eq_refl) as (s' & E & E1 & E4). rewrite E. cbn [obind b_h] in *.
      unfold h_finalize. cbn [fst snd C c_final blake2_core]. unfold finalize_variable_core, cadd. rewrite fit_mod. cbn [obind].
      rewrite E1, N.add_mod_idemp_l, <- N.add_assoc, <- Nat2N.inj_add, LD by discriminate.
      apply f_equal. unfold BLAKE2_64. rewrite <- (Proof.Blake2.s_wb _ _ SV). apply f_equal, f_equal. apply f_equal.
      change (N.ones (wbits P)) with (Proof.Blake2.flag P true).
      pose proof (Proof.Blake2.compress_spec P V (b_h s') ((0 + N.of_nat (length msg)) mod 2 ^ 64) (pad_with_zeros (BLOCK P) (krem Lazy (BLOCK P) msg)) true SV
        ltac:(now apply N.mod_lt)) as CS. unfold Proof.Blake2.h8 in CS at 1. rewrite CS, E4, E3.
      pose proof (absorb64_spec (kblocks Lazy (BLOCK P) msg) ltac:(rewrite <- (Proof.Blake2.s_block _ _ SV); exact BP)
        ltac:(rewrite <- (Proof.Blake2.s_block _ _ SV); exact KL)
        (S (length msg)) (Spec.BLAKE2.init V salt persona 0 nn) 0 (krem Lazy (BLOCK P) msg)
        ltac:(rewrite (concat_length_blocks (BLOCK P)) in LD by exact KL; nia)
        ltac:(rewrite <- (Proof.Blake2.s_block _ _ SV); exact KT1) KT2) as AS.
      rewrite KD in AS. rewrite AS. unfold pad_with_zeros, Spec.BLAKE2.zpad. rewrite <- (Proof.Blake2.s_block _ _ SV). reflexivity.
  Qed.
End Blake2.

Section Skein.
  Import Model.Skein.
  Context (NB NO : nat) (E : list N -> list N -> list N -> list N).
  Hypothesis HNB : (0 < NB)%nat.
  Lemma skein_checked bl : Forall (fun b => length b = NB) bl -> forall s, t0 s < 2 ^ 64 ->
    match update_blocks NB E Checked s bl with
    | Some s' => t0 s' = t0 s + N.of_nat (length (concat bl))
    | None => True
    end.
  Proof.
    induction 1 as [|b bl Lb F IH]; intros s T; cbn [update_blocks concat length].
    - lia.
    - unfold process_block, cadd, fit. destruct (N.ltb_spec (t0 s + N.of_nat (length b)) (2 ^ 64)) as [Q|Q]; cbn [obind]; [|exact I].
      match goal with |- context [update_blocks NB E Checked ?s1 bl] => specialize (IH s1); cbn [t0] in IH; specialize (IH Q);
        destruct (update_blocks NB E Checked s1 bl) end; [|exact I]. rewrite app_length. lia.
  Qed.
  Lemma process_wrapping s b a : exists s', process_block NB E Wrapping s b a = Some s'.
  Proof. unfold process_block, cadd. rewrite fit_mod. cbn [obind]. eauto. Qed.
  Lemma update_wrapping bl : forall s, exists s', update_blocks NB E Wrapping s bl = Some s'.
  Proof.
    induction bl as [|b bl IH]; intros s; cbn [update_blocks]; [eauto|]. destruct (process_wrapping s b (N.of_nat (length b))) as [s' ->]. apply IH.
  Qed.
  Lemma out_wrapping x fuel : forall i len, exists o, out_chunks NB E Wrapping x fuel i len = Some o.
  Proof.
    induction fuel as [|fuel IH]; intros i len; cbn [out_chunks]; [eauto|]. destruct (_ =? _)%nat; [eauto|]. unfold out_chunk.
    match goal with |- context [process_block NB E Wrapping ?s ?b ?a] => destruct (process_wrapping s b a) as [s' ->] end. cbn [obind].
    destruct (IH (S i) (len - NB)%nat) as [o ->]. cbn [obind]. eauto.
  Qed.
  Lemma skein_app m a : forall s b, update_blocks NB E m s (a ++ b) = obind (update_blocks NB E m s a) (fun s' => update_blocks NB E m s' b).
  Proof.
    induction a as [|y a IH]; intros s b; [reflexivity|]. cbn [app update_blocks]. destruct (process_block _ _ _ s _ _); [|reflexivity]. cbn [obind]. apply IH.
  Qed.
  Lemma skein_limit cs :
    (2 ^ 64 <= blen (concat cs) -> skein_digest NB NO E Checked cs = None) /\ skein_digest NB NO E Wrapping cs <> None.
  Proof using HNB.
    set (msg := concat cs).
    assert (U : forall init m, h_updates (skein_core NB NO E init) m (h_new (skein_core NB NO E init)) cs
      = let* s := update_blocks NB E m init (kblocks Lazy NB msg) in Some (s, krem Lazy NB msg)).
    { intros init m. exact (any_updates (skein_core NB NO E init) m HNB eq_refl (fun s => eq_refl)
        (fun s a b => skein_app m a s b) cs). }
    pose proof (kblocks_krem Lazy NB msg HNB) as KD. pose proof (kblocks_length Lazy NB msg HNB) as KL.
    assert (LD : (length (concat (kblocks Lazy NB msg)) + length (krem Lazy NB msg) = length msg)%nat) by now rewrite <- app_length, KD.
    unfold skein_digest, skein_default. split.
    - intros L. destruct (cmul Checked 64 _ 8); [|reflexivity]. cbn [obind].
      match goal with |- context [process_block NB E Checked ?s ?b ?a] => destruct (process_block NB E Checked s b a) as [s0|]; [|reflexivity] end. cbn [obind].
      unfold h_digest. rewrite U.
      match goal with |- context [update_blocks NB E Checked ?s _] => pose proof (skein_checked _ KL s ltac:(reflexivity)) as K;
        destruct (update_blocks NB E Checked s _) as [s'|]; [|reflexivity] end. cbn [t0 obind] in *.
      unfold h_finalize. cbn [fst snd c_final skein_core]. unfold finalize_fixed_core, process_block, cadd, fit. cbn [t0]. unfold blen in L.
      destruct (N.ltb_spec (t0 s' + N.of_nat (length (krem Lazy NB msg))) (2 ^ 64)); [lia|reflexivity].
    - unfold cmul. rewrite fit_mod. cbn [obind].
      match goal with |- context [process_block NB E Wrapping ?s ?b ?a] => destruct (process_wrapping s b a) as [s0 ->] end. cbn [obind].
      unfold h_digest. rewrite U. match goal with |- context [update_blocks NB E Wrapping ?s ?b] => destruct (update_wrapping b s) as [s' ->] end. cbn [obind].
      unfold h_finalize. cbn [fst snd c_final skein_core]. unfold finalize_fixed_core.
      match goal with |- context [process_block NB E Wrapping ?s ?b ?a] => destruct (process_wrapping s b a) as [s1 ->] end. cbn [obind].
      match goal with |- context [out_chunks NB E Wrapping ?x ?f ?i ?l] => destruct (out_wrapping x f i l) as [o ->] end. discriminate.
  Qed.
End Skein.

(** ** sha1-checked *)
Section Checked.
  Import Model.Sha1Checked.
  Lemma finalize_some m h total buf ctx :
    finalize m h total buf ctx = None <-> cadd m 64 total (N.of_nat (length buf)) = None.
  Proof.
    unfold finalize. destruct (cadd m 64 total _) as [t|]; cbn [obind]; [|tauto]. split; [|discriminate]. intros E. exfalso. revert E.
    destruct (56 <=? length buf)%nat.
    - match goal with |- context [compress h ctx ?l] => destruct (compress h ctx l) end. cbv zeta. discriminate.
    - cbv zeta. discriminate.
  Qed.
  Lemma sha1c_limit b cs : h_digest (Sha1Checked b) Checked cs = None <->
    2 ^ 64 <= (if b_detect b then blen (concat cs) else 8 * blen (concat cs)).
  Proof.
    unfold Sha1Checked. rewrite (counted_digest 64 64 Proof.Sha1Checked.blk _ _ _ _ _ ltac:(lia) Checked Checked) by apply Proof.Sha1Checked.update_eq.
    set (msg := concat cs). pose proof (len_split 64 (length msg) ltac:(lia)) as LS. fold (blen msg) in LS. change (N.of_nat 64) with 64 in LS.
    unfold cadd at 1. rewrite N.add_0_l. unfold fit. destruct (N.ltb_spec (N.of_nat (length msg / 64)) (2 ^ 64)) as [H|H]; cbn [obind].
    - match goal with |- context [fold_left Proof.Sha1Checked.blk ?l ?s] => set (st := fold_left Proof.Sha1Checked.blk l s);
        assert (D : match snd st with Some _ => b_detect b = true | None => b_detect b = false end) end.
      { unfold st. clear. generalize (chunks 64 msg). intros l. unfold into_detection_state. destruct (b_detect b).
        - match goal with |- context [(INITIAL_H, Some ?c)] => generalize c end. intros c. rewrite Proof.Sha1Checked.blk_some. now destruct (compress _ _ _).
        - now rewrite Proof.Sha1Checked.blk_none. }
      clearbody st. destruct st as [h [ctx|]]; cbn [snd] in D; rewrite D.
      + unfold finalize_inner. unfold cmul, fit. destruct (N.ltb_spec (64 * N.of_nat (length msg / 64)) (2 ^ 64)) as [Q|Q]; cbn [obind].
        * pose proof (finalize_some Checked h (64 * N.of_nat (length msg / 64)) (remainder 64 msg) ctx) as F.
          unfold cadd, fit in F. rewrite remainder_length, LS in F by lia.
          destruct (finalize Checked h _ (remainder 64 msg) ctx) as [[h' c']|]; cbn [obind].
          -- split; [discriminate|]. intros L. exfalso. destruct (N.ltb_spec (blen msg) (2 ^ 64)); [lia|].
             pose proof (proj2 F eq_refl). discriminate.
          -- split; [|reflexivity]. intros _. destruct (N.ltb_spec (blen msg) (2 ^ 64)); [|assumption].
             pose proof (proj1 F eq_refl). discriminate.
        * split; [lia|reflexivity].
      + pose proof (bit_length_checked 64 64 (N.of_nat (length msg / 64)) (N.of_nat (length (remainder 64 msg)))
          (fun l => let h0 := Model.Sha1.compress h (len64_padding_be 64 l (remainder 64 msg)) in Some (words_to_be 4 h0, ((h0, @None DetectionState), N.of_nat (length msg / 64))))) as E.
        unfold bit_length in E. unfold finalize_inner. cbv zeta in E |- *. rewrite E, remainder_length, LS by lia.
        destruct (N.ltb_spec (8 * blen msg) (2 ^ 64)); cbn [obind]; split; (discriminate || lia || reflexivity).
    - split; [|reflexivity]. intros _. assert (N.of_nat (length msg / 64) <= blen msg) by lia. destruct (b_detect b); lia.
  Qed.
End Checked.
Lemma sha1c_limit_refuted : ~ (forall b cs, Forall bytes_ok cs -> 2 ^ 64 <= 8 * blen (concat cs) ->
  h_digest (Model.Sha1Checked.Sha1Checked b) Checked cs = None).
Proof.
  intros P. destruct (zeros_message (2 ^ 61)) as [B E]. specialize (P Model.Sha1Checked.builder _ B).
  rewrite E in P. specialize (P ltac:(discriminate)). apply (proj1 (sha1c_limit _ _)) in P. rewrite E in P. now apply P.
Qed.
