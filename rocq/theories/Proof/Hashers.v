(** Facts about every hasher of the workspace at once (Model/Hashers.v). *)
From Verif Require Import Base.Words Base.Bytes Base.BlockBuffer Base.BlockBufferFacts Base.Digest Base.DigestFacts Base.SplitFacts Base.ResetFacts
  Base.HistoryFacts Base.Limit Base.Xof Base.Codec Spec.Sizes Model.VarSizes Model.Hashers Proof.VarSizes.
From Verif Require Proof.Ascon Proof.Belt Proof.Blake2 Proof.Fsb Proof.Gost94 Proof.Groestl Proof.Jh Proof.K12 Proof.Kupyna
  Proof.Md2 Proof.Md4 Proof.Md5 Proof.Ripemd Proof.Sha1 Proof.Sha1Checked Proof.Sha2 Proof.Sha3 Proof.Shabal Proof.Skein
  Proof.Sm3 Proof.Streebog Proof.Tiger Proof.Whirlpool.

Lemma below_mono L a b : (a <= b)%nat -> below L b -> below L a.
Proof. destruct L; cbn; [lia|trivial]. Qed.
Lemma core_weaken C inv H W L : core_ok C inv H W -> (forall n, below L n -> W n) -> core_ok C inv H (below L).
Proof.
  intros O I. destruct O. constructor; try assumption.
  - intros a b. apply below_mono.
  - intros m msg Hb. apply ok_final. now apply I.
Qed.
(** [C] behaves as a hasher of some function, up to [L] bytes fed in slices below [S] bytes. *)
Definition sound (C : core) (L S : option N) : Prop :=
  exists (u : mode -> cst C -> list bytes -> option (cst C)) (inv : cst C -> Prop) (H : bytes -> bytes),
    core_ok (with_update C u) inv H (below L) /\
    match S with
    | None => u = c_update C
    | Some B => N.of_nat (c_bs C) < B /\
                (forall m s bl, N.of_nat (c_bs C * length bl) < B -> c_update C m s bl = u m s bl)
    end.
Lemma with_same C : with_update C (c_update C) = C.
Proof. now destruct C. Qed.
Lemma sound_plain C inv H W L : core_ok C inv H W -> (forall n, below L n -> W n) -> sound C L None.
Proof.
  intros O I. exists (c_update C), inv, H. split; [|reflexivity].
  pose proof (core_weaken C inv H W L O I) as Q. destruct C; exact Q.
Qed.
Ltac plain ok := refine (sound_plain _ _ _ _ _ ok _); cbn [below max_bytes]; try (intros n _; exact I).

Lemma sound_blake2 P V salt persona n C : Proof.Blake2.same P V -> blake2 P salt persona n = Some C -> sound C (Some (2 ^ 64)) None.
Proof.
  intros SV. unfold blake2. destruct (Model.Blake2.new_with_params P salt persona 0 n) as [ini|] eqn:E; [|discriminate].
  cbn [obind]. intros E2. injection E2 as <-. plain (Proof.Blake2.unkeyed_ok P V salt persona n ini SV E).
  intros k Hk. exact Hk.
Qed.
Lemma sound_cshake m r k fn cust ns C : r = (8 * k)%nat -> (0 < k <= 25)%nat ->
  bytes_ok fn -> bytes_ok cust -> 8 * N.of_nat (length fn) < 2 ^ 64 -> 8 * N.of_nat (length cust) < 2 ^ 64 ->
  cshake r fn cust ns m = Some C -> sound C None None.
Proof.
  intros R K B1 B2 L1 L2. unfold cshake. destruct (Model.Sha3.cshake_new m r fn cust) as [ini|] eqn:E; [|discriminate].
  cbn [obind]. intros E2. injection E2 as <-. plain (Proof.Sha3.cshake_ok m r k fn cust ini ns R K L1 L2 B1 B2 E).
Qed.
Lemma sound_skein V n m C : (4 <= Spec.Threefish.Nw V)%nat -> N.of_nat n < 2 ^ 61 -> skein V n m = Some C -> sound C (Some (2 ^ 64)) None.
Proof.
  intros Hn L. unfold skein. cbv zeta. destruct (Model.Skein.skein_default _ n _ m) as [ini|] eqn:E; [|discriminate].
  cbn [obind]. intros E2. injection E2 as <-.
  plain (Proof.Skein.skein_ok (Spec.Threefish.Nw V) n (Spec.Threefish.encrypt V) Hn (Proof.Skein.threefish_cipher V) ini m L E).
  intros k Hk. exact Hk.
Qed.
Lemma eight n w : N.of_nat n < 2 ^ w -> 8 * N.of_nat n < 2 ^ (3 + w).
Proof. intros H. rewrite N.pow_add_r. change (2 ^ 3) with 8. lia. Qed.
Lemma some_inj {A} (x y : A) : Some x = Some y -> y = x.
Proof. now intros [= ->]. Qed.

Ltac by8 := first [exact (fun n Hn => eight n 61 Hn) | exact (fun n Hn => eight n 125 Hn) | exact (fun n Hn => eight n 445 Hn)].
Lemma alg_sound m a C : params_ok a -> hasher m a = Some C -> sound C (max_bytes a) (max_slice a).
Proof.
  intros PO E. destruct a; cbn [hasher] in E; cbn [max_bytes max_slice];
    lazymatch type of E with Some _ = Some _ => apply some_inj in E; subst C | _ => idtac end.
  - plain Proof.Sha1.Sha1_ok. by8.
  - plain (Proof.Sha1Checked.Sha1Checked_ok b). by8.
  - rewrite ct_Sha224 in E. apply some_inj in E. subst C. plain Proof.Sha2.Sha224_ok. by8.
  - rewrite ct_Sha256 in E. apply some_inj in E. subst C. plain Proof.Sha2.Sha256_ok. by8.
  - rewrite ct_Sha384 in E. apply some_inj in E. subst C. plain Proof.Sha2.Sha384_ok. by8.
  - rewrite ct_Sha512 in E. apply some_inj in E. subst C. plain Proof.Sha2.Sha512_ok. by8.
  - rewrite ct_Sha512_224 in E. apply some_inj in E. subst C. plain Proof.Sha2.Sha512_224_ok. by8.
  - rewrite ct_Sha512_256 in E. apply some_inj in E. subst C. plain Proof.Sha2.Sha512_256_ok. by8.
  - plain Proof.Md2.Md2_ok.
  - plain Proof.Md4.Md4_ok.
  - plain Proof.Md5.Md5_ok.
  - plain Proof.Sm3.Sm3_ok. by8.
  - plain Proof.Ripemd.Ripemd128_ok. by8.
  - plain Proof.Ripemd.Ripemd160_ok. by8.
  - plain Proof.Ripemd.Ripemd256_ok. by8.
  - plain Proof.Ripemd.Ripemd320_ok. by8.
  - plain Proof.Sha3.Keccak224_ok.
  - plain Proof.Sha3.Keccak256_ok.
  - plain Proof.Sha3.Keccak384_ok.
  - plain Proof.Sha3.Keccak512_ok.
  - plain Proof.Sha3.Keccak256Full_ok.
  - plain Proof.Sha3.Sha3_224_ok.
  - plain Proof.Sha3.Sha3_256_ok.
  - plain Proof.Sha3.Sha3_384_ok.
  - plain Proof.Sha3.Sha3_512_ok.
  - plain (Proof.Sha3.Shake128_ok reads).
  - plain (Proof.Sha3.Shake256_ok reads).
  - unfold turbo in E. destruct (Model.Sha3.turbo_new ds) as [t|] eqn:T; [|discriminate E]. apply some_inj in E. subst C.
    assert (IS : is_some (Model.Sha3.turbo_new ds)) by (eexists; exact T).
    plain (Proof.Sha3.TurboShake128_ok ds reads IS).
  - unfold turbo in E. destruct (Model.Sha3.turbo_new ds) as [t|] eqn:T; [|discriminate E]. apply some_inj in E. subst C.
    assert (IS : is_some (Model.Sha3.turbo_new ds)) by (eexists; exact T).
    plain (Proof.Sha3.TurboShake256_ok ds reads IS).
  - destruct PO as (B1 & B2 & L1 & L2). exact (sound_cshake m 168 21 fn cust reads C eq_refl ltac:(lia) B1 B2 L1 L2 E).
  - destruct PO as (B1 & B2 & L1 & L2). exact (sound_cshake m 136 17 fn cust reads C eq_refl ltac:(lia) B1 B2 L1 L2 E).
  - plain (Proof.K12.K12_ok cust reads PO). intros n Hn. unfold Proof.K12.k12_within. lia.
  - exact (sound_blake2 _ _ _ _ _ _ Proof.Blake2.same_b E).
  - exact (sound_blake2 _ _ _ _ _ _ Proof.Blake2.same_s E).
  - plain Proof.Tiger.Tiger_ok. by8.
  - plain Proof.Tiger.Tiger2_ok. by8.
  - exists Proof.Whirlpool.ideal_update, Proof.Whirlpool.inv, Spec.Whirlpool.Whirlpool. split.
    + exact (core_weaken _ _ _ _ (Some (2 ^ 253)) Proof.Whirlpool.ideal_ok (fun n Hn => eight n 253 Hn)).
    + split; [reflexivity|]. exact Proof.Whirlpool.ideal_update_eq.
  - unfold ct_new in E. rewrite rt_GroestlShort in E. destruct (Nat.leb_spec size 32) as [L|]; [|discriminate E]. apply some_inj in E. subst C.
    plain (Proof.Groestl.GroestlShort_ok size L). intros n Hn. apply (Proof.Groestl.within_bytes _ _ n Proof.Groestl.short_matches). lia.
  - unfold ct_new in E. rewrite rt_GroestlLong in E. destruct (Nat.leb_spec size 64) as [L|]; [|discriminate E]. apply some_inj in E. subst C.
    plain (Proof.Groestl.GroestlLong_ok size L). intros n Hn. apply (Proof.Groestl.within_bytes _ _ n Proof.Groestl.long_matches). lia.
  - unfold ct_new in E. rewrite rt_KupynaShort in E. destruct (Nat.leb_spec size 32) as [L|]; [|discriminate E]. apply some_inj in E. subst C.
    plain (Proof.Kupyna.KupynaShort_ok size L). intros n Hn. exact (Proof.Kupyna.within_bytes _ _ n Proof.Kupyna.short_matches Hn).
  - unfold ct_new in E. rewrite rt_KupynaLong in E. destruct (Nat.leb_spec 32 size) as [_|]; [|discriminate E]. destruct (Nat.leb_spec size 64) as [L|]; [|discriminate E]. apply some_inj in E. subst C.
    plain (Proof.Kupyna.KupynaLong_ok size L). intros n Hn. exact (Proof.Kupyna.within_bytes _ _ n Proof.Kupyna.long_matches Hn).
  - rewrite ct_Streebog256 in E. apply some_inj in E. subst C. plain Proof.Streebog.Streebog256_ok. by8.
  - rewrite ct_Streebog512 in E. apply some_inj in E. subst C. plain Proof.Streebog.Streebog512_ok. by8.
  - destruct PO as [[P1 P2] P3].
    assert (T : Proof.Gost94.table_ok (Model.Gost94.S_BOX params)).
    { split; [exact P1|]. apply Forall_forall. intros r Hr. exact (proj2 (proj1 (Forall_forall _ _) P2 r Hr)). }
    exists (Proof.Gost94.ideal_update params), Proof.Gost94.inv, (Spec.GOST94.GOST94 (Model.Gost94.S_BOX params) (Model.Gost94.H0 params)). split.
    + refine (core_weaken _ _ _ _ None (Proof.Gost94.ideal_ok params T P3) (fun _ _ => I)).
    + split; [reflexivity|]. exact (Proof.Gost94.ideal_update_eq params T).
  - exact (sound_skein Spec.Threefish.Threefish256 size m C ltac:(cbn; lia) PO E).
  - exact (sound_skein Spec.Threefish.Threefish512 size m C ltac:(cbn; lia) PO E).
  - exact (sound_skein Spec.Threefish.Threefish1024 size m C ltac:(cbn; lia) PO E).
  - rewrite ct_Jh224 in E. apply some_inj in E. subst C. plain Proof.Jh.Jh224_ok. by8.
  - rewrite ct_Jh256 in E. apply some_inj in E. subst C. plain Proof.Jh.Jh256_ok. by8.
  - rewrite ct_Jh384 in E. apply some_inj in E. subst C. plain Proof.Jh.Jh384_ok. by8.
  - rewrite ct_Jh512 in E. apply some_inj in E. subst C. plain Proof.Jh.Jh512_ok. by8.
  - rewrite ct_Shabal192 in E. apply some_inj in E. subst C. plain Proof.Shabal.Shabal192_ok.
  - rewrite ct_Shabal224 in E. apply some_inj in E. subst C. plain Proof.Shabal.Shabal224_ok.
  - rewrite ct_Shabal256 in E. apply some_inj in E. subst C. plain Proof.Shabal.Shabal256_ok.
  - rewrite ct_Shabal384 in E. apply some_inj in E. subst C. plain Proof.Shabal.Shabal384_ok.
  - rewrite ct_Shabal512 in E. apply some_inj in E. subst C. plain Proof.Shabal.Shabal512_ok.
  - destruct PO as [L B]. plain (Proof.Fsb.Fsb160_ok PI L B). by8.
  - destruct PO as [L B]. plain (Proof.Fsb.Fsb224_ok PI L B). by8.
  - destruct PO as [L B]. plain (Proof.Fsb.Fsb256_ok PI L B). by8.
  - destruct PO as [L B]. plain (Proof.Fsb.Fsb384_ok PI L B). by8.
  - destruct PO as [L B]. plain (Proof.Fsb.Fsb512_ok PI L B). by8.
  - plain Proof.Belt.BeltHash_ok. by8.
  - plain Proof.Ascon.AsconHash256_ok.
  - plain (Proof.Ascon.AsconXof128_ok reads).
Qed.

(** ** Cutting, histories, serialization *)

Section Alg.
  Context (m0 : mode) (a : alg) (C : core) (PO : params_ok a) (HC : hasher m0 a = Some C).

  Lemma alg_ideal : exists u inv H, core_ok (with_update C u) inv H (below (max_bytes a)) /\
    (forall m h cs, slices a cs -> h_updates C m h cs = h_updates (with_update C u) m h cs) /\
    (forall m ops, op_slices a ops -> run_history C m ops = run_history (with_update C u) m ops).
  Proof using PO HC.
    destruct (alg_sound m0 a C PO HC) as (u & inv & H & O & S). exists u, inv, H. split; [exact O|].
    unfold slices, op_slices. destruct (max_slice a) as [B|]; cbn [below].
    - destruct S as [S1 S2]. split.
      + intros m h cs F. exact (limit_updates C B u (ok_bs _ _ _ _ O) S1 S2 m cs h F).
      + intros m ops F. exact (limit_history C B u (ok_bs _ _ _ _ O) S1 S2 m ops F).
    - subst u. destruct C; now split.
  Qed.
  Lemma alg_cut m cs cs' : Forall bytes_ok cs -> Forall bytes_ok cs' -> slices a cs -> slices a cs' ->
    concat cs = concat cs' -> h_digest C m cs = h_digest C m cs'.
  Proof using PO HC.
    intros B B' S S' E. destruct alg_ideal as (u & inv & H & O & U & _). unfold h_digest. rewrite !U by assumption.
    assert (Q : h_updates (with_update C u) m (h_new C) cs = h_updates (with_update C u) m (h_new C) cs')
      by exact (updates_cut _ _ _ _ O m cs cs' B B' E).
    now rewrite Q.
  Qed.
  Lemma alg_hash : exists H, forall m,
    (forall cs, Forall bytes_ok cs -> slices a cs -> below (max_bytes a) (length (concat cs)) -> h_digest C m cs = Some (H (concat cs))) /\
    (forall ops, ops_ok ops -> op_slices a ops -> kept (has_codec C) (below (max_bytes a)) (mkA [] []) ops ->
       run_history C m ops = Some (spec_history (has_codec C) H ops)).
  Proof using PO HC.
    destruct alg_ideal as (u & inv & H & O & U & R). exists H. intros m. split.
    - intros cs B S W. pose proof (digest_spec _ _ _ _ O m cs B W) as D. unfold h_digest in *. rewrite U by assumption. exact D.
    - intros ops B S W. rewrite R by assumption. exact (history_kept _ _ _ _ O m ops B W).
  Qed.
  Lemma alg_reset m cs h : Forall bytes_ok cs -> slices a cs -> h_updates C m (h_new C) cs = Some h -> h_reset C h = h_new C.
  Proof using PO HC.
    intros B S E. destruct alg_ideal as (u & inv & H & O & U & _). rewrite U in E by assumption.
    exact (reset_spec _ _ _ _ O m cs h B E).
  Qed.
  Lemma alg_roundtrip m cs h cd : c_codec C = Some cd -> Forall bytes_ok cs -> slices a cs ->
    h_updates C m (h_new C) cs = Some h -> h_deserialize C cd (h_serialize C cd h) = Some h.
  Proof using PO HC.
    intros Hc B S E. destruct alg_ideal as (u & inv & H & O & U & _). rewrite U in E by assumption.
    exact (roundtrip_any _ _ _ _ O m cs cd h Hc B E).
  Qed.
  Lemma alg_ser_len m cs h cd : c_codec C = Some cd -> Forall bytes_ok cs -> slices a cs ->
    h_updates C m (h_new C) cs = Some h -> length (h_serialize C cd h) = state_len C cd.
  Proof using PO HC.
    intros Hc B S E. destruct alg_ideal as (u & inv & H & O & U & _). rewrite U in E by assumption.
    destruct (sane_updates _ _ _ _ O m cs _ h (sane_new _ _ _ _ O) B E) as (I & P & _). destruct h as [s d]. cbn [fst snd] in *.
    destruct (ok_codec _ _ _ _ O cd s Hc I) as [L _].
    cbn [with_update c_kind c_bs] in P.
    unfold h_serialize, state_len. rewrite app_length. cbn [fst snd]. rewrite (buf_serialize_length (c_kind C)) by exact P.
    assert (L2 : length (@cd_ser (cst C) cd s) = @cd_len (cst C) cd) by exact L. rewrite L2. lia.
  Qed.
End Alg.

(** ** Canonical decoding *)
Definition canonical {S} (cd : codec S) : Prop := forall b s, bytes_ok b -> length b = cd_len cd -> cd_deser cd b = Some s -> cd_ser cd s = b.
Lemma counted_can k n c L : (0 < k)%nat -> L = (k * n + c)%nat -> canonical (mkCodec L (ser_counted k c) (deser_counted k n)).
Proof. intros K E b s B Lb. cbn [cd_len cd_ser cd_deser] in *. apply (counted_canonical k n c); congruence. Qed.
Lemma words_le_can8 n b : bytes_ok b -> length b = (8 * n)%nat -> words_to_le 8 (words_of_le 8 b) = b.
Proof. intros B L. apply (words_le_canonical 8 n); [lia|exact B|exact L]. Qed.
Lemma words_le_can4 n b : bytes_ok b -> length b = (4 * n)%nat -> words_to_le 4 (words_of_le 4 b) = b.
Proof. intros B L. apply (words_le_canonical 4 n); [lia|exact B|exact L]. Qed.
Lemma le8_can b : bytes_ok b -> length b = 8%nat -> le_bytes 8 (le_val b) = b.
Proof. intros B L. rewrite <- L. now apply le_bytes_val. Qed.
Lemma skipn_skipn' {A} (x y : nat) : forall l : list A, skipn x (skipn y l) = skipn (x + y) l.
Proof.
  induction y as [|y IH]; intros l; [now rewrite Nat.add_0_r|].
  destruct l as [|h l]; [now rewrite !skipn_nil|]. rewrite Nat.add_succ_r. apply IH.
Qed.
Lemma three n k (b : bytes) : firstn n b ++ firstn k (skipn n b) ++ skipn (n + k) b = b.
Proof. rewrite (Nat.add_comm n k), <- skipn_skipn', !firstn_skipn. reflexivity. Qed.

Lemma nth_skip (n k : nat) (l : bytes) : nth k (skipn n l) 0 = nth (n + k) l 0.
Proof. revert l. induction n as [|n IH]; intros l; [reflexivity|]. destruct l as [|x l]; [now destruct k|]. exact (IH l). Qed.
Lemma nth_zeros n i d : (i < n)%nat -> nth i (zeros n) d = 0.
Proof. revert i. induction n as [|n IH]; intros i L; [lia|]. destruct i as [|i]; [reflexivity|]. apply IH. lia. Qed.
Lemma sized_can {S} n (cd : codec S) : canonical cd -> canonical (sized n cd).
Proof.
  intros C b s B L. cbn [sized cd_len cd_ser cd_deser] in *.
  destruct (N.eqb_spec (nth (cd_len cd) b 0) (N.of_nat n)) as [E|]; [|discriminate]. intros D.
  rewrite (C (firstn (cd_len cd) b) s), <- E; [|now apply bytes_ok_firstn|rewrite firstn_length; lia|exact D].
  rewrite <- (firstn_skipn (cd_len cd) b) at 3. f_equal.
  assert (Ls : length (skipn (cd_len cd) b) = 1%nat) by (rewrite skipn_length; lia).
  rewrite <- (Nat.add_0_r (cd_len cd)) at 1. rewrite <- nth_skip. destruct (skipn (cd_len cd) b) as [|x [|? ?]]; [discriminate Ls|reflexivity|discriminate Ls].
Qed.

Ltac lens := rewrite ?firstn_length, ?skipn_length; lia.
Ltac oks := repeat first [apply bytes_ok_firstn | apply bytes_ok_skipn]; assumption.
Lemma md2_can : canonical Model.Md2.md2_codec.
Proof. intros b s B L E. apply some_inj in E. subst s. apply firstn_skipn. Qed.
Lemma sha3_can : canonical Model.Sha3.sha3_codec.
Proof. intros b s B L E. apply some_inj in E. subst s. exact (words_le_can8 25 b B L). Qed.
Lemma wp_can : canonical Model.Whirlpool.wp_codec.
Proof.
  intros b s B L E. cbn [Model.Whirlpool.wp_codec cd_len cd_ser cd_deser] in *. apply some_inj in E. subst s. cbn [fst snd].
  rewrite (words_le_can8 8), (words_le_can8 4) by (oks || lens). apply firstn_skipn.
Qed.
Lemma sb_can : canonical Model.Streebog.sb_codec.
Proof.
  intros b s B L E. cbn [Model.Streebog.sb_codec cd_len cd_ser cd_deser] in *. apply some_inj in E. subst s.
  rewrite !(words_le_can8 8) by (oks || lens). exact (three 64 64 b).
Qed.
Lemma gost_can : canonical Model.Gost94.gost_codec.
Proof.
  intros b s B L E. cbn [Model.Gost94.gost_codec cd_len cd_ser cd_deser] in *. apply some_inj in E. subst s.
  rewrite !(words_le_can8 4) by (oks || lens). exact (three 32 32 b).
Qed.
Lemma shabal_can : canonical (mkCodec 184 Model.Shabal.sh_ser Model.Shabal.sh_deser).
Proof.
  intros b s B L E. cbn [cd_len cd_ser cd_deser] in *. unfold Model.Shabal.sh_deser in E. apply some_inj in E. subst s.
  unfold Model.Shabal.sh_ser. cbn [Model.Shabal.a Model.Shabal.b Model.Shabal.c Model.Shabal.w].
  rewrite (words_le_can4 12), !(words_le_can4 16), le8_can by (oks || lens).
  rewrite <- (firstn_skipn 48 b) at 5. f_equal. rewrite <- (firstn_skipn 64 (skipn 48 b)) at 4. f_equal. apply firstn_skipn.
Qed.
Lemma fsb_can P : canonical (Model.Fsb.fsb_codec P).
Proof.
  intros b s B L E. cbn [Model.Fsb.fsb_codec cd_len cd_ser cd_deser] in *. apply some_inj in E. subst s. cbn [fst snd].
  rewrite le8_can by (oks || lens). apply firstn_skipn.
Qed.
Lemma alg_canonical m a C cd : hasher m a = Some C -> c_codec C = Some cd -> canonical cd.
Proof.
  intros E Hc. destruct a; cbn [hasher] in E; 
    try (unfold ct_new in E; first [rewrite rt_GroestlShort in E | rewrite rt_GroestlLong in E | rewrite rt_KupynaShort in E | rewrite rt_KupynaLong in E];
         lazymatch type of E with context [if ?b then _ else _] => destruct b; [|discriminate E] end);
    try (unfold turbo, cshake, blake2, skein in E; lazymatch type of E with context [obind ?x _] => destruct x; [|discriminate E] end; cbn [obind] in E);
    apply some_inj in E; subst C; cbn [c_codec xof_core] in Hc; try discriminate Hc; apply some_inj in Hc; subst cd;
    try (apply sized_can); try (apply counted_can; [lia|reflexivity]).
  - exact md2_can.
  - exact sha3_can.
  - exact sha3_can.
  - exact sha3_can.
  - exact sha3_can.
  - exact sha3_can.
  - exact sha3_can.
  - exact sha3_can.
  - exact sha3_can.
  - exact sha3_can.
  - exact wp_can.
  - exact sb_can.
  - exact sb_can.
  - exact gost_can.
  - exact shabal_can.
  - exact shabal_can.
  - exact shabal_can.
  - exact shabal_can.
  - exact shabal_can.
  - apply fsb_can.
  - apply fsb_can.
  - apply fsb_can.
  - apply fsb_can.
  - apply fsb_can.
Qed.
(** The bytes of an accepted string that matter: the core, the position, and as many bytes as it says. *)
Lemma alg_decode m a C cd b h : hasher m a = Some C -> c_codec C = Some cd -> bytes_ok b -> length b = state_len C cd ->
  h_deserialize C cd b = Some h ->
  h_serialize C cd h = firstn (cd_len cd + 1 + length (snd h)) b ++ zeros (c_bs C - length (snd h)).
Proof.
  intros E Hc B L. unfold h_deserialize, h_serialize, state_len in *.
  destruct (cd_deser cd (firstn (cd_len cd) b)) as [s|] eqn:Es; [|discriminate]. cbn [obind].
  destruct (buf_deserialize _ _ (skipn (cd_len cd) b)) as [d|] eqn:Ed; [|discriminate]. cbn [obind].
  intros Eh. apply some_inj in Eh. subst h. cbn [fst snd].
  rewrite (alg_canonical m a C cd E Hc (firstn (cd_len cd) b) s); [|now apply bytes_ok_firstn|rewrite firstn_length; lia|exact Es].
  apply buf_accepted in Ed as (_ & _ & Ed). unfold buf_serialize, pad_with_zeros. rewrite app_comm_cons, <- Ed, app_assoc. f_equal.
  replace (cd_len cd + 1 + length d)%nat with (cd_len cd + S (length d))%nat by lia.
  rewrite <- (firstn_skipn (cd_len cd) b) at 3. rewrite firstn_app, firstn_firstn, firstn_length, Nat.min_r, Nat.min_l by lia.
  f_equal. f_equal. lia.
Qed.
(** The remaining bytes do not. *)
Lemma alg_unused C cd b b' h : length b' = length b -> h_deserialize C cd b = Some h ->
  firstn (cd_len cd + 1 + length (snd h)) b' = firstn (cd_len cd + 1 + length (snd h)) b -> h_deserialize C cd b' = Some h.
Proof.
  intros L. unfold h_deserialize.
  destruct (cd_deser cd (firstn (cd_len cd) b)) as [s|] eqn:Es; [|discriminate]. cbn [obind].
  destruct (buf_deserialize _ _ (skipn (cd_len cd) b)) as [d|] eqn:Ed; [|discriminate]. cbn [obind].
  intros Eh. apply some_inj in Eh. subst h. cbn [fst snd]. intros F.
  assert (G : forall x : bytes, firstn (cd_len cd) x = firstn (cd_len cd) (firstn (cd_len cd + 1 + length d) x)).
  { intros x. rewrite firstn_firstn, Nat.min_l by lia. reflexivity. }
  rewrite (G b'), F, <- G, Es. cbn [obind].
  assert (Ed' : buf_deserialize (c_kind C) (c_bs C) (skipn (cd_len cd) b') = Some d); [|now rewrite Ed'].
  apply buf_accepted in Ed as (E1 & E2 & E3). apply buf_accepted. rewrite skipn_length in *. repeat split; [lia|exact E2|].
  assert (K : forall x : bytes, firstn (S (length d)) (skipn (cd_len cd) x) = skipn (cd_len cd) (firstn (cd_len cd + 1 + length d) x)).
  { intros x. rewrite firstn_skipn_comm. do 2 f_equal. lia. }
  now rewrite K, F, <- K.
Qed.
Lemma alg_decode_inj m a C cd b b' h : hasher m a = Some C -> c_codec C = Some cd -> bytes_ok b -> bytes_ok b' ->
  length b = state_len C cd -> length b' = state_len C cd ->
  h_deserialize C cd b = Some h -> h_deserialize C cd b' = Some h ->
  firstn (cd_len cd + 1 + length (snd h)) b = firstn (cd_len cd + 1 + length (snd h)) b'.
Proof.
  intros E Hc B B' L L' D D'. pose proof (alg_decode m a C cd b h E Hc B L D) as X.
  rewrite (alg_decode m a C cd b' h E Hc B' L' D') in X. apply app_inv_tail in X. now symmetry.
Qed.
Lemma alg_position C cd b h : h_deserialize C cd b = Some h ->
  match c_kind C with Eager => (length (snd h) < c_bs C)%nat | Lazy => (length (snd h) <= c_bs C)%nat end.
Proof.
  unfold h_deserialize. destruct (cd_deser cd _) as [s|]; [|discriminate]. cbn [obind].
  destruct (buf_deserialize _ _ _) as [d|] eqn:Ed; [|discriminate]. cbn [obind]. intros Eh. apply some_inj in Eh. subst h. cbn [snd].
  apply buf_accepted in Ed as (_ & P & _). destruct (c_kind C); cbn [pos_ok] in P; [apply Nat.ltb_lt|apply Nat.leb_le]; exact P.
Qed.
(** Panics. *)
Lemma alg_restore C cd b : h_deserialize C cd b = match h_restore C cd b with Some r => r | None => None end.
Proof.
  unfold h_deserialize, h_restore, buf_deserialize. destruct (cd_deser cd _) as [s|]; [|reflexivity]. cbn [obind].
  destruct (buf_restore _ _ _) as [[d|]|]; reflexivity.
Qed.
Lemma alg_restore_panics C cd b : length b = state_len C cd ->
  h_restore C cd b = None <-> is_some (cd_deser cd (firstn (cd_len cd) b)) /\ N.of_nat (c_bs C) < nth (cd_len cd) b 0.
Proof.
  intros L. unfold h_restore, state_len in *. destruct (cd_deser cd _) as [s|].
  2: { split; [discriminate|]. intros [[? [=]] _]. }
  assert (Ls : length (skipn (cd_len cd) b) = S (c_bs C)) by (rewrite skipn_length; lia).
  replace (nth (cd_len cd) b 0) with (hd 0 (skipn (cd_len cd) b)).
  2: { rewrite <- (Nat.add_0_r (cd_len cd)) at 2. rewrite <- nth_skip. now destruct (skipn (cd_len cd) b). }
  unfold buf_restore. destruct (skipn (cd_len cd) b) as [|p block]; [discriminate|]. cbn [length hd] in *. injection Ls as ->.
  rewrite Nat.eqb_refl. cbn [negb]. destruct (Nat.ltb_spec (c_bs C) (N.to_nat p)) as [G|G]; cbn [obind].
  - split; [|reflexivity]. intros _. split; [now exists s|lia].
  - split.
    + destruct (pos_ok _ _ _); discriminate.
    + intros [_ H]. lia.
Qed.
(** Every hasher: a string denoting its initial state that is not the saved one, and a string that panics. *)
Lemma codec_shape m a C cd : hasher m a = Some C -> c_codec C = Some cd -> c_ibuf C = [] /\ (0 < c_bs C < 255)%nat.
Proof.
  intros E Hc. destruct a; cbn [hasher] in E; 
    try (unfold ct_new in E; first [rewrite rt_GroestlShort in E | rewrite rt_GroestlLong in E | rewrite rt_KupynaShort in E | rewrite rt_KupynaLong in E];
         lazymatch type of E with context [if ?b then _ else _] => destruct b; [|discriminate E] end);
    try (unfold turbo, cshake, blake2, skein in E; lazymatch type of E with context [obind ?x _] => destruct x; [|discriminate E] end; cbn [obind] in E);
    apply some_inj in E; subst C; cbn [c_codec xof_core] in Hc; try discriminate Hc;
    (split; [reflexivity|]); clear; (split; [apply Nat.ltb_lt; reflexivity|apply Nat.ltb_lt; reflexivity]).
Qed.
Lemma alg_not_injective m a C cd : params_ok a -> hasher m a = Some C -> c_codec C = Some cd ->
  exists b b', length b = state_len C cd /\ length b' = state_len C cd /\ b <> b' /\
    h_deserialize C cd b = Some (h_new C) /\ h_deserialize C cd b' = Some (h_new C).
Proof.
  intros PO E Hc. destruct (codec_shape m a C cd E Hc) as [I [B1 _]].
  pose proof (alg_roundtrip m a C PO E m [] (h_new C) cd Hc ltac:(constructor) ltac:(constructor) eq_refl) as R.
  pose proof (alg_ser_len m a C PO E m [] (h_new C) cd Hc ltac:(constructor) ltac:(constructor) eq_refl) as L.
  set (b := h_serialize C cd (h_new C)) in *. exists b, (firstn (cd_len cd + c_bs C) b ++ [1]).
  assert (L' : length (firstn (cd_len cd + c_bs C) b ++ [1]) = state_len C cd).
  { unfold state_len in *. rewrite app_length, firstn_length, L. cbn [length]. lia. }
  assert (U : length (snd (h_new C)) = 0%nat) by (cbn [h_new snd]; now rewrite I).
  repeat split; [exact L|exact L'| |exact R|].
  - intros X. assert (N0 : nth (cd_len cd + c_bs C) b 7 = 0).
    { unfold b, h_serialize. cbn [h_new fst snd]. rewrite I.
      assert (Lc : length (cd_ser cd (c_init C)) = cd_len cd).
      { unfold b, h_serialize, state_len in L. rewrite app_length in L. cbn [h_new fst snd] in L. rewrite I in L.
        unfold buf_serialize, pad_with_zeros in L. cbn [length app] in L. rewrite zeros_length in L. lia. }
      unfold buf_serialize, pad_with_zeros. cbn [length app]. rewrite app_nth2 by lia. rewrite Lc.
      replace (cd_len cd + c_bs C - cd_len cd)%nat with (S (c_bs C - 1)) by lia. cbn [nth]. rewrite Nat.sub_0_r. apply nth_zeros. lia. }
    rewrite X in N0. unfold state_len in L. rewrite app_nth2 in N0 by (rewrite firstn_length; lia).
    rewrite firstn_length, L, Nat.min_l in N0 by lia. rewrite Nat.sub_diag in N0. discriminate N0.
  - apply (alg_unused C cd b); [congruence|exact R|]. rewrite U. unfold state_len in L.
    rewrite firstn_app, firstn_firstn, firstn_length, Nat.min_l by lia.
    replace (cd_len cd + 1 + 0 - Nat.min (cd_len cd + c_bs C) (length b))%nat with 0%nat by lia. cbn [firstn]. apply app_nil_r.
Qed.
Lemma alg_can_panic m a C cd : params_ok a -> hasher m a = Some C -> c_codec C = Some cd ->
  exists b, length b = state_len C cd /\ h_restore C cd b = None.
Proof.
  intros PO E Hc. destruct (codec_shape m a C cd E Hc) as [I [_ B1]].
  pose proof (alg_roundtrip m a C PO E m [] (h_new C) cd Hc ltac:(constructor) ltac:(constructor) eq_refl) as R.
  pose proof (alg_ser_len m a C PO E m [] (h_new C) cd Hc ltac:(constructor) ltac:(constructor) eq_refl) as L.
  set (b := h_serialize C cd (h_new C)) in *. exists (firstn (cd_len cd) b ++ [255] ++ zeros (c_bs C)). unfold state_len in L.
  assert (Lf : length (firstn (cd_len cd) b) = cd_len cd) by (rewrite firstn_length; lia).
  assert (L' : length (firstn (cd_len cd) b ++ [255] ++ zeros (c_bs C)) = state_len C cd).
  { rewrite !app_length, Lf, zeros_length. unfold state_len. cbn [length]. lia. }
  split; [exact L'|]. apply alg_restore_panics; [exact L'|]. split.
  - rewrite firstn_app, Lf, Nat.sub_diag, firstn_firstn, Nat.min_id. cbn [firstn]. rewrite app_nil_r.
    unfold h_deserialize in R. destruct (cd_deser cd (firstn (cd_len cd) b)) as [s|]; [now exists s|discriminate R].
  - rewrite app_nth2 by lia. rewrite Lf, Nat.sub_diag. cbn [nth app]. lia.
Qed.

(** ** Constructors *)
Lemma alg_new m a : params_ok a -> (exists C, hasher m a = Some C) <-> accepted a.
Proof.
  assert (SZ : forall f n, (exists C, ct_new f n = Some C) <-> supported f n).
  { intros f n. rewrite <- rt_iff. unfold ct_new. split; intros [C E].
    - destruct (rt_new f n) as [C'| |]; [now exists C'|discriminate..].
    - exists C. now rewrite E. }
  assert (TB : forall X ds ns, (exists C, turbo X ds ns = Some C) <-> 0x01 <= ds <= 0x7F).
  { intros X ds ns. rewrite <- Proof.Sha3.turbo_new_some. unfold turbo, is_some. split.
    - intros [C E]. destruct (Model.Sha3.turbo_new ds) as [t|]; [now exists t|discriminate].
    - intros [t ->]. cbn [obind]. now eexists. }
  assert (B2 : forall P V salt persona n, Proof.Blake2.same P V -> (exists C, blake2 P salt persona n = Some C) <-> Proof.Blake2.params_ok P salt persona 0 n).
  { intros P V salt persona n SV. unfold blake2. split.
    - intros [C E]. destruct (Model.Blake2.new_with_params P salt persona 0 n) eqn:N; [|discriminate].
      unfold Model.Blake2.new_with_params, Model.Blake2.assert in N. unfold Proof.Blake2.params_ok.
      do 4 (match type of N with context [if (?a <=? ?b)%nat then _ else _] => destruct (Nat.leb_spec a b); [|discriminate] end; cbn [obind] in N).
      repeat split; lia.
    - intros Q. destruct (Proof.Blake2.new_spec P V salt persona 0 n SV Q) as (h & -> & _). cbn [obind]. now eexists. }
  assert (SK : forall V n, (4 <= Spec.Threefish.Nw V)%nat -> N.of_nat n < 2 ^ 61 -> exists C, skein V n m = Some C).
  { intros V n Hn L. unfold skein. cbv zeta.
    destruct (Proof.Skein.default_spec (Spec.Threefish.Nw V) n (Spec.Threefish.encrypt V) Hn (Proof.Skein.threefish_cipher V) m L) as (x0 & -> & _).
    cbn [obind]. now eexists. }
  assert (CS : forall r fn cust ns, (0 < r <= 200)%nat -> 8 * N.of_nat (length fn) < 2 ^ 64 -> 8 * N.of_nat (length cust) < 2 ^ 64 ->
    exists C, cshake r fn cust ns m = Some C).
  { intros r fn cust ns R L1 L2. unfold cshake. destruct (Proof.Sha3.cshake_new_some m r fn cust R L1 L2) as [ini ->]. cbn [obind]. now eexists. }
  intros PO. destruct a; cbn [hasher accepted];
    try (split; [intros _; exact I|intros _; now eexists]).
  - apply TB.
  - apply TB.
  - destruct PO as (_ & _ & L1 & L2). split; [intros _; exact I|intros _]. apply CS; [lia|exact L1|exact L2].
  - destruct PO as (_ & _ & L1 & L2). split; [intros _; exact I|intros _]. apply CS; [lia|exact L1|exact L2].
  - rewrite (B2 _ _ salt persona size Proof.Blake2.same_b). unfold Proof.Blake2.params_ok. cbn. lia.
  - rewrite (B2 _ _ salt persona size Proof.Blake2.same_s). unfold Proof.Blake2.params_ok. cbn. lia.
  - apply SZ.
  - apply SZ.
  - apply SZ.
  - apply SZ.
  - split; [intros _; exact I|intros _]. apply SK; [cbn; lia|exact PO].
  - split; [intros _; exact I|intros _]. apply SK; [cbn; lia|exact PO].
  - split; [intros _; exact I|intros _]. apply SK; [cbn; lia|exact PO].
Qed.

(** ** For the property files *)
Lemma alg_one_call m a C cs : params_ok a -> hasher m a = Some C ->
  Forall bytes_ok cs -> slices a cs -> slices a [concat cs] -> below (max_bytes a) (length (concat cs)) ->
  exists d, h_digest C m cs = Some d /\ h_digest C m [concat cs] = Some d.
Proof.
  intros PO HC B S S1 W. destruct (alg_hash m a C PO HC) as [H HH]. exists (H (concat cs)). destruct (HH m) as [D _].
  split; [now apply D|]. rewrite D; [cbn [concat]; now rewrite app_nil_r| |exact S1|cbn [concat]; now rewrite app_nil_r].
  constructor; [now apply bytes_ok_concat|constructor].
Qed.
Lemma slices_void a : a <> Whirlpool -> (forall Pr, a <> Gost94 Pr) -> forall cs, slices a cs.
Proof.
  intros H1 H2 cs. unfold slices. apply Forall_forall. intros c _.
  destruct a; try exact I; [now elim H1|now elim (H2 params)].
Qed.
Lemma alg_save_restore m0 a C m cs h cd : params_ok a -> hasher m0 a = Some C -> c_codec C = Some cd ->
  Forall bytes_ok cs -> slices a cs -> h_updates C m (h_new C) cs = Some h ->
  length (h_serialize C cd h) = state_len C cd /\ h_deserialize C cd (h_serialize C cd h) = Some h.
Proof.
  intros PO HC Hc B S E. split; [exact (alg_ser_len m0 a C PO HC m cs h cd Hc B S E)|exact (alg_roundtrip m0 a C PO HC m cs h cd Hc B S E)].
Qed.
Lemma updates_app C m cs cs' : forall h, h_updates C m h (cs ++ cs') = let* h' := h_updates C m h cs in h_updates C m h' cs'.
Proof.
  induction cs as [|c cs IH]; intros h; [reflexivity|]. cbn [app h_updates]. destruct (h_update C m h c); [|reflexivity]. cbn [obind]. apply IH.
Qed.
Lemma alg_continue m0 a C m cs cs' h cd : params_ok a -> hasher m0 a = Some C -> c_codec C = Some cd ->
  Forall bytes_ok cs -> slices a cs -> h_updates C m (h_new C) cs = Some h ->
  (let* h' := h_deserialize C cd (h_serialize C cd h) in
   let* h' := h_updates C m h' cs' in h_finalize C m h') = h_digest C m (cs ++ cs').
Proof.
  intros PO HC Hc B S E. rewrite (alg_roundtrip m0 a C PO HC m cs h cd Hc B S E). cbn [obind]. unfold h_digest.
  now rewrite updates_app, E.
Qed.
Lemma alg_no_panic m0 a C m ops : params_ok a -> hasher m0 a = Some C ->
  ops_ok ops -> op_slices a ops -> kept (has_codec C) (below (max_bytes a)) (mkA [] []) ops ->
  exists outs, run_history C m ops = Some outs.
Proof. intros PO HC O S K. destruct (alg_hash m0 a C PO HC) as [H HH]. destruct (HH m) as [_ D]. eexists. now apply D. Qed.
Lemma alg_total m0 a C m cs : params_ok a -> hasher m0 a = Some C ->
  Forall bytes_ok cs -> slices a cs -> below (max_bytes a) (length (concat cs)) -> exists d, h_digest C m cs = Some d.
Proof. intros PO HC B S W. destruct (alg_hash m0 a C PO HC) as [H HH]. destruct (HH m) as [D _]. eexists. now apply D. Qed.
Lemma alg_modes m0 a C cs : params_ok a -> hasher m0 a = Some C ->
  Forall bytes_ok cs -> slices a cs -> below (max_bytes a) (length (concat cs)) -> h_digest C Checked cs = h_digest C Wrapping cs.
Proof.
  intros PO HC B S W. destruct (alg_hash m0 a C PO HC) as [H HH].
  rewrite (proj1 (HH Checked) cs B S W). symmetry. now apply HH.
Qed.
