(** The belt-hash crate computes belt-hash of STB 34.101.31, for any block cipher. *)
From Verif Require Import Base.Words Base.Bytes Base.ByteFacts Base.Codec Base.BlockBuffer Base.BlockBufferFacts Base.Digest Base.DigestFacts Base.MDFacts.
From Verif Require Import Proof.GF Model.Belt.
From Verif Require Spec.Belt Proof.Skein.

Definition wk (n : nat) (x : list N) : Prop := length x = n /\ words_ok 32 x.
Notation enc := (words_to_le 4).
Lemma enc_app a b : enc (a ++ b) = enc a ++ enc b.
Proof. unfold words_to_le. now rewrite map_app, concat_app. Qed.
Lemma dec_enc n x : wk n x -> words_of_le 4 (enc x) = x.
Proof. intros [_ W]. apply words_le_roundtrip; [lia|exact W]. Qed.
Lemma enc_length n x : wk n x -> length (enc x) = (4 * n)%nat.
Proof. intros [L _]. now rewrite words_to_le_length, L. Qed.
Lemma xor_wk a b : wk 4 a -> wk 4 b -> wk 4 (xor a b) /\ enc (xor a b) = xor_bytes (enc a) (enc b).
Proof.
  intros [La Wa] [Lb Wb]. split.
  - split; [reflexivity|]. unfold xor. repeat constructor; apply (lxor_lt 32); now apply (get_ok 32).
  - rewrite <- Proof.Skein.words_to_le_xor by congruence. explode a. explode b. reflexivity.
Qed.
Lemma cat_app a b : wk 4 a -> wk 4 b -> wk 8 (cat a b) /\ enc (cat a b) = enc a ++ enc b.
Proof.
  intros [La Wa] [Lb Wb]. rewrite <- enc_app. assert (E : cat a b = a ++ b) by (clear Wa Wb; explode a; explode b; reflexivity).
  rewrite E. split; [|reflexivity]. split; [now rewrite app_length, La, Lb|]. now apply Forall_app.
Qed.
Lemma not_wk s : wk 4 s -> wk 4 (map (wnot 32) s) /\ enc (map (wnot 32) s) = xor_bytes (enc s) Spec.Belt.ones.
Proof.
  intros [L W]. split.
  - split; [now rewrite map_length|]. apply Forall_map, Forall_forall. intros x Hx. apply wnot_lt.
  - replace (map (wnot 32) s) with (xor_bytes s (repeat (2 ^ 32 - 1) 4)).
    + rewrite Proof.Skein.words_to_le_xor by exact L. reflexivity.
    + explode s. unfold words_ok in W. repeat match goal with H : Forall _ (_ :: _) |- _ => apply Forall_cons_iff in H as [? H] end.
      assert (K : forall x, x < 2 ^ 32 -> N.lxor x (2 ^ 32 - 1) = wnot 32 x).
      { clear. intros x H. apply N.bits_inj. intros i. unfold wnot. change (2 ^ 32 - 1) with (N.ones 32). rewrite N.lxor_spec, N.ldiff_spec.
        destruct (N.lt_ge_cases i 32).
        - rewrite N.ones_spec_low by assumption. now destruct (N.testbit x i).
        - rewrite N.ones_spec_high by assumption. now rewrite (proj1 (lt_pow2_bits _ _) H) by assumption. }
      unfold xor_bytes. cbn [repeat combine map fst snd]. now rewrite !K by assumption.
Qed.
Lemma halves a b : wk 4 a -> Spec.Belt.lo (enc a ++ b) = enc a /\ Spec.Belt.hi (enc a ++ b) = b.
Proof. intros H. unfold Spec.Belt.lo, Spec.Belt.hi. pose proof (enc_length 4 a H) as L. split; [now apply firstn_app_exact|now apply skipn_app_exact]. Qed.
Lemma split8 h : wk 8 h -> let x3 := [get h 0; get h 1; get h 2; get h 3] in let x4 := [get h 4; get h 5; get h 6; get h 7] in
  wk 4 x3 /\ wk 4 x4 /\ enc h = enc x3 ++ enc x4.
Proof.
  intros [L W]. cbv zeta. rewrite <- enc_app. cbn [app]. explode h. unfold words_ok in W. repeat match goal with H : Forall _ (_ :: _) |- _ => apply Forall_cons_iff in H as [? H] end.
  refine (conj _ (conj _ _)); [split; [reflexivity|]; now repeat constructor..|reflexivity].
Qed.
Lemma block_words b : length b = 32%nat -> bytes_ok b ->
  let x1 := [get_u32 b 0; get_u32 b 1; get_u32 b 2; get_u32 b 3] in let x2 := [get_u32 b 4; get_u32 b 5; get_u32 b 6; get_u32 b 7] in
  wk 4 x1 /\ wk 4 x2 /\ b = enc x1 ++ enc x2.
Proof.
  intros L B. assert (E : words_of_le 4 b = map (get_u32 b) (seq 0 8)).
  { clear B. explode b. reflexivity. }
  assert (W : wk 8 (words_of_le 4 b)) by (split; [rewrite words_of_le_length, L by lia; reflexivity|apply (words_of_le_ok 4); [lia|exact B]]).
  pose proof (words_le_canonical 4 8 b ltac:(lia) B L) as C. destruct (split8 _ W) as (W1 & W2 & S). cbv zeta.
  rewrite C in S. rewrite E in W1, W2, S. exact (conj W1 (conj W2 S)).
Qed.

Section Belt.
  Context (E : list N -> list N -> list N).
  Definition cipher_ok : Prop := forall x k, wk 4 x -> wk 8 k -> wk 4 (E x k).
  Context (HE : cipher_ok).
  Definition F (K X : bytes) : bytes := enc (E (words_of_le 4 X) (words_of_le 4 K)).
  Lemma F_enc x k : wk 4 x -> wk 8 k -> F (enc k) (enc x) = enc (E x k).
  Proof. intros X K. unfold F. now rewrite (dec_enc 4 x X), (dec_enc 8 k K). Qed.
  Lemma compress_spec x1 x2 h : wk 4 x1 -> wk 4 x2 -> wk 8 h ->
    let '(s, y) := belt_compress E x1 x2 h in
    wk 4 s /\ wk 8 y /\ enc s = Spec.Belt.sigma1 F (enc x1) (enc x2) (Spec.Belt.lo (enc h)) (Spec.Belt.hi (enc h)) /\
    enc y = Spec.Belt.sigma2 F (enc x1) (enc x2) (Spec.Belt.lo (enc h)) (Spec.Belt.hi (enc h)).
  Proof using HE.
    intros W1 W2 Wh. unfold belt_compress. destruct (split8 h Wh) as (W3 & W4 & Eh). cbv zeta in *. rewrite Eh.
    set (x3 := [get h 0; get h 1; get h 2; get h 3]) in *. set (x4 := [get h 4; get h 5; get h 6; get h 7]) in *. clearbody x3 x4. clear Eh Wh.
    destruct (halves x3 (enc x4) W3) as [-> ->].
    destruct (xor_wk x3 x4 W3 W4) as [W34 E34]. destruct (cat_app x1 x2 W1 W2) as [W12 E12].
    pose proof (HE _ _ W34 W12) as Wt. destruct (xor_wk _ x3 Wt W3) as [Wt3 Et3]. destruct (xor_wk _ x4 Wt3 W4) as [Ws Es].
    assert (Hs : enc (xor (xor (E (xor x3 x4) (cat x1 x2)) x3) x4) = Spec.Belt.sigma1 F (enc x1) (enc x2) (enc x3) (enc x4)).
    { rewrite Es, Et3, <- F_enc by assumption. rewrite E12, E34. reflexivity. }
    unfold Spec.Belt.sigma2. rewrite <- Hs.
    set (s := xor (xor (E (xor x3 x4) (cat x1 x2)) x3) x4) in *. clearbody s. clear Hs Es.
    destruct (cat_app s x4 Ws W4) as [Wk1 Ek1]. destruct (not_wk s Ws) as [Wn En]. destruct (cat_app _ x3 Wn W3) as [Wk2 Ek2].
    destruct (xor_wk _ x1 (HE _ _ W1 Wk1) W1) as [Wy1 Ey1]. destruct (xor_wk _ x2 (HE _ _ W2 Wk2) W2) as [Wy2 Ey2].
    destruct (cat_app _ _ Wy1 Wy2) as [Wy Ey].
    refine (conj Ws (conj Wy (conj eq_refl _))).
    rewrite Ey, Ey1, Ey2, <- !F_enc by assumption. now rewrite Ek1, Ek2, En.
  Qed.
  Definition Pst (st : belt_st) : Prop := let '(r, s, h) := st in r < 2 ^ 128 /\ wk 4 s /\ wk 8 h.
  Definition rel (st : belt_st) (sp : bytes * bytes) : Prop := let '(r, s, h) := st in wk 4 s /\ wk 8 h /\ sp = (enc s, enc h).
  Lemma block_step st sp b : rel st sp -> length b = 32%nat -> bytes_ok b -> rel (compress_block E st b) (Spec.Belt.step F sp b).
  Proof using HE.
    destruct st as [[r s] h]. intros (Ws & Wh & ->) L B. unfold compress_block, Spec.Belt.step.
    destruct (block_words b L B) as (W1 & W2 & Eb). cbv zeta in *. rewrite Eb at 9 10 11 12. clear Eb.
    set (x1 := [get_u32 b 0; get_u32 b 1; get_u32 b 2; get_u32 b 3]) in *. set (x2 := [get_u32 b 4; get_u32 b 5; get_u32 b 6; get_u32 b 7]) in *. clearbody x1 x2.
    destruct (halves x1 (enc x2) W1) as [-> ->].
    pose proof (compress_spec x1 x2 h W1 W2 Wh) as C. destruct (belt_compress E x1 x2 h) as [t y]. destruct C as (Wt & Wy & Et & Ey).
    destruct (xor_wk s t Ws Wt) as [Wst Est]. cbn [rel]. refine (conj Wst (conj Wy _)). now rewrite Est, Et, Ey.
  Qed.
  Lemma fold_rel bl : Forall (fun b => length b = 32%nat) bl -> Forall bytes_ok bl -> forall st sp, rel st sp ->
    rel (fold_left (compress_block E) bl st) (fold_left (Spec.Belt.step F) bl sp).
  Proof using HE.
    induction bl as [|b bl IH]; intros HL HB st sp R; [exact R|]. apply Forall_cons_iff in HL as [L HL], HB as [B HB].
    cbn [fold_left]. apply IH; [assumption..|]. now apply block_step.
  Qed.
  Lemma fold_r bl : forall r s h, fst (fst (fold_left (compress_block E) bl (r, s, h))) = r /\
    forall r', snd (fst (fold_left (compress_block E) bl (r', s, h))) = snd (fst (fold_left (compress_block E) bl (r, s, h))) /\
               snd (fold_left (compress_block E) bl (r', s, h)) = snd (fold_left (compress_block E) bl (r, s, h)).
  Proof.
    induction bl as [|b bl IH]; intros r s h; [now split|]. cbn [fold_left]. unfold compress_block at 2 4 6 8 10.
    destruct (belt_compress E _ _ h) as [t y]. exact (IH r (xor s t) y).
  Qed.
  Lemma encode_r_spec x : wk 4 (encode_r x) /\ enc (encode_r x) = le_bytes 16 x.
  Proof.
    unfold encode_r, U32_MASK. change (2 ^ 32 - 1) with (N.ones 32). rewrite !N.land_ones, !N.shiftr_div_pow2. split.
    - split; [reflexivity|]. repeat constructor; apply N.mod_lt; discriminate.
    - unfold words_to_le. cbn [map concat]. pose proof (le_bytes_mod 4) as M. change (8 * N.of_nat 4) with 32 in M. rewrite !M, app_nil_r.
      rewrite (le_bytes_app 4 12), (le_bytes_app 4 8), (le_bytes_app 4 4). change (256 ^ N.of_nat 4) with (2 ^ 32).
      rewrite !N.div_div by discriminate. reflexivity.
  Qed.
  Definition within (len : nat) : Prop := 8 * N.of_nat len < 2 ^ 128.
  Definition H0b : bytes := enc H0.
  Lemma init_rel : rel init (zeros 16, H0b).
  Proof. refine (conj _ (conj _ _)); [split; [reflexivity|apply zeros_ok || (repeat constructor)]..|reflexivity]. Qed.
  Lemma chunks_belt M : chunks 32 (M ++ zeros ((32 - length M mod 32) mod 32))
    = chunks 32 M ++ (if negb (length (remainder 32 M) =? 0)%nat then [pad_with_zeros 32 (remainder 32 M)] else []).
  Proof.
    rewrite chunks_tail by lia. apply f_equal. pose proof (remainder_length 32 M ltac:(lia)) as L. pose proof (Nat.mod_upper_bound (length M) 32 ltac:(lia)) as U.
    rewrite L. destruct (Nat.eqb_spec (length M mod 32) 0) as [Z|Z]; cbn [negb].
    - rewrite Z in *. replace ((32 - 0) mod 32)%nat with 0%nat by reflexivity. rewrite app_nil_r. apply chunks_short. lia.
    - rewrite (Nat.mod_small (32 - _)) by lia. unfold pad_with_zeros. rewrite L. apply chunks_one; [lia|]. rewrite app_length, zeros_length. lia.
  Qed.
  Lemma belt_core_ok : core_ok (belt_core E) Pst (Spec.Belt.hash F H0b) within.
  Proof using HE.
    unfold belt_core.
    constructor; cbn [cst c_bs c_kind c_init c_ibuf c_update c_final c_reset c_codec].
    - lia.
    - reflexivity.
    - unfold within. intros a b L W. lia.
    - refine (conj _ (conj _ _)); [reflexivity|split; [reflexivity|repeat constructor]..].
    - intros m [[r s] h] bl st' (R & Ws & Wh) HL HB Eq. injection Eq as <-. unfold update_blocks.
      pose proof (fold_rel bl HL HB (wadd 128 r (N.of_nat (length bl)), s, h) (enc s, enc h) (conj Ws (conj Wh eq_refl))) as Q.
      destruct (fold_r bl (wadd 128 r (N.of_nat (length bl))) s h) as [Er _].
      destruct (fold_left (compress_block E) bl (wadd 128 r (N.of_nat (length bl)), s, h)) as [[r' s'] h']. cbn [fst] in Er. subst r'.
      destruct Q as (Q1 & Q2 & _). refine (conj _ (conj Q1 Q2)). apply wadd_lt.
    - intros m [[r s] h] (R & _). unfold update_blocks. cbn [length fold_left]. unfold wadd. change (N.of_nat 0) with 0. now rewrite N.add_0_r, N.mod_small.
    - intros m [[r s] h] a b _. cbn [obind]. apply f_equal. unfold update_blocks. rewrite fold_left_app.
      destruct (fold_r a (wadd 128 r (N.of_nat (length a))) s h) as [Er Q]. specialize (Q (wadd 128 r (N.of_nat (length (a ++ b))))).
      destruct (fold_r a (wadd 128 r (N.of_nat (length (a ++ b)))) s h) as [Er2 _].
      destruct (fold_left (compress_block E) a (wadd 128 r (N.of_nat (length a)), s, h)) as [[r1 s1] h1].
      destruct (fold_left (compress_block E) a (wadd 128 r (N.of_nat (length (a ++ b))), s, h)) as [[r2 s2] h2].
      cbn [fst snd] in *. destruct Q as [-> ->]. subst r1 r2. f_equal. f_equal. f_equal.
      rewrite app_length, Nat2N.inj_add. unfold wadd. rewrite N.add_mod_idemp_l by discriminate. now rewrite N.add_assoc.
    - intros m msg W B. cbn [app]. rewrite kblocks_eager, krem_eager by lia. unfold update_blocks, init. rewrite chunks_length by lia.
      unfold within in W. assert (Hc : N.of_nat (length msg / 32) < 2 ^ 128) by (apply (count_lt 128 8); [reflexivity|exact W]).
      unfold wadd. rewrite N.add_0_l, (N.mod_small (N.of_nat _)) by exact Hc.
      set (c := N.of_nat (length msg / 32)) in *.
      eexists. enough (exists s', finalize E m (fold_left (compress_block E) (chunks 32 msg) (c, zeros 4, H0)) (remainder 32 msg) = Some (Spec.Belt.hash F H0b msg, s'))
        as [s' Q] by (exists s'; exact (conj eq_refl (conj Q eq_refl))).
      unfold finalize, Spec.Belt.hash. rewrite chunks_belt, fold_left_app.
      pose proof (fold_rel (chunks 32 msg) ltac:(apply chunks_block_length; lia) ltac:(apply chunks_ok; [lia|exact B]) (c, zeros 4, H0) _ init_rel) as Q.
      destruct (fold_r (chunks 32 msg) c (zeros 4) H0) as [Er _].
      set (st := fold_left (compress_block E) (chunks 32 msg) (c, zeros 4, H0)) in *. clearbody st.
      set (sp := fold_left (Spec.Belt.step F) (chunks 32 msg) (zeros 16, H0b)) in *. clearbody sp.
      set (st' := if negb (length (remainder 32 msg) =? 0)%nat then compress_block E st (pad_with_zeros 32 (remainder 32 msg)) else st).
      set (sp' := fold_left (Spec.Belt.step F) (if negb (length (remainder 32 msg) =? 0)%nat then [pad_with_zeros 32 (remainder 32 msg)] else []) sp).
      assert (Q' : rel st' sp' /\ fst (fst st') = c).
      { unfold st', sp'. destruct (length (remainder 32 msg) =? 0)%nat; cbn [negb fold_left]; [now split|]. split.
        - apply block_step; [exact Q| |].
          + unfold pad_with_zeros. pose proof (remainder_length 32 msg ltac:(lia)). pose proof (Nat.mod_upper_bound (length msg) 32 ltac:(lia)).
            rewrite app_length, zeros_length. lia.
          + apply bytes_ok_app. split; [now apply remainder_ok|apply zeros_ok].
        - destruct st as [[r s] h]. cbn [fst] in Er. subst r. unfold compress_block. now destruct (belt_compress E _ _ h). }
      clearbody st' sp'. destruct Q' as [Q' Er']. destruct st' as [[r s] h]. cbn [fst] in Er'. subst r. destruct Q' as (Ws & Wh & ->).
      rewrite remainder_length by lia. pose proof (len_split 32 (length msg) ltac:(lia)) as Sp. fold c in Sp. change (N.of_nat 32) with 32 in Sp. unfold cmul, cadd.
      rewrite (fit_small m 128 (32 * c)) by (clear - Sp W; lia). cbn [obind]. rewrite Sp.
      rewrite fit_small by (clear - W; lia). cbn [obind]. rewrite fit_small by exact W. cbn [obind].
      destruct (encode_r_spec (8 * N.of_nat (length msg))) as [We Ee].
      pose proof (compress_spec (encode_r (8 * N.of_nat (length msg))) s h We Ws Wh) as C.
      destruct (belt_compress E (encode_r (8 * N.of_nat (length msg))) s h) as [t y]. destruct C as (_ & _ & _ & Ey).
      eexists. apply f_equal, f_equal2; [|reflexivity]. now rewrite Ey, Ee.
    - intros st _. reflexivity.
    - constructor.
    - discriminate.
  Qed.
End Belt.

Lemma H0_spec : H0b = firstn 32 Spec.Belt.H.
Proof. vm_compute. reflexivity. Qed.
Lemma H_ok : bytes_ok Spec.Belt.H.
Proof. unfold bytes_ok. apply Forall_forall. intros x Hx. apply N.ltb_lt. revert x Hx. apply forallb_forall. vm_compute. reflexivity. Qed.
Lemma round_wk K i a b c d : let '(a', b', c', d') := Spec.Belt.round K (a, b, c, d) i in
  b < 2 ^ 32 -> c < 2 ^ 32 -> N.of_nat i < 2 ^ 32 -> a' < 2 ^ 32 /\ b' < 2 ^ 32 /\ c' < 2 ^ 32 /\ d' < 2 ^ 32.
Proof.
  unfold Spec.Belt.round. intros Hb Hc Hi.
  assert (GL : forall r u, Spec.Belt.G r u < 2 ^ 32).
  { intros r u. unfold Spec.Belt.G. apply (rotl_lt 32).
    assert (L : length (map Spec.Belt.sub (le_bytes 4 u)) = 4%nat) by now rewrite map_length, le_bytes_length.
    pose proof (le_val_lt (map Spec.Belt.sub (le_bytes 4 u))) as Q. rewrite L in Q. apply Q.
    apply Forall_map, Forall_forall. intros x _. unfold Spec.Belt.sub. change 256 with (2 ^ 8). apply get_ok; [apply H_ok|reflexivity]. }
  refine (conj _ (conj _ (conj _ _))).
  - apply (lxor_lt 32); [apply (wadd_lt 32)|apply GL].
  - apply (wadd_lt 32).
  - apply (wsub_lt 32).
  - apply (lxor_lt 32); [apply (wsub_lt 32)|apply GL].
Qed.
Lemma spec_cipher_ok : cipher_ok Spec.Belt.block.
Proof.
  intros x k [Lx Wx] _. unfold Spec.Belt.block.
  assert (K : forall l, Forall (fun i => (i < 9)%nat) l -> forall st, (let '(a, b, c, d) := st in a < 2 ^ 32 /\ b < 2 ^ 32 /\ c < 2 ^ 32 /\ d < 2 ^ 32) ->
    let '(a, b, c, d) := fold_left (Spec.Belt.round (get k)) l st in a < 2 ^ 32 /\ b < 2 ^ 32 /\ c < 2 ^ 32 /\ d < 2 ^ 32).
  { induction l as [|i l IH]; intros HF st H; [exact H|]. cbn [fold_left]. apply Forall_cons_iff in HF as [Hi HF]. apply (IH HF).
    destruct st as [[[a b] c] d]. destruct H as (_ & Hb & Hc & _). pose proof (round_wk (get k) i a b c d) as R.
    destruct (Spec.Belt.round (get k) (a, b, c, d) i) as [[[a' b'] c'] d']. apply R; try assumption. apply N.lt_trans with 9; [lia|reflexivity]. }
  specialize (K (seq 1 8) ltac:(repeat constructor) (get x 0, get x 1, get x 2, get x 3)).
  destruct (fold_left (Spec.Belt.round (get k)) (seq 1 8) (get x 0, get x 1, get x 2, get x 3)) as [[[a b] c] d].
  destruct K as (Ka & Kb & Kc & Kd).
  - refine (conj _ (conj _ (conj _ _))); now apply (get_ok 32).
  - split; [reflexivity|]. now repeat constructor.
Qed.
Lemma F_spec : F Spec.Belt.block = Spec.Belt.F.
Proof. unfold F, Spec.Belt.F. reflexivity. Qed.
Lemma BeltHash_ok : core_ok BeltHash Pst Spec.Belt.BeltHash within.
Proof.
  pose proof (belt_core_ok Spec.Belt.block spec_cipher_ok) as Q. rewrite H0_spec in Q.
  rewrite F_spec in Q. exact Q.
Qed.
Lemma belt_compress_spec x1 x2 h : wk 4 x1 -> wk 4 x2 -> wk 8 h ->
  enc (fst (belt_compress Spec.Belt.block x1 x2 h))
  = Spec.Belt.sigma1 Spec.Belt.F (enc x1) (enc x2) (firstn 16 (enc h)) (skipn 16 (enc h)) /\
  enc (snd (belt_compress Spec.Belt.block x1 x2 h))
  = Spec.Belt.sigma2 Spec.Belt.F (enc x1) (enc x2) (firstn 16 (enc h)) (skipn 16 (enc h)).
Proof.
  intros W1 W2 Wh. pose proof (compress_spec Spec.Belt.block spec_cipher_ok x1 x2 h W1 W2 Wh) as Q.
  rewrite F_spec in Q.
  destruct (belt_compress Spec.Belt.block x1 x2 h) as [s y]. destruct Q as (_ & _ & E1 & E2). cbn [fst snd]. exact (conj E1 E2).
Qed.
