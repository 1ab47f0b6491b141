(** Behaviour at the counter limits of BelT, Whirlpool, GOST R 34.11-94, Streebog, FSB and Skein. *)
From Verif Require Import Base.Words Base.Bytes Base.ByteFacts Base.Codec Base.BlockBuffer Base.BlockBufferFacts Base.Digest
  Base.DigestFacts Base.MDFacts Base.Limit Base.Overflow Spec.MD Spec.Overflow Spec.Overflow2.
From Verif Require Model.Belt Model.Whirlpool Model.Streebog Model.Fsb Model.Skein.
From Verif Require Spec.Belt Spec.Whirlpool Spec.Streebog Spec.FSB Spec.Skein.
From Verif Require Proof.Belt Proof.Whirlpool Proof.Streebog Proof.Fsb Proof.Skein Proof.Overflow.

(** A core whose block function is a fold under an invariant, on any message. *)
Section Inv.
  Context (C : core) (m : mode) (P : cst C -> Prop).
  Hypothesis Hbs : (0 < c_bs C)%nat.
  Hypothesis Hkind : c_kind C = Eager.
  Hypothesis Hibuf : c_ibuf C = [].
  Hypothesis Hinit : P (c_init C).
  Hypothesis Hnil : forall s, P s -> c_update C m s [] = Some s.
  Hypothesis Happ : forall s a b, P s -> c_update C m s (a ++ b) = obind (c_update C m s a) (fun s' => c_update C m s' b).
  Hypothesis Hinv : forall s a s', P s -> c_update C m s a = Some s' -> P s'.
  Lemma inv_digest cs : h_digest C m cs
    = let* s := c_update C m (c_init C) (chunks (c_bs C) (concat cs)) in
      let* (out, _) := c_final C m s (remainder (c_bs C) (concat cs)) in Some out.
  Proof using All.
    assert (G : forall cs pre,
      (let* s := c_update C m (c_init C) (chunks (c_bs C) pre) in h_updates C m (s, remainder (c_bs C) pre) cs)
      = let* s := c_update C m (c_init C) (chunks (c_bs C) (pre ++ concat cs)) in Some (s, remainder (c_bs C) (pre ++ concat cs))).
    { clear cs. induction cs as [|c cs IH]; intros pre; cbn [h_updates concat]; [now rewrite app_nil_r|].
      rewrite app_assoc, <- IH.
      pose proof (kblocks_continue (c_update C m) P Eager (c_bs C) Hbs Hnil Happ Hinv (c_init C) pre c Hinit) as K.
      rewrite !kblocks_eager, !krem_eager in K by exact Hbs.
      transitivity (let* (s, r) := (let* s1 := c_update C m (c_init C) (chunks (c_bs C) pre) in
        digest_blocks (c_update C m) Eager (c_bs C) s1 (remainder (c_bs C) pre) c) in h_updates C m (s, r) cs).
      - destruct (c_update C m (c_init C) (chunks (c_bs C) pre)) as [s|]; [|reflexivity]. cbn [obind]. unfold h_update.
        cbn [fst snd]. rewrite Hkind. apply obind_ext. now intros [? ?] _.
      - rewrite K. now destruct (c_update C m (c_init C) (chunks (c_bs C) (pre ++ c))). }
    specialize (G cs []). change (chunks (c_bs C) []) with (@nil bytes) in G. rewrite Hnil in G by exact Hinit. cbn [obind app] in G.
    unfold remainder in G at 1. rewrite skipn_nil in G. unfold h_digest, h_new. rewrite Hibuf, G.
    now destruct (c_update C m (c_init C) _).
  Qed.
End Inv.

(** ** BelT *)
Section Belt.
  Import Model.Belt Proof.Belt.
  Notation E := Spec.Belt.block.
  Lemma belt_final m msg r : bytes_ok msg ->
    option_map fst (finalize E m (fold_left (compress_block E) (chunks 32 msg) (r, zeros 4, H0)) (remainder 32 msg))
    = (let* t := cmul m 128 32 r in let* t := cadd m 128 t (N.of_nat (length msg mod 32)) in let* bits := cmul m 128 8 t in
       Some (belt_len bits msg)).
  Proof.
    intros B. unfold finalize, belt_len. cbv zeta. rewrite chunks_belt, fold_left_app.
    assert (I0 : rel (r, zeros 4, H0) (zeros 16, firstn 32 Spec.Belt.H)).
    { rewrite <- H0_spec. exact init_rel. }
    pose proof (fold_rel E spec_cipher_ok (chunks 32 msg) ltac:(apply chunks_block_length; lia) ltac:(apply chunks_ok; [lia|exact B]) _ _ I0) as Q.
    rewrite F_spec in Q.
    destruct (fold_r E (chunks 32 msg) r (zeros 4) H0) as [Er _].
    set (st := fold_left (compress_block E) (chunks 32 msg) (r, zeros 4, H0)) in *. clearbody st.
    set (sp := fold_left (Spec.Belt.step Spec.Belt.F) (chunks 32 msg) (zeros 16, firstn 32 Spec.Belt.H)) in *. clearbody sp. clear I0.
    set (st' := if negb (length (remainder 32 msg) =? 0)%nat then compress_block E st (pad_with_zeros 32 (remainder 32 msg)) else st).
    set (sp' := fold_left (Spec.Belt.step Spec.Belt.F) (if negb (length (remainder 32 msg) =? 0)%nat then [pad_with_zeros 32 (remainder 32 msg)] else []) sp).
    assert (Q' : rel st' sp' /\ fst (fst st') = r).
    { unfold st', sp'. destruct (length (remainder 32 msg) =? 0)%nat; cbn [negb fold_left]; [now split|]. split.
      - rewrite <- F_spec. apply (block_step E spec_cipher_ok); [exact Q| |].
        + unfold pad_with_zeros. pose proof (remainder_length 32 msg ltac:(lia)). pose proof (Nat.mod_upper_bound (length msg) 32 ltac:(lia)).
          rewrite app_length, zeros_length. lia.
        + apply bytes_ok_app. split; [now apply remainder_ok|apply zeros_ok].
      - destruct st as [[r1 s] h]. cbn [fst] in Er. subst r1. unfold compress_block. now destruct (belt_compress E _ _ h). }
    clearbody st' sp'. destruct Q' as [Q' Er']. destruct st' as [[r1 s] h]. cbn [fst] in Er'. subst r1. destruct Q' as (Ws & Wh & ->).
    rewrite remainder_length by lia. destruct (cmul m 128 32 r) as [t|]; [|reflexivity]. cbn [obind].
    destruct (cadd m 128 t _) as [t'|]; [|reflexivity]. cbn [obind]. destruct (cmul m 128 8 t') as [bits|]; [|reflexivity]. cbn [obind].
    destruct (encode_r_spec bits) as [We Ee]. pose proof (compress_spec E spec_cipher_ok (encode_r bits) s h We Ws Wh) as C. rewrite F_spec in C.
    destruct (belt_compress E (encode_r bits) s h) as [t2 y]. destruct C as (_ & _ & _ & Ey). cbn [option_map fst]. now rewrite Ey, Ee.
  Qed.
  Lemma belt_digest m cs : Forall bytes_ok cs ->
    h_digest BeltHash m cs
    = (let* t := cmul m 128 32 ((blen (concat cs) / 32) mod 2 ^ 128) in let* t := cadd m 128 t (N.of_nat (length (concat cs) mod 32)) in let* bits := cmul m 128 8 t in
       Some (belt_len bits (concat cs))).
  Proof.
    intros B. pose proof (concat_ok cs B) as BM.
    rewrite (inv_digest BeltHash m (fun st => fst (fst st) < 2 ^ 128)).
    - cbn [BeltHash belt_core c_update c_init c_bs c_final obind]. unfold update_blocks, init. rewrite chunks_length by lia.
      unfold wadd. rewrite N.add_0_l. replace (N.of_nat (length (concat cs) / 32)) with (blen (concat cs) / 32)
        by (unfold blen; now rewrite Nat2N.inj_div).
      rewrite <- (belt_final m (concat cs) _ BM).
      destruct (finalize E m _ _) as [[o s]|]; reflexivity.
    - cbn. lia.
    - reflexivity.
    - reflexivity.
    - reflexivity.
    - intros [[r s] h] R. cbn [fst] in R. cbn [BeltHash belt_core c_update]. unfold update_blocks. cbn [length fold_left]. unfold wadd. change (N.of_nat 0) with 0.
      now rewrite N.add_0_r, N.mod_small.
    - intros [[r s] h] a b _. cbn [BeltHash belt_core c_update obind]. apply f_equal. unfold update_blocks. rewrite fold_left_app.
      destruct (fold_r E a (wadd 128 r (N.of_nat (length a))) s h) as [Er Q]. specialize (Q (wadd 128 r (N.of_nat (length (a ++ b))))).
      destruct (fold_r E a (wadd 128 r (N.of_nat (length (a ++ b)))) s h) as [Er2 _].
      destruct (fold_left (compress_block E) a (wadd 128 r (N.of_nat (length a)), s, h)) as [[r1 s1] h1].
      destruct (fold_left (compress_block E) a (wadd 128 r (N.of_nat (length (a ++ b))), s, h)) as [[r2 s2] h2].
      cbn [fst snd] in *. destruct Q as [-> ->]. subst r1 r2. f_equal. f_equal. f_equal.
      rewrite app_length, Nat2N.inj_add. unfold wadd. rewrite N.add_mod_idemp_l by discriminate. now rewrite N.add_assoc.
    - intros [[r s] h] a s' _. cbn [BeltHash belt_core c_update]. intros [= <-]. unfold update_blocks.
      rewrite (proj1 (fold_r E a _ s h)). apply wadd_lt.
  Qed.
  Lemma belt_limit : belt_panics_or_wraps BeltHash.
  Proof.
    intros cs B. cbv zeta. set (msg := concat cs). rewrite !belt_digest by exact B. fold msg.
    assert (EM : N.of_nat (length msg mod 32) = blen msg mod 32) by (unfold blen; now rewrite Nat2N.inj_mod). rewrite EM.
    assert (A : forall m r p, (let* t := cmul m 128 32 r in let* t := cadd m 128 t p in let* bits := cmul m 128 8 t in Some (belt_len bits msg))
      = bit_length m 128 32 r p (fun bits => Some (belt_len bits msg))).
    { intros m r p. unfold bit_length. destruct (cmul m 128 32 r) as [t|]; [|reflexivity]. cbn [obind]. unfold cadd. now rewrite N.add_comm. }
    rewrite !A. split.
    - now rewrite bit_length_checked.
    - rewrite bit_length_wrapping. now rewrite <- (N.div_mod (blen msg) 32) by discriminate.
  Qed.
  (** 2^133 bytes: the counter is back at zero and nothing panics. *)
  Lemma belt_silent : ~ (forall cs, Forall bytes_ok cs -> 2 ^ 128 <= 8 * blen (concat cs) -> h_digest BeltHash Checked cs = None).
  Proof.
    intros Q. destruct (Proof.Overflow.zeros_message (2 ^ 133)) as [B E]. specialize (Q _ B). rewrite E in Q. specialize (Q ltac:(discriminate)).
    pose proof (proj1 (belt_limit _ B)) as D. rewrite Q, E in D. discriminate D.
  Qed.
End Belt.

(** ** Whirlpool *)
Section Whirlpool.
  Import Model.Whirlpool Proof.Whirlpool.
  Lemma wp_final m msg v : bytes_ok msg ->
    option_map fst (wp_finalize m (compress (repeat 0 8) (chunks 64 msg), wl v) (remainder 64 msg))
    = Some (whirlpool_len (v + 8 * N.of_nat (length msg mod 64)) msg).
  Proof.
    intros B. unfold wp_finalize. cbn [fst snd]. rewrite remainder_length by lia. unfold cmul. rewrite fit_small.
    2:{ pose proof (Nat.mod_upper_bound (length msg) 64 ltac:(lia)). change (2 ^ 64) with 18446744073709551616. lia. }
    cbn [obind option_map fst]. rewrite update_len_wl, wl_bytes. f_equal. unfold whirlpool_len, compress.
    set (bits := v + _). clearbody bits. fold iv.
    pose proof (md_sim (fun s v => mok v /\ s = enc v) compress_block Spec.Whirlpool.compress 64 (repeat 0 8) iv 0x80 (be_bytes 32 bits) msg) as S.
    destruct S as [O S].
    - lia.
    - rewrite be_bytes_length. lia.
    - reflexivity.
    - apply be_bytes_ok.
    - exact B.
    - intros s u x [V ->] L Bx. destruct (compress_spec u x V L Bx) as [-> V']. split; [exact V'|reflexivity].
    - split; [exact iv_ok|reflexivity].
    - rewrite S. now apply digest_rows.
  Qed.
  Lemma wp_len_mod bits msg : whirlpool_len (bits mod 2 ^ 256) msg = whirlpool_len bits msg.
  Proof. unfold whirlpool_len. change (2 ^ 256) with (2 ^ (8 * N.of_nat 32)). now rewrite be_bytes_mod. Qed.
  (** Pieces shorter than 2^61 bytes: the length is kept modulo 2^256. *)
  Lemma wp_limit m cs : Forall bytes_ok cs -> Forall slice_ok cs ->
    h_digest Whirlpool m cs = Some (whirlpool_len ((8 * blen (concat cs)) mod 2 ^ 256) (concat cs)).
  Proof.
    intros B S. pose proof (concat_ok cs B) as BM. rewrite (limit_digest Whirlpool (2 ^ 61) ideal_update); [|cbn; lia|reflexivity|exact ideal_update_eq|exact S].
    rewrite (inv_digest (with_update Whirlpool ideal_update) m (fun s => exists v, snd s = wl v)).
    - cbn [with_update Whirlpool c_update c_init c_bs c_final]. unfold ideal_update. cbn [obind fst snd].
      change (repeat 0 4) with (wl 0). rewrite update_len_wl, N.add_0_l, chunks_length by lia.
      pose proof (wp_final m (concat cs) (512 * N.of_nat (length (concat cs) / 64)) BM) as F.
      replace (512 * N.of_nat (length (concat cs) / 64) + 8 * N.of_nat (length (concat cs) mod 64)) with (8 * blen (concat cs)) in F
        by (unfold blen; pose proof (Nat.div_mod_eq (length (concat cs)) 64); lia).
      rewrite wp_len_mod, <- F. destruct (wp_finalize m _ _) as [[o s]|]; reflexivity.
    - cbn. lia.
    - reflexivity.
    - reflexivity.
    - exists 0. reflexivity.
    - intros [s bl] [v E]. cbn [snd] in E. subst bl. cbn [with_update Whirlpool c_update]. unfold ideal_update. cbn [fst snd length].
      rewrite update_len_wl. change (512 * N.of_nat 0) with 0. now rewrite N.add_0_r.
    - intros [s bl] a b [v E]. cbn [snd] in E. subst bl. cbn [with_update Whirlpool c_update]. unfold ideal_update. cbn [fst snd obind].
      rewrite !update_len_wl, app_length, Nat2N.inj_add. unfold compress. rewrite fold_left_app. do 3 f_equal. lia.
    - intros [s bl] a s' [v E]. cbn [snd] in E. subst bl. cbn [with_update Whirlpool c_update]. unfold ideal_update. intros [= <-]. cbn [snd].
      rewrite update_len_wl. now eexists.
  Qed.
  (** One piece of any size: its whole blocks are counted in 64 bits. *)
  Lemma wp_one_piece msg : bytes_ok msg ->
    h_digest Whirlpool Checked [msg] = (if 512 * (blen msg / 64) <? 2 ^ 64 then Some (whirlpool_len (8 * blen msg) msg) else None) /\
    h_digest Whirlpool Wrapping [msg] = Some (whirlpool_len ((512 * (blen msg / 64)) mod 2 ^ 64 + 8 * (blen msg mod 64)) msg).
  Proof.
    intros B.
    assert (G : forall m, h_digest Whirlpool m [msg] =
      let* len := cmul m 64 512 (blen msg / 64) in Some (whirlpool_len (len + 8 * (blen msg mod 64)) msg)).
    { intros m. replace (blen msg mod 64) with (N.of_nat (length msg mod 64)) by (unfold blen; now rewrite Nat2N.inj_mod).
      replace (blen msg / 64) with (N.of_nat (length msg / 64)) by (unfold blen; now rewrite Nat2N.inj_div).
      unfold h_digest. cbn [h_updates]. unfold h_update, h_new. cbn [Whirlpool c_update c_init c_bs c_kind c_ibuf cst fst snd].
      unfold digest_blocks. cbn [length Nat.eqb]. rewrite Nat.sub_0_r. unfold pos_ok.
      pose proof (kblocks_eager 64 msg ltac:(lia)) as KE. unfold kblocks in KE. cbn [n_blocks] in KE |- *.
      destruct (Nat.ltb_spec (length msg) 64) as [L|L]; cbn [obind app].
      - rewrite Nat.div_small by exact L. change (N.of_nat 0) with 0. cbn [obind]. unfold cmul. rewrite N.mul_0_r, fit_small by reflexivity. cbn [obind].
        unfold h_finalize. cbn [fst snd c_final Whirlpool].
        pose proof (wp_final m msg 0 B) as F. rewrite chunks_short in F by exact L. unfold remainder in F. rewrite Nat.div_small in F by exact L.
        rewrite Nat.mul_0_r in F. cbn [skipn] in F. change (compress (repeat 0 8) []) with (repeat 0 8) in F. change (wl 0) with (repeat 0 4) in F.
        rewrite <- F. destruct (wp_finalize m _ msg) as [[o s]|]; reflexivity.
      - assert (NZ : (length msg / 64 <> 0)%nat) by (pose proof (Nat.div_le_mono 64 (length msg) 64 ltac:(lia) L) as Q; change (64 / 64)%nat with 1%nat in Q; lia).
        destruct (Nat.eqb_spec (length msg / 64) 0) as [Z|_]; [contradiction|]. rewrite KE. unfold wp_update at 1. cbn [fst snd].
        rewrite chunks_length by lia. change (8 * 64) with 512. destruct (cmul m 64 512 _) as [len|]; [|reflexivity]. cbn [obind].
        unfold h_finalize. cbn [fst snd c_final Whirlpool]. change (repeat 0 4) with (wl 0). rewrite update_len_wl, N.add_0_l.
        pose proof (wp_final m msg len B) as F. unfold remainder in F. rewrite (Nat.mul_comm 64) in F.
        rewrite <- F. destruct (wp_finalize m _ _) as [[o s]|]; reflexivity. }
    rewrite !G. split.
    - unfold cmul, fit. destruct (_ <? _); [|reflexivity]. cbn [obind]. do 2 f_equal.
      pose proof (N.div_mod (blen msg) 64 ltac:(discriminate)). lia.
    - unfold cmul. rewrite fit_mod. reflexivity.
  Qed.
  Lemma wp_case_of msg : bytes_ok msg -> blen msg = 2 ^ 61 ->
    h_digest Whirlpool Checked [msg] = None /\ h_digest Whirlpool Wrapping [msg] = Some (whirlpool_len 0 msg).
  Proof. intros B E. destruct (wp_one_piece msg B) as [E1 E2]. rewrite E in E1, E2. split; [exact E1|exact E2]. Qed.

  Lemma repeat_zero_case n : bytes_ok (repeat 0 (N.to_nat n)) /\ blen (repeat 0 (N.to_nat n)) = n.
  Proof. split; [apply Forall_forall; intros x H; apply repeat_spec in H; subst; reflexivity|unfold blen; rewrite repeat_length; apply N2Nat.id]. Qed.

  Lemma wp_case : h_digest Whirlpool Checked [repeat 0 (N.to_nat (2 ^ 61))] = None /\
    h_digest Whirlpool Wrapping [repeat 0 (N.to_nat (2 ^ 61))] = Some (whirlpool_len 0 (repeat 0 (N.to_nat (2 ^ 61)))).
  Proof. exact (wp_case_of _ (proj1 (repeat_zero_case (2 ^ 61))) (proj2 (repeat_zero_case (2 ^ 61)))). Qed.
End Whirlpool.

(** ** Streebog *)
Section Streebog.
  Import Model.Streebog Proof.Streebog.
  Lemma update_n_mod n len : wok n -> len <= 64 -> get n 7 = 0 ->
    wok (update_n n len) /\ get (update_n n len) 7 = 0 /\ wval (update_n n len) = (wval n + 8 * len) mod 2 ^ 448.
  Proof.
    intros [On Ln] Hl Z. explode n. unfold wok.
    unfold words_ok in *. repeat match goal with H : Forall _ (_ :: _) |- _ => apply Forall_cons_iff in H as [? H] end.
    unfold update_n. cbn [seq fold_left get nth upd firstn skipn app] in *. subst.
    do 7 (adc_step; cbn [seq fold_left get nth upd firstn skipn app]). cbn [fst].
    split; [split; [repeat (constructor; [assumption|]); constructor|reflexivity]|]. split; [reflexivity|].
    cbn [wval]. change (N.b2n false) with 0 in *.
    match goal with |- _ = ?x mod _ => apply (N.mod_unique x (2 ^ 448) (N.b2n d5)) end.
    - change (2 ^ 448) with (2 ^ 64 * (2 ^ 64 * (2 ^ 64 * (2 ^ 64 * (2 ^ 64 * (2 ^ 64 * (2 ^ 64))))))). lia.
    - change (2 ^ 448) with (2 ^ 64 * (2 ^ 64 * (2 ^ 64 * (2 ^ 64 * (2 ^ 64 * (2 ^ 64 * (2 ^ 64))))))). lia.
  Qed.
  Import Spec.Streebog (vec).
  Definition R7 (s : sb_st) (t : list N * N * N) : Prop := R s t /\ get (snd (fst s)) 7 = 0.
  Lemma compress_R7 len h n sg hb N_ S_ b : len <= 64 -> R7 (h, n, sg) (hb, N_, S_) -> vok b ->
    R7 (compress len (h, n, sg) b) (Spec.Streebog.g (vec N_) hb b, (N_ + 8 * len) mod 2 ^ 448, (S_ + le_val b) mod 2 ^ 512).
  Proof.
    intros Hl [(Vh & -> & Hn & <- & Hs & <-) Z] Vb. cbn [fst snd] in Z. unfold compress, R7. cbv zeta. cbn [R fst snd].
    change (words_of_le 8 b) with (W b).
    destruct (g_spec hb (vec (wval n)) b Vh (vec_ok _) Vb) as [G V]. rewrite <- (wok_vec n Hn) in G. rewrite G.
    pose proof (W_wok b Vb) as [Ob Lb]. destruct Hs as [Os Ls].
    destruct (update_sigma_spec sg (W b) Os Ls Ob Lb) as (O' & L' & E'). rewrite (wval_W b Vb) in E'.
    destruct (update_n_mod n len Hn Hl Z) as (Hn' & Z' & En). repeat split; try assumption; try apply Hn'; try apply V.
  Qed.
  Lemma blocks_R7 bl : Forall vok bl -> forall s t, R7 s t -> R7 (fold_left (compress 64) bl s) (fold_left (stage2_mod 448) bl t).
  Proof.
    induction 1 as [|b bl Vb F IH]; intros s t HR; cbn [fold_left]; [exact HR|]. apply IH.
    destruct s as [[h n] sg], t as [[hb N_] S_]. exact (compress_R7 64 h n sg hb N_ S_ b ltac:(lia) HR Vb).
  Qed.
  Lemma sb_limit hl h0 : repeat h0 8 = W (Spec.Streebog.IV hl) -> vok (Spec.Streebog.IV hl) ->
    forall m cs, Forall bytes_ok cs -> h_digest (streebog_core hl h0) m cs = Some (Streebog_mod 448 hl (concat cs)).
  Proof.
    intros EI VI m cs B. pose proof (concat_ok cs B) as BM. set (msg := concat cs) in *.
    rewrite (inv_digest (streebog_core hl h0) m (fun _ => True)); try reflexivity; try exact I; try (intros; exact I); try (cbn; lia).
    2:{ intros s a b _. cbn [streebog_core c_update]. unfold sb_update. cbn [obind]. now rewrite fold_left_app. }
    fold msg. cbn [streebog_core c_update c_init c_bs c_final obind]. unfold sb_update. cbn [obind].
    assert (Z : wok (repeat 0 8)) by (split; [repeat constructor|reflexivity]).
    assert (VB : Forall vok (chunks 64 msg)).
    { apply Forall_forall. intros c Hc. split.
      - exact (proj1 (Forall_forall _ _) (chunks_block_length 64 msg ltac:(lia)) c Hc).
      - exact (proj1 (Forall_forall _ _) (chunks_ok 64 msg ltac:(lia) BM) c Hc). }
    assert (R0 : R7 (repeat h0 8, repeat 0 8, repeat 0 8) (Spec.Streebog.IV hl, 0, 0)).
    { split; [|reflexivity]. cbn [R]. repeat split; try assumption; try apply VI; try apply Z; vm_compute; reflexivity. }
    pose proof (blocks_R7 _ VB _ _ R0) as R1. unfold Streebog_mod.
    destruct (fold_left (stage2_mod 448) (chunks 64 msg) (Spec.Streebog.IV hl, 0, 0)) as [[hb N_] S_].
    destruct (fold_left (compress 64) (chunks 64 msg) _) as [[h n] sg]. unfold stage3_mod, sb_finalize. cbv zeta.
    pose proof (Nat.mod_upper_bound (length msg) 64 ltac:(lia)) as EU.
    rewrite last_block by (rewrite remainder_length by lia; exact EU).
    set (M := remainder 64 msg). assert (LM : length M = (length msg mod 64)%nat) by (apply remainder_length; lia).
    set (b := M ++ [1] ++ zeros (63 - length M)).
    assert (Vb : vok b).
    { split; [unfold b; rewrite !app_length, zeros_length; cbn [length]; lia|]. unfold b. apply bytes_ok_app. split; [now apply remainder_ok|].
      constructor; [reflexivity|apply zeros_ok]. }
    pose proof (compress_R7 (N.of_nat (length M)) h n sg hb N_ S_ b ltac:(lia) R1 Vb) as [R2 _].
    destruct (compress _ (h, n, sg) b) as [[h1 n1] sg1]. destruct R2 as (V1 & -> & Hn & En & Hs & Es).
    set (h2 := Spec.Streebog.g (vec N_) hb b) in *. clearbody h2.
    assert (VZ : vok (zeros 64)) by (split; [reflexivity|apply zeros_ok]).
    change (repeat 0 8) with (W (zeros 64)). rewrite (wok_vec n1 Hn), (wok_vec sg1 Hs), En, Es.
    match goal with |- context [Model.Streebog.g _ _ (W (vec (?x mod 2 ^ 448)))] => destruct (g_spec h2 (zeros 64) (vec (x mod 2 ^ 448)) V1 VZ (vec_ok _)) as [-> V2] end.
    match goal with |- context [W (vec (?x mod 2 ^ 512))] => destruct (g_spec _ (zeros 64) (vec (x mod 2 ^ 512)) V2 VZ (vec_ok _)) as [-> V3] end.
    cbn [obind]. now rewrite W_bytes.
  Qed.
  Lemma sb_limits m cs : Forall bytes_ok cs ->
    h_digest Streebog256 m cs = Some (Streebog_mod 448 32 (concat cs)) /\ h_digest Streebog512 m cs = Some (Streebog_mod 448 64 (concat cs)).
  Proof.
    intros B. split; apply sb_limit; try exact B; try reflexivity; (split; [reflexivity|repeat constructor]).
  Qed.
End Streebog.

(** ** FSB *)
Section Fsb.
  Import Model.Fsb Proof.Fsb.
  Context (PI : bytes) (P : params) (S : Spec.FSB.params) (R v q k bs : nat) (nv : N).
  Context (HR : r P = (8 * R)%nat) (Hp : p P = (8 * v + q)%nat) (Hq : (1 <= q < 8)%nat) (HRv : (1 <= R <= v)%nat).
  Context (Hw : w P = R) (Hs : s P = (8 * R + k * R)%nat) (Hk : k = 5%nat \/ k = 6%nat) (Hbs : block_size P = bs) (Hkbs : (k * R = 8 * bs)%nat).
  Context (Hn : n P = Spec.FSB.nw S * N.of_nat R) (Hnw : Spec.FSB.nw S = 2 ^ N.of_nat (8 + k)) (Hnv : Spec.FSB.nw S = 8 * nv) (HRl : (R < 1000)%nat).
  Context (Sr : Spec.FSB.r S = r P) (Sp : Spec.FSB.p S = p P) (Sw : Spec.FSB.w S = w P) (Ss : Spec.FSB.s S = s P).
  Context (HPI : (N.to_nat nv * (v + 1) <= length PI)%nat) (BPI : bytes_ok PI).
  Lemma fsb_limit : (8 < bs)%nat -> panics_or_wraps (fsb_core PI P) 64 (fsb_len PI S (out_size P)).
  Proof using All.
    intros HB cs B. pose proof (concat_ok cs B) as BM. set (msg := concat cs) in *.
    assert (ER : (r P / 8 = R)%nat) by (rewrite HR, Nat.mul_comm; now apply Nat.div_mul).
    assert (Esr : ((Spec.FSB.s S - Spec.FSB.r S) / 8 = bs)%nat).
    { rewrite Ss, Sr, Hs, HR. replace (8 * R + k * R - 8 * R)%nat with (bs * 8)%nat by lia. apply Nat.div_mul. discriminate. }
    pose proof (len_split bs (length msg) ltac:(lia)) as LS. fold (blen msg) in LS.
    assert (CS : forall h x, length h = R -> bytes_ok h -> length x = bs -> bytes_ok x ->
      exists h', compress PI P h x = Some h' /\ length h' = R /\ bytes_ok h' /\ Spec.FSB.bits h' = Spec.FSB.compress PI S (Spec.FSB.bits h) x).
    { intros h x. apply (compress_spec PI P S R v q k bs nv); assumption. }
    assert (FO : forall bl, Forall (fun b => length b = bs) bl -> Forall bytes_ok bl -> forall h, length h = R -> bytes_ok h ->
      exists h', ofold (compress PI P) bl h = Some h' /\ length h' = R /\ bytes_ok h' /\
        Spec.FSB.bits h' = fold_left (Spec.FSB.compress PI S) bl (Spec.FSB.bits h)).
    { induction bl as [|b bl IH]; intros HL HBb h Lh Bh; [exists h; auto|]. apply Forall_cons_iff in HL as [Lb HL], HBb as [Bb HBb].
      destruct (CS h b Lh Bh Lb Bb) as (h' & E & L' & B' & Eb). cbn [ofold fold_left]. rewrite E. cbn [obind]. rewrite <- Eb. now apply IH. }
    destruct (FO (chunks bs msg)) with (h := zeros R) as (h1 & E1 & L1 & B1 & Eb1);
      [apply chunks_block_length; lia|apply chunks_ok; [lia|exact BM]|apply zeros_length|apply zeros_ok|].
    assert (D : forall m, h_digest (fsb_core PI P) m cs =
      let* c := cadd m 64 0 (N.of_nat (length msg / bs)) in
      bit_length m 64 (N.of_nat bs) c (N.of_nat (length msg mod bs)) (fun l => Some (fsb_len PI S (out_size P) l msg))).
    { intros m. rewrite (inv_digest (fsb_core PI P) m (fun st => snd st < 2 ^ 64)).
      - cbn [fsb_core c_update c_init c_bs c_final]. fold msg. unfold fsb_update. cbn [fst snd]. rewrite Hbs, ER, chunks_length by lia.
        destruct (cadd m 64 0 _) as [c|]; [|reflexivity]. cbn [obind]. rewrite E1. cbn [obind]. unfold fsb_finalize, bit_length. cbn [fst snd].
        rewrite remainder_length, Hbs by lia. unfold cmul at 1 3. rewrite (N.mul_comm c).
        destruct (fit m 64 (N.of_nat bs * c)) as [t|]; [|reflexivity]. cbn [obind]. unfold cadd. rewrite (N.add_comm t).
        destruct (fit m 64 (_ + t)) as [t'|]; [|reflexivity]. cbn [obind]. destruct (cmul m 64 8 t') as [l|]; [|reflexivity]. cbn [obind].
        unfold len64_padding_be.
        destruct (FO (pad_blocks bs 0x80 (be_bytes 8 l) (remainder bs msg))) with (h := h1) as (hf & Ef & Lf & Bf & Ebf); try assumption.
        + apply pad_blocks_length; [rewrite remainder_length by lia; apply Nat.mod_upper_bound; lia|rewrite be_bytes_length; lia].
        + apply pad_blocks_ok; [reflexivity|apply be_bytes_ok|now apply remainder_ok].
        + rewrite Ef. cbn [obind]. rewrite Proof.Whirlpool.Whirlpool_digest.
          * cbn [obind]. f_equal. cbn [concat]. rewrite app_nil_r. unfold fsb_len. rewrite Esr, Sr, HR. f_equal. f_equal.
            unfold md_iterate, md_pad. rewrite (chunks_padded bs 0x80) by (rewrite ?be_bytes_length; lia). rewrite fold_left_app, <- (bits_zeros R), <- Eb1, <- Ebf.
            symmetry. now apply pack_bits.
          * constructor; [exact Bf|constructor].
          * constructor; [|constructor]. unfold slice_below. rewrite Lf. apply N.lt_trans with 1000; [lia|reflexivity].
          * cbn [concat]. rewrite app_nil_r, Lf. apply N.lt_trans with 8000; [lia|reflexivity].
      - cbn. lia.
      - reflexivity.
      - reflexivity.
      - reflexivity.
      - intros [h c] C. cbn [snd] in C. cbn [fsb_core c_update]. unfold fsb_update. cbn [fst snd length ofold]. change (N.of_nat 0) with 0.
        now rewrite cadd_0 by exact C.
      - intros st a b _. cbn [fsb_core c_update]. unfold fsb_update. rewrite app_length, Nat2N.inj_add, <- cadd_assoc, ofold_app.
        destruct (cadd m 64 (snd st) (N.of_nat (length a))) as [c|]; [|reflexivity]. cbn [obind].
        destruct (ofold (compress PI P) a (fst st)) as [h|]; cbn [obind fst snd]; [reflexivity|].
        destruct (cadd m 64 c (N.of_nat (length b))); reflexivity.
      - intros st a st' _ E. cbn [fsb_core c_update] in E. unfold fsb_update in E. destruct (cadd m 64 (snd st) _) as [c|] eqn:Ec; [|discriminate].
        cbn [obind] in E. destruct (ofold _ a (fst st)); [|discriminate]. cbn [obind] in E. injection E as <-. exact (fit_some _ _ _ _ Ec). }
    rewrite !D. unfold cadd. rewrite !N.add_0_l. split.
    - unfold fit. destruct (N.ltb_spec (N.of_nat (length msg / bs)) (2 ^ 64)) as [H|H]; cbn [obind].
      + now rewrite bit_length_checked, LS.
      + destruct (N.ltb_spec (8 * blen msg) (2 ^ 64)); [|reflexivity]. exfalso. nia.
    - rewrite fit_mod. cbn [obind]. now rewrite bit_length_wrapping, LS.
  Qed.
End Fsb.
Lemma fsb_limits PI : N.of_nat (length PI) = 272384 -> bytes_ok PI ->
  panics_or_wraps (Model.Fsb.Fsb160 PI) 64 (fsb_len PI Spec.FSB.FSB160 20) /\
  panics_or_wraps (Model.Fsb.Fsb224 PI) 64 (fsb_len PI Spec.FSB.FSB224 28) /\
  panics_or_wraps (Model.Fsb.Fsb256 PI) 64 (fsb_len PI Spec.FSB.FSB256 32) /\
  panics_or_wraps (Model.Fsb.Fsb384 PI) 64 (fsb_len PI Spec.FSB.FSB384 48) /\
  panics_or_wraps (Model.Fsb.Fsb512 PI) 64 (fsb_len PI Spec.FSB.FSB512 64).
Proof.
  intros L B. refine (conj _ (conj _ (conj _ (conj _ _)))).
  - apply (fsb_limit PI Model.Fsb.P160 Spec.FSB.FSB160 80 81 5 6 60 2048); try reflexivity; try lia; try exact B.
  - apply (fsb_limit PI Model.Fsb.P224 Spec.FSB.FSB224 112 113 3 6 84 2048); try reflexivity; try lia; try exact B.
  - apply (fsb_limit PI Model.Fsb.P256 Spec.FSB.FSB256 128 132 5 6 96 2048); try reflexivity; try lia; try exact B.
  - apply (fsb_limit PI Model.Fsb.P384 Spec.FSB.FSB384 184 185 3 5 115 1024); try reflexivity; try lia; try exact B.
  - apply (fsb_limit PI Model.Fsb.P512 Spec.FSB.FSB512 248 248 3 5 155 1024); try reflexivity; try lia; try exact B.
Qed.

(** ** Skein *)
Section Skein.
  Import Model.Skein Proof.Skein.
  Context (nw NO : nat) (E : list N -> list N -> list N -> list N).
  Context (Hnw : (4 <= nw)%nat) (HE : cipher_ok nw E).
  Notation NB := (8 * nw)%nat.
  Notation Eb := (Spec.Skein.on_words E).
  Notation step := (Spec.Skein.step Eb).
  (** Adding modulo 2^64 is adding to a smaller counter. *)
  Lemma process_mod s block add pos : wk nw (sx s) -> length block = NB -> bytes_ok block -> t1 s < 2 ^ 64 -> t0 s = pos mod 2 ^ 64 ->
    exists x', process_block NB E Wrapping s block add = Some (mkSt ((pos + add) mod 2 ^ 64) (N.land (t1 s) (not64 T1_FLAG_FIRST)) x') /\
      wk nw x' /\ words_to_le 8 x' = step (words_to_le 8 (sx s)) ((pos + add) mod 2 ^ 64 + 2 ^ 64 * t1 s) block.
  Proof using HE Hnw.
    intros Wx L B T1 T0. assert (LT : (pos + add) mod 2 ^ 64 < 2 ^ 64) by now apply N.mod_lt.
    destruct (process_spec nw E Hnw HE Wrapping (mkSt 0 (t1 s) (sx s)) block ((pos + add) mod 2 ^ 64) Wx L B LT T1) as (x' & P1 & P2 & P3).
    cbn [t0 t1 sx] in *. exists x'. split; [|split; [exact P2|exact P3]]. rewrite N.add_0_l in P1. rewrite <- P1. unfold process_block, cadd. rewrite !fit_mod.
    cbn [obind t0 t1 sx]. rewrite T0, N.add_mod_idemp_l, N.add_0_l, N.mod_mod by discriminate. reflexivity.
  Qed.
  Lemma ubi_mod bl : Forall (fun b => length b = NB) bl -> Forall bytes_ok bl ->
    forall fuel s first r pos, (length bl < fuel)%nat -> (length r <= NB)%nat -> bytes_ok r -> (bl <> [] -> r <> []) ->
    wk nw (sx s) -> t1 s = t1_of first -> t0 s = pos mod 2 ^ 64 ->
    exists s1 s2, update_blocks NB E Wrapping s bl = Some s1 /\ last_block nw E Wrapping s1 r = Some s2 /\ wk nw (sx s2) /\
      words_to_le 8 (sx s2) = UBI64_from NB Eb fuel (words_to_le 8 (sx s)) pos first (concat bl ++ r) Spec.Skein.T_msg.
  Proof using HE Hnw.
    intros FL FB. induction bl as [|b bl IH]; intros [|fuel] s first r pos Hf Lr Br NE Wx T1 T0; cbn [length] in Hf; try lia.
    - cbn [concat app UBI64_from update_blocks] in *. exists s. destruct (Nat.leb_spec (length r) NB); [|lia].
      assert (Lp : length (pad_with_zeros NB r) = NB) by (unfold pad_with_zeros; rewrite app_length, zeros_length; lia).
      assert (Bp : bytes_ok (pad_with_zeros NB r)) by (apply bytes_ok_app; split; [exact Br|apply zeros_ok]).
      destruct (process_mod (mkSt (t0 s) (N.lor (t1 s) T1_FLAG_FINAL) (sx s)) (pad_with_zeros NB r) (N.of_nat (length r)) pos Wx Lp Bp)
        as (x' & P1 & P2 & P3); [cbn [t1]; rewrite T1; apply t1_lt|exact T0|].
      eexists. split; [reflexivity|]. split; [exact P1|]. split; [exact P2|]. cbn [sx t0 t1] in *. rewrite P3. rewrite T1, t1_fin.
      unfold Spec.Skein.zpad, pad_with_zeros. f_equal. lia.
    - apply Forall_cons_iff in FL as [Lb FL]. apply Forall_cons_iff in FB as [Bb FB].
      assert (Rn : (0 < length r)%nat) by (specialize (NE ltac:(discriminate)); destruct r; [contradiction|cbn; lia]).
      cbn [concat update_blocks UBI64_from] in *. rewrite <- app_assoc in *.
      destruct (Nat.leb_spec (length (b ++ concat bl ++ r)) NB) as [Q|Q]; [rewrite !app_length in Q; lia|].
      rewrite firstn_app_exact, skipn_app_exact by exact Lb.
      destruct (process_mod s b (N.of_nat (length b)) pos Wx Lb Bb) as (x' & P1 & P2 & P3); [rewrite T1; apply t1_lt|exact T0|].
      rewrite P1. cbn [obind]. rewrite T1, t1_next.
      destruct (IH FL FB fuel (mkSt ((pos + N.of_nat (length b)) mod 2 ^ 64) (t1_of false) x') false r (pos + N.of_nat (length b))) as (s1 & s2 & Q1 & Q2 & Q3 & Q4);
        [lia|exact Lr|exact Br|intros _ Z; rewrite Z in Rn; cbn in Rn; lia|exact P2|reflexivity|reflexivity|].
      exists s1, s2. split; [exact Q1|]. split; [exact Q2|]. split; [exact Q3|]. rewrite Q4. cbn [sx t0]. rewrite P3, T1, t1_val, Lb. f_equal. f_equal. lia.
  Qed.
  Definition H64 (msg : bytes) : bytes := firstn (NO - NO mod 8) (Skein64 NB Eb NO msg) ++ zeros (NO mod 8).
  Lemma skein_wraps cs : N.of_nat NO < 2 ^ 61 -> Forall bytes_ok cs -> skein_digest NB NO E Wrapping cs = Some (H64 (concat cs)).
  Proof using HE Hnw.
    intros HN B. pose proof (concat_ok cs B) as Bm. unfold skein_digest. destruct (default_spec nw NO E Hnw HE Wrapping HN) as (x0 & D1 & D2 & D3). rewrite D1. cbn [obind].
    set (init := mkSt 0 _ x0). assert (BP : (0 < NB)%nat) by lia. unfold h_digest.
    pose proof (any_updates (skein_core NB NO E init) Wrapping BP eq_refl (fun s => eq_refl) (fun s a b => update_app nw E Wrapping a s b) cs) as U.
    cbn [skein_core c_update c_init c_kind c_bs c_ibuf app] in U. rewrite U. clear U. set (msg := concat cs) in *.
    pose proof (kblocks_krem Lazy NB msg BP) as KD. pose proof (kblocks_length Lazy NB msg BP) as KL.
    pose proof (krem_tail_ok Lazy NB msg BP) as [KT1 KT2].
    set (bl := kblocks Lazy NB msg) in *. set (r := krem Lazy NB msg) in *.
    assert (BB : Forall bytes_ok bl /\ bytes_ok r).
    { rewrite <- KD in Bm. apply bytes_ok_app in Bm as [B1 B2]. split; [now apply bytes_ok_concat|exact B2]. }
    destruct BB as [BB Br].
    assert (LD : (length (concat bl) + length r = length msg)%nat) by now rewrite <- KD, app_length.
    rewrite (concat_length_blocks NB) in LD by exact KL.
    destruct (ubi_mod bl KL BB (S (length msg)) init true r 0) as (s1 & s2 & Q1 & Q2 & Q3 & Q4);
      [nia|exact KT1|exact Br|exact KT2|exact D2|reflexivity|reflexivity|].
    rewrite Q1. cbn [obind]. unfold h_finalize. cbn [fst snd skein_core c_final].
    unfold finalize_fixed_core. unfold last_block in Q2. cbv zeta. rewrite Q2. cbn [obind].
    rewrite (out_spec nw E Hnw HE Wrapping (sx s2) Q3) by lia. cbn [obind]. apply f_equal. unfold H64. apply (f_equal (fun q => q ++ zeros _)).
    rewrite KD in Q4. unfold Skein64, Spec.Skein.Output. rewrite firstn_firstn. rewrite Nat.min_l by lia.
    unfold ceil. apply (f_equal (firstn _)). apply flat_map_ext. intros i. unfold Proof.Skein.B. rewrite Q4. cbn [init sx]. rewrite <- D3. reflexivity.
  Qed.
  Lemma skein_exact cs : N.of_nat NO < 2 ^ 61 -> Forall bytes_ok cs ->
    skein_digest NB NO E Checked cs = (if blen (concat cs) <? 2 ^ 64 then Some (firstn (NO - NO mod 8) (Spec.Skein.Skein NB Eb NO (concat cs)) ++ zeros (NO mod 8)) else None) /\
    skein_digest NB NO E Wrapping cs = Some (firstn (NO - NO mod 8) (Skein64 NB Eb NO (concat cs)) ++ zeros (NO mod 8)).
  Proof using HE Hnw.
    intros HN B. split; [|now apply skein_wraps]. destruct (N.ltb_spec (blen (concat cs)) (2 ^ 64)) as [W|W].
    - exact (skein_spec nw NO E Hnw HE Checked cs HN B W).
    - apply (Proof.Overflow.skein_limit NB NO E ltac:(lia) cs). exact W.
  Qed.
End Skein.
