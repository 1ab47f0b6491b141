(** Cores with a block counter on messages of any length. *)
From Verif Require Import Base.Words Base.Bytes Base.BlockBuffer Base.BlockBufferFacts Base.Digest Base.DigestFacts Base.MDFacts Spec.MD.

Lemma fit_mod w x : fit Wrapping w x = Some (x mod 2 ^ w).
Proof. reflexivity. Qed.
(** The length computation [8 * (pos + bs * count)]. *)
Definition bit_length {B} (m : mode) (w NB n pos : N) (k : N -> option B) : option B :=
  let* t := cmul m w NB n in let* t := cadd m w pos t in let* l := cmul m w 8 t in k l.
Lemma bit_length_checked {B} w NB n pos (k : N -> option B) :
  bit_length Checked w NB n pos k = if 8 * (NB * n + pos) <? 2 ^ w then k (8 * (NB * n + pos)) else None.
Proof.
  unfold bit_length, cmul, cadd, fit. destruct (N.ltb_spec (NB * n) (2 ^ w)) as [A|A]; cbn [obind].
  - destruct (N.ltb_spec (pos + NB * n) (2 ^ w)) as [B'|B']; cbn [obind].
    + rewrite (N.add_comm pos). now destruct (8 * (NB * n + pos) <? 2 ^ w).
    + destruct (N.ltb_spec (8 * (NB * n + pos)) (2 ^ w)); [lia|reflexivity].
  - destruct (N.ltb_spec (8 * (NB * n + pos)) (2 ^ w)); [lia|reflexivity].
Qed.
Lemma bit_length_wrapping {B} w NB n pos (k : N -> option B) :
  bit_length Wrapping w NB (n mod 2 ^ w) pos k = k ((8 * (NB * n + pos)) mod 2 ^ w).
Proof.
  assert (Z : 2 ^ w <> 0) by (apply N.pow_nonzero; discriminate).
  unfold bit_length, cmul, cadd, fit. cbn [obind]. f_equal.
  rewrite (N.mul_mod_idemp_r NB n), (N.add_mod_idemp_r pos), (N.mul_mod_idemp_r 8) by exact Z. f_equal. lia.
Qed.

Section Over.
  Context {S : Type} (bs : nat) (w : N) (compress : S -> bytes -> S) (iv : S).
  Context (upd : mode -> S * N -> list bytes -> option (S * N)) (fin : mode -> S * N -> bytes -> option (bytes * (S * N)))
    (rst : S * N -> (S * N) * bytes) (cod : option (codec (S * N))).
  Let C := mkCore (S * N) bs Eager (iv, 0) [] upd fin rst cod.
  Hypothesis Hbs : (0 < bs)%nat.

  Lemma counted_updates m m' : (forall st bl, upd m st bl = counted_update w compress m' st bl) -> forall cs,
    h_updates C m (h_new C) cs
    = let* s := counted_update w compress m' (iv, 0) (chunks bs (concat cs)) in Some (s, remainder bs (concat cs)).
  Proof using Hbs.
    intros HU.
    assert (A0 : forall s : S * N, snd s < 2 ^ w -> counted_update w compress m' s [] = Some s).
    { intros [s n] I. unfold counted_update. cbn [fst snd length fold_left] in *. change (N.of_nat 0) with 0. now rewrite cadd_0. }
    assert (A1 : forall s a b, snd s < 2 ^ w -> counted_update w compress m' s (a ++ b)
      = obind (counted_update w compress m' s a) (fun s' => counted_update w compress m' s' b)).
    { intros s a b I. unfold counted_update. rewrite app_length, Nat2N.inj_add, <- cadd_assoc.
      destruct (cadd m' w (snd s) (N.of_nat (length a))) as [n|]; [|reflexivity]. cbn [obind fst snd]. now rewrite fold_left_app. }
    assert (A2 : forall s a s', snd s < 2 ^ w -> counted_update w compress m' s a = Some s' -> snd s' < 2 ^ w).
    { intros s a s' I E. unfold counted_update in E. destruct (cadd m' w (snd s) _) as [n|] eqn:En; [|discriminate].
      injection E as <-. cbn. now apply fit_some in En. }
    assert (G : forall cs pre, (let* s := counted_update w compress m' (iv, 0) (chunks bs pre) in h_updates C m (s, remainder bs pre) cs)
      = let* s := counted_update w compress m' (iv, 0) (chunks bs (pre ++ concat cs)) in Some (s, remainder bs (pre ++ concat cs))).
    { induction cs as [|c cs IH]; intros pre; cbn [h_updates concat]; [now rewrite app_nil_r|].
      rewrite app_assoc, <- IH. pose proof (kblocks_continue (counted_update w compress m') (fun s => snd s < 2 ^ w) Eager bs Hbs A0 A1 A2
        (iv, 0) pre c ltac:(cbn; apply pow2_pos)) as K.
      rewrite !kblocks_eager, !krem_eager in K by exact Hbs.
      transitivity (let* (s, r) := (let* s1 := counted_update w compress m' (iv, 0) (chunks bs pre) in
        digest_blocks (counted_update w compress m') Eager bs s1 (remainder bs pre) c) in h_updates C m (s, r) cs).
      - destruct (counted_update w compress m' (iv, 0) (chunks bs pre)) as [s|]; [|reflexivity]. cbn [obind]. unfold h_update.
        cbn [C c_update c_kind c_bs fst snd cst].
        assert (E : forall s0 d i, digest_blocks (upd m) Eager bs s0 d i = digest_blocks (counted_update w compress m') Eager bs s0 d i).
        { intros. unfold digest_blocks. rewrite HU. destruct (pos_ok _ _ _); [reflexivity|].
          apply obind_ext. intros [s1 i1] _. now rewrite HU. }
        rewrite E. apply obind_ext. now intros [? ?] _.
      - rewrite K. now destruct (counted_update w compress m' (iv, 0) (chunks bs (pre ++ c))). }
    intros cs. specialize (G cs []). cbn [app] in G. rewrite <- G.
    change (chunks bs []) with (@nil bytes). rewrite A0 by (cbn; apply pow2_pos). unfold remainder. now rewrite skipn_nil.
  Qed.
  Lemma counted_digest m m' : (forall st bl, upd m st bl = counted_update w compress m' st bl) -> forall cs,
    h_digest C m cs = let* n := cadd m' w 0 (N.of_nat (length (concat cs) / bs)) in
      let* (out, _) := fin m (fold_left compress (chunks bs (concat cs)) iv, n) (remainder bs (concat cs)) in Some out.
  Proof using Hbs.
    intros HU cs. unfold h_digest. rewrite (counted_updates m m' HU). unfold counted_update. cbn [fst snd].
    rewrite chunks_length by exact Hbs. now destruct (cadd _ _ _ _).
  Qed.

  Context {V : Type} (f : V -> bytes -> V) (ivs : V) (R : S -> V -> Prop) (out : S -> bytes) (outs : V -> bytes)
    (delim : N) (enc : N -> bytes) (k : nat) (NB : N) (g : S * N -> bytes -> N -> S * N).
  Hypothesis HNB : NB = N.of_nat bs.
  Hypothesis Henc : forall l, length (enc l) = k.
  Hypothesis Hencok : forall l, bytes_ok (enc l).
  Hypothesis Hk : (k < bs)%nat.
  Hypothesis Hd : delim < 256.
  Hypothesis Riv : R iv ivs.
  Hypothesis Rstep : forall a b x, R a b -> length x = bs -> bytes_ok x -> R (compress a x) (f b x).
  Hypothesis Rout : forall a b, R a b -> out a = outs b.
  Definition hash_len (bits : N) (msg : bytes) : bytes := outs (md_iterate f bs ivs (md_pad bs delim (enc bits) msg)).

  Lemma sim_len l msg : bytes_ok msg ->
    out (fold_left compress (pad_blocks bs delim (enc l) (remainder bs msg)) (fold_left compress (chunks bs msg) iv)) = hash_len l msg.
  Proof using All.
    intros B. apply Rout. apply md_sim; try assumption; [now rewrite Henc|apply Hencok].
  Qed.
  Lemma concat_ok cs : Forall bytes_ok cs -> bytes_ok (concat cs).
  Proof. intros B. induction B; [constructor|]. cbn [concat]. apply bytes_ok_app. now split. Qed.

  Lemma over_checked : (forall m st bl, upd m st bl = counted_update w compress m st bl) ->
    (forall m h n buf, fin m (h, n) buf = bit_length m w NB n (N.of_nat (length buf))
       (fun l => Some (out (fold_left compress (pad_blocks bs delim (enc l) buf) h), g (h, n) buf l))) ->
    forall cs, Forall bytes_ok cs ->
    h_digest C Checked cs = (if 8 * blen (concat cs) <? 2 ^ w then Some (hash_len (8 * blen (concat cs)) (concat cs)) else None) /\
    h_digest C Wrapping cs = Some (hash_len ((8 * blen (concat cs)) mod 2 ^ w) (concat cs)).
  Proof using All.
    intros HU HF cs B. pose proof (concat_ok cs B) as BM. set (msg := concat cs) in *.
    pose proof (len_split bs (length msg) Hbs) as LS. fold (blen msg) in LS.
    rewrite (counted_digest Checked Checked), (counted_digest Wrapping Wrapping) by apply HU. fold msg.
    unfold cadd. rewrite !N.add_0_l. split.
    - unfold fit. destruct (N.ltb_spec (N.of_nat (length msg / bs)) (2 ^ w)) as [H|H]; cbn [obind].
      + rewrite HF, bit_length_checked, remainder_length by exact Hbs. rewrite HNB, LS. unfold blen.
        destruct (_ <? _); [|reflexivity]. cbn [obind]. now rewrite sim_len.
      + destruct (N.ltb_spec (8 * blen msg) (2 ^ w)); [|reflexivity]. exfalso.
        assert (N.of_nat (length msg / bs) <= blen msg) by (unfold blen; pose proof (Nat.div_le_upper_bound (length msg) bs (length msg) ltac:(lia) ltac:(nia)); lia).
        lia.
    - rewrite fit_mod. cbn [obind]. rewrite HF, bit_length_wrapping, remainder_length by exact Hbs. rewrite HNB, LS. cbn [obind].
      now rewrite sim_len.
  Qed.
  Lemma over_wrapping : (forall m st bl, upd m st bl = counted_update w compress Wrapping st bl) ->
    (forall m h n buf, fin m (h, n) buf = bit_length Wrapping w NB n (N.of_nat (length buf))
       (fun l => Some (out (fold_left compress (pad_blocks bs delim (enc l) buf) h), g (h, n) buf l))) ->
    forall m cs, Forall bytes_ok cs ->
    h_digest C m cs = Some (hash_len ((8 * blen (concat cs)) mod 2 ^ w) (concat cs)).
  Proof using All.
    intros HU HF m cs B. pose proof (concat_ok cs B) as BM. set (msg := concat cs) in *.
    pose proof (len_split bs (length msg) Hbs) as LS. fold (blen msg) in LS.
    rewrite (counted_digest m Wrapping) by apply HU. fold msg.
    unfold cadd. rewrite N.add_0_l, fit_mod. cbn [obind]. rewrite HF, bit_length_wrapping, remainder_length by exact Hbs.
    rewrite HNB, LS. cbn [obind]. now rewrite sim_len.
  Qed.
End Over.

(** A core whose block function is a fold, on any message. *)
Section Any.
  Context (C : core) (m : mode).
  Hypothesis Hbs : (0 < c_bs C)%nat.
  Hypothesis Hibuf : pos_ok (c_kind C) (c_bs C) (length (c_ibuf C)) = true.
  Hypothesis Hnil : forall s, c_update C m s [] = Some s.
  Hypothesis Happ : forall s a b, c_update C m s (a ++ b) = obind (c_update C m s a) (fun s' => c_update C m s' b).
  Lemma any_updates cs : h_updates C m (h_new C) cs
    = let* s := c_update C m (c_init C) (kblocks (c_kind C) (c_bs C) (c_ibuf C ++ concat cs)) in
      Some (s, krem (c_kind C) (c_bs C) (c_ibuf C ++ concat cs)).
  Proof using Hbs Hibuf Hnil Happ.
    assert (G : forall cs pre,
      (let* s := c_update C m (c_init C) (kblocks (c_kind C) (c_bs C) pre) in h_updates C m (s, krem (c_kind C) (c_bs C) pre) cs)
      = let* s := c_update C m (c_init C) (kblocks (c_kind C) (c_bs C) (pre ++ concat cs)) in Some (s, krem (c_kind C) (c_bs C) (pre ++ concat cs))).
    { clear cs. induction cs as [|c cs IH]; intros pre; cbn [h_updates concat]; [now rewrite app_nil_r|].
      rewrite app_assoc, <- IH.
      pose proof (kblocks_continue (c_update C m) (fun _ => True) (c_kind C) (c_bs C) Hbs (fun s _ => Hnil s) (fun s a b _ => Happ s a b)
        (fun _ _ _ _ _ => I) (c_init C) pre c I) as K.
      transitivity (let* (s, r) := (let* s1 := c_update C m (c_init C) (kblocks (c_kind C) (c_bs C) pre) in
        digest_blocks (c_update C m) (c_kind C) (c_bs C) s1 (krem (c_kind C) (c_bs C) pre) c) in h_updates C m (s, r) cs).
      - destruct (c_update C m (c_init C) (kblocks (c_kind C) (c_bs C) pre)) as [s|]; [|reflexivity]. cbn [obind]. unfold h_update.
        cbn [fst snd]. apply obind_ext. now intros [? ?] _.
      - rewrite K. now destruct (c_update C m (c_init C) (kblocks (c_kind C) (c_bs C) (pre ++ c))). }
    rewrite <- (G cs (c_ibuf C)). destruct (split_unique (c_kind C) (c_bs C) [] (c_ibuf C) Hbs (Forall_nil _)) as [E1 E2].
    { destruct (c_kind C); cbn in *; [now apply Nat.ltb_lt|]. apply Nat.leb_le in Hibuf. split; [exact Hibuf|congruence]. }
    cbn [concat app] in E1, E2. rewrite E1, E2, Hnil. reflexivity.
  Qed.
End Any.
