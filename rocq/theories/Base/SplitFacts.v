(** What a sequence of [update] calls does, with no limit on the amount of data: the data of all the
    calls together is cut into blocks, also when the core panics on them. *)
From Verif Require Import Base.Words Base.Bytes Base.BlockBuffer Base.BlockBufferFacts Base.Digest Base.DigestFacts.

Section Split.
  Context (C : core) (inv : cst C -> Prop) (H : bytes -> bytes) (within : nat -> Prop) (OK : core_ok C inv H within).
  Let K := c_kind C.
  Let BS := c_bs C.
  Let I := c_ibuf C.
  Let good (bl : list bytes) : Prop := Forall (fun b => length b = BS) bl /\ Forall bytes_ok bl.
  Notation reached := (reached C inv).

  Lemma split_blocks msg input : exists bl2, kblocks K BS (I ++ msg ++ input) = kblocks K BS (I ++ msg) ++ bl2 /\
    bl2 = kblocks K BS (krem K BS (I ++ msg) ++ input) /\
    krem K BS (I ++ msg ++ input) = krem K BS (krem K BS (I ++ msg) ++ input).
  Proof using OK.
    set (r := krem K BS (I ++ msg)). pose proof (ok_bs _ _ _ _ OK) as Hbs. fold BS in Hbs.
    exists (kblocks K BS (r ++ input)).
    assert (EE : (I ++ msg) ++ input = concat (kblocks K BS (I ++ msg) ++ kblocks K BS (r ++ input)) ++ krem K BS (r ++ input)).
    { rewrite concat_app, <- (app_assoc (concat _)), kblocks_krem by exact Hbs.
      rewrite (app_assoc (concat _)). f_equal. symmetry. now apply kblocks_krem. }
    destruct (split_unique K BS (kblocks K BS (I ++ msg) ++ kblocks K BS (r ++ input)) (krem K BS (r ++ input)) Hbs) as [E1 E2].
    { apply Forall_app. split; now apply kblocks_length. }
    { pose proof (krem_tail_ok K BS (r ++ input) Hbs) as T.
      pose proof (krem_tail_ok K BS (I ++ msg) Hbs) as T'. fold r in T'.
      destruct K; cbn [tail_ok] in *; [exact T|].
      destruct T as [T1 T2]. split; [exact T1|]. intros NE KK.
      assert (kblocks Lazy BS (r ++ input) = []) as B.
      { destruct (kblocks Lazy BS (r ++ input)); [reflexivity|]. exfalso. apply T2; [discriminate|exact KK]. }
      rewrite B, app_nil_r in NE.
      destruct T' as [T3 T4]. specialize (T4 NE).
      pose proof (kblocks_krem Lazy BS (r ++ input) Hbs) as Q'. rewrite B, KK in Q'. cbn in Q'.
      symmetry in Q'. apply app_eq_nil in Q'. now apply T4. }
    rewrite <- EE, <- app_assoc in E1, E2. repeat split; assumption.
  Qed.

  Lemma update_blocks_of m h input : inv (fst h) -> pos_ok K BS (length (snd h)) = true -> bytes_ok (snd h ++ input) ->
    h_update C m h input =
    let* s' := c_update C m (fst h) (kblocks K BS (snd h ++ input)) in Some (s', krem K BS (snd h ++ input)).
  Proof using OK.
    destruct h as [s0 r]. cbn [fst snd]. intros R3 Pr Br. unfold h_update. cbn [fst snd]. fold K BS.
    pose proof (ok_bs _ _ _ _ OK) as Hbs. fold BS in Hbs.
    set (cmp := fun (s : cst C) (bl : list bytes) =>
           if forallb (fun b => (length b =? BS)%nat && forallb (fun x => x <? 256) b) bl
           then c_update C m s bl else None).
    assert (G : forall bl, good bl -> forall s, cmp s bl = c_update C m s bl).
    { intros bl [G1 G2] s. unfold cmp.
      replace (forallb _ bl) with true; [reflexivity|]. symmetry. apply forallb_forall.
      intros b Hb. rewrite Forall_forall in G1, G2.
      apply andb_true_iff. split; [now apply Nat.eqb_eq, G1|].
      apply forallb_forall. intros x Hx. apply N.ltb_lt.
      specialize (G2 b Hb). unfold bytes_ok in G2. rewrite Forall_forall in G2. now apply G2. }
    assert (G2 : forall bl, good bl \/ (forall s, cmp s bl = None)).
    { intros bl. destruct (forallb (fun b => (length b =? BS)%nat && forallb (fun x => x <? 256) b) bl) eqn:F2.
      - left. rewrite forallb_forall in F2. split; apply Forall_forall; intros b Hb;
          apply F2, andb_true_iff in Hb; destruct Hb as [Hb1 Hb2].
        + now apply Nat.eqb_eq.
        + apply Forall_forall. rewrite forallb_forall in Hb2. intros x Hx. now apply N.ltb_lt, Hb2.
      - right. intros s. unfold cmp. now rewrite F2. }
    assert (DB : digest_blocks cmp K BS s0 r input =
      let* s' := cmp s0 (kblocks K BS (r ++ input)) in Some (s', krem K BS (r ++ input))).
    { apply (digest_blocks_spec cmp inv K BS Hbs); try assumption.
      - intros s1 Hs1. unfold cmp. cbn. now apply (ok_nil _ _ _ _ OK).
      - intros s1 a b Hs1. unfold cmp. rewrite forallb_app.
        destruct (forallb _ a) eqn:Fa; cbn [andb].
        + destruct (forallb _ b) eqn:Fb.
          * rewrite (ok_app _ _ _ _ OK) by exact Hs1.
            destruct (c_update C m s1 a); cbn [obind]; [|reflexivity]. reflexivity.
          * destruct (c_update C m s1 a); reflexivity.
        + reflexivity.
      - intros s1 a s2 Hs1. destruct (G2 a) as [Ga|Na].
        + rewrite (G a Ga). destruct Ga. now apply (ok_inv _ _ _ _ OK).
        + now rewrite Na. }
    assert (Gk : good (kblocks K BS (r ++ input))).
    { split; [now apply kblocks_length|now apply kblocks_ok]. }
    rewrite (G _ Gk) in DB. rewrite <- DB. clear DB.
    unfold digest_blocks.
    destruct (pos_ok K (BS - length r) (length input)) eqn:PP; [reflexivity|].
    assert (PL : (BS - length r <= length input)%nat).
    { destruct K; cbn [pos_ok] in PP; [apply Nat.ltb_ge in PP; lia | apply Nat.leb_gt in PP; lia]. }
    assert (RL : (length r <= BS)%nat).
    { destruct K; cbn [pos_ok] in Pr; [apply Nat.ltb_lt in Pr; lia|now apply Nat.leb_le in Pr]. }
    apply bytes_ok_app in Br. destruct Br as [Br1 Br2].
    destruct (Nat.eqb_spec (length r) 0) as [Z|Z].
    - cbn [obind]. destruct (n_blocks K BS (length input) =? 0)%nat; [reflexivity|].
      rewrite G; [reflexivity|]. split; [now apply chunks_block_length|].
      apply chunks_ok; [exact Hbs|]. now apply bytes_ok_firstn.
    - rewrite (G [r ++ firstn (BS - length r) input]).
      + destruct (c_update C m s0 [r ++ firstn (BS - length r) input]) as [s1|]; cbn [obind]; [|reflexivity].
        destruct (n_blocks K BS (length (skipn (BS - length r) input)) =? 0)%nat; [reflexivity|].
        rewrite G; [reflexivity|]. split; [now apply chunks_block_length|].
        apply chunks_ok; [exact Hbs|]. now apply bytes_ok_firstn, bytes_ok_skipn.
      + split; repeat constructor.
        * rewrite app_length, firstn_length. lia.
        * apply bytes_ok_app. split; [exact Br1|now apply bytes_ok_firstn].
  Qed.

  Lemma update_any m h msg input : bytes_ok msg -> bytes_ok input -> reached m h msg ->
    h_update C m h input =
      (let* s := c_update C m (c_init C) (kblocks K BS (I ++ msg ++ input)) in Some (s, krem K BS (I ++ msg ++ input))) /\
    (forall h', h_update C m h input = Some h' -> reached m h' (msg ++ input)).
  Proof using OK.
    intros Bm Bi R. pose proof R as [R1 [R2 R3]]. pose proof (ok_bs _ _ _ _ OK) as Hbs. fold BS in Hbs.
    assert (BI : bytes_ok (I ++ msg)) by (apply bytes_ok_app; split; [apply (ok_ibuf_bytes _ _ _ _ OK)|exact Bm]).
    destruct (split_blocks msg input) as (bl2 & E1 & E2 & E3).
    fold K BS I in R1, R2.
    assert (D : h_update C m h input =
      (let* s := c_update C m (c_init C) (kblocks K BS (I ++ msg ++ input)) in Some (s, krem K BS (I ++ msg ++ input)))).
    { rewrite (update_blocks_of m h input R3).
      - rewrite R2, E1, E3, <- E2, (ok_app _ _ _ _ OK) by apply (ok_init _ _ _ _ OK). rewrite R1. reflexivity.
      - rewrite R2. now apply krem_pos.
      - rewrite R2. apply bytes_ok_app. split; [now apply krem_ok|exact Bi]. }
    split; [exact D|]. intros h' E. rewrite D in E.
    destruct (c_update C m (c_init C) (kblocks K BS (I ++ msg ++ input))) as [s|] eqn:U; [|discriminate E].
    cbn [obind] in E. injection E as <-. unfold DigestFacts.reached. cbn [fst snd]. fold K BS I. repeat split; [exact U|].
    eapply (ok_inv _ _ _ _ OK m (c_init C)); [apply (ok_init _ _ _ _ OK)| | |exact U].
    - now apply kblocks_length.
    - apply kblocks_ok; [exact Hbs|]. rewrite app_assoc. apply bytes_ok_app. now split.
  Qed.

  Lemma updates_any m cs : forall h msg, bytes_ok msg -> Forall bytes_ok cs -> reached m h msg ->
    h_updates C m h cs =
    (let* s := c_update C m (c_init C) (kblocks K BS (I ++ msg ++ concat cs)) in Some (s, krem K BS (I ++ msg ++ concat cs))).
  Proof using OK.
    induction cs as [|c cs IH]; intros h msg B Bc R; cbn [h_updates concat].
    - rewrite app_nil_r. destruct R as [R1 [R2 _]]. fold K BS I in R1, R2. rewrite R1. cbn [obind]. rewrite <- R2.
      now destruct h.
    - apply Forall_cons_iff in Bc as [Bc1 Bc2]. destruct (update_any m h msg c B Bc1 R) as [U1 U2].
      destruct (h_update C m h c) as [h'|] eqn:U.
      + cbn [obind]. rewrite (IH h' (msg ++ c)); [now rewrite <- !app_assoc|apply bytes_ok_app; now split|exact Bc2|now apply U2].
      + cbn [obind]. destruct (split_blocks (msg ++ c) (concat cs)) as (bl2 & E1 & _ & _).
        rewrite <- app_assoc in E1. rewrite E1, (ok_app _ _ _ _ OK) by apply (ok_init _ _ _ _ OK).
        destruct (c_update C m (c_init C) (kblocks K BS (I ++ msg ++ c))); [discriminate U1|reflexivity].
  Qed.

  (** Cutting a message differently changes nothing, digest or panic. *)
  Lemma updates_cut m cs cs' : Forall bytes_ok cs -> Forall bytes_ok cs' -> concat cs = concat cs' ->
    h_updates C m (h_new C) cs = h_updates C m (h_new C) cs'.
  Proof using OK.
    intros B B' E.
    rewrite (updates_any m cs (h_new C) [] (Forall_nil _) B (reached_new C inv H within OK m)).
    rewrite (updates_any m cs' (h_new C) [] (Forall_nil _) B' (reached_new C inv H within OK m)).
    now rewrite E.
  Qed.
  Lemma digest_cut m cs cs' : Forall bytes_ok cs -> Forall bytes_ok cs' -> concat cs = concat cs' ->
    h_digest C m cs = h_digest C m cs'.
  Proof using OK. intros B B' E. unfold h_digest. now rewrite (updates_cut m cs cs'). Qed.

  (** Serialization at any point, also beyond the length limit. *)
  Lemma roundtrip_any m cs cd h : c_codec C = Some cd -> Forall bytes_ok cs ->
    h_updates C m (h_new C) cs = Some h -> h_deserialize C cd (h_serialize C cd h) = Some h.
  Proof using OK.
    intros Hc B E.
    assert (R : forall cs h0 msg, bytes_ok msg -> Forall bytes_ok cs -> reached m h0 msg ->
      h_updates C m h0 cs = Some h -> reached m h (msg ++ concat cs)).
    { clear cs B E. induction cs as [|c cs IH]; intros h0 msg Bm Bc R E; cbn [h_updates concat] in *.
      - injection E as <-. now rewrite app_nil_r.
      - apply Forall_cons_iff in Bc as [Bc1 Bc2]. destruct (update_any m h0 msg c Bm Bc1 R) as [_ U2].
        destruct (h_update C m h0 c) as [h'|] eqn:U; [|discriminate E]. cbn [obind] in E.
        rewrite app_assoc. apply (IH h'); [apply bytes_ok_app; now split|exact Bc2|now apply U2|exact E]. }
    specialize (R cs (h_new C) [] (Forall_nil _) B (reached_new C inv H within OK m) E).
    exact (reached_roundtrip C inv H within OK m h _ cd Hc R).
  Qed.
End Split.
