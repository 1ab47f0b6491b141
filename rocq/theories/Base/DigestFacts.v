(** Generic correctness of the hasher wrappers. *)
From Verif Require Import Base.Words Base.Bytes Base.BlockBuffer Base.BlockBufferFacts Base.Digest.

(** The codec of a hasher of fixed output size. *)
Lemma sized_roundtrip {S} n (cd : codec S) s : length (cd_ser cd s) = cd_len cd /\ cd_deser cd (cd_ser cd s) = Some s ->
  length (cd_ser (sized n cd) s) = cd_len (sized n cd) /\ cd_deser (sized n cd) (cd_ser (sized n cd) s) = Some s.
Proof.
  intros [L D]. cbn [sized cd_ser cd_len cd_deser]. split; [rewrite app_length, L; reflexivity|].
  rewrite <- L. rewrite app_nth2, Nat.sub_diag by lia. cbn [nth]. rewrite N.eqb_refl.
  now rewrite firstn_app, firstn_all, Nat.sub_diag, app_nil_r.
Qed.

(** [core_ok C H within]: the block-level facts from which everything about
    the buffered hasher follows.  [H] is the intended one-shot function,
    [within len] says a message of that length is inside the algorithm's limit. *)
Record core_ok (C : core) (inv : cst C -> Prop) (H : bytes -> bytes) (within : nat -> Prop) : Prop := {
  ok_bs : (0 < c_bs C)%nat;
  ok_ibuf : pos_ok (c_kind C) (c_bs C) (length (c_ibuf C)) = true;
  ok_within : forall a b, (a <= b)%nat -> within b -> within a;
  ok_init : inv (c_init C);
  ok_inv : forall m s bl s', inv s -> Forall (fun b => length b = c_bs C) bl -> Forall bytes_ok bl ->
           c_update C m s bl = Some s' -> inv s';
  ok_nil : forall m s, inv s -> c_update C m s [] = Some s;
  ok_app : forall m s a b, inv s ->
           c_update C m s (a ++ b) = obind (c_update C m s a) (fun s' => c_update C m s' b);
  ok_final : forall m msg, within (length msg) -> bytes_ok msg -> exists s s',
           c_update C m (c_init C) (kblocks (c_kind C) (c_bs C) (c_ibuf C ++ msg)) = Some s /\
           c_final C m s (krem (c_kind C) (c_bs C) (c_ibuf C ++ msg)) = Some (H msg, s') /\
           c_reset C s' = (c_init C, c_ibuf C);
  ok_reset : forall s, inv s -> c_reset C s = (c_init C, c_ibuf C);
  ok_ibuf_bytes : bytes_ok (c_ibuf C);
  ok_codec : forall cd s, c_codec C = Some cd -> inv s ->
           length (cd_ser cd s) = cd_len cd /\ cd_deser cd (cd_ser cd s) = Some s
}.

Lemma lookup_app_l {A} (l : list (option A)) x i : (i < length l)%nat -> lookup (l ++ [x]) i = lookup l i.
Proof. intros H. unfold lookup. now rewrite nth_error_app1. Qed.

Section Facts.
  Context (C : core) (inv : cst C -> Prop) (H : bytes -> bytes) (within : nat -> Prop).
  Hypothesis OK : core_ok C inv H within.

  Let K := c_kind C.
  Let BS := c_bs C.
  Let I := c_ibuf C.

  (** [h] is the state reached by feeding [msg]. *)
  Definition reached (m : mode) (h : hst C) (msg : bytes) : Prop :=
    c_update C m (c_init C) (kblocks K BS (I ++ msg)) = Some (fst h) /\
    snd h = krem K BS (I ++ msg) /\ inv (fst h).

  (** A restricted update that refuses non-block lists; it agrees with the
      real one on everything the buffer passes. *)
  Lemma reached_new m : reached m (h_new C) [].
  Proof using OK.
    unfold reached, h_new. cbn [fst snd]. rewrite app_nil_r.
    destruct (split_unique K BS [] I (ok_bs _ _ _ _ OK) (Forall_nil _)) as [E1 E2].
    { pose proof (ok_ibuf _ _ _ _ OK) as P. unfold K, BS, I.
      destruct (c_kind C); cbn in *.
      - now apply Nat.ltb_lt.
      - apply Nat.leb_le in P. split; [exact P|congruence]. }
    cbn [concat app] in E1, E2. fold K BS I. rewrite E1, E2. repeat split.
    - apply (ok_nil _ _ _ _ OK), (ok_init _ _ _ _ OK).
    - apply (ok_init _ _ _ _ OK).
  Qed.

  (** The update function with bytes and block sizes checked, to feed the
      generic buffer lemma. *)
  Let good (bl : list bytes) : Prop := Forall (fun b => length b = BS) bl /\ Forall bytes_ok bl.

  Lemma update_spec m h msg input : bytes_ok msg -> bytes_ok input -> reached m h msg ->
    within (length (msg ++ input)) ->
    exists h', h_update C m h input = Some h' /\ reached m h' (msg ++ input).
  Proof using OK.
    intros Bm Bi [R1 [R2 R3]] W.
    destruct (ok_final _ _ _ _ OK m (msg ++ input) W) as (s & s' & U & F & _).
    { apply bytes_ok_app. now split. }
    assert (BI : bytes_ok (I ++ msg ++ input)).
    { apply bytes_ok_app. split; [apply (ok_ibuf_bytes _ _ _ _ OK)|apply bytes_ok_app; now split]. }
    pose (upd' := fun s bl => c_update C m s bl).
    (* every state reached from init on a prefix satisfies inv: use a compress
       that carries the check *)
    assert (Q : h_update C m h input =
      let* s1 := c_update C m (c_init C) (kblocks K BS (I ++ msg)) in
      digest_blocks (c_update C m) K BS s1 (krem K BS (I ++ msg)) input).
    { unfold h_update. rewrite R1. cbn [obind]. now rewrite R2. }
    (* replay the generic lemma by hand on the concrete blocks *)
    set (r := krem K BS (I ++ msg)) in *.
    pose proof (ok_bs _ _ _ _ OK) as Hbs. fold BS in Hbs.
    assert (E : exists bl2, kblocks K BS (I ++ msg ++ input) = kblocks K BS (I ++ msg) ++ bl2 /\ bl2 = kblocks K BS (r ++ input)
            /\ krem K BS (I ++ msg ++ input) = krem K BS (r ++ input)).
    { exists (kblocks K BS (r ++ input)).
      assert (EE : (I ++ msg) ++ input = concat (kblocks K BS (I ++ msg) ++ kblocks K BS (r ++ input)) ++ krem K BS (r ++ input)).
      { rewrite concat_app, <- (app_assoc (concat _)), kblocks_krem by exact Hbs.
        rewrite (app_assoc (concat _)). f_equal. symmetry. now apply kblocks_krem. }
      destruct (split_unique K BS (kblocks K BS (I ++ msg) ++ kblocks K BS (r ++ input)) (krem K BS (r ++ input)) Hbs) as [E1 E2].
      { apply Forall_app. split; now apply kblocks_length. }
      { pose proof (krem_tail_ok K BS (r ++ input) Hbs) as T.
        pose proof (krem_tail_ok K BS (I ++ msg) Hbs) as T'. fold r in T'.
        destruct K; cbn [tail_ok] in *; [exact T|].
        destruct T as [T1 T2]. split; [exact T1|]. intros NE KK.
        assert (kblocks Lazy BS (r ++ input) = []) as B.
        { destruct (kblocks Lazy BS (r ++ input)); [reflexivity|]. exfalso. apply T2; [discriminate|exact KK]. }
        rewrite B, app_nil_r in NE.
        destruct T' as [T3 T4]. specialize (T4 NE).
        pose proof (kblocks_krem Lazy BS (r ++ input) Hbs) as Q'. rewrite B, KK in Q'. cbn in Q'.
        symmetry in Q'. apply app_eq_nil in Q'. now apply T4. }
      rewrite <- EE, <- app_assoc in E1, E2. repeat split; assumption. }
    destruct E as (bl2 & E1 & E2 & E3).
    fold K BS I in U. rewrite E1, (ok_app _ _ _ _ OK) in U by apply (ok_init _ _ _ _ OK).
    rewrite R1 in U. cbn [obind] in U. rewrite E2 in U.
    assert (Pr : pos_ok K BS (length r) = true) by now apply krem_pos.
    assert (Br : bytes_ok (r ++ input)).
    { apply bytes_ok_app. split; [|exact Bi]. apply krem_ok. rewrite app_assoc in BI.
      now apply bytes_ok_app in BI. }
    assert (D : digest_blocks (c_update C m) K BS (fst h) r input =
                let* s' := c_update C m (fst h) (kblocks K BS (r ++ input)) in Some (s', krem K BS (r ++ input))).
    { (* use a compress function that preserves inv on all lists *)
      set (cmp := fun (s : cst C) (bl : list bytes) =>
             if forallb (fun b => (length b =? BS)%nat && forallb (fun x => x <? 256) b) bl
             then c_update C m s bl else None).
      assert (G : forall bl, good bl -> forall s, cmp s bl = c_update C m s bl).
      { intros bl [G1 G2] s0. unfold cmp.
        replace (forallb _ bl) with true; [reflexivity|]. symmetry. apply forallb_forall.
        intros b Hb. rewrite Forall_forall in G1, G2.
        apply andb_true_iff. split; [now apply Nat.eqb_eq, G1|].
        apply forallb_forall. intros x Hx. apply N.ltb_lt.
        specialize (G2 b Hb). unfold bytes_ok in G2. rewrite Forall_forall in G2. now apply G2. }
      assert (G2 : forall bl, good bl \/ (forall s, cmp s bl = None)).
      { intros bl. destruct (forallb (fun b => (length b =? BS)%nat && forallb (fun x => x <? 256) b) bl) eqn:F2.
        - left. rewrite forallb_forall in F2. split; apply Forall_forall; intros b Hb;
            apply F2, andb_true_iff in Hb; destruct Hb as [Hb1 Hb2].
          + now apply Nat.eqb_eq.
          + apply Forall_forall. rewrite forallb_forall in Hb2. intros x Hx. now apply N.ltb_lt, Hb2.
        - right. intros s0. unfold cmp. now rewrite F2. }
      assert (GA : forall a b, good (a ++ b) <-> good a /\ good b).
      { intros a b. unfold good. rewrite !Forall_app. tauto. }
      assert (NG : forall bl, (forall s, cmp s bl = None) -> good bl -> forall s, c_update C m s bl = None).
      { intros bl N0 Gb s0. rewrite <- (G bl Gb). apply N0. }
      assert (DB : digest_blocks cmp K BS (fst h) r input =
        let* s' := cmp (fst h) (kblocks K BS (r ++ input)) in Some (s', krem K BS (r ++ input))).
      { apply (digest_blocks_spec cmp inv K BS Hbs); try assumption.
        - intros s0 Hs0. unfold cmp. cbn. now apply (ok_nil _ _ _ _ OK).
        - intros s0 a b Hs0.
          unfold cmp. rewrite forallb_app.
          destruct (forallb _ a) eqn:Fa; cbn [andb].
          + destruct (forallb _ b) eqn:Fb.
            * rewrite (ok_app _ _ _ _ OK) by exact Hs0.
              destruct (c_update C m s0 a); cbn [obind]; [|reflexivity]. reflexivity.
            * destruct (c_update C m s0 a); reflexivity.
          + reflexivity.
        - intros s0 a s1 Hs0. destruct (G2 a) as [Ga|Na].
          + rewrite (G a Ga). destruct Ga. now apply (ok_inv _ _ _ _ OK).
          + now rewrite Na. }
      assert (Gk : good (kblocks K BS (r ++ input))).
      { split; [now apply kblocks_length|now apply kblocks_ok]. }
      rewrite (G _ Gk) in DB. rewrite <- DB. clear DB.
      (* both runs make the same calls, on good block lists *)
      unfold digest_blocks.
      destruct (pos_ok K (BS - length r) (length input)) eqn:PP; [reflexivity|].
      assert (PL : (BS - length r <= length input)%nat).
      { destruct K; cbn [pos_ok] in PP; [apply Nat.ltb_ge in PP; lia | apply Nat.leb_gt in PP; lia]. }
      assert (RL : (length r <= BS)%nat).
      { destruct K; cbn [pos_ok] in Pr; [apply Nat.ltb_lt in Pr; lia|now apply Nat.leb_le in Pr]. }
      apply bytes_ok_app in Br. destruct Br as [Br1 Br2].
      destruct (Nat.eqb_spec (length r) 0) as [Z|Z].
      - cbn [obind]. destruct (n_blocks K BS (length input) =? 0)%nat; [reflexivity|].
        rewrite G; [reflexivity|]. split; [now apply chunks_block_length|].
        apply chunks_ok; [exact Hbs|]. now apply bytes_ok_firstn.
      - rewrite (G [r ++ firstn (BS - length r) input]).
        + destruct (c_update C m (fst h) [r ++ firstn (BS - length r) input]) as [s1|]; cbn [obind]; [|reflexivity].
          destruct (n_blocks K BS (length (skipn (BS - length r) input)) =? 0)%nat; [reflexivity|].
          rewrite G; [reflexivity|]. split; [now apply chunks_block_length|].
          apply chunks_ok; [exact Hbs|]. now apply bytes_ok_firstn, bytes_ok_skipn.
        + split; repeat constructor.
          * rewrite app_length, firstn_length. lia.
          * apply bytes_ok_app. split; [exact Br1|now apply bytes_ok_firstn]. }
    exists (s, krem K BS (I ++ msg ++ input)). split.
    - rewrite Q, R1. cbn [obind]. fold r. rewrite D, U. cbn [obind]. now rewrite E3.
    - unfold reached. cbn [fst snd]. rewrite E1, (ok_app _ _ _ _ OK) by apply (ok_init _ _ _ _ OK).
      rewrite R1. cbn [obind]. rewrite E2, U. repeat split.
      eapply (ok_inv _ _ _ _ OK m (fst h)); [exact R3| | |exact U].
      + now apply kblocks_length.
      + now apply kblocks_ok.
  Qed.

  Lemma final_spec m h msg : bytes_ok msg -> reached m h msg -> within (length msg) ->
    exists s', c_final C m (fst h) (snd h) = Some (H msg, s') /\ c_reset C s' = h_new C.
  Proof using OK.
    intros B [R1 [R2 R3]] W.
    destruct (ok_final _ _ _ _ OK m msg W B) as (s & s' & U & F & R).
    fold K BS I in U, F. rewrite R1 in U. injection U as <-. rewrite R2.
    exists s'. split; [exact F|exact R].
  Qed.

  (** C01 *)
  Lemma updates_spec m cs : forall h msg, bytes_ok msg -> Forall bytes_ok cs -> reached m h msg ->
    within (length (msg ++ concat cs)) ->
    exists h', h_updates C m h cs = Some h' /\ reached m h' (msg ++ concat cs).
  Proof using OK.
    induction cs as [|c cs IH]; intros h msg B Bc R W; cbn [h_updates concat] in *.
    - exists h. now rewrite app_nil_r.
    - inversion Bc as [|? ? Bc1 Bc2]; subst.
      destruct (update_spec m h msg c B Bc1 R) as (h1 & E & R1).
      { eapply (ok_within _ _ _ _ OK); [|exact W]. rewrite !app_length. lia. }
      rewrite E. cbn [obind]. rewrite app_assoc in W |- *. apply IH; try assumption.
      apply bytes_ok_app. now split.
  Qed.
  Lemma digest_spec m cs : Forall bytes_ok cs -> within (length (concat cs)) ->
    h_digest C m cs = Some (H (concat cs)).
  Proof using OK.
    intros B W. unfold h_digest.
    destruct (updates_spec m cs (h_new C) [] (Forall_nil _) B (reached_new m) W) as (h & E & R).
    rewrite E. cbn [obind]. unfold h_finalize. cbn [app] in R.
    destruct (final_spec m h (concat cs)) as (s' & F & _).
    - now apply bytes_ok_concat.
    - exact R.
    - exact W.
    - rewrite F. reflexivity.
  Qed.

  (** C03 *)
  Lemma reached_roundtrip m h msg cd : c_codec C = Some cd -> reached m h msg ->
    h_deserialize C cd (h_serialize C cd h) = Some h.
  Proof using OK.
    intros Hc [R1 [R2 R3]]. unfold h_deserialize, h_serialize.
    destruct (ok_codec _ _ _ _ OK cd (fst h) Hc R3) as [L D].
    rewrite <- L. rewrite firstn_app, firstn_all, Nat.sub_diag, firstn_O, app_nil_r, D. cbn [obind].
    rewrite skipn_app, skipn_all, Nat.sub_diag, skipn_O. cbn [app].
    rewrite buf_roundtrip.
    - cbn [obind]. now destruct h.
    - rewrite R2. apply krem_pos, (ok_bs _ _ _ _ OK).
  Qed.

  (** ** Histories (C02) *)
  Let R (m : mode) (n : nat) (v : option (hst C)) (a : option bytes) : Prop :=
    match v, a with
    | Some h, Some msg => reached m h msg /\ bytes_ok msg /\ (length msg <= n)%nat
    | None, None => True
    | _, _ => False
    end.
  Let RB (m : mode) (n : nat) (b : bytes) (msg : bytes) : Prop :=
    match c_codec C with
    | Some cd => exists h, b = h_serialize C cd h /\ reached m h msg /\ bytes_ok msg /\ (length msg <= n)%nat
    | None => False
    end.

  Lemma F2_lookup {A B} (P : option A -> option B -> Prop) l l' i :
    Forall2 P l l' -> (forall x, P (Some x) None -> False) -> (forall y, P None (Some y) -> False) ->
    match lookup l i, lookup l' i with
    | Some x, Some y => P (Some x) (Some y)
    | None, None => True
    | _, _ => False
    end.
  Proof.
    intros F N1 N2. revert i. induction F as [|x y l l' Hxy F IH]; intros [|i]; try exact Logic.I.
    - cbn. destruct x, y; try exact Logic.I; try exact Hxy; [now apply N1 in Hxy | now apply N2 in Hxy].
    - apply IH.
  Qed.
  Lemma F2_upd {A B} (P : A -> B -> Prop) l l' i x y :
    Forall2 P l l' -> P x y -> Forall2 P (upd l i x) (upd l' i y).
  Proof.
    intros F Hxy. revert i. induction F as [|a b l l' Hab F IH]; intros i.
    - cbn [upd]. induction oob_length as [|n IHn]; cbn; constructor; auto.
    - destruct i; cbn; constructor; auto.
  Qed.
  Lemma F2_nth {A B} (P : A -> B -> Prop) l l' i : Forall2 P l l' ->
    match nth_error l i, nth_error l' i with
    | Some x, Some y => P x y
    | None, None => True
    | _, _ => False
    end.
  Proof.
    intros F. revert i. induction F as [|a b l l' Hab F IH]; intros [|i]; cbn; auto. apply IH.
  Qed.
  Lemma F2_mono {A B} (P Q : A -> B -> Prop) l l' :
    (forall a b, P a b -> Q a b) -> Forall2 P l l' -> Forall2 Q l l'.
  Proof. intros I0 F. induction F; constructor; auto. Qed.

  Lemma history_sim m ops : forall st ast n,
    Forall2 (R m n) (m_vals st) (a_vals ast) -> Forall2 (RB m n) (m_blobs st) (a_blobs ast) ->
    ops_ok ops -> within (n + fed ops) ->
    run C m st ops = Some (arun (has_codec C) H ast ops).
  Proof using OK.
    induction ops as [|o os IH]; intros st ast n RV RBl OKS W; [reflexivity|].
    inversion OKS as [|? ? O1 O2]; subst. cbn [run arun].
    assert (NN1 : forall k (x : hst C), R m k (Some x) None -> False) by (intros ? ? []).
    assert (NN2 : forall k y, R m k None (Some y) -> False) by (intros ? ? []).
    assert (WN : within n) by (eapply (ok_within _ _ _ _ OK); [|exact W]; destruct o; cbn; lia).
    destruct o as [ |i b|i|i|i|i|i|j]; cbn [step astep fed] in *.
    - (* New *)
      cbn [obind]. erewrite (IH _ _ n); [reflexivity| |exact RBl|exact O2|exact W].
      cbn. apply Forall2_app; [exact RV|]. constructor; [|constructor].
      cbn. split; [apply reached_new|split; [constructor|cbn; lia]].
    - (* Update *)
      pose proof (F2_lookup (R m n) _ _ i RV (NN1 n) (NN2 n)) as L.
      destruct (lookup (m_vals st) i) as [h|], (lookup (a_vals ast) i) as [msg|]; try contradiction.
      + destruct L as (Rh & Bm & Ln).
        destruct (update_spec m h msg b Bm O1 Rh) as (h' & E & R').
        { eapply (ok_within _ _ _ _ OK); [|exact W]. rewrite app_length. lia. }
        rewrite E. cbn [obind].
        erewrite (IH _ (mkA (upd (a_vals ast) i (Some (msg ++ b))) (a_blobs ast)) (n + length b)%nat); [reflexivity| | |exact O2|].
        * cbn. apply F2_upd.
          -- eapply F2_mono; [|exact RV]. intros [x|] [y|]; cbn; try tauto. intros (? & ? & ?). repeat split; try assumption; try apply H0. lia.
          -- cbn. split; [exact R'|]. split; [apply bytes_ok_app; now split|]. rewrite app_length. lia.
        * cbn. eapply F2_mono; [|exact RBl]. intros x y. unfold RB. destruct (c_codec C); [|tauto].
          intros (h0 & ? & ? & ? & ?). exists h0. repeat split; try assumption; try apply H1. lia.
        * now rewrite <- Nat.add_assoc.
      + cbn [obind]. erewrite (IH _ _ n); [reflexivity|exact RV|exact RBl|exact O2|].
        eapply (ok_within _ _ _ _ OK); [|exact W]. lia.
    - (* Clone *)
      pose proof (F2_lookup (R m n) _ _ i RV (NN1 n) (NN2 n)) as L.
      destruct (lookup (m_vals st) i) as [h|], (lookup (a_vals ast) i) as [msg|]; try contradiction; cbn [obind].
      + erewrite (IH _ _ n); [reflexivity| |exact RBl|exact O2|exact W].
        cbn. apply Forall2_app; [exact RV|]. constructor; [exact L|constructor].
      + erewrite (IH _ _ n); [reflexivity|exact RV|exact RBl|exact O2|exact W].
    - (* Reset *)
      pose proof (F2_lookup (R m n) _ _ i RV (NN1 n) (NN2 n)) as L.
      destruct (lookup (m_vals st) i) as [h|], (lookup (a_vals ast) i) as [msg|]; try contradiction; cbn [obind].
      + erewrite (IH _ _ n); [reflexivity| |exact RBl|exact O2|exact W].
        cbn. apply F2_upd; [exact RV|]. cbn. unfold h_reset.
        destruct L as ((L1 & L2 & L3) & _). rewrite (ok_reset _ _ _ _ OK _ L3).
        split; [apply reached_new|split; [constructor|cbn; lia]].
      + erewrite (IH _ _ n); [reflexivity|exact RV|exact RBl|exact O2|exact W].
    - (* FinalizeReset *)
      pose proof (F2_lookup (R m n) _ _ i RV (NN1 n) (NN2 n)) as L.
      destruct (lookup (m_vals st) i) as [h|], (lookup (a_vals ast) i) as [msg|]; try contradiction; cbn [obind].
      + destruct L as (Rh & Bm & Ln).
        destruct (final_spec m h msg Bm Rh) as (s' & F & Rs).
        { eapply (ok_within _ _ _ _ OK); [|exact WN]. exact Ln. }
        unfold h_finalize_reset. rewrite F. cbn [obind]. rewrite Rs.
        erewrite (IH _ _ n); [reflexivity| |exact RBl|exact O2|exact W].
        cbn. apply F2_upd; [exact RV|]. cbn.
        split; [apply reached_new|split; [constructor|cbn; lia]].
      + erewrite (IH _ _ n); [reflexivity|exact RV|exact RBl|exact O2|exact W].
    - (* Finalize *)
      pose proof (F2_lookup (R m n) _ _ i RV (NN1 n) (NN2 n)) as L.
      destruct (lookup (m_vals st) i) as [h|], (lookup (a_vals ast) i) as [msg|]; try contradiction; cbn [obind].
      + destruct L as (Rh & Bm & Ln).
        destruct (final_spec m h msg Bm Rh) as (s' & F & Rs).
        { eapply (ok_within _ _ _ _ OK); [|exact WN]. exact Ln. }
        unfold h_finalize. rewrite F. cbn [obind].
        erewrite (IH _ _ n); [reflexivity| |exact RBl|exact O2|exact W].
        cbn. apply F2_upd; [exact RV|]. exact Logic.I.
      + erewrite (IH _ _ n); [reflexivity|exact RV|exact RBl|exact O2|exact W].
    - (* Save *)
      pose proof (F2_lookup (R m n) _ _ i RV (NN1 n) (NN2 n)) as L.
      unfold has_codec in *. destruct (c_codec C) as [cd|] eqn:Hc.
      + destruct (lookup (m_vals st) i) as [h|], (lookup (a_vals ast) i) as [msg|]; try contradiction; cbn [obind].
        * erewrite (IH _ _ n); [reflexivity|exact RV| |exact O2|exact W].
          cbn. apply Forall2_app; [exact RBl|]. constructor; [|constructor].
          unfold RB; try rewrite Hc. exists h. split; [reflexivity|exact L].
        * erewrite (IH _ _ n); [reflexivity|exact RV|exact RBl|exact O2|exact W].
      + replace (match lookup (m_vals st) i with Some _ | _ => Some (st, []) end) with (Some (st, @nil bytes))
          by now destruct (lookup (m_vals st) i).
        replace (match lookup (a_vals ast) i with Some _ | _ => (ast, []) end) with (ast, @nil bytes)
          by now destruct (lookup (a_vals ast) i).
        cbn [obind]. erewrite (IH _ _ n); [reflexivity|exact RV|exact RBl|exact O2|exact W].
    - (* Restore *)
      pose proof (F2_nth (RB m n) _ _ j RBl) as L.
      unfold has_codec in *. unfold RB in L. destruct (c_codec C) as [cd|] eqn:Hc.
      + destruct (nth_error (m_blobs st) j) as [b|], (nth_error (a_blobs ast) j) as [msg|]; try contradiction; cbn [obind].
        * destruct L as (h & -> & Rh & Bm & Ln).
          erewrite (IH _ _ n); [reflexivity| |exact RBl|exact O2|exact W].
          cbn. apply Forall2_app; [exact RV|]. constructor; [|constructor].
          rewrite (reached_roundtrip m h msg cd Hc Rh). split; [exact Rh|split; assumption].
        * erewrite (IH _ _ n); [reflexivity|exact RV|exact RBl|exact O2|exact W].
      + destruct (nth_error (m_blobs st) j) as [b|], (nth_error (a_blobs ast) j) as [msg|]; try contradiction; cbn [obind].
        erewrite (IH _ _ n); [reflexivity|exact RV|exact RBl|exact O2|exact W].
  Qed.

  Lemma history_spec m ops : ops_ok ops -> within (fed ops) ->
    run_history C m ops = Some (spec_history (has_codec C) H ops).
  Proof using OK.
    intros O W. unfold run_history, spec_history. apply (history_sim m ops _ _ 0); try constructor; assumption.
  Qed.

  (** Serialization at any reachable point. *)
  Lemma roundtrip_spec m cs cd h : c_codec C = Some cd -> Forall bytes_ok cs -> within (length (concat cs)) ->
    h_updates C m (h_new C) cs = Some h ->
    h_deserialize C cd (h_serialize C cd h) = Some h.
  Proof using OK.
    intros Hc B W E.
    destruct (updates_spec m cs (h_new C) [] (Forall_nil _) B (reached_new m) W) as (h' & E' & R').
    rewrite E in E'. injection E' as <-. now apply (reached_roundtrip m h (concat cs)).
  Qed.
End Facts.
