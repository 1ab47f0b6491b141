(** Two block-level hashers that differ only in how they process blocks and
    finalize, and agree on every state and block that can occur, behave alike
    in every history of API calls. *)
From Coq Require Import Lia.
From Verif Require Import Base.Words Base.Bytes Base.BlockBuffer Base.BlockBufferFacts Base.Digest Base.DigestFacts.

Definition with_ops (C : core) (u : mode -> cst C -> list bytes -> option (cst C))
    (f : mode -> cst C -> bytes -> option (bytes * cst C)) : core :=
  mkCore (cst C) (c_bs C) (c_kind C) (c_init C) (c_ibuf C) u f (c_reset C) (c_codec C).
Definition op_bytes (o : op) : Prop := match o with Update _ b => bytes_ok b | _ => True end.

Section Agree.
  Context (C : core) (inv : cst C -> Prop).
  Context (u : mode -> cst C -> list bytes -> option (cst C)) (f : mode -> cst C -> bytes -> option (bytes * cst C)).
  Definition h_ok (h : hst C) : Prop :=
    inv (fst h) /\ bytes_ok (snd h) /\ pos_ok (c_kind C) (c_bs C) (length (snd h)) = true.
  Record agree : Prop := {
    ag_bs : (0 < c_bs C)%nat;
    ag_new : h_ok (h_new C);
    ag_update : forall m s bl, inv s -> Forall (fun b => length b = c_bs C) bl -> Forall bytes_ok bl ->
      u m s bl = c_update C m s bl /\ forall s', c_update C m s bl = Some s' -> inv s';
    ag_final : forall m s b, inv s -> bytes_ok b -> pos_ok (c_kind C) (c_bs C) (length b) = true ->
      f m s b = c_final C m s b /\ forall out s', c_final C m s b = Some (out, s') -> h_ok (c_reset C s');
    ag_reset : forall s, inv s -> h_ok (c_reset C s);
    ag_codec : forall cd s, c_codec C = Some cd -> inv s ->
      length (cd_ser cd s) = cd_len cd /\ cd_deser cd (cd_ser cd s) = Some s
  }.
  Hypothesis A : agree.
  Let D := with_ops C u f.

  Lemma agree_update m (h : hst C) b : h_ok h -> bytes_ok b ->
    h_update D m h b = h_update C m h b /\ forall h', h_update C m h b = Some h' -> h_ok h'.
  Proof using A.
    destruct h as [s d]. intros (I & BD & PD) B. cbn [fst snd] in *. unfold h_update.
    cbn [D with_ops cst c_bs c_kind c_update fst snd]. pose proof (ag_bs A) as BS.
    unfold digest_blocks. cbv zeta. destruct (pos_ok _ _ (length b)) eqn:PO.
    { split; [reflexivity|]. intros h' [= <-]. split; [exact I|]. cbn [fst snd]. split; [now apply Forall_app|].
      rewrite app_length. unfold pos_ok in *. destruct (c_kind C).
      - apply Nat.ltb_lt in PO, PD. apply Nat.ltb_lt. lia.
      - apply Nat.leb_le in PO, PD. apply Nat.leb_le. lia. }
    assert (REM : forall s1 i, inv s1 -> bytes_ok i ->
      (let* s2 := if (n_blocks (c_kind C) (c_bs C) (length i) =? 0)%nat then Some s1
                  else u m s1 (chunks (c_bs C) (firstn (n_blocks (c_kind C) (c_bs C) (length i) * c_bs C) i)) in
       Some (s2, skipn (n_blocks (c_kind C) (c_bs C) (length i) * c_bs C) i))
      = (let* s2 := if (n_blocks (c_kind C) (c_bs C) (length i) =? 0)%nat then Some s1
                  else c_update C m s1 (chunks (c_bs C) (firstn (n_blocks (c_kind C) (c_bs C) (length i) * c_bs C) i)) in
       Some (s2, skipn (n_blocks (c_kind C) (c_bs C) (length i) * c_bs C) i))
      /\ forall h', (let* s2 := if (n_blocks (c_kind C) (c_bs C) (length i) =? 0)%nat then Some s1
                  else c_update C m s1 (chunks (c_bs C) (firstn (n_blocks (c_kind C) (c_bs C) (length i) * c_bs C) i)) in
       Some (s2, skipn (n_blocks (c_kind C) (c_bs C) (length i) * c_bs C) i)) = Some h' -> h_ok h').
    { intros s1 i I1 BI.
      pose proof (kblocks_length (c_kind C) (c_bs C) i BS) as KL. pose proof (kblocks_ok (c_kind C) (c_bs C) i BS BI) as KO.
      pose proof (krem_ok (c_kind C) (c_bs C) i BI) as RO. pose proof (krem_pos (c_kind C) (c_bs C) i BS) as RP.
      unfold kblocks in KL, KO. unfold krem in RO, RP.
      destruct (ag_update A m s1 _ I1 KL KO) as [E V].
      destruct (n_blocks _ _ _ =? 0)%nat.
      - split; [reflexivity|]. cbn [obind]. intros h' [= <-]. now repeat split.
      - rewrite E. split; [reflexivity|]. destruct (c_update C m s1 _) as [s2|]; cbn [obind]; [|discriminate].
        intros h' [= <-]. repeat split; cbn [fst snd]; auto. }
    destruct (length d =? 0)%nat eqn:ZD.
    { cbn [obind]. now apply REM. }
    assert (LB : length (d ++ firstn (c_bs C - length d) b) = c_bs C).
    { rewrite app_length, firstn_length. unfold pos_ok in PO, PD. destruct (c_kind C).
      - apply Nat.ltb_ge in PO. apply Nat.ltb_lt in PD. lia.
      - apply Nat.leb_gt in PO. apply Nat.leb_le in PD. lia. }
    assert (B2 : bytes_ok (firstn (c_bs C - length d) b) /\ bytes_ok (skipn (c_bs C - length d) b)).
    { apply Forall_app. now rewrite firstn_skipn. }
    destruct B2 as [B1 B2].
    destruct (ag_update A m s [d ++ firstn (c_bs C - length d) b] I) as [E V].
    { now constructor. }
    { constructor; [now apply Forall_app|constructor]. }
    rewrite E. destruct (c_update C m s _) as [s1|]; cbn [obind]; [|now split].
    apply REM; auto.
  Qed.
  Lemma agree_final m (h : hst C) : h_ok h ->
    h_finalize D m h = h_finalize C m h /\ h_finalize_reset D m h = h_finalize_reset C m h /\
    forall out h', h_finalize_reset C m h = Some (out, h') -> h_ok h'.
  Proof using A.
    destruct h as [s d]. intros (I & BD & PD). cbn [fst snd] in *.
    destruct (ag_final A m s d I BD PD) as [E V].
    unfold h_finalize, h_finalize_reset. cbn [D with_ops cst c_final c_reset fst snd]. rewrite E.
    split; [reflexivity|]. split; [reflexivity|]. intros out' h'.
    destruct (c_final C m s d) as [[out s']|]; cbn [obind]; [|discriminate]. intros [= <- <-]. now apply (V out).
  Qed.

  Lemma agree_digest m cs : Forall bytes_ok cs -> h_digest D m cs = h_digest C m cs.
  Proof using A.
    intros B. unfold h_digest.
    enough (K : forall h, h_ok h -> (let* h := h_updates D m h cs in h_finalize D m h) = let* h := h_updates C m h cs in h_finalize C m h).
    { apply K, (ag_new A). }
    induction B as [|c cs BC _ IH]; intros h O; cbn [h_updates obind].
    { now apply agree_final. }
    destruct (agree_update m h c O BC) as [-> V]. destruct (h_update C m h c) as [h'|]; cbn [obind]; [|reflexivity]. apply IH. auto.
  Qed.

  Definition st_ok (st : mstate C) : Prop :=
    (forall i h, lookup (m_vals st) i = Some h -> h_ok h) /\
    (forall b cd, c_codec C = Some cd -> In b (m_blobs st) -> exists h, h_ok h /\ b = h_serialize C cd h).
  Lemma lookup_app {X} (l : list (option X)) x i h : lookup (l ++ [x]) i = Some h -> lookup l i = Some h \/ x = Some h.
  Proof using.
    unfold lookup. intros E. destruct (Nat.lt_ge_cases i (length l)) as [L|L].
    - rewrite nth_error_app1 in E by exact L. now left.
    - rewrite nth_error_app2 in E by exact L. destruct (i - length l)%nat as [|j]; cbn in E.
      + right. now destruct x.
      + destruct j; discriminate.
  Qed.
  Lemma lookup_upd {X} (l : list (option X)) j x i h : lookup (upd l j x) i = Some h -> lookup l i = Some h \/ x = Some h.
  Proof using.
    revert i j. unfold lookup. induction l as [|a l IH]; intros i j E.
    - right. cbn [upd] in E. destruct (nth_error (repeat x oob_length) i) as [y|] eqn:Y; [|discriminate]. apply nth_error_In, repeat_spec in Y.
      subst y. now destruct x.
    - destruct j, i; cbn in *; auto; try (right; now destruct x); eauto.
  Qed.
  Lemma deser_ser cd h : c_codec C = Some cd -> h_ok h -> h_deserialize C cd (h_serialize C cd h) = Some h.
  Proof using A.
    intros E (I & _ & P). destruct h as [s d]. cbn [fst snd] in *. destruct (ag_codec A cd s E I) as [L R].
    unfold h_deserialize, h_serialize. cbn [fst snd].
    rewrite firstn_app, <- L, firstn_all, Nat.sub_diag. cbn [firstn]. rewrite app_nil_r, R. cbn [obind].
    rewrite skipn_app, skipn_all, Nat.sub_diag. cbn [skipn app].
    rewrite buf_roundtrip; [reflexivity|exact P].
  Qed.
  Definition same_state (st : mstate C) : mstate D := mkM (C := D) (m_vals st) (m_blobs st).
  Lemma agree_step m st o : st_ok st -> op_bytes o ->
    step D m (same_state st) o = (let* (st', out) := step C m st o in Some (same_state st', out)) /\
    forall st' out, step C m st o = Some (st', out) -> st_ok st'.
  Proof using A.
    intros [V B] O. unfold same_state. destruct o as [|i b|i|i|i|i|i|j]; cbn [step m_vals m_blobs].
    - split; [reflexivity|]. intros st' out [= <- <-]. split; cbn [m_vals m_blobs]; [|exact B].
      intros i h E. apply lookup_app in E as [E|[= <-]]; [now apply V in E|apply (ag_new A)].
    - change (@lookup (hst D)) with (@lookup (hst C)). destruct (lookup (m_vals st) i) as [h|] eqn:L.
      2: { split; [reflexivity|]. intros st' out [= <- <-]. now split. }
      destruct (agree_update m h b (V _ _ L) O) as [-> K].
      destruct (h_update C m h b) as [h'|]; cbn [obind]; [|now split].
      split; [reflexivity|]. intros st' out [= <- <-]. split; cbn [m_vals m_blobs]; [|exact B].
      intros k x E. apply lookup_upd in E as [E|[= <-]]; [now apply V in E|now apply K].
    - change (@lookup (hst D)) with (@lookup (hst C)). destruct (lookup (m_vals st) i) as [h|] eqn:L.
      2: { split; [reflexivity|]. intros st' out [= <- <-]. now split. }
      split; [reflexivity|]. intros st' out [= <- <-]. split; cbn [m_vals m_blobs]; [|exact B].
      intros k x E. apply lookup_app in E as [E|[= <-]]; [now apply V in E|now apply V in L].
    - change (@lookup (hst D)) with (@lookup (hst C)). destruct (lookup (m_vals st) i) as [h|] eqn:L.
      2: { split; [reflexivity|]. intros st' out [= <- <-]. now split. }
      split; [reflexivity|]. intros st' out [= <- <-]. split; cbn [m_vals m_blobs]; [|exact B].
      intros k x E. apply lookup_upd in E as [E|[= <-]]; [now apply V in E|]. apply V in L. unfold h_reset. apply (ag_reset A), L.
    - change (@lookup (hst D)) with (@lookup (hst C)). destruct (lookup (m_vals st) i) as [h|] eqn:L.
      2: { split; [reflexivity|]. intros st' out [= <- <-]. now split. }
      destruct (agree_final m h (V _ _ L)) as (_ & -> & K).
      destruct (h_finalize_reset C m h) as [[out h']|]; cbn [obind]; [|now split].
      split; [reflexivity|]. intros st' out' [= <- <-]. split; cbn [m_vals m_blobs]; [|exact B].
      intros k x E. apply lookup_upd in E as [E|[= <-]]; [now apply V in E|now apply (K out)].
    - change (@lookup (hst D)) with (@lookup (hst C)). destruct (lookup (m_vals st) i) as [h|] eqn:L.
      2: { split; [reflexivity|]. intros st' out [= <- <-]. now split. }
      destruct (agree_final m h (V _ _ L)) as (-> & _ & _).
      destruct (h_finalize C m h) as [out|]; cbn [obind]; [|now split].
      split; [reflexivity|]. intros st' out' [= <- <-]. split; cbn [m_vals m_blobs]; [|exact B].
      intros k x E. apply lookup_upd in E as [E|E]; [now apply V in E|discriminate].
    - change (@lookup (hst D)) with (@lookup (hst C)). destruct (lookup (m_vals st) i) as [h|] eqn:L.
      2: { split; [reflexivity|]. intros st' out [= <- <-]. now split. }
      cbn [D with_ops c_codec]. destruct (c_codec C) as [cd|] eqn:CD.
      2: { split; [reflexivity|]. intros st' out [= <- <-]. split; [exact V|]. intros b cd'. now rewrite CD. }
      split; [reflexivity|]. intros st' out [= <- <-]. split; cbn [m_vals m_blobs]; [exact V|].
      intros b cd' E X. rewrite CD in E. injection E as <-. apply in_app_iff in X as [X|[X|[]]]; [now apply B|].
      exists h. split; [now apply V in L|now symmetry].
    - cbn [D with_ops c_codec]. destruct (nth_error (m_blobs st) j) as [b|] eqn:L.
      2: { split; [reflexivity|]. intros st' out [= <- <-]. now split. }
      destruct (c_codec C) as [cd|] eqn:CD.
      2: { split; [reflexivity|]. intros st' out [= <- <-]. split; [exact V|]. intros b' cd'. now rewrite CD. }
      split; [reflexivity|]. intros st' out [= <- <-]. split; cbn [m_vals m_blobs]; [|now rewrite CD].
      intros k x E. apply lookup_app in E as [E|E]; [now apply V in E|].
      apply nth_error_In in L. destruct (B b cd eq_refl L) as (h & O' & ->). rewrite (deser_ser cd h CD O') in E.
      now injection E as <-.
  Qed.
  Lemma agree_history m ops : ops_ok ops -> run_history D m ops = run_history C m ops.
  Proof using A.
    intros B. unfold run_history.
    enough (K : forall st, st_ok st -> run D m (same_state st) ops = run C m st ops).
    { apply (K (mkM [] [])). split; cbn [m_vals m_blobs]; [|now intros]. intros i h E. unfold lookup in E. destruct i; discriminate. }
    induction B as [|o ops BO _ IH]; intros st S; cbn [run]; [reflexivity|].
    destruct (agree_step m st o S BO) as [-> V]. destruct (step C m st o) as [[st' out]|]; cbn [obind]; [|reflexivity].
    rewrite IH; [reflexivity|]. now apply (V st' out).
  Qed.
End Agree.

(** For a core already known to be right, whose reset forgets everything, it
    remains to compare the two functions. *)
Lemma agree_of_ok C inv H within u f : core_ok C inv H within ->
  (forall s, c_reset C s = (c_init C, c_ibuf C)) ->
  (forall m s bl, inv s -> Forall (fun b => length b = c_bs C) bl -> Forall bytes_ok bl -> u m s bl = c_update C m s bl) ->
  (forall m s b, inv s -> bytes_ok b -> pos_ok (c_kind C) (c_bs C) (length b) = true -> f m s b = c_final C m s b) ->
  agree C inv u f.
Proof.
  intros OK R U F.
  assert (N : h_ok C inv (c_init C, c_ibuf C)).
  { split; [exact (ok_init _ _ _ _ OK)|]. split; [exact (ok_ibuf_bytes _ _ _ _ OK)|exact (ok_ibuf _ _ _ _ OK)]. }
  constructor.
  - exact (ok_bs _ _ _ _ OK).
  - exact N.
  - intros m s bl I L B. split; [now apply U|]. intros s' E. exact (ok_inv _ _ _ _ OK m s bl s' I L B E).
  - intros m s b I B P. split; [now apply F|]. intros out s' _. now rewrite R.
  - intros s _. now rewrite R.
  - exact (ok_codec _ _ _ _ OK).
Qed.
