(** Reading extendable output in pieces. *)
From Verif Require Import Base.Words Base.Bytes Base.BlockBuffer Base.Digest Base.DigestFacts Base.Limit Base.Xof Base.Codec Model.Hashers.
From Verif Require Spec.Keccak Spec.K12 Spec.Ascon Proof.Sha3 Proof.K12 Proof.Ascon.

(** ** Lengths of the specified outputs *)
Lemma round_length A ir : length (Spec.Keccak.round A ir) = 25%nat.
Proof. unfold Spec.Keccak.round, Spec.Keccak.iota. rewrite upd_length by (unfold Spec.Keccak.chi, Spec.Keccak.tabulate; cbn; lia). unfold Spec.Keccak.chi. reflexivity. Qed.
Local Transparent Spec.Keccak.keccak_p.
Lemma keccak_p_length nr A : (0 < nr)%nat -> length (Spec.Keccak.keccak_p nr A) = 25%nat.
Proof.
  intros H. unfold Spec.Keccak.keccak_p. destruct nr as [|nr]; [lia|]. rewrite seq_S, fold_left_app. apply round_length.
Qed.
Local Opaque Spec.Keccak.keccak_p.
Lemma keccak_bytes_length nr S : (0 < nr)%nat -> length (Spec.Keccak.keccak_bytes nr S) = 200%nat.
Proof. intros H. unfold Spec.Keccak.keccak_bytes. now rewrite words_to_le_length, keccak_p_length. Qed.
Lemma squeeze_length nr r n : (0 < nr)%nat -> (0 < r)%nat -> forall S, length S = 200%nat -> (n <= length (Spec.Keccak.squeeze nr r n S))%nat.
Proof.
  intros Hn Hr. induction n as [|n IH]; intros S L; [cbn; lia|]. cbn [Spec.Keccak.squeeze]. rewrite app_length, firstn_length, L.
  pose proof (IH (Spec.Keccak.keccak_bytes nr S) (keccak_bytes_length nr S Hn)). lia.
Qed.
Lemma sponge_length nr r P d : (0 < nr)%nat -> (0 < r)%nat -> length (Spec.Keccak.sponge nr r P d) = d.
Proof.
  intros Hn Hr. unfold Spec.Keccak.sponge. rewrite firstn_length. apply Nat.min_l. apply squeeze_length; [exact Hn|exact Hr|].
  unfold Spec.Keccak.absorb. assert (Z : length (zeros 200) = 200%nat) by apply zeros_length. revert Z. generalize (zeros 200).
  induction (chunks r P) as [|c l IH]; intros b L; [exact L|]. cbn [fold_left]. apply IH. now apply keccak_bytes_length.
Qed.
Lemma ascon_length iv M d : length (Spec.Ascon.sponge iv M d) = d.
Proof.
  unfold Spec.Ascon.sponge. rewrite firstn_length. apply Nat.min_l. generalize (fold_left Spec.Ascon.absorb (chunks 8 (Spec.Ascon.pad M)) (Spec.Ascon.p12 (iv, 0, 0, 0, 0))).
  induction d as [|d IH]; intros s; [cbn; lia|]. cbn [Spec.Ascon.squeeze]. destruct s as [[[[x0 x1] x2] x3] x4]. rewrite app_length, le_bytes_length.
  pose proof (IH (Spec.Ascon.p12 (x0, x1, x2, x3, x4))). lia.
Qed.
Lemma kt_length M C d : length (Spec.K12.KT128 M C d) = d.
Proof. unfold Spec.K12.KT128. cbv zeta. destruct (_ <=? _)%nat; apply sponge_length; lia. Qed.
Lemma cshake_length r fn cust M d : (0 < r)%nat -> length (Proof.Sha3.cshake_code r fn cust M d) = d.
Proof. intros H. unfold Proof.Sha3.cshake_code. destruct fn, cust; apply sponge_length; lia. Qed.

(** ** Pieces *)
Lemma total_app a b : total (a ++ b) = (total a + total b)%nat.
Proof. induction a as [|x a IH]; [reflexivity|]. cbn [app total fold_right]. fold (total (a ++ b)) (total a). lia. Qed.
Lemma reads_app {R} (rb : R -> bytes * R) bs a b : forall s,
  exists o2, fst (rd_reads rb bs s (a ++ b)) = fst (rd_reads rb bs s a) ++ o2 /\ length o2 = length b.
Proof.
  induction a as [|n a IH]; intros s; cbn [app rd_reads].
  - exists (fst (rd_reads rb bs s b)). split; [reflexivity|]. revert s. induction b as [|n b IHb]; intros s; [reflexivity|].
    cbn [rd_reads]. destruct (rd_read rb bs s n) as [o s1]. specialize (IHb s1). destruct (rd_reads rb bs s1 b) as [os s2]. cbn in *. now rewrite IHb.
  - destruct (rd_read rb bs s n) as [o s1]. destruct (IH s1) as (o2 & E & L).
    destruct (rd_reads rb bs s1 (a ++ b)) as [os s2], (rd_reads rb bs s1 a) as [os' s2']. cbn [fst] in *. exists o2.
    split; [cbn [app]; now rewrite E|exact L].
Qed.
Lemma reads_lengths {R} (rb : R -> bytes * R) bs s :
  (forall ns, length (concat (fst (rd_reads rb bs s ns))) = total ns) ->
  forall ns, map (@length N) (fst (rd_reads rb bs s ns)) = ns.
Proof.
  intros T ns. induction ns as [|n ns IH] using rev_ind; [reflexivity|].
  destruct (reads_app rb bs ns [n] s) as (o2 & E & L). rewrite E, map_app, IH. f_equal.
  destruct o2 as [|x [|y o2]]; try discriminate L. cbn [map].
  pose proof (T ns) as T1. pose proof (T (ns ++ [n])) as T2. rewrite E, concat_app, app_length, T1, total_app in T2.
  cbn [concat total fold_right] in T2. rewrite app_nil_r in T2. f_equal. lia.
Qed.

Section Pieces.
  Context (X : xof) (inv : xst X -> Prop) (H : bytes -> nat -> bytes) (within : nat -> Prop)
    (OK : forall ns, core_ok (xof_core X ns) inv (fun M => H M (total ns)) within) (HL : forall M n, length (H M n) = n).
  Lemma updates_reads m ns cs : forall h : hst (xof_core X []), h_updates (xof_core X ns) m h cs = h_updates (xof_core X []) m h cs.
  Proof using.
    induction cs as [|c cs IH]; intros h; [reflexivity|]. cbn [h_updates].
    change (h_update (xof_core X ns) m h c) with (h_update (xof_core X []) m h c).
    destruct (h_update (xof_core X []) m h c) as [h'|]; [|reflexivity]. cbn [obind]. apply IH.
  Qed.
  Lemma pieces_digest m cs ns :
    h_digest (xof_core X ns) m cs = option_map (@concat N) (xof_pieces X m cs ns).
  Proof using.
    unfold h_digest, xof_pieces, h_finalize.
    pose proof (updates_reads m ns cs (h_new (xof_core X []))) as U. change (h_new (xof_core X ns)) with (h_new (xof_core X [])). rewrite U.
    destruct (h_updates (xof_core X []) m (h_new (xof_core X [])) cs) as [[s b]|]; [|reflexivity]. cbn [obind fst snd c_final xof_core].
    destruct (x_final X m s b) as [[r s']|]; reflexivity.
  Qed.
  Lemma pieces_spec m cs ns : Forall bytes_ok cs -> within (length (concat cs)) ->
    exists ps, xof_pieces X m cs ns = Some ps /\ map (@length N) ps = ns /\ concat ps = H (concat cs) (total ns).
  Proof using OK HL.
    intros B W. assert (D : forall k, h_digest (xof_core X k) m cs = Some (H (concat cs) (total k))).
    { intros k. exact (digest_spec _ _ _ _ (OK k) m cs B W). }
    setoid_rewrite pieces_digest in D. unfold xof_pieces in *.
    destruct (h_updates (xof_core X []) m (h_new (xof_core X [])) cs) as [[s b]|]; [|discriminate (D [])]. cbn [obind fst snd] in *.
    destruct (x_final X m s b) as [[r s']|]; [|discriminate (D [])]. cbn [obind option_map] in *.
    assert (D' : forall k, concat (fst (rd_reads (x_read X) (x_rbs X) (rd_new r) k)) = H (concat cs) (total k)).
    { intros k. specialize (D k). now injection D. }
    eexists. split; [reflexivity|]. split; [|apply D'].
    apply reads_lengths. intros k. now rewrite D', HL.
  Qed.
  Lemma stream_prefix (m : mode) cs n k : Forall bytes_ok cs -> within (length (concat cs)) -> firstn n (H (concat cs) (n + k)) = H (concat cs) n.
  Proof using OK HL.
    intros B W. destruct (pieces_spec m cs [n; k] B W) as (ps & E & L & D). destruct (pieces_spec m cs [n] B W) as (ps' & E' & L' & D').
    unfold xof_pieces in E, E'.
    destruct (h_updates (xof_core X []) m (h_new (xof_core X [])) cs) as [[s b]|]; [|discriminate E]. cbn [obind fst snd] in *.
    destruct (x_final X m s b) as [[r s']|]; [|discriminate E]. cbn [obind] in *.
    destruct (reads_app (x_read X) (x_rbs X) [n] [k] (rd_new r)) as (o2 & Ea & La).
    assert (Z : forall A (x y : A), Some x = Some y -> y = x) by (intros A x y [= ->]; reflexivity).
    apply Z in E, E'. subst ps ps'. cbn [app] in Ea. rewrite Ea in D. rewrite concat_app, D' in D.
    cbn [total fold_right] in D. rewrite !Nat.add_0_r in D. rewrite <- D, firstn_app, HL, Nat.sub_diag, firstn_O, app_nil_r.
    apply firstn_all2. now rewrite HL.
  Qed.
End Pieces.

Lemma xalg_ok m x X : params_ok (read_as x []) -> xhasher m x = Some X ->
  exists (inv : xst X -> Prop) (H : bytes -> nat -> bytes), (forall ns, core_ok (xof_core X ns) inv (fun M => H M (total ns)) (below (max_bytes (read_as x [])))) /\
    (forall M n, length (H M n) = n).
Proof.
  assert (W : forall C inv H, core_ok C inv H (fun _ => True) -> core_ok C inv H (below None)) by (intros; assumption).
  intros PO E. destruct x; cbn [xhasher read_as max_bytes params_ok] in *.
  - injection E as <-. exists Proof.Sha3.Pst, Spec.Keccak.SHAKE128. split; [exact Proof.Sha3.Shake128_ok|intros M n; apply sponge_length; lia].
  - injection E as <-. exists Proof.Sha3.Pst, Spec.Keccak.SHAKE256. split; [exact Proof.Sha3.Shake256_ok|intros M n; apply sponge_length; lia].
  - destruct (Model.Sha3.turbo_new ds) as [t|] eqn:T; [|discriminate E]. injection E as <-.
    exists (Proof.Sha3.Pturbo ds), (Spec.Keccak.TurboSHAKE128 ds).
    split; [intros ns; apply Proof.Sha3.TurboShake128_ok; eexists; exact T|intros M n; apply sponge_length; lia].
  - destruct (Model.Sha3.turbo_new ds) as [t|] eqn:T; [|discriminate E]. injection E as <-.
    exists (Proof.Sha3.Pturbo ds), (Spec.Keccak.TurboSHAKE256 ds).
    split; [intros ns; apply Proof.Sha3.TurboShake256_ok; eexists; exact T|intros M n; apply sponge_length; lia].
  - destruct PO as (B1 & B2 & L1 & L2). destruct (Model.Sha3.cshake_new m 168 fn cust) as [ini|] eqn:T; [|discriminate E]. injection E as <-.
    exists (Proof.Sha3.Pcsh ini), (Proof.Sha3.cshake_code 168 fn cust).
    split; [intros ns; exact (Proof.Sha3.cshake_ok m 168 21 fn cust ini ns eq_refl ltac:(lia) L1 L2 B1 B2 T)|intros M n; apply cshake_length; lia].
  - destruct PO as (B1 & B2 & L1 & L2). destruct (Model.Sha3.cshake_new m 136 fn cust) as [ini|] eqn:T; [|discriminate E]. injection E as <-.
    exists (Proof.Sha3.Pcsh ini), (Proof.Sha3.cshake_code 136 fn cust).
    split; [intros ns; exact (Proof.Sha3.cshake_ok m 136 17 fn cust ini ns eq_refl ltac:(lia) L1 L2 B1 B2 T)|intros M n; apply cshake_length; lia].
  - injection E as <-. exists (Proof.K12.inv cust), (fun M => Spec.K12.KT128 M cust). split; [|intros M n; apply kt_length].
    intros ns. pose proof (Proof.K12.K12_ok cust ns PO) as [?]. constructor; try assumption.
    + cbn [below]. lia.
    + intros m' msg Hb. apply ok_final. cbn [below] in Hb. unfold Proof.K12.k12_within. lia.
  - injection E as <-. exists (fun _ => True), Spec.Ascon.XOF128. split; [exact Proof.Ascon.AsconXof128_ok|intros M n; apply ascon_length].
Qed.
Lemma xalg_stream m0 x X : params_ok (read_as x []) -> xhasher m0 x = Some X ->
  exists stream : bytes -> nat -> bytes,
    (forall m cs ns, Forall bytes_ok cs -> below (max_bytes (read_as x [])) (length (concat cs)) ->
      exists ps, xof_pieces X m cs ns = Some ps /\ map (@length N) ps = ns /\ concat ps = stream (concat cs) (total ns)) /\
    (forall M n k, bytes_ok M -> below (max_bytes (read_as x [])) (length M) ->
      length (stream M n) = n /\ firstn n (stream M (n + k)%nat) = stream M n).
Proof.
  intros PO E. destruct (xalg_ok m0 x X PO E) as (inv & H & O & L). exists H. split.
  - intros m cs ns B W. exact (pieces_spec X inv H _ O L m cs ns B W).
  - intros M n k B W. split; [apply L|].
    pose proof (stream_prefix X inv H _ O L Checked [M] n k) as Q. cbn [concat] in Q. rewrite app_nil_r in Q.
    apply Q; [now constructor|exact W].
Qed.
Lemma xalg_reads m0 x X m cs cs' ns ns' : params_ok (read_as x []) -> xhasher m0 x = Some X ->
  Forall bytes_ok cs -> Forall bytes_ok cs' -> concat cs = concat cs' -> total ns = total ns' ->
  below (max_bytes (read_as x [])) (length (concat cs)) ->
  exists ps ps', xof_pieces X m cs ns = Some ps /\ xof_pieces X m cs' ns' = Some ps' /\ concat ps = concat ps'.
Proof.
  intros PO E B B' Ec Et W. destruct (xalg_stream m0 x X PO E) as (st & H & _).
  destruct (H m cs ns B W) as (ps & E1 & _ & D1). rewrite Ec in W. destruct (H m cs' ns' B' W) as (ps' & E2 & _ & D2).
  exists ps, ps'. split; [exact E1|]. split; [exact E2|]. now rewrite D1, D2, Ec, Et.
Qed.
