(** Histories in which each hasher value stays within the length limit (no bound on the total). *)
From Verif Require Import Base.Words Base.Bytes Base.BlockBuffer Base.BlockBufferFacts Base.Digest Base.DigestFacts.


(** Every hasher value of a history stays within [P]: checked on the abstract machine, in which a
    value is the byte string fed to it. *)
Fixpoint kept (ser : bool) (P : nat -> Prop) (st : astate) (ops : list op) : Prop :=
  match ops with
  | [] => True
  | o :: os =>
      match o with
      | New => P 0%nat
      | Update i b => match lookup (a_vals st) i with Some msg => P (length (msg ++ b)) | None => True end
      | _ => True
      end /\ kept ser P (fst (astep ser (fun _ => []) st o)) os
  end.
Section Histories.
  Context (C : core) (inv : cst C -> Prop) (H : bytes -> bytes) (within : nat -> Prop) (OK : core_ok C inv H within).
  Notation reached := (reached C inv).
  Let R (m : mode) (v : option (hst C)) (a : option bytes) : Prop :=
    match v, a with
    | Some h, Some msg => reached m h msg /\ bytes_ok msg /\ within (length msg)
    | None, None => True
    | _, _ => False
    end.
  Let RB (m : mode) (b : bytes) (msg : bytes) : Prop :=
    match c_codec C with
    | Some cd => exists h, b = h_serialize C cd h /\ reached m h msg /\ bytes_ok msg /\ within (length msg)
    | None => False
    end.

  Lemma history_kept_sim m ops : forall st ast,
    Forall2 (R m) (m_vals st) (a_vals ast) -> Forall2 (RB m) (m_blobs st) (a_blobs ast) ->
    ops_ok ops -> kept (has_codec C) within ast ops ->
    run C m st ops = Some (arun (has_codec C) H ast ops).
  Proof using OK.
    induction ops as [|o os IH]; intros st ast RV RBl OKS W; [reflexivity|].
    inversion OKS as [|? ? O1 O2]; subst. cbn [run arun].
    assert (NN1 : forall (x : hst C), R m (Some x) None -> False) by (intros ? []).
    assert (NN2 : forall y, R m None (Some y) -> False) by (intros ? []).
    destruct W as [W1 W]. pose proof (reached_new C inv H within OK m) as RN.
    assert (NEW : forall k, within k -> R m (Some (h_new C)) (Some [])).
    { intros k Wk. split; [exact RN|]. split; [constructor|]. eapply (ok_within _ _ _ _ OK); [|exact Wk]. cbn. lia. }
    destruct o as [ |i b|i|i|i|i|i|j]; cbn [step astep] in *.
    - (* New *)
      cbn [obind fst] in *. erewrite IH; [reflexivity| |exact RBl|exact O2|exact W].
      cbn. apply Forall2_app; [exact RV|]. constructor; [|constructor]. exact (NEW _ W1).
    - (* Update *)
      pose proof (F2_lookup (R m) _ _ i RV NN1 NN2) as L.
      destruct (lookup (m_vals st) i) as [h|], (lookup (a_vals ast) i) as [msg|]; try contradiction; cbn [fst] in W.
      + destruct L as (Rh & Bm & Ln).
        destruct (update_spec C inv H within OK m h msg b Bm O1 Rh W1) as (h' & E & R').
        rewrite E. cbn [obind].
        erewrite IH; [reflexivity| | |exact O2|exact W]; [|exact RBl].
        cbn. apply F2_upd; [exact RV|]. split; [exact R'|]. split; [apply bytes_ok_app; now split|exact W1].
      + cbn [obind]. erewrite IH; [reflexivity|exact RV|exact RBl|exact O2|exact W].
    - (* Clone *)
      pose proof (F2_lookup (R m) _ _ i RV NN1 NN2) as L.
      destruct (lookup (m_vals st) i) as [h|], (lookup (a_vals ast) i) as [msg|]; try contradiction; cbn [obind fst] in *.
      + erewrite IH; [reflexivity| |exact RBl|exact O2|exact W].
        cbn. apply Forall2_app; [exact RV|]. constructor; [exact L|constructor].
      + erewrite IH; [reflexivity|exact RV|exact RBl|exact O2|exact W].
    - (* Reset *)
      pose proof (F2_lookup (R m) _ _ i RV NN1 NN2) as L.
      destruct (lookup (m_vals st) i) as [h|], (lookup (a_vals ast) i) as [msg|]; try contradiction; cbn [obind fst] in *.
      + erewrite IH; [reflexivity| |exact RBl|exact O2|exact W].
        cbn. apply F2_upd; [exact RV|]. unfold h_reset.
        destruct L as ((L1 & L2 & L3) & _ & Ln). rewrite (ok_reset _ _ _ _ OK _ L3). exact (NEW _ Ln).
      + erewrite IH; [reflexivity|exact RV|exact RBl|exact O2|exact W].
    - (* FinalizeReset *)
      pose proof (F2_lookup (R m) _ _ i RV NN1 NN2) as L.
      destruct (lookup (m_vals st) i) as [h|], (lookup (a_vals ast) i) as [msg|]; try contradiction; cbn [obind fst] in *.
      + destruct L as (Rh & Bm & Ln).
        destruct (final_spec C inv H within OK m h msg Bm Rh Ln) as (s' & F & Rs).
        unfold h_finalize_reset. rewrite F. cbn [obind]. rewrite Rs.
        erewrite IH; [reflexivity| |exact RBl|exact O2|exact W].
        cbn. apply F2_upd; [exact RV|]. exact (NEW _ Ln).
      + erewrite IH; [reflexivity|exact RV|exact RBl|exact O2|exact W].
    - (* Finalize *)
      pose proof (F2_lookup (R m) _ _ i RV NN1 NN2) as L.
      destruct (lookup (m_vals st) i) as [h|], (lookup (a_vals ast) i) as [msg|]; try contradiction; cbn [obind fst] in *.
      + destruct L as (Rh & Bm & Ln).
        destruct (final_spec C inv H within OK m h msg Bm Rh Ln) as (s' & F & Rs).
        unfold h_finalize. rewrite F. cbn [obind].
        erewrite IH; [reflexivity| |exact RBl|exact O2|exact W].
        cbn. apply F2_upd; [exact RV|]. exact Logic.I.
      + erewrite IH; [reflexivity|exact RV|exact RBl|exact O2|exact W].
    - (* Save *)
      pose proof (F2_lookup (R m) _ _ i RV NN1 NN2) as L.
      unfold has_codec in *. destruct (c_codec C) as [cd|] eqn:Hc.
      + destruct (lookup (m_vals st) i) as [h|], (lookup (a_vals ast) i) as [msg|]; try contradiction; cbn [obind fst] in *.
        * erewrite IH; [reflexivity|exact RV| |exact O2|exact W].
          cbn. apply Forall2_app; [exact RBl|]. constructor; [|constructor].
          unfold RB; try rewrite Hc. exists h. split; [reflexivity|exact L].
        * erewrite IH; [reflexivity|exact RV|exact RBl|exact O2|exact W].
      + destruct (lookup (m_vals st) i) as [h|], (lookup (a_vals ast) i) as [msg|]; try contradiction; cbn [obind fst] in *;
          (erewrite IH; [reflexivity|exact RV|exact RBl|exact O2|exact W]).
    - (* Restore *)
      pose proof (F2_nth (RB m) _ _ j RBl) as L.
      unfold has_codec in *. unfold RB in L. destruct (c_codec C) as [cd|] eqn:Hc.
      + destruct (nth_error (m_blobs st) j) as [b|], (nth_error (a_blobs ast) j) as [msg|]; try contradiction; cbn [obind fst] in *.
        * destruct L as (h & -> & Rh & Bm & Ln).
          erewrite IH; [reflexivity| |exact RBl|exact O2|exact W].
          cbn. apply Forall2_app; [exact RV|]. constructor; [|constructor].
          rewrite (reached_roundtrip C inv H within OK m h msg cd Hc Rh). split; [exact Rh|split; assumption].
        * erewrite IH; [reflexivity|exact RV|exact RBl|exact O2|exact W].
      + destruct (nth_error (m_blobs st) j) as [b|], (nth_error (a_blobs ast) j) as [msg|]; try contradiction; cbn [obind fst] in *.
        erewrite IH; [reflexivity|exact RV|exact RBl|exact O2|exact W].
  Qed.

  Lemma history_kept m ops : ops_ok ops -> kept (has_codec C) within (mkA [] []) ops ->
    run_history C m ops = Some (spec_history (has_codec C) H ops).
  Proof using OK.
    intros O W. unfold run_history, spec_history. apply (history_kept_sim m ops); try constructor; assumption.
  Qed.
End Histories.
