(** The md2 crate computes RFC 1319. *)
From Verif Require Import Base.Words Base.Bytes Base.Codec Base.BlockBuffer Base.BlockBufferFacts Base.Digest
  Base.DigestFacts Base.MDFacts Model.Md2.
From Verif Require Spec.MD2.

Lemma S_ok : Spec.MD2.S_table = S_.
Proof. vm_compute. reflexivity. Qed.
Opaque Spec.MD2.S_table.
Lemma S_lt i : get S_ i < 256.
Proof.
  unfold get. destruct (Nat.ltb_spec i (length S_)) as [H|H].
  - assert (A : forallb (fun x => x <? 256) S_ = true) by reflexivity.
    rewrite forallb_forall in A. apply N.ltb_lt, A, nth_In, H.
  - rewrite nth_overflow by exact H. now apply (oob_lt 8).
Qed.
Lemma upd_ok l i x : bytes_ok l -> x < 256 -> bytes_ok (upd l i x).
Proof.
  unfold bytes_ok. intros H Hx. now apply Forall_upd.
Qed.
Lemma lxor_lt8 a b : a < 256 -> b < 256 -> N.lxor a b < 256.
Proof. intros. change 256 with (2 ^ 8). now apply lxor_lt. Qed.
Lemma get_bok l i : bytes_ok l -> get l i < 256.
Proof. intros H. change 256 with (2 ^ 8). now apply get_ok. Qed.

(** The mixing loops are the same. *)
Lemma mix_k_ok st k : (k < length (fst st))%nat -> mix_k st k = Spec.MD2.mix_byte st k.
Proof.
  destruct st as [x t]. cbn [fst]. intros H. unfold mix_k, Spec.MD2.mix_byte. rewrite S_ok.
  unfold get at 3. now rewrite nth_upd_eq.
Qed.
Definition stok (n : nat) (st : bytes * N) : Prop := length (fst st) = n /\ bytes_ok (fst st) /\ snd st < 256.
Lemma mix_byte_ok n st k : (k < n)%nat -> stok n st -> stok n (Spec.MD2.mix_byte st k).
Proof.
  destruct st as [x t]. intros Hk (L & B & T). unfold Spec.MD2.mix_byte, stok. cbn [fst snd] in *.
  rewrite upd_length, S_ok by lia.
  assert (N.lxor (get x k) (get S_ (N.to_nat t)) < 256) by (apply lxor_lt8; [now apply get_bok|apply S_lt]).
  auto using upd_ok.
Qed.
Lemma mix_ks_ok n : forall l st, (forall k, In k l -> (k < n)%nat) -> stok n st ->
  fold_left mix_k l st = fold_left Spec.MD2.mix_byte l st /\ stok n (fold_left Spec.MD2.mix_byte l st).
Proof.
  induction l as [|k l IH]; intros st Hl Hst; cbn [fold_left]; [auto|].
  rewrite mix_k_ok by (destruct Hst as [-> _]; apply Hl; now left).
  apply IH; [intros; apply Hl; now right|apply mix_byte_ok; [apply Hl; now left|exact Hst]].
Qed.
Lemma mix_j_ok st j : stok 48 st -> mix_j st j = Spec.MD2.mix_round st j /\ stok 48 (Spec.MD2.mix_round st j).
Proof.
  intros H. unfold mix_j, Spec.MD2.mix_round.
  destruct (mix_ks_ok 48 (seq 0 48) st) as [-> K]; [intros k Hk; apply in_seq in Hk; lia|exact H|].
  destruct (fold_left _ _ _) as [x t]. destruct K as (L & B & T). split; [reflexivity|].
  repeat split; [exact L|exact B|]. apply N.mod_lt. discriminate.
Qed.
Lemma mix_js_ok l : forall st, stok 48 st ->
  fold_left mix_j l st = fold_left Spec.MD2.mix_round l st /\ stok 48 (fold_left Spec.MD2.mix_round l st).
Proof.
  induction l as [|j l IH]; intros st H; cbn [fold_left]; [auto|].
  destruct (mix_j_ok st j H) as [-> K]. now apply IH.
Qed.
Lemma load_block_ok x block : length x = 48%nat -> length block = 16%nat ->
  load_block x block = firstn 16 x ++ block ++ xor_bytes block (firstn 16 x).
Proof.
  intros Lx Lb. explode x. explode block. reflexivity.
Qed.

(** The running checksum. *)
Lemma skipn_S {A} (l : list A) : forall n, skipn (S n) l = tl (skipn n l).
Proof. induction l as [|x l IH]; intros [|n]; try reflexivity. cbn [skipn]. apply IH. Qed.
Lemma check_j_ok block st j : check_j block st j = Spec.MD2.checksum_byte st (j, get block j).
Proof. destruct st as [C l]. unfold check_j, Spec.MD2.checksum_byte. rewrite S_ok. reflexivity. Qed.
Lemma check_ok block : forall n s st, (length (fst st) = 16)%nat -> (s + n <= 16)%nat -> length block = 16%nat ->
  fold_left (check_j block) (seq s n) st
  = fold_left Spec.MD2.checksum_byte (combine (seq s n) (firstn n (skipn s block))) st.
Proof.
  induction n as [|n IH]; intros s st L Hs Lb; cbn [seq fold_left firstn]; [reflexivity|].
  destruct (skipn s block) as [|c r] eqn:E.
  { apply (f_equal (@length N)) in E. rewrite skipn_length in E. cbn in E. lia. }
  cbn [combine fold_left].
  assert (Ec : c = get block s /\ r = skipn (S s) block).
  { split.
    - unfold get. rewrite <- (firstn_skipn s block), E, app_nth2; rewrite firstn_length; [|lia].
      now replace (s - Nat.min s (length block))%nat with 0%nat by lia.
    - now rewrite skipn_S, E. }
  destruct Ec as [-> ->]. destruct st as [C l]. rewrite IH.
  - rewrite check_j_ok. reflexivity.
  - cbn in *. rewrite upd_length; lia.
  - lia.
  - exact Lb.
Qed.
Lemma checksum_block_ok C block : length C = 16%nat -> bytes_ok C -> length block = 16%nat ->
  fold_left (check_j block) (seq 0 16) (C, get C 15) = Spec.MD2.checksum_block (C, get C 15) block
  /\ let '(C', L') := Spec.MD2.checksum_block (C, get C 15) block in
     length C' = 16%nat /\ bytes_ok C' /\ L' = get C' 15.
Proof.
  intros L B Lb. unfold Spec.MD2.checksum_block.
  rewrite check_ok by (cbn; assumption || lia). rewrite skipn_O, firstn_all2 by lia. split; [reflexivity|].
  assert (G : forall l (st : bytes * N), Forall (fun jc => fst jc < 16)%nat l -> length (fst st) = 16%nat -> bytes_ok (fst st) ->
    length (fst (fold_left Spec.MD2.checksum_byte l st)) = 16%nat /\ bytes_ok (fst (fold_left Spec.MD2.checksum_byte l st))).
  { induction l as [|[j c] l IH]; intros [D l'] HL HD HB; cbn [fold_left]; [auto|]. apply Forall_cons_iff in HL as [Hj HL]. apply IH; cbn; [exact HL| |].
    - cbn in Hj, HD. rewrite upd_length; lia.
    - apply upd_ok; [exact HB|]. apply lxor_lt8; [now apply get_bok|]. rewrite S_ok. apply S_lt. }
  assert (E : combine (seq 0 16) block = combine (seq 0 15) (firstn 15 block) ++ [(15%nat, get block 15)]).
  { clear -Lb. explode block. reflexivity. }
  rewrite E, fold_left_app. cbn [fold_left].
  assert (HL : Forall (fun jc => fst jc < 16)%nat (combine (seq 0 15) (firstn 15 block))).
  { apply Forall_forall. intros [j c] Hj. apply in_combine_l, in_seq in Hj. cbn. lia. }
  specialize (G (combine (seq 0 15) (firstn 15 block)) (C, get C 15) HL L B).
  destruct (fold_left _ (combine _ _) _) as [D l']. cbn [fst] in G. destruct G as [G1 G2].
  unfold Spec.MD2.checksum_byte. rewrite upd_length by lia. repeat split; [exact G1|].
  apply upd_ok; [exact G2|]. apply lxor_lt8; [now apply get_bok|]. rewrite S_ok. apply S_lt.
Qed.

(** One block, with the checksum kept beside. *)
Definition P (s : md2_st) : Prop :=
  length (fst s) = 48%nat /\ bytes_ok (fst s) /\ length (snd s) = 16%nat /\ bytes_ok (snd s).
Lemma compress_ok x C block : P (x, C) -> length block = 16%nat -> bytes_ok block ->
  exists C', Spec.MD2.checksum_block (C, get C 15) block = (C', get C' 15) /\
  compress (x, C) block = (Spec.MD2.process x block, C') /\ P (Spec.MD2.process x block, C').
Proof.
  intros (Lx & Bx & LC & BC) Lb Bb. cbn [fst snd] in *. unfold compress, Spec.MD2.process.
  rewrite load_block_ok by assumption.
  destruct (mix_js_ok (seq 0 18) (firstn 16 x ++ block ++ xor_bytes block (firstn 16 x), 0)) as [-> K].
  { repeat split; cbn [fst snd].
    - rewrite !app_length, xor_bytes_length, firstn_length. lia.
    - apply bytes_ok_app; split; [now apply bytes_ok_firstn|]. apply bytes_ok_app; split; [exact Bb|].
      apply xor_bytes_ok; [exact Bb|now apply bytes_ok_firstn]. }
  destruct (checksum_block_ok C block LC BC Lb) as [-> Q].
  destruct (Spec.MD2.checksum_block _ _) as [C' L']. destruct Q as (Q1 & Q2 & ->). exists C'.
  destruct (fold_left Spec.MD2.mix_round _ _) as [x' t']. destruct K as (K1 & K2 & _). cbn [fst snd] in *.
  repeat split; assumption.
Qed.
Lemma compress_P s b : P s -> length b = 16%nat -> bytes_ok b -> P (compress s b).
Proof.
  destruct s as [x C]. intros H L B. destruct (compress_ok x C b H L B) as (C' & _ & -> & K). exact K.
Qed.
Lemma fold_cons {A B} (f : A -> B -> A) x l a : fold_left f (x :: l) a = fold_left f l (f a x).
Proof. reflexivity. Qed.
Lemma fold_snoc {A B} (f : A -> B -> A) l x a : fold_left f (l ++ [x]) a = f (fold_left f l a) x.
Proof. now rewrite fold_left_app. Qed.
Lemma compress_all bl : Forall (fun b => length b = 16%nat) bl -> Forall bytes_ok bl -> forall x C, P (x, C) ->
  exists C', fold_left Spec.MD2.checksum_block bl (C, get C 15) = (C', get C' 15)
   /\ fold_left compress bl (x, C) = (fold_left Spec.MD2.process bl x, C')
   /\ P (fold_left Spec.MD2.process bl x, C').
Proof.
  induction bl as [|b bl IH]; intros FL FB x C H.
  - exists C. split; [reflexivity|]. split; [reflexivity|exact H].
  - rewrite !fold_cons. apply Forall_cons_iff in FL, FB. destruct FL as [L FL], FB as [B FB].
    destruct (compress_ok x C b H L B) as (C1 & -> & -> & K). exact (IH FL FB _ _ K).
Qed.

Definition within (_ : nat) : Prop := True.
Lemma P_init : P (zeros 48, zeros 16).
Proof. repeat split; try reflexivity; apply zeros_ok. Qed.

Lemma Md2_ok : core_ok Md2 P Spec.MD2.MD2 within.
Proof.
  apply (fold_core_ok 16 compress (zeros 48, zeros 16) P).
  - lia.
  - exact P_init.
  - exact compress_P.
  - unfold within. auto.
  - reflexivity.
  - reflexivity.
  - intros m msg _ B. unfold md2_finalize. eexists. split; [|reflexivity]. f_equal. f_equal.
    assert (R : (length (remainder 16 msg) < 16)%nat).
    { rewrite remainder_length by lia. apply Nat.mod_upper_bound. lia. }
    set (i := (16 - length (remainder 16 msg))%nat).
    assert (E : firstn (length (remainder 16 msg)) (pad_with_zeros 16 (remainder 16 msg)) ++
        map (fun _ => N.of_nat i mod 256) (skipn (length (remainder 16 msg)) (pad_with_zeros 16 (remainder 16 msg)))
        = remainder 16 msg ++ repeat (N.of_nat i) i).
    { unfold pad_with_zeros. rewrite firstn_app, firstn_all, Nat.sub_diag, firstn_O, app_nil_r. f_equal.
      rewrite skipn_app, skipn_all, Nat.sub_diag, skipn_O. cbn [app]. unfold zeros. fold i.
      rewrite N.mod_small by (unfold i; lia).
      clear. induction i as [|k IH] at 2 4; cbn; [reflexivity|]. now f_equal. }
    rewrite E.
    assert (EP : chunks 16 (Spec.MD2.pad msg) = chunks 16 msg ++ [remainder 16 msg ++ repeat (N.of_nat i) i]).
    { unfold Spec.MD2.pad. rewrite chunks_tail by lia. f_equal. unfold i. rewrite remainder_length by lia.
      apply chunks_one; [lia|]. rewrite app_length, repeat_length, remainder_length by lia.
      pose proof (Nat.mod_upper_bound (length msg) 16). lia. }
    assert (FL : Forall (fun b => length b = 16%nat) (chunks 16 (Spec.MD2.pad msg))) by (apply chunks_block_length; lia).
    assert (FB : Forall bytes_ok (chunks 16 (Spec.MD2.pad msg))).
    { rewrite EP. apply Forall_app. split; [apply chunks_ok; [lia|exact B]|]. constructor; [|constructor].
      apply bytes_ok_app. split; [now apply remainder_ok|]. apply Forall_forall. intros y Hy.
      apply repeat_spec in Hy. subst y. unfold i. lia. }
    destruct (compress_all _ FL FB _ _ P_init) as (C & E1 & E2 & HP).
    unfold Spec.MD2.MD2, Spec.MD2.checksum. rewrite fold_snoc.
    change (get (zeros 16) 15) with 0 in E1. rewrite E1. cbn [fst].
    rewrite EP in E2 at 1. rewrite fold_snoc in E2. rewrite E2. cbn [snd fst].
    pose proof (compress_ok _ _ C HP) as K. destruct HP as (H1 & H2 & H3 & H4).
    destruct (K H3 H4) as (C2 & _ & -> & _). reflexivity.
  - intros cd st E (H1 & H2 & H3 & H4). injection E as <-. cbn [md2_codec cd_ser cd_deser cd_len].
    rewrite app_length, H1, H3. split; [reflexivity|].
    rewrite firstn_app, H1, Nat.sub_diag, firstn_O, app_nil_r, firstn_all2 by lia.
    rewrite skipn_app, H1, Nat.sub_diag, skipn_O, skipn_all2 by lia. now destruct st.
Qed.

(** Deserialization is canonical. *)
Lemma md2_canonical b s : bytes_ok b -> length b = cd_len md2_codec -> cd_deser md2_codec b = Some s ->
  cd_ser md2_codec s = b.
Proof.
  intros B L E. unfold md2_codec, cd_deser in E. assert (Es : s = (firstn 48 b, skipn 48 b)) by congruence.
  rewrite Es. exact (firstn_skipn 48 b).
Qed.
