(** The groestl crate computes Groestl. *)
From Verif Require Import Base.Words Base.Bytes Base.ByteFacts Base.Codec Base.BlockBuffer Base.BlockBufferFacts Base.Digest
  Base.DigestFacts Base.MDFacts Spec.MD Spec.GF Proof.GF Proof.ColMatrix Model.GroestlTable Model.Groestl.
From Verif Require Spec.Groestl.
Import Spec.Groestl (matrix, at_, build, addP, addQ, SubBytes, ShiftBytes, MixBytes, P, Q, sum, padded_blocks, params, sigmaP, sigmaQ, aes_poly).

Lemma table_check : check_tables be_val aes_poly Spec.Groestl.B Spec.Groestl.S TABLE = true.
Proof. vm_compute. reflexivity. Qed.
Lemma S_lt_check : forallb (fun x => x <? 256) Spec.Groestl.SBOX = true.
Proof. vm_compute. reflexivity. Qed.
Lemma S_lt x : Spec.Groestl.S x < 256.
Proof.
  change 256 with (2 ^ 8). unfold Spec.Groestl.S. apply get_ok; [|reflexivity]. apply Forall_forall. intros y Hy.
  pose proof (proj1 (forallb_forall _ _) S_lt_check y Hy) as E. cbv beta in E. now apply N.ltb_lt in E.
Qed.
Lemma B_ok : Forall bytes_ok Spec.Groestl.B.
Proof. repeat constructor. Qed.
Lemma B_len : length Spec.Groestl.B = 8%nat.
Proof. reflexivity. Qed.
Definition kP (r j i : nat) : N := if (i =? 0)%nat then N.lxor (16 * N.of_nat j) (N.of_nat r) else 0.
Definition kQ (r j i : nat) : N := if (i =? 7)%nat then N.lxor (N.lxor 0xff (16 * N.of_nat j)) (N.of_nat r) else 0xff.
Lemma kP_check : forallb (fun r => forallb (fun j =>
  (be_val (map (kP r j) (seq 0 8)) =? N.lxor (wshl 64 (N.of_nat j) 60) (wshl 64 (N.of_nat r) 56))
  && forallb (fun x => x <? 256) (map (kP r j) (seq 0 8))) (seq 0 16)) (seq 0 14) = true.
Proof. vm_compute. reflexivity. Qed.
Lemma kQ_check : forallb (fun r => forallb (fun j =>
  (be_val (map (kQ r j) (seq 0 8)) =? N.lxor (wsub 64 (2 ^ 64 - 1) (wshl 64 (N.of_nat j) 4)) (N.of_nat r))
  && forallb (fun x => x <? 256) (map (kQ r j) (seq 0 8))) (seq 0 16)) (seq 0 14) = true.
Proof. vm_compute. reflexivity. Qed.
Local Opaque Spec.Groestl.S Spec.Groestl.SBOX TABLE Spec.Groestl.B.

Lemma forallb2_use (f : nat -> nat -> bool) a b : forallb (fun r => forallb (f r) (seq 0 b)) (seq 0 a) = true ->
  forall r j, (r < a)%nat -> (j < b)%nat -> f r j = true.
Proof.
  intros C r j Hr Hj. rewrite forallb_forall in C. specialize (C r ltac:(apply in_seq; lia)).
  rewrite forallb_forall in C. apply C, in_seq. lia.
Qed.
Lemma forallb_bytes l : forallb (fun x => x <? 256) l = true -> bytes_ok l.
Proof. intros F. apply Forall_forall. intros x Hx. rewrite forallb_forall in F. now apply N.ltb_lt, F. Qed.
Lemma kP_spec r j : (r < 14)%nat -> (j < 16)%nat ->
  be_val (map (kP r j) (seq 0 8)) = N.lxor (wshl 64 (N.of_nat j) 60) (wshl 64 (N.of_nat r) 56) /\ bytes_ok (map (kP r j) (seq 0 8)).
Proof.
  intros Hr Hj. pose proof (forallb2_use _ _ _ kP_check r j Hr Hj) as E. apply andb_true_iff in E as [E1 E2].
  apply N.eqb_eq in E1. apply forallb_bytes in E2. now split.
Qed.
Lemma kQ_spec r j : (r < 14)%nat -> (j < 16)%nat ->
  be_val (map (kQ r j) (seq 0 8)) = N.lxor (wsub 64 (2 ^ 64 - 1) (wshl 64 (N.of_nat j) 4)) (N.of_nat r) /\ bytes_ok (map (kQ r j) (seq 0 8)).
Proof.
  intros Hr Hj. pose proof (forallb2_use _ _ _ kQ_check r j Hr Hj) as E. apply andb_true_iff in E as [E1 E2].
  apply N.eqb_eq in E1. apply forallb_bytes in E2. now split.
Qed.

(** One column. *)
Lemma column_xors x c : column x c = xors (map (fun i => get (nth i TABLE []) (N.to_nat (N.land (N.shiftr (get x (nth i c 0%nat)) (8 * (7 - N.of_nat i))) 255))) (seq 0 8)).
Proof. unfold column. cbn [seq map fold_left]. rewrite !xors_cons. change (xors []) with 0. now rewrite N.lxor_0_r, N.lxor_0_l, !N.lxor_assoc. Qed.
Lemma column_spec n A c : mok n A -> (forall i, (i < 8)%nat -> (nth i c 0 < n)%nat) ->
  column (enc A) c = be_val (mat_vec aes_poly Spec.Groestl.B (map Spec.Groestl.S (map (fun i => at_ A i (nth i c 0%nat)) (seq 0 8)))).
Proof.
  intros OK Hc. rewrite column_xors. set (v := map (fun i => at_ A i (nth i c 0%nat)) (seq 0 8)).
  rewrite <- (ttable be_val aes_poly Spec.Groestl.B Spec.Groestl.S (fun k x => get (nth k TABLE []) (N.to_nat x)) v).
  - f_equal. apply map_ext_in. intros i Hi. apply in_seq in Hi.
    rewrite get_enc by (destruct OK as [-> _]; apply Hc; lia).
    destruct (mok_col n A (nth i c 0%nat) OK ltac:(apply Hc; lia)) as [L B]. rewrite byte_of by (auto; lia).
    unfold v. now rewrite get_map_seq by lia.
  - exact be_linear.
  - now vm_compute.
  - exact B_ok.
  - apply Forall_forall. intros x Hx. unfold v in Hx. apply in_map_iff in Hx as (i & <- & _). now apply (at_lt n).
  - unfold v. now rewrite map_length, seq_length.
  - exact (check_tables_ok _ _ _ _ _ table_check).
Qed.
(** A round after the addition of constants. *)
Definition idx (n : nat) (sigma : list nat) : list (list nat) :=
  map (fun j => map (fun i => (j + nth i sigma 0) mod n)%nat (seq 0 8)) (seq 0 n).
Lemma mix_ok n A : mok n A -> mok n (MixBytes A).
Proof.
  intros [L F]. unfold MixBytes. split; [now rewrite map_length|]. apply Forall_map. eapply Forall_impl; [|exact F].
  intros c [Lc Bc]. unfold mat_vec. split; [rewrite map_length; exact B_len|].
  apply Forall_map. eapply Forall_impl; [|exact B_ok]. intros r Br. unfold dot. change 256 with (2 ^ 8). apply xors_lt, Forall_forall.
  intros y Hy. apply in_map_iff in Hy as (k & <- & _). apply gmul_lt; [now vm_compute|]. change 256 with (2 ^ 8). now apply get_ok.
Qed.
Lemma sub_at n A i j : mok n A -> (i < 8)%nat -> (j < n)%nat -> at_ (SubBytes A) i j = Spec.Groestl.S (at_ A i j).
Proof.
  intros OK Hi Hj. destruct (mok_col n A j OK Hj) as [L _]. destruct OK as [LA _]. unfold at_, SubBytes.
  rewrite (nth_indep _ [] (map Spec.Groestl.S [])) by (rewrite map_length; lia). rewrite map_nth. unfold get.
  rewrite (nth_indep _ oob (Spec.Groestl.S oob)) by (rewrite map_length; lia). apply map_nth.
Qed.
Lemma round_spec (p : params) sigma A : let n := Spec.Groestl.v p in (0 < n)%nat -> mok n A ->
  map (column (enc A)) (idx n sigma) = enc (MixBytes (ShiftBytes p sigma (SubBytes A))) /\
  mok n (MixBytes (ShiftBytes p sigma (SubBytes A))).
Proof.
  intros n Hn OK.
  assert (OS : mok n (ShiftBytes p sigma (SubBytes A))).
  { unfold ShiftBytes. apply build_ok. intros i j Hi Hj. rewrite (sub_at n); [apply S_lt|exact OK|exact Hi|]. apply Nat.mod_upper_bound. lia. }
  split; [|now apply mix_ok]. unfold idx. rewrite map_map. apply enc_eq; [now apply mix_ok|]. intros j Hj.
  rewrite (column_spec n); [|exact OK|].
  - unfold MixBytes. rewrite (nth_indep _ [] (mat_vec aes_poly Spec.Groestl.B [])) by (rewrite map_length; destruct OS; lia).
    rewrite map_nth. do 2 f_equal. unfold ShiftBytes, build. fold n. rewrite (nth_map_seq _ n j) by exact Hj. rewrite map_map.
    apply map_ext_in. intros i Hi. apply in_seq in Hi. rewrite nth_map_seq by lia. symmetry. apply (sub_at n); [exact OK|lia|].
    apply Nat.mod_upper_bound. lia.
  - intros i Hi. rewrite nth_map_seq by exact Hi. apply Nat.mod_upper_bound. lia.
Qed.
(** Adding constants. *)
Lemma add_spec n (k : nat -> nat -> N) (w : nat -> N) A : mok n A ->
  (forall j, (j < n)%nat -> be_val (map (k j) (seq 0 8)) = w j /\ bytes_ok (map (k j) (seq 0 8))) ->
  map (fun j => N.lxor (get (enc A) j) (w j)) (seq 0 n) = enc (build n (fun i j => N.lxor (at_ A i j) (k j i))) /\
  mok n (build n (fun i j => N.lxor (at_ A i j) (k j i))).
Proof.
  intros OK K.
  assert (OB : mok n (build n (fun i j => N.lxor (at_ A i j) (k j i)))).
  { apply build_ok. intros i j Hi Hj. change 256 with (2 ^ 8). apply lxor_lt; [now apply (at_lt n)|].
    rewrite <- (get_map_seq (k j) 8 i) by exact Hi. apply get_ok; [now apply K|reflexivity]. }
  split; [|exact OB]. apply enc_eq; [exact OB|]. intros j Hj. destruct (mok_col n A j OK Hj) as [L B].
  rewrite get_enc by (destruct OK; lia). destruct (K j Hj) as [<- Kb].
  unfold build. rewrite nth_map_seq by exact Hj. rewrite map_xor.
  assert (E : map (fun i => at_ A i j) (seq 0 8) = nth j A []) by (rewrite <- L; apply map_get).
  rewrite E. symmetry. apply be_val_xor; [exact B|exact Kb|]. now rewrite map_length, seq_length.
Qed.

(** ** The two variants *)
Definition matches (v : variant) (p : params) : Prop :=
  COLS v = Spec.Groestl.v p /\ ROUNDS v = Spec.Groestl.rounds p /\ idxp v = idx (COLS v) (sigmaP p) /\
  idxq v = idx (COLS v) (sigmaQ p) /\ (COLS v = 8 \/ COLS v = 16)%nat /\ (ROUNDS v <= 14)%nat.
Lemma short_matches : matches v512 Spec.Groestl.short.
Proof. repeat split; try reflexivity; cbn; lia. Qed.
Lemma long_matches : matches v1024 Spec.Groestl.long.
Proof. repeat split; try reflexivity; cbn; lia. Qed.

Section Variant.
  Context (v : variant) (p : params) (MV : matches v p).
  Let n := COLS v.
  Lemma n_bound : (0 < n <= 16)%nat.
  Proof using MV. destruct MV as (_ & _ & _ & _ & H & _). unfold n. lia. Qed.
  Lemma rndp_spec A r : mok n A -> (r < 14)%nat ->
    rndp v (enc A) (wshl 64 (N.of_nat r) 56) = enc (MixBytes (ShiftBytes p (sigmaP p) (SubBytes (addP p r A)))) /\
    mok n (MixBytes (ShiftBytes p (sigmaP p) (SubBytes (addP p r A)))).
  Proof using MV.
    intros OK Hr. unfold rndp. fold n. pose proof n_bound. destruct MV as (En & _ & -> & _ & _ & _). fold n in En.
    destruct (add_spec n (kP r) (fun j => N.lxor (wshl 64 (N.of_nat j) 60) (wshl 64 (N.of_nat r) 56)) A OK) as [E O].
    { intros j Hj. apply kP_spec; lia. }
    rewrite E. unfold addP. rewrite <- En. fold n. rewrite En in O |- *. now apply round_spec; [lia|].
  Qed.
  Lemma rndq_spec A r : mok n A -> (r < 14)%nat ->
    rndq v (enc A) (N.of_nat r) = enc (MixBytes (ShiftBytes p (sigmaQ p) (SubBytes (addQ p r A)))) /\
    mok n (MixBytes (ShiftBytes p (sigmaQ p) (SubBytes (addQ p r A)))).
  Proof using MV.
    intros OK Hr. unfold rndq. fold n. pose proof n_bound. destruct MV as (En & _ & _ & -> & _ & _). fold n in En.
    destruct (add_spec n (kQ r) (fun j => N.lxor (wsub 64 (2 ^ 64 - 1) (wshl 64 (N.of_nat j) 4)) (N.of_nat r)) A OK) as [E O].
    { intros j Hj. apply kQ_spec; lia. }
    rewrite E. unfold addQ. rewrite <- En. fold n. rewrite En in O |- *. now apply round_spec; [lia|].
  Qed.
  Lemma P_spec A : mok n A ->
    fold_left (fun x i => rndp v x (wshl 64 (N.of_nat i) 56)) (seq 0 (ROUNDS v)) (enc A) = enc (P p A) /\ mok n (P p A).
  Proof using MV.
    intros OK. destruct MV as (_ & Er & _ & _ & _ & Hr). unfold P. rewrite <- Er.
    apply fold_rounds; [|lia|exact OK]. intros. now apply rndp_spec.
  Qed.
  Lemma Q_spec A : mok n A ->
    fold_left (fun x i => rndq v x (N.of_nat i)) (seq 0 (ROUNDS v)) (enc A) = enc (Q p A) /\ mok n (Q p A).
  Proof using MV.
    intros OK. destruct MV as (_ & Er & _ & _ & _ & Hr). unfold Q. rewrite <- Er.
    apply fold_rounds; [|lia|exact OK]. intros. now apply rndq_spec.
  Qed.
  Lemma compress_spec h b : mok n h -> length b = (8 * n)%nat -> bytes_ok b ->
    compress v (enc h) b = enc (Spec.Groestl.f p h b) /\ mok n (Spec.Groestl.f p h b).
  Proof using MV.
    intros OH L B. unfold compress, Spec.Groestl.f. cbv zeta. pose proof (block_ok n b L B) as OM. fold n.
    change (words_of_be 8 b) with (enc (chunks 8 b)). set (M := chunks 8 b) in *. clearbody M.
    assert (E1 : map (fun i => N.lxor (get (enc h) i) (get (enc M) i)) (seq 0 n) = enc (sum h M)).
    { apply enc_sum2; auto. intros j Hj. now rewrite !get_enc by (destruct OH, OM; lia). }
    rewrite E1. destruct (sum_spec n h M OH OM) as [OS _].
    destruct (P_spec _ OS) as [-> OP]. destruct (Q_spec _ OM) as [-> OQ].
    destruct (sum_spec n _ _ OP OQ) as [OPQ EPQ]. destruct (sum_spec n _ _ OPQ OH) as [OR _]. split; [|exact OR].
    apply enc_sum2; auto. intros j Hj. rewrite !get_enc by (destruct OH, OP, OQ; lia). rewrite EPQ by exact Hj.
    rewrite N.lxor_comm. f_equal. apply N.lxor_comm.
  Qed.
  Lemma p_spec h : mok n h -> Groestl.p v (enc h) = enc (sum (P p h) h) /\ mok n (sum (P p h) h).
  Proof using MV.
    intros OH. unfold Groestl.p. fold n. destruct (P_spec h OH) as [-> OP]. split; [|now apply sum_spec].
    apply enc_sum2; auto. intros j Hj. now rewrite !get_enc by (destruct OH, OP; lia).
  Qed.

  (** ** Length field, initial value, output *)
  Let bs := (8 * n)%nat.
  Lemma bs_pos : (9 < bs)%nat.
  Proof using MV. destruct MV as (_ & _ & _ & _ & H & _). unfold bs, n in *. lia. Qed.
  Lemma l_bs : Spec.Groestl.l p = bs.
  Proof using MV. destruct MV as (E & _). unfold Spec.Groestl.l. now rewrite <- E. Qed.
  Lemma blocks_formula len : padded_blocks p len = N.of_nat ((len + 8) / bs) + 1.
  Proof using MV.
    pose proof bs_pos as HB. unfold padded_blocks. rewrite l_bs. cbv zeta.
    pose proof (Nat.div_mod_eq (len + 8) bs) as E. pose proof (Nat.mod_upper_bound (len + 8) bs ltac:(lia)) as U.
    set (q := ((len + 8) / bs)%nat) in *. set (r := ((len + 8) mod bs)%nat) in *. clearbody q r.
    set (ell := 8 * N.of_nat bs). assert (He : ell <> 0) by lia.
    assert (E1 : 8 * N.of_nat len + 65 = (8 * N.of_nat r + 1) + N.of_nat q * ell) by lia.
    assert (M1 : (8 * N.of_nat len + 65) mod ell = 8 * N.of_nat r + 1).
    { rewrite E1, N.mod_add by exact He. apply N.mod_small. lia. }
    rewrite M1. rewrite (N.mod_small (ell - _)) by lia.
    replace (8 * N.of_nat len + (ell - (8 * N.of_nat r + 1)) + 65) with ((N.of_nat q + 1) * ell) by lia.
    now rewrite N.div_mul.
  Qed.
  Lemma blocks_len_spec m len : padded_blocks p len < 2 ^ 64 ->
    (if (bs - len mod bs <=? 8)%nat then cadd m 64 (N.of_nat (len / bs)) 2 else cadd m 64 (N.of_nat (len / bs)) 1)
    = Some (padded_blocks p len).
  Proof using MV.
    rewrite blocks_formula. pose proof bs_pos as HB. intros W. unfold cadd.
    pose proof (Nat.div_mod_eq len bs) as E. pose proof (Nat.mod_upper_bound len bs ltac:(lia)) as U.
    set (q := (len / bs)%nat) in *. set (r := (len mod bs)%nat) in *. clearbody q r.
    destruct (Nat.leb_spec (bs - r) 8) as [H|H].
    - assert (Q : ((len + 8) / bs)%nat = (q + 1)%nat).
      { symmetry. apply (Nat.div_unique _ _ _ (r + 8 - bs)); [lia|]. nia. }
      rewrite Q in W |- *. rewrite fit_small by lia. f_equal. lia.
    - assert (Q : ((len + 8) / bs)%nat = q).
      { symmetry. apply (Nat.div_unique _ _ _ (r + 8)); [lia|]. nia. }
      rewrite Q in W |- *. now rewrite fit_small by lia.
  Qed.
  Lemma omega_spec k h : (k <= 4 * n)%nat -> mok n h ->
    skipn (out_size v - k) (words_to_be 8 (skipn (n / 2) (Groestl.p v (enc h)))) = Spec.Groestl.Omega p k h.
  Proof using MV.
    intros Hk OH. destruct (p_spec h OH) as [-> OR]. unfold Spec.Groestl.Omega. cbv zeta.
    set (R := sum (P p h) h) in *. clearbody R. unfold enc. rewrite skipn_map.
    assert (F8 : Forall (fun r : list N => length r = 8%nat) R) by (destruct OR as [_ F]; eapply Forall_impl; [|exact F]; now intros ? []).
    assert (E : words_to_be 8 (map be_val (skipn (n / 2) R)) = concat (skipn (n / 2) R)).
    { unfold words_to_be. rewrite map_map. f_equal. rewrite <- (map_id (skipn (n / 2) R)) at 2.
      apply map_ext_in. intros r Hr. destruct OR as [_ F].
      rewrite Forall_forall in F. destruct (F r ltac:(rewrite <- (firstn_skipn (n / 2) R); apply in_or_app; now right)) as [L B]. rewrite <- L at 1. now apply be_bytes_val. }
    rewrite E, concat_skipn, skipn_skipn by exact F8. rewrite concat_length8 by exact F8. destruct OR as [LR _]. rewrite LR.
    f_equal. unfold out_size. fold n. destruct MV as (_ & _ & _ & _ & [H|H] & _); fold n in H; rewrite H in Hk |- *;
      [change (8 / 2)%nat with 4%nat | change (16 / 2)%nat with 8%nat]; lia.
  Qed.
  Definition iv_words (k : nat) : list N := upd (repeat 0 (COLS v)) (COLS v - 1) (8 * N.of_nat k).

  Definition Pst (s : list N) : Prop := exists A, mok n A /\ s = enc A.
  Lemma Pst_words s : Pst s -> length s = n /\ words_ok 64 s.
  Proof.
    intros (A & [L F] & ->). unfold enc. split; [now rewrite map_length|]. apply Forall_map.
    eapply Forall_impl; [|exact F]. intros r [Lr Br]. pose proof (be_val_lt r Br) as Lt. rewrite Lr in Lt. exact Lt.
  Qed.
  Definition within (len : nat) : Prop := padded_blocks p len < 2 ^ 64.
  Lemma within_mono a b : (a <= b)%nat -> within b -> within a.
  Proof using MV.
    unfold within. rewrite !blocks_formula. intros H W. pose proof bs_pos.
    pose proof (Nat.div_le_mono (a + 8) (b + 8) bs ltac:(lia) ltac:(lia)). lia.
  Qed.
  Lemma core_groestl_ok k : (k <= 4 * n)%nat -> iv_words k = enc (Spec.Groestl.iv p k) -> mok n (Spec.Groestl.iv p k) ->
    core_ok (groestl_core v k) (fun st => Pst (fst st) /\ snd st < 2 ^ 64) (Spec.Groestl.hash p k) within.
  Proof using MV.
    intros Hk EI OI. pose proof bs_pos as HB.
    apply (counted_core_ok bs 64 (compress v) (iv_words k) Pst).
    - lia.
    - exists (Spec.Groestl.iv p k). now split.
    - intros s b (A & O & ->) L B. destruct (compress_spec A b O L B) as [-> O']. eexists. split; [exact O'|reflexivity].
    - exact within_mono.
    - intros len W. unfold within in W. rewrite blocks_formula in W.
      pose proof (Nat.div_le_mono len (len + 8) bs ltac:(lia) ltac:(lia)). lia.
    - reflexivity.
    - reflexivity.
    - intros m msg W B. unfold gr_finalize. cbn [fst snd]. change (block_size v) with bs.
      rewrite remainder_length by lia. rewrite blocks_len_spec by exact W. cbn [obind].
      eexists. split; [|reflexivity]. apply f_equal, f_equal2; [|reflexivity]. unfold Spec.Groestl.hash, len64_padding_be.
      rewrite l_bs.
      pose proof (md_sim (fun s A => mok n A /\ s = enc A) (compress v) (Spec.Groestl.f p) bs (iv_words k) (Spec.Groestl.iv p k)
        0x80 (be_bytes 8 (padded_blocks p (length msg))) msg) as S.
      destruct S as [O S].
      + lia.
      + rewrite be_bytes_length. lia.
      + reflexivity.
      + apply be_bytes_ok.
      + exact B.
      + intros s A x [O ->] L Bx. destruct (compress_spec A x O L Bx) as [-> O']. split; [exact O'|reflexivity].
      + split; assumption.
      + rewrite S. fold n. now apply omega_spec.
    - intros cd st [= <-] PP C. apply Pst_words in PP as [L Wd]. apply sized_roundtrip. cbn [cd_len cd_ser cd_deser gr_codec].
      exact (counted_roundtrip 8 n 8 st ltac:(lia) L Wd C).
  Qed.
End Variant.

(** Initial values for all digest sizes. *)
Definition list_eqb (a b : list N) : bool := if list_eq_dec N.eq_dec a b then true else false.
Lemma list_eqb_eq a b : list_eqb a b = true -> a = b.
Proof. unfold list_eqb. now destruct (list_eq_dec N.eq_dec a b). Qed.
Lemma iv_short : forallb (fun k => list_eqb (iv_words v512 k) (enc (Spec.Groestl.iv Spec.Groestl.short k))) (seq 0 33) = true.
Proof. vm_compute. reflexivity. Qed.
Lemma iv_long : forallb (fun k => list_eqb (iv_words v1024 k) (enc (Spec.Groestl.iv Spec.Groestl.long k))) (seq 0 65) = true.
Proof. vm_compute. reflexivity. Qed.
Lemma iv_mok v p k : matches v p -> mok (COLS v) (Spec.Groestl.iv p k).
Proof.
  intros MV. unfold Spec.Groestl.iv. apply block_ok; [|apply be_bytes_ok]. rewrite be_bytes_length. exact (l_bs v p MV).
Qed.

Lemma GroestlShort_ok k : (k <= 32)%nat -> core_ok (GroestlShort k) (fun st => Pst v512 (fst st) /\ snd st < 2 ^ 64)
  (Spec.Groestl.hash Spec.Groestl.short k) (within Spec.Groestl.short).
Proof.
  intros H. apply (core_groestl_ok _ _ short_matches); [exact H| |exact (iv_mok _ _ _ short_matches)].
  apply list_eqb_eq. apply (proj1 (forallb_forall _ _) iv_short). apply in_seq. lia.
Qed.
Lemma GroestlLong_ok k : (k <= 64)%nat -> core_ok (GroestlLong k) (fun st => Pst v1024 (fst st) /\ snd st < 2 ^ 64)
  (Spec.Groestl.hash Spec.Groestl.long k) (within Spec.Groestl.long).
Proof.
  intros H. apply (core_groestl_ok _ _ long_matches); [exact H| |exact (iv_mok _ _ _ long_matches)].
  apply list_eqb_eq. apply (proj1 (forallb_forall _ _) iv_long). apply in_seq. lia.
Qed.
Lemma within_bytes v p len : matches v p -> N.of_nat len + 72 < 2 ^ 70 -> within p len.
Proof.
  intros MV H. unfold within. rewrite (blocks_formula v p MV).
  assert (Hb : (64 <= 8 * COLS v)%nat) by (destruct MV as (_ & _ & _ & _ & HC & _); lia).
  assert (Q : ((len + 8) / (8 * COLS v) <= (len + 8) / 64)%nat) by (apply Nat.div_le_compat_l; lia).
  pose proof (Nat.mul_div_le (len + 8) 64 ltac:(lia)). set (q := ((len + 8) / 64)%nat) in *. clearbody q. lia.
Qed.
Lemma Groestl_named m cs : Forall bytes_ok cs -> N.of_nat (length (concat cs)) + 72 < 2 ^ 70 ->
  h_digest Groestl224 m cs = Some (Spec.Groestl.Groestl 28 (concat cs)) /\
  h_digest Groestl256 m cs = Some (Spec.Groestl.Groestl 32 (concat cs)) /\
  h_digest Groestl384 m cs = Some (Spec.Groestl.Groestl 48 (concat cs)) /\
  h_digest Groestl512 m cs = Some (Spec.Groestl.Groestl 64 (concat cs)).
Proof.
  intros B H. pose proof (within_bytes _ _ _ short_matches H) as W1. pose proof (within_bytes _ _ _ long_matches H) as W2.
  repeat split.
  - exact (digest_spec _ _ _ _ (GroestlShort_ok 28 ltac:(lia)) m cs B W1).
  - exact (digest_spec _ _ _ _ (GroestlShort_ok 32 ltac:(lia)) m cs B W1).
  - exact (digest_spec _ _ _ _ (GroestlLong_ok 48 ltac:(lia)) m cs B W2).
  - exact (digest_spec _ _ _ _ (GroestlLong_ok 64 ltac:(lia)) m cs B W2).
Qed.
