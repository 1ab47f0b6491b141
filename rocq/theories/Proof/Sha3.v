(** The sha3 crate computes the functions of Spec/Keccak.v. *)
From Verif Require Import Base.Words Base.Bytes Base.Codec Base.BlockBuffer Base.BlockBufferFacts
  Base.Digest Base.DigestFacts Base.MDFacts Base.Xof Base.XofFacts Model.Sha3.
From Verif Require Spec.Keccak.
Import Spec.Keccak (keccak_p, keccak_bytes, absorb, squeeze, sponge, bits_of_byte, bits_of_bytes,
  byte_of_bits, bytes_of_bits, pad101, pad, turbo_pad, keccak_c, enc_len, bytepad, encode_string).

(** ** The constants follow the rules of the standard *)
Lemma rho_offsets_rule : Spec.Keccak.rho_offsets = Spec.Keccak.rho_rule.
Proof. vm_compute. reflexivity. Qed.
Lemma RC_rule : Spec.Keccak.RC = map Spec.Keccak.RC_rule (seq 0 24).
Proof. vm_compute. reflexivity. Qed.

(** ** Keccak-p keeps states well-formed *)
Definition Pst (st : list N) : Prop := length st = 25%nat /\ words_ok 64 st.
Lemma tabulate_P f : (forall x y, f x y < 2 ^ 64) -> Pst (Spec.Keccak.tabulate f).
Proof.
  intros H. unfold Spec.Keccak.tabulate. split; [now rewrite map_length, seq_length|].
  apply Forall_forall. intros z Hz. apply in_map_iff in Hz. destruct Hz as (i & <- & _). apply H.
Qed.
Lemma lane_lt A x y : words_ok 64 A -> Spec.Keccak.lane A x y < 2 ^ 64.
Proof. intros H. unfold Spec.Keccak.lane. now apply get_ok. Qed.
Lemma map_seq_ok n (f : nat -> N) : (forall x, f x < 2 ^ 64) -> words_ok 64 (map f (seq 0 n)).
Proof. intros H. apply Forall_forall. intros z Hz. apply in_map_iff in Hz. destruct Hz as (i & <- & _). apply H. Qed.
Lemma upd_ok w l i v : words_ok w l -> v < 2 ^ w -> words_ok w (upd l i v).
Proof.
  intros H Hv. now apply Forall_upd.
Qed.
Lemma RC_ok : words_ok 64 Spec.Keccak.RC.
Proof. unfold Spec.Keccak.RC. repeat constructor. Qed.
Lemma round_P A ir : Pst A -> Pst (Spec.Keccak.round A ir).
Proof.
  intros [_ H]. unfold Spec.Keccak.round.
  assert (H1 : Pst (Spec.Keccak.theta A)).
  { apply tabulate_P. intros x y. apply lxor_lt; [now apply lane_lt|]. apply get_ok; [|reflexivity]. apply map_seq_ok. intros z.
    set (C := map _ (seq 0 5)).
    assert (HC : words_ok 64 C) by (apply map_seq_ok; intros u; repeat apply lxor_lt; now apply lane_lt).
    apply lxor_lt; [now apply get_ok|]. apply rotl_lt. now apply get_ok. }
  destruct H1 as [_ H1].
  assert (H2 : Pst (Spec.Keccak.rho (Spec.Keccak.theta A))).
  { apply tabulate_P. intros x y. apply rotl_lt. now apply lane_lt. }
  destruct H2 as [_ H2].
  assert (H3 : Pst (Spec.Keccak.pi (Spec.Keccak.rho (Spec.Keccak.theta A)))).
  { apply tabulate_P. intros x y. now apply lane_lt. }
  destruct H3 as [_ H3].
  assert (H4 : Pst (Spec.Keccak.chi (Spec.Keccak.pi (Spec.Keccak.rho (Spec.Keccak.theta A))))).
  { apply tabulate_P. intros x y. apply lxor_lt; [now apply lane_lt|]. apply land_lt_r. now apply lane_lt. }
  destruct H4 as [L4 H4]. split.
  - unfold Spec.Keccak.iota. rewrite upd_length; lia.
  - apply upd_ok; [exact H4|]. apply lxor_lt; [now apply lane_lt|]. apply get_ok; [apply RC_ok|reflexivity].
Qed.
Lemma keccak_P nr A : Pst A -> Pst (keccak_p nr A).
Proof.
  intros H. unfold keccak_p. generalize (seq (24 - nr) nr). intros l. revert A H.
  induction l as [|i l IH]; intros A H; [exact H|]. cbn [fold_left]. apply IH. now apply round_P.
Qed.
Lemma default_P : Pst st_default.
Proof. split; [reflexivity|]. repeat constructor. Qed.
Global Opaque keccak_p.

(** ** Lanes and bytes *)
Lemma lxor_mod w x y : N.lxor x y mod 2 ^ w = N.lxor (x mod 2 ^ w) (y mod 2 ^ w).
Proof.
  apply N.bits_inj. intros i. rewrite N.lxor_spec, !testbit_mod_pow2, N.lxor_spec.
  destruct (i <? w); cbn; [reflexivity|]. reflexivity.
Qed.
Lemma le_bytes_lxor n x y : le_bytes n (N.lxor x y) = xor_bytes (le_bytes n x) (le_bytes n y).
Proof.
  revert x y. induction n as [|n IH]; intros x y; [reflexivity|].
  cbn [le_bytes]. unfold xor_bytes. cbn [combine map fst snd]. f_equal.
  - exact (lxor_mod 8 x y).
  - change 256 with (2 ^ 8). rewrite <- !N.shiftr_div_pow2, shiftr_lxor. apply IH.
Qed.
Lemma xor_bytes_app a b c d : length a = length c ->
  xor_bytes (a ++ b) (c ++ d) = xor_bytes a c ++ xor_bytes b d.
Proof.
  revert c. induction a as [|x a IH]; intros [|z c] L; cbn in L; try discriminate; [reflexivity|].
  unfold xor_bytes in *. cbn. f_equal. apply IH. lia.
Qed.
Lemma xor_bytes_zeros a n : (length a <= n)%nat -> xor_bytes a (zeros n) = a.
Proof.
  revert n. induction a as [|x a IH]; intros n L; [reflexivity|]. destruct n; cbn in L; [lia|].
  unfold xor_bytes, zeros in *. cbn. rewrite N.lxor_0_r. f_equal. apply IH. lia.
Qed.
Lemma xor_in_bytes st ws : (length ws <= length st)%nat ->
  words_to_le 8 (xor_in st ws)
  = xor_bytes (words_to_le 8 st) (words_to_le 8 ws ++ zeros (8 * (length st - length ws))).
Proof.
  revert ws. induction st as [|s st IH]; intros ws L.
  - destruct ws; cbn in L; [reflexivity|lia].
  - destruct ws as [|w ws].
    + cbn [xor_in length app]. symmetry. apply xor_bytes_zeros. rewrite words_to_le_length. cbn [length]. lia.
    + cbn in L. cbn [xor_in length]. unfold words_to_le in *. cbn [map concat]. rewrite <- app_assoc.
      rewrite xor_bytes_app by now rewrite !le_bytes_length. f_equal; [apply le_bytes_lxor|].
      rewrite Nat.sub_succ. apply IH. lia.
Qed.
Lemma xor_in_P st ws : Pst st -> words_ok 64 ws -> Pst (xor_in st ws).
Proof.
  intros [L H] W. split.
  - rewrite <- L. clear. revert ws. induction st as [|s st IH]; intros [|w ws]; cbn; auto.
  - clear L. revert st H. induction W as [|w ws Hw W IH]; intros st H; destruct H as [|s st Hs H]; cbn; try constructor; auto.
    + now apply lxor_lt.
    + now apply IH.
Qed.
Lemma as_bytes_spec st n : as_bytes st n = firstn n (words_to_le 8 st).
Proof.
  revert n. induction st as [|s st IH]; intros n; cbn [as_bytes].
  - now rewrite firstn_nil.
  - unfold words_to_le in *. cbn [map concat]. now rewrite firstn_app, le_bytes_length, IH.
Qed.
Lemma bytes_P st : Pst st -> words_of_le 8 (words_to_le 8 st) = st.
Proof. intros [_ H]. apply words_le_roundtrip; [lia|exact H]. Qed.
Lemma keccak_bytes_lanes nr st : Pst st -> keccak_bytes nr (words_to_le 8 st) = words_to_le 8 (p1600 nr st).
Proof. intros H. unfold keccak_bytes. now rewrite bytes_P. Qed.
Lemma default_bytes : zeros 200 = words_to_le 8 st_default.
Proof. reflexivity. Qed.

Definition rate_ok (r : nat) : Prop := exists k, r = (8 * k)%nat /\ (0 < k <= 25)%nat.
Lemma absorb_P nr r st b : rate_ok r -> Pst st -> length b = r -> bytes_ok b -> Pst (absorb_block nr st b).
Proof.
  intros (k & -> & K) H L B. unfold absorb_block. apply keccak_P, xor_in_P; [exact H|].
  apply (words_of_le_ok 8); [lia|exact B].
Qed.
Lemma absorb_block_bytes nr r st b : rate_ok r -> Pst st -> length b = r -> bytes_ok b ->
  keccak_bytes nr (xor_bytes (words_to_le 8 st) (b ++ zeros (200 - r))) = words_to_le 8 (absorb_block nr st b).
Proof.
  intros (k & -> & K) H L B. unfold absorb_block.
  rewrite <- keccak_bytes_lanes by (apply xor_in_P; [exact H|apply (words_of_le_ok 8); [lia|exact B]]).
  f_equal. rewrite xor_in_bytes.
  - rewrite (words_le_canonical 8 k) by (lia || assumption).
    rewrite words_of_le_length, L by lia. destruct H as [H _]. rewrite H.
    rewrite (Nat.mul_comm 8 k), Nat.div_mul by lia. do 3 f_equal. lia.
  - rewrite words_of_le_length, L by lia. destruct H as [H _]. rewrite H.
    rewrite (Nat.mul_comm 8 k), Nat.div_mul by lia. lia.
Qed.
Lemma absorb_lanes nr r st bl : rate_ok r -> Pst st -> Forall (fun b => length b = r) bl -> Forall bytes_ok bl ->
  fold_left (fun S Pi => keccak_bytes nr (xor_bytes S (Pi ++ zeros (200 - r)))) bl (words_to_le 8 st)
  = words_to_le 8 (fold_left (absorb_block nr) bl st) /\ Pst (fold_left (absorb_block nr) bl st).
Proof.
  intros R H L B. revert st H B. induction L as [|b bl Lb L IH]; intros st H B; [now split|].
  apply Forall_cons_iff in B. destruct B as [Bb B]. cbn [fold_left].
  rewrite absorb_block_bytes by assumption. apply IH; [|exact B]. now apply (absorb_P nr r).
Qed.
Lemma squeeze_lanes nr r n st : (r <= 200)%nat -> Pst st ->
  squeeze nr r n (words_to_le 8 st) = fst (gen_blocks (read_block nr r) n st).
Proof.
  intros R. revert st. induction n as [|n IH]; intros st H; [reflexivity|].
  cbn [squeeze gen_blocks read_block]. rewrite keccak_bytes_lanes, IH by (apply keccak_P, H || exact H).
  unfold p1600. destruct (gen_blocks (read_block nr r) n (keccak_p nr st)) as [o s]. cbn [fst].
  now rewrite as_bytes_spec.
Qed.

(** ** Padding *)
Definition tail_pad (D : N) (z : nat) : bytes :=
  match z with O => [N.lxor D 0x80] | S z => D :: zeros z ++ [0x80] end.
Definition npad (r len : nat) : nat := ((r - (len + 1) mod r) mod r)%nat.
Lemma zeros_snoc n : zeros (S n) = zeros n ++ [0].
Proof. unfold zeros. replace (S n) with (n + 1)%nat by lia. now rewrite repeat_app. Qed.
Lemma turbo_pad_tail r D M : turbo_pad r D M = M ++ tail_pad D (npad r (length M)).
Proof.
  unfold turbo_pad, npad. cbv zeta. rewrite (app_length M [D]). cbn [length].
  destruct ((r - (length M + 1) mod r) mod r)%nat as [|z].
  - cbn [zeros repeat tail_pad]. rewrite app_nil_r, app_length. cbn [length].
    rewrite firstn_app_exact by lia. now rewrite last_last.
  - rewrite zeros_snoc, !app_assoc, last_last, app_length. cbn [length].
    rewrite firstn_app_exact by lia. cbn [tail_pad]. now rewrite <- !app_assoc.
Qed.
Lemma mod_uniq n x j : (j < n)%nat -> ((x + j) mod n = 0)%nat -> ((n - x mod n) mod n = j)%nat.
Proof.
  intros L H. pose proof (Nat.div_mod x n ltac:(lia)) as E.
  pose proof (Nat.mod_upper_bound x n ltac:(lia)) as U.
  set (q := (x / n)%nat) in *. set (a := (x mod n)%nat) in *.
  assert (H2 : ((a + j) mod n = 0)%nat).
  { rewrite <- H. rewrite E. replace (n * q + a + j)%nat with (a + j + q * n)%nat by lia. now rewrite Nat.mod_add by lia. }
  destruct (Nat.eq_dec (a + j) 0) as [Z|Z].
  - replace (n - a)%nat with n by lia. rewrite Nat.mod_same; lia.
  - assert (a + j = n)%nat.
    { pose proof (Nat.div_mod (a + j) n ltac:(lia)) as E2. rewrite H2 in E2.
      assert ((a + j) / n < 2)%nat by (apply Nat.div_lt_upper_bound; lia).
      destruct ((a + j) / n)%nat as [|[|]]; lia. }
    rewrite Nat.mod_small; lia.
Qed.
Lemma npad_spec r len : (0 < r)%nat -> (npad r len < r)%nat /\ ((len + 1 + npad r len) mod r = 0)%nat.
Proof.
  intros H. unfold npad. split; [apply Nat.mod_upper_bound; lia|].
  pose proof (Nat.mod_upper_bound (len + 1) r ltac:(lia)) as U.
  rewrite Nat.add_mod_idemp_r by lia.
  pose proof (Nat.div_mod (len + 1) r ltac:(lia)) as E. set (q := ((len + 1) / r)%nat) in *.
  replace (len + 1 + (r - (len + 1) mod r))%nat with ((q + 1) * r)%nat by lia. now apply Nat.mod_mul; lia.
Qed.
Lemma byte_bits b : b < 256 -> byte_of_bits (bits_of_byte b) = b.
Proof.
  intros H.
  assert (K : forallb (fun i => N.eqb (byte_of_bits (bits_of_byte (N.of_nat i))) (N.of_nat i)) (seq 0 256) = true)
    by (vm_compute; reflexivity).
  rewrite forallb_forall in K. specialize (K (N.to_nat b)). rewrite Nnat.N2Nat.id in K.
  apply N.eqb_eq, K. apply in_seq. lia.
Qed.
Lemma bytes_of_bits_app M rest : bytes_ok M -> bytes_of_bits (bits_of_bytes M ++ rest) = M ++ bytes_of_bits rest.
Proof.
  induction 1 as [|b M Hb HM IH]; [reflexivity|].
  unfold bits_of_bytes in *. cbn [map concat]. rewrite <- app_assoc. unfold bytes_of_bits in *.
  rewrite chunks_cons by (lia || reflexivity). cbn [map app]. rewrite byte_bits by exact Hb. now f_equal.
Qed.
Lemma bits_length M : length (bits_of_bytes M) = (8 * length M)%nat.
Proof.
  unfold bits_of_bytes. rewrite (concat_length_blocks 8), map_length; [reflexivity|].
  apply Forall_forall. intros l Hl. apply in_map_iff in Hl. now destruct Hl as (b & <- & _).
Qed.
(** The suffixes in use and their bytes. *)
Definition sfx_byte (sfx : list bool) : N := byte_of_bits (sfx ++ [true]).
Definition sfx_ok (sfx : list bool) : Prop :=
  In sfx [[]; Spec.Keccak.sfx_sha3; Spec.Keccak.sfx_shake; Spec.Keccak.sfx_cshake].
Lemma zero_bits z tl : bytes_of_bits (repeat false (8 * z) ++ tl) = zeros z ++ bytes_of_bits tl.
Proof.
  induction z as [|z IH]; [reflexivity|].
  replace (8 * S z)%nat with (8 + 8 * z)%nat by lia. rewrite repeat_app, <- app_assoc.
  unfold bytes_of_bits. rewrite chunks_cons by (lia || reflexivity). cbn [map zeros repeat app].
  f_equal. exact IH.
Qed.
Lemma pad_turbo r sfx M : (0 < r)%nat -> sfx_ok sfx -> bytes_ok M -> pad r sfx M = turbo_pad r (sfx_byte sfx) M.
Proof.
  intros R Sx B. unfold pad. cbv zeta. rewrite <- app_assoc, bytes_of_bits_app by exact B.
  rewrite turbo_pad_tail. f_equal. rewrite app_length, bits_length.
  assert (Ls : (length sfx <= 4)%nat).
  { destruct Sx as [<-|[<-|[<-|[<-|[]]]]]; cbn; lia. }
  unfold pad101. rewrite (mod_uniq (8 * r) _ (8 * npad r (length M) + (6 - length sfx))).
  - destruct (npad r (length M)) as [|z].
    + destruct Sx as [<-|[<-|[<-|[<-|[]]]]]; reflexivity.
    + replace (8 * S z + (6 - length sfx))%nat with ((7 - length sfx) + 8 * z + 7)%nat by lia.
      rewrite !repeat_app, <- !app_assoc.
      replace (sfx ++ true :: repeat false (7 - length sfx) ++ repeat false (8 * z) ++ repeat false 7 ++ [true])
        with ((sfx ++ true :: repeat false (7 - length sfx)) ++ repeat false (8 * z) ++ repeat false 7 ++ [true])
        by now rewrite <- app_assoc.
      unfold bytes_of_bits at 1. rewrite chunks_cons by (try lia; rewrite app_length; cbn [length]; rewrite repeat_length; lia).
      cbn [map tail_pad]. f_equal.
      * destruct Sx as [<-|[<-|[<-|[<-|[]]]]]; reflexivity.
      * exact (zero_bits z (repeat false 7 ++ [true])).
  - destruct (npad_spec r (length M) R). lia.
  - destruct (npad_spec r (length M) R) as [_ E].
    replace (8 * length M + length sfx + 2 + (8 * npad r (length M) + (6 - length sfx)))%nat
      with (8 * (length M + 1 + npad r (length M)))%nat by lia.
    rewrite Nat.mul_mod_distr_l by lia. rewrite E. lia.
Qed.
Lemma upd_app_at {A} (a b : list A) i v : i = length a -> upd (a ++ b) i v = a ++ upd b 0 v.
Proof. intros ->. induction a as [|x a IH]; cbn; [reflexivity|]. now rewrite IH. Qed.
Lemma final_block_tail r D buf : (length buf < r)%nat -> D < 128 ->
  final_block r D buf = buf ++ tail_pad D (r - length buf - 1).
Proof.
  intros H HD. unfold final_block, pad_with_zeros. cbv zeta. rewrite upd_app_at by reflexivity.
  replace (r - length buf)%nat with (S (r - length buf - 1)) at 1 2 by lia.
  remember (r - length buf - 1)%nat as z eqn:E. cbn [zeros repeat upd].
  destruct z as [|z].
  - rewrite upd_app_at by lia. cbn [upd tail_pad]. unfold get. rewrite app_nth2 by lia.
    replace (r - 1 - length buf)%nat with 0%nat by lia. cbn [nth]. f_equal. f_equal.
    assert (K : forallb (fun i => N.eqb (N.lor (N.of_nat i) 0x80) (N.lxor (N.of_nat i) 0x80)) (seq 0 128) = true)
      by (vm_compute; reflexivity).
    rewrite forallb_forall in K. specialize (K (N.to_nat D)). rewrite Nnat.N2Nat.id in K.
    apply N.eqb_eq, K. apply in_seq. lia.
  - change (repeat 0 (S z)) with (zeros (S z)).
    replace (buf ++ D :: zeros (S z)) with ((buf ++ D :: zeros z) ++ [0]).
    2:{ rewrite zeros_snoc. now rewrite <- app_assoc. }
    assert (L : (r - 1 = length (buf ++ D :: zeros z))%nat) by (rewrite app_length; cbn [length]; rewrite zeros_length; lia).
    rewrite upd_app_at by exact L. cbn [upd tail_pad]. unfold get. rewrite app_nth2 by lia.
    replace (r - 1 - length (buf ++ D :: zeros z))%nat with 0%nat by lia. cbn [nth].
    change (N.lor 0 128) with 128. now rewrite <- app_assoc.
Qed.
Lemma tail_pad_length D z : length (tail_pad D z) = S z.
Proof. destruct z; cbn; [reflexivity|]. rewrite app_length, zeros_length. cbn. lia. Qed.
Lemma tail_pad_ok D z : D < 128 -> bytes_ok (tail_pad D z).
Proof.
  intros H. destruct z; cbn.
  - constructor; [|constructor]. apply (lxor_lt 8); [change (2 ^ 8) with 256; lia|reflexivity].
  - constructor; [lia|]. apply bytes_ok_app. split; [apply zeros_ok|]. constructor; [lia|constructor].
Qed.
Lemma npad_rem r (M : bytes) : (0 < r)%nat -> npad r (length M) = (r - length (remainder r M) - 1)%nat.
Proof.
  intros H. rewrite remainder_length by exact H. pose proof (Nat.mod_upper_bound (length M) r ltac:(lia)).
  unfold npad. apply mod_uniq; [lia|].
  pose proof (Nat.div_mod (length M) r ltac:(lia)) as E. set (q := (length M / r)%nat) in *.
  replace (length M + 1 + (r - length M mod r - 1))%nat with ((q + 1) * r)%nat by lia. now apply Nat.mod_mul; lia.
Qed.
Lemma chunks_turbo r D M : (0 < r)%nat -> D < 128 ->
  chunks r (turbo_pad r D M) = chunks r M ++ [final_block r D (remainder r M)].
Proof.
  intros H HD. rewrite turbo_pad_tail, chunks_tail by exact H.
  assert (L : (length (remainder r M) < r)%nat).
  { rewrite remainder_length by exact H. apply Nat.mod_upper_bound. lia. }
  rewrite final_block_tail by assumption. rewrite npad_rem by exact H.
  f_equal. apply chunks_one; [exact H|]. rewrite app_length, tail_pad_length. lia.
Qed.

(** ** Hashers *)
Definition within (_ : nat) : Prop := True.
(** State after absorbing the padded message: model and specification. *)
Lemma absorb_final nr r D msg st : rate_ok r -> D < 128 -> bytes_ok msg -> Pst st ->
  absorb nr r (words_to_le 8 st) (turbo_pad r D msg)
  = words_to_le 8 (absorb_block nr (fold_left (absorb_block nr) (chunks r msg) st) (final_block r D (remainder r msg)))
  /\ Pst (absorb_block nr (fold_left (absorb_block nr) (chunks r msg) st) (final_block r D (remainder r msg))).
Proof.
  intros R HD B HS. assert (R0 : (0 < r)%nat) by (destruct R as (k & -> & ?); lia).
  assert (L : (length (remainder r msg) < r)%nat).
  { rewrite remainder_length by exact R0. apply Nat.mod_upper_bound. lia. }
  unfold absorb. rewrite chunks_turbo by assumption.
  replace (absorb_block nr (fold_left (absorb_block nr) (chunks r msg) st) (final_block r D (remainder r msg)))
    with (fold_left (absorb_block nr) (chunks r msg ++ [final_block r D (remainder r msg)]) st)
    by now rewrite fold_left_app.
  apply absorb_lanes; [exact R|exact HS| |].
  - apply Forall_app. split; [now apply chunks_block_length|]. constructor; [|constructor].
    rewrite final_block_tail, app_length, tail_pad_length by assumption. lia.
  - apply Forall_app. split; [now apply chunks_ok|]. constructor; [|constructor].
    rewrite final_block_tail by assumption. apply bytes_ok_app. split; [now apply remainder_ok|now apply tail_pad_ok].
Qed.
Lemma read_block_length nr r st : (r <= 200)%nat -> Pst st -> length (fst (read_block nr r st)) = r.
Proof.
  intros R [L _]. cbn [read_block fst]. rewrite as_bytes_spec, firstn_length, words_to_le_length, L. lia.
Qed.
Lemma codec_ok cd st : Some sha3_codec = Some cd -> Pst st ->
  length (cd_ser cd st) = cd_len cd /\ cd_deser cd (cd_ser cd st) = Some st.
Proof.
  intros E H. injection E as <-. cbn [sha3_codec cd_ser cd_deser cd_len]. rewrite bytes_P by exact H.
  split; [|reflexivity]. rewrite words_to_le_length. destruct H as [-> _]. reflexivity.
Qed.
Lemma sponge_short nr r d P : (0 < d <= r)%nat -> (r <= 200)%nat ->
  length (absorb nr r (zeros 200) P) = 200%nat ->
  sponge nr r P d = firstn d (absorb nr r (zeros 200) P).
Proof.
  intros H R L. unfold sponge. destruct d as [|d]; [lia|]. cbn [squeeze].
  rewrite firstn_app, firstn_firstn, firstn_length, L.
  replace (Nat.min (S d) r) with (S d) by lia. replace (S d - Nat.min r 200)%nat with 0%nat by lia.
  now rewrite firstn_O, app_nil_r.
Qed.
Lemma sha3_core_ok r d D sfx (H : bytes -> bytes) :
  rate_ok r -> sfx_ok sfx -> D = sfx_byte sfx ->
  (forall M, bytes_ok M -> H M = firstn d (absorb 24 r (zeros 200) (pad r sfx M))) ->
  core_ok (sha3_core r d D) Pst H within.
Proof.
  intros R Sx -> HH. assert (R0 : (0 < r)%nat) by (destruct R as (k & -> & ?); lia).
  apply (fold_core_ok r (absorb_block 24) st_default Pst).
  - exact R0.
  - exact default_P.
  - intros s b Ps L B. now apply (absorb_P 24 r).
  - unfold within. auto.
  - reflexivity.
  - reflexivity.
  - intros m msg _ B. cbn [x_final shake_xof turbo_xof x_read x_rbs x_update x_reset]. cbv beta zeta. cbn [obind]. eexists. split; [|reflexivity]. f_equal. f_equal.
    rewrite HH, pad_turbo by assumption. rewrite default_bytes.
    destruct (absorb_final 24 r (sfx_byte sfx) msg st_default R) as [-> _].
    + destruct Sx as [<-|[<-|[<-|[<-|[]]]]]; reflexivity.
    + exact B.
    + exact default_P.
    + apply as_bytes_spec.
  - exact codec_ok.
Qed.
Lemma absorb_length nr r P : rate_ok r -> bytes_ok P -> length (absorb nr r (zeros 200) P) = 200%nat.
Proof.
  intros R B. assert (R0 : (0 < r)%nat) by (destruct R as (k & -> & ?); lia).
  unfold absorb. rewrite default_bytes.
  destruct (absorb_lanes nr r st_default (chunks r P) R default_P) as [-> [L _]].
  - now apply chunks_block_length.
  - now apply chunks_ok.
  - rewrite words_to_le_length, L. reflexivity.
Qed.
Lemma rate_eq r k : r = (8 * k)%nat -> (0 < k <= 25)%nat -> rate_ok r.
Proof. intros A B. exists k. now split. Qed.

Lemma pad_ok r sfx M : (0 < r)%nat -> sfx_ok sfx -> bytes_ok M -> bytes_ok (pad r sfx M).
Proof.
  intros R Sx B. rewrite pad_turbo, turbo_pad_tail by assumption. apply bytes_ok_app. split; [exact B|].
  apply tail_pad_ok. destruct Sx as [<-|[<-|[<-|[<-|[]]]]]; reflexivity.
Qed.
Lemma fixed_ok r d sfx k : r = (8 * k)%nat -> (0 < k <= 25)%nat -> (0 < d <= r)%nat -> sfx_ok sfx ->
  core_ok (sha3_core r d (sfx_byte sfx)) Pst (fun M => keccak_c r sfx M d) within.
Proof.
  intros Er K D Sx. assert (R : rate_ok r) by now apply (rate_eq r k).
  apply (sha3_core_ok r d _ sfx); [exact R|exact Sx|reflexivity|].
  intros M B. unfold keccak_c. apply sponge_short; [exact D|lia|].
  apply absorb_length; [exact R|]. apply pad_ok; (lia || assumption).
Qed.
Ltac sfx := unfold sfx_ok; cbn [In]; auto.
Lemma Keccak224_ok : core_ok Keccak224 Pst Spec.Keccak.Keccak_224 within.
Proof. apply (fixed_ok 144 28 [] 18); (lia || sfx). Qed.
Lemma Keccak256_ok : core_ok Keccak256 Pst Spec.Keccak.Keccak_256 within.
Proof. apply (fixed_ok 136 32 [] 17); (lia || sfx). Qed.
Lemma Keccak384_ok : core_ok Keccak384 Pst Spec.Keccak.Keccak_384 within.
Proof. apply (fixed_ok 104 48 [] 13); (lia || sfx). Qed.
Lemma Keccak512_ok : core_ok Keccak512 Pst Spec.Keccak.Keccak_512 within.
Proof. apply (fixed_ok 72 64 [] 9); (lia || sfx). Qed.
Lemma Sha3_224_ok : core_ok Sha3_224 Pst Spec.Keccak.SHA3_224 within.
Proof. apply (fixed_ok 144 28 Spec.Keccak.sfx_sha3 18); (lia || sfx). Qed.
Lemma Sha3_256_ok : core_ok Sha3_256 Pst Spec.Keccak.SHA3_256 within.
Proof. apply (fixed_ok 136 32 Spec.Keccak.sfx_sha3 17); (lia || sfx). Qed.
Lemma Sha3_384_ok : core_ok Sha3_384 Pst Spec.Keccak.SHA3_384 within.
Proof. apply (fixed_ok 104 48 Spec.Keccak.sfx_sha3 13); (lia || sfx). Qed.
Lemma Sha3_512_ok : core_ok Sha3_512 Pst Spec.Keccak.SHA3_512 within.
Proof. apply (fixed_ok 72 64 Spec.Keccak.sfx_sha3 9); (lia || sfx). Qed.
Lemma Keccak256Full_ok : core_ok Keccak256Full Pst Spec.Keccak.Keccak_256_full within.
Proof.
  assert (R : rate_ok 136) by exact (rate_eq 136 17 eq_refl ltac:(lia)).
  refine (sha3_core_ok 136 200 KECCAK [] Spec.Keccak.Keccak_256_full R ltac:(sfx) eq_refl _).
  intros M B. symmetry. unfold Spec.Keccak.Keccak_256_full. apply firstn_all2.
  rewrite (absorb_length 24 136 _ R); [lia|]. apply pad_ok; (lia || sfx).
Qed.
Lemma sha3_canonical b s : bytes_ok b -> length b = cd_len sha3_codec -> cd_deser sha3_codec b = Some s ->
  cd_ser sha3_codec s = b.
Proof.
  intros B L E. cbn [sha3_codec cd_ser cd_deser cd_len] in *. injection E as <-.
  apply (words_le_canonical 8 25); (lia || assumption).
Qed.

(** ** Extendable output *)
Lemma reads_sponge nr r st ns : rate_ok r -> Pst st ->
  concat (fst (rd_reads (read_block nr r) r (rd_new st) ns))
  = firstn (total ns) (squeeze nr r (total ns) (words_to_le 8 st)).
Proof.
  intros R H. assert (R0 : (0 < r <= 200)%nat) by (destruct R as (k & -> & ?); lia).
  rewrite (reads_stream (read_block nr r) r ltac:(lia) Pst).
  - unfold stream. now rewrite squeeze_lanes by (lia || exact H).
  - intros s Ps. apply read_block_length; (lia || exact Ps).
  - intros s Ps. now apply keccak_P.
  - exact H.
Qed.
Lemma shake_ok r k ns : r = (8 * k)%nat -> (0 < k <= 25)%nat ->
  core_ok (xof_core (shake_xof r SHAKE) ns) Pst
    (fun M => keccak_c r Spec.Keccak.sfx_shake M (total ns)) within.
Proof.
  intros Er K. assert (R : rate_ok r) by now apply (rate_eq r k).
  apply (fold_core_ok r (absorb_block 24) st_default Pst).
  - lia.
  - exact default_P.
  - intros s b Ps L B. now apply (absorb_P 24 r).
  - unfold within. auto.
  - reflexivity.
  - reflexivity.
  - intros m msg _ B. cbn [x_final shake_xof turbo_xof x_read x_rbs x_update x_reset]. cbv beta zeta. cbn [obind]. eexists. split; [|reflexivity]. f_equal. f_equal.
    unfold keccak_c, sponge. rewrite pad_turbo by (lia || sfx || exact B). rewrite default_bytes.
    destruct (absorb_final 24 r (sfx_byte Spec.Keccak.sfx_shake) msg st_default R) as [-> HP];
      [reflexivity|exact B|exact default_P|]. now apply reads_sponge.
  - discriminate.
Qed.
Lemma Shake128_ok ns : core_ok (xof_core Shake128 ns) Pst (fun M => Spec.Keccak.SHAKE128 M (total ns)) within.
Proof. apply (shake_ok 168 21); lia. Qed.
Lemma Shake256_ok ns : core_ok (xof_core Shake256 ns) Pst (fun M => Spec.Keccak.SHAKE256 M (total ns)) within.
Proof. apply (shake_ok 136 17); lia. Qed.

(** TurboSHAKE *)
Definition Pturbo (ds : N) (s : list N * N) : Prop := Pst (fst s) /\ snd s = ds.
Lemma fold_pair nr bl : forall (s : list N * N),
  fold_left (fun s b => (absorb_block nr (fst s) b, snd s)) bl s = (fold_left (absorb_block nr) bl (fst s), snd s).
Proof. induction bl as [|b bl IH]; intros [a d]; [reflexivity|]. cbn [fold_left]. now rewrite IH. Qed.
Lemma turbo_ok r k ds ns : r = (8 * k)%nat -> (0 < k <= 25)%nat -> is_some (turbo_new ds) ->
  core_ok (xof_core (turbo_xof r ds) ns) (Pturbo ds)
    (fun M => Spec.Keccak.TurboSHAKE r ds M (total ns)) within.
Proof.
  intros Er K [i Hi]. assert (R : rate_ok r) by now apply (rate_eq r k).
  assert (D : ds < 128).
  { unfold turbo_new in Hi. destruct (N.leb_spec 1 ds), (N.leb_spec ds 127); try discriminate. lia. }
  apply (fold_core_ok r (fun s b => (absorb_block 12 (fst s) b, snd s)) (st_default, ds) (Pturbo ds)).
  - lia.
  - split; [exact default_P|reflexivity].
  - intros s b [Ps Es] L B. split; [|exact Es]. now apply (absorb_P 12 r).
  - unfold within. auto.
  - intros m st bl. rewrite fold_pair. reflexivity.
  - intros [s d] [_ E]. cbn in *. now subst.
  - intros m msg _ B. rewrite fold_pair. cbn [fst snd]. cbn [x_final shake_xof turbo_xof x_read x_rbs x_update x_reset]. cbv beta zeta. cbn [obind]. eexists. split.
    { apply f_equal, f_equal2; [|reflexivity].
    unfold Spec.Keccak.TurboSHAKE, sponge. rewrite default_bytes.
    destruct (absorb_final 12 r ds msg st_default R) as [-> HP];
      [exact D|exact B|exact default_P|]. now apply reads_sponge. }
    reflexivity.
  - discriminate.
Qed.

(** ** cSHAKE *)
Lemma be_bytes_app j n x : be_bytes (j + n) x = be_bytes j (x / 256 ^ N.of_nat n) ++ be_bytes n x.
Proof.
  unfold be_bytes. rewrite <- rev_app_distr. f_equal. revert x. induction n as [|n IH]; intros x.
  - rewrite Nat.add_0_r, N.pow_0_r, N.div_1_r. reflexivity.
  - rewrite Nat.add_succ_r. cbn [le_bytes app]. f_equal. rewrite IH. f_equal.
    rewrite Nnat.Nat2N.inj_succ, N.pow_succ_r', N.div_div by (try discriminate; apply N.pow_nonzero; discriminate).
    reflexivity.
Qed.
Lemma le_bytes_0 n : le_bytes n 0 = zeros n.
Proof. induction n; cbn; [reflexivity|]. unfold zeros in *. cbn. now f_equal. Qed.
Lemma rev_zeros n : rev (zeros n) = zeros n.
Proof. induction n; [reflexivity|]. rewrite zeros_snoc at 1. rewrite rev_app_distr. cbn [rev app]. unfold zeros in *. cbn. now f_equal. Qed.
Lemma be_bytes_0 n : be_bytes n 0 = zeros n.
Proof. unfold be_bytes. now rewrite le_bytes_0, rev_zeros. Qed.
Lemma be_bytes_small j n x : x < 256 ^ N.of_nat n -> be_bytes (j + n) x = zeros j ++ be_bytes n x.
Proof. intros H. now rewrite be_bytes_app, N.div_small, be_bytes_0. Qed.
Lemma enc_len_spec x : 0 < x -> 256 ^ N.of_nat (enc_len x - 1) <= x < 256 ^ N.of_nat (enc_len x).
Proof.
  intros H. unfold enc_len. destruct (N.eqb_spec x 0); [lia|]. rewrite Nat.sub_succ, Nat.sub_0_r.
  rewrite !pow256. pose proof (N.log2_spec x H) as [A B].
  pose proof (Nat.div_mod (N.to_nat (N.log2 x)) 8 ltac:(lia)) as E.
  pose proof (Nat.mod_upper_bound (N.to_nat (N.log2 x)) 8 ltac:(lia)) as U.
  set (q := (N.to_nat (N.log2 x) / 8)%nat) in *.
  split.
  - eapply N.le_trans; [|exact A]. apply N.pow_le_mono_r; lia.
  - eapply N.lt_le_trans; [exact B|]. apply N.pow_le_mono_r; lia.
Qed.
Lemma enc_len_le x k : x < 256 ^ N.of_nat k -> (0 < k)%nat -> (1 <= enc_len x <= k)%nat.
Proof.
  intros H K. destruct (N.eq_dec x 0) as [->|Z]; [cbn; lia|].
  pose proof (enc_len_spec x ltac:(lia)) as [A B].
  assert (1 <= enc_len x)%nat by (unfold enc_len; destruct (x =? 0); lia).
  split; [assumption|]. destruct (Nat.le_gt_cases (enc_len x) k) as [|G]; [assumption|exfalso].
  assert (256 ^ N.of_nat k <= 256 ^ N.of_nat (enc_len x - 1)) by (apply N.pow_le_mono_r; lia). lia.
Qed.
Lemma lead_zeros_app j x l : x <> 0 -> lead_zeros (zeros j ++ x :: l) = j.
Proof.
  intros H. induction j as [|j IH]; cbn.
  - destruct (N.eqb_spec x 0); [contradiction|reflexivity].
  - f_equal. exact IH.
Qed.
Lemma lead_zeros_all j : lead_zeros (zeros j) = j.
Proof. induction j as [|j IH]; cbn; [reflexivity|]. f_equal. exact IH. Qed.
Lemma lead_enc x : x < 2 ^ 64 -> lead_zeros (firstn 7 (be_bytes 8 x)) = (8 - enc_len x)%nat.
Proof.
  intros H. destruct (N.eq_dec x 0) as [->|Z]; [reflexivity|].
  pose proof (enc_len_le x 8 H ltac:(lia)) as E. pose proof (enc_len_spec x ltac:(lia)) as [A B].
  replace 8%nat with (8 - enc_len x + enc_len x)%nat at 1 by lia. rewrite be_bytes_small by exact B.
  remember (enc_len x) as n eqn:En. destruct n as [|n]; [lia|].
  change (S n) with (1 + n)%nat. rewrite be_bytes_app. rewrite Nat.sub_succ, Nat.sub_0_r in A.
  assert (D : be_bytes 1 (x / 256 ^ N.of_nat n) = [x / 256 ^ N.of_nat n]).
  { unfold be_bytes. cbn [le_bytes rev app]. f_equal. apply N.mod_small. apply N.div_lt_upper_bound.
    - apply N.pow_nonzero; discriminate.
    - rewrite Nnat.Nat2N.inj_succ, N.pow_succ_r' in B. lia. }
  rewrite D. set (y := x / 256 ^ N.of_nat n).
  assert (Y : y <> 0).
  { unfold y. intros K. apply N.div_small_iff in K; [lia|]. apply N.pow_nonzero; discriminate. }
  destruct n as [|n].
  - change (8 - (1 + 0))%nat with 7%nat. reflexivity.
  - rewrite firstn_app, zeros_length. rewrite firstn_all2 by (rewrite zeros_length; lia).
    replace (7 - (8 - (1 + S n)))%nat with (S n) by lia. cbn [app firstn]. now apply lead_zeros_app.
Qed.
Lemma left_encode_spec x b : x < 2 ^ 64 -> length b = 9%nat ->
  fst (left_encode x b) = Spec.Keccak.left_encode x /\ length (snd (left_encode x b)) = 9%nat.
Proof.
  intros H L. destruct b as [|b0 b]; [discriminate|]. unfold left_encode. cbv zeta. change (firstn 1 (b0 :: b)) with [b0].
  change (skipn 1 ([b0] ++ be_bytes 8 x)) with (be_bytes 8 x).
  rewrite lead_enc by exact H. pose proof (enc_len_le x 8 H ltac:(lia)) as E. cbn [fst snd].
  split; [|rewrite upd_length, app_length, be_bytes_length; [reflexivity|]; rewrite app_length, be_bytes_length; cbn [length]; lia].
  unfold Spec.Keccak.left_encode. remember (enc_len x) as n eqn:En.
  assert (B : be_bytes 8 x = zeros (8 - n) ++ be_bytes n x).
  { replace 8%nat with (8 - n + n)%nat at 1 by lia. apply be_bytes_small. rewrite En.
    destruct (N.eq_dec x 0) as [->|Z]; [reflexivity|]. apply enc_len_spec. lia. }
  change ([b0] ++ be_bytes 8 x) with (b0 :: be_bytes 8 x). rewrite B. replace (8 - N.of_nat (8 - n)) with (N.of_nat n) by lia.
  destruct (8 - n)%nat as [|j]; [reflexivity|].
  change (b0 :: zeros (S j) ++ be_bytes n x) with ((b0 :: zeros (S j)) ++ be_bytes n x).
  rewrite zeros_snoc, app_comm_cons, <- app_assoc.
  rewrite upd_app_at by (cbn [length]; now rewrite zeros_length).
  apply skipn_app_exact. cbn [length]. now rewrite zeros_length.
Qed.
Lemma db_step r s0 l input : (0 < r)%nat ->
  digest_blocks (fun st bl => Some (update_blocks 24 st bl)) Eager r
    (fold_left (absorb_block 24) (chunks r l) s0) (remainder r l) input
  = Some (fold_left (absorb_block 24) (chunks r (l ++ input)) s0, remainder r (l ++ input)).
Proof.
  intros H.
  pose proof (kblocks_continue (fun st bl => Some (update_blocks 24 st bl)) (fun _ => True) Eager r H) as K.
  specialize (K (fun s _ => eq_refl)).
  assert (KA : forall s a b, True -> Some (update_blocks 24 s (a ++ b))
    = obind (Some (update_blocks 24 s a)) (fun s' => Some (update_blocks 24 s' b))).
  { intros s a b _. cbn [obind]. unfold update_blocks. now rewrite fold_left_app. }
  specialize (K KA (fun _ _ _ _ _ => I) s0 l input I). cbn [obind] in K.
  rewrite !kblocks_eager, !krem_eager in K by exact H. exact K.
Qed.
(** The bytes absorbed by the constructor before padding. *)
Definition cprefix (r : nat) (fn cust : bytes) : bytes :=
  Spec.Keccak.left_encode (N.of_nat r) ++ encode_string fn ++ encode_string cust.
(** The state the constructor reaches. *)
Definition cstate (r : nat) (fn cust : bytes) : list N :=
  let pre := cprefix r fn cust in
  absorb_block 24 (fold_left (absorb_block 24) (chunks r pre) st_default) (pad_with_zeros r (remainder r pre)).
Lemma cshake_new_spec m r fn cust : (0 < r <= 200)%nat ->
  8 * N.of_nat (length fn) < 2 ^ 64 -> 8 * N.of_nat (length cust) < 2 ^ 64 -> (fn <> [] \/ cust <> []) ->
  cshake_new m r fn cust = Some (cstate r fn cust, cstate r fn cust, CSHAKE).
Proof.
  intros R Hf Hc NE. unfold cshake_new.
  assert (C : forall A (x y : A), match fn, cust with [], [] => x | _, _ => y end = y).
  { intros A x y. destruct fn, cust; try reflexivity. destruct NE; contradiction. }
  rewrite C. clear C. unfold cmul. rewrite (N.mul_comm (N.of_nat (length fn))), (N.mul_comm (N.of_nat (length cust))).
  rewrite !fit_small by assumption.
  destruct (left_encode_spec (N.of_nat r) (zeros 9)) as [E1 L1]; [lia|reflexivity|].
  destruct (left_encode (N.of_nat r) (zeros 9)) as [e1 b1]. cbn [fst snd] in E1, L1. subst e1.
  pose proof (fun l i => db_step r st_default l i ltac:(lia)) as DB.
  pose proof (DB [] (Spec.Keccak.left_encode (N.of_nat r))) as S1.
  change (chunks r []) with (@nil bytes) in S1. change (remainder r []) with (skipn (r * (0 / r)) (@nil N)) in S1.
  rewrite skipn_nil in S1. cbn [fold_left app] in S1. rewrite S1. cbn [obind]. clear S1.
  destruct (left_encode_spec (8 * N.of_nat (length fn)) b1 Hf L1) as [E2 L2].
  destruct (left_encode (8 * N.of_nat (length fn)) b1) as [e2 b2]. cbn [fst snd] in E2, L2. subst e2.
  rewrite DB. cbn [obind]. rewrite DB. cbn [obind].
  destruct (left_encode_spec (8 * N.of_nat (length cust)) b2 Hc L2) as [E3 L3].
  destruct (left_encode (8 * N.of_nat (length cust)) b2) as [e3 b3]. cbn [fst snd] in E3. subst e3.
  rewrite DB. cbn [obind]. rewrite DB. cbn [obind].
  unfold cstate, cprefix, encode_string. now rewrite <- !app_assoc.
Qed.
Lemma left_encode_ok x : x < 2 ^ 64 -> bytes_ok (Spec.Keccak.left_encode x).
Proof.
  intros H. pose proof (enc_len_le x 8 H ltac:(lia)). unfold Spec.Keccak.left_encode.
  constructor; [lia|apply be_bytes_ok].
Qed.
Lemma cprefix_ok r fn cust : (0 < r <= 200)%nat ->
  8 * N.of_nat (length fn) < 2 ^ 64 -> 8 * N.of_nat (length cust) < 2 ^ 64 ->
  bytes_ok fn -> bytes_ok cust -> bytes_ok (cprefix r fn cust).
Proof.
  intros R Hf Hc Bf Bc. unfold cprefix, encode_string. repeat (apply bytes_ok_app; split); try assumption;
    apply left_encode_ok; (assumption || lia).
Qed.
(** [bytepad] as the code computes it: at least one padding byte, i.e. a whole
    block of zeros when the prefix already fills its blocks. *)
Definition bytepad_code (r : nat) (fn cust : bytes) : bytes :=
  let z := cprefix r fn cust in z ++ zeros (r - length z mod r).
Lemma bytepad_code_eq r fn cust : (0 < r)%nat -> (length (cprefix r fn cust) mod r <> 0)%nat ->
  bytepad_code r fn cust = bytepad (encode_string fn ++ encode_string cust) r.
Proof.
  intros R H. unfold bytepad_code, bytepad. cbv zeta. fold (cprefix r fn cust). f_equal. f_equal.
  symmetry. apply Nat.mod_small. lia.
Qed.
Lemma bytepad_code_chunks r fn cust : (0 < r)%nat ->
  chunks r (bytepad_code r fn cust) = chunks r (cprefix r fn cust) ++ [pad_with_zeros r (remainder r (cprefix r fn cust))]
  /\ (length (bytepad_code r fn cust) mod r = 0)%nat.
Proof.
  intros R. unfold bytepad_code. cbv zeta. set (z := cprefix r fn cust).
  pose proof (Nat.mod_upper_bound (length z) r ltac:(lia)) as U. split.
  - rewrite chunks_tail by exact R. f_equal. unfold pad_with_zeros. rewrite remainder_length by exact R.
    apply chunks_one; [exact R|]. rewrite app_length, zeros_length, remainder_length by exact R. lia.
  - rewrite app_length, zeros_length. pose proof (Nat.div_mod (length z) r ltac:(lia)) as E.
    set (q := (length z / r)%nat) in *.
    replace (length z + (r - length z mod r))%nat with ((q + 1) * r)%nat by lia. now apply Nat.mod_mul; lia.
Qed.
Definition Pcsh (ini : cshake_st) (s : cshake_st) : Prop :=
  Pst (fst (fst s)) /\ snd (fst s) = snd (fst ini) /\ snd s = snd ini.
Definition cabsorb (s : cshake_st) (b : bytes) : cshake_st := (absorb_block 24 (fst (fst s)) b, snd (fst s), snd s).
Lemma fold_triple bl : forall (s : cshake_st),
  fold_left cabsorb bl s = (fold_left (absorb_block 24) bl (fst (fst s)), snd (fst s), snd s).
Proof. induction bl as [|b bl IH]; intros [[a i] d]; [reflexivity|]. cbn [fold_left]. now rewrite IH. Qed.
Lemma cshake_core_ok r st pd (H : bytes -> nat -> bytes) ns : rate_ok r -> Pst st -> pd < 128 ->
  (forall msg d, bytes_ok msg -> H msg d = firstn d (squeeze 24 r d (absorb 24 r (words_to_le 8 st) (turbo_pad r pd msg)))) ->
  core_ok (xof_core (cshake_xof r (st, st, pd)) ns) (Pcsh (st, st, pd)) (fun M => H M (total ns)) within.
Proof.
  intros R Ps D HH. assert (R0 : (0 < r)%nat) by (destruct R as (k & -> & ?); lia).
  apply (fold_core_ok r cabsorb (st, st, pd) (Pcsh (st, st, pd))).
  - exact R0.
  - repeat split; apply Ps.
  - intros s b (P1 & P2 & P3) L B. split; [|now split]. now apply (absorb_P 24 r).
  - unfold within. auto.
  - intros m [[a i] p] bl. rewrite fold_triple. reflexivity.
  - intros [[a i] p] (_ & E1 & E2). cbn in E1, E2. now subst.
  - intros m msg _ B. rewrite fold_triple. cbn [fst snd cshake_xof x_final]. cbv zeta. cbn [obind].
    eexists. split.
    { cbn [cshake_xof x_read x_rbs]. apply f_equal, f_equal2; [|reflexivity]. rewrite HH by exact B.
      destruct (absorb_final 24 r pd msg st R) as [-> HP]; [exact D|exact B|exact Ps|]. now apply reads_sponge. }
    reflexivity.
  - discriminate.
Qed.
(** With a name or a customization: the sponge over [bytepad_code] and the message. *)
Definition cshake_code (r : nat) (fn cust X : bytes) (d : nat) : bytes :=
  match fn, cust with
  | [], [] => keccak_c r Spec.Keccak.sfx_shake X d
  | _, _ => keccak_c r Spec.Keccak.sfx_cshake (bytepad_code r fn cust ++ X) d
  end.
Lemma turbo_pad_app r D a M : (0 < r)%nat -> (length a mod r = 0)%nat -> turbo_pad r D (a ++ M) = a ++ turbo_pad r D M.
Proof.
  intros R H. rewrite !turbo_pad_tail, <- app_assoc. do 3 f_equal. unfold npad. rewrite app_length.
  rewrite <- Nat.add_assoc, <- (Nat.add_mod_idemp_l (length a)), H by lia. reflexivity.
Qed.
Lemma cshake_ok m r k fn cust ini ns : r = (8 * k)%nat -> (0 < k <= 25)%nat ->
  8 * N.of_nat (length fn) < 2 ^ 64 -> 8 * N.of_nat (length cust) < 2 ^ 64 -> bytes_ok fn -> bytes_ok cust ->
  cshake_new m r fn cust = Some ini ->
  core_ok (xof_core (cshake_xof r ini) ns) (Pcsh ini) (fun M => cshake_code r fn cust M (total ns)) within.
Proof.
  intros Er K Hf Hc Bf Bc E. assert (R : rate_ok r) by now apply (rate_eq r k).
  assert (R0 : (0 < r <= 200)%nat) by lia.
  assert (NE : (fn = [] /\ cust = []) \/ (fn <> [] \/ cust <> [])).
  { destruct fn, cust; [left; now split|right; right; discriminate|right; left; discriminate|right; left; discriminate]. }
  destruct NE as [[-> ->]|NE].
  - cbn in E. injection E as <-. cbn [cshake_code].
    apply (cshake_core_ok r st_default SHAKE (fun M d => keccak_c r Spec.Keccak.sfx_shake M d)); [exact R|exact default_P|reflexivity|].
    intros msg d B. unfold keccak_c, sponge. rewrite pad_turbo by (lia || sfx || exact B). now rewrite default_bytes.
  - assert (C : forall A (x y : A), match fn, cust with [], [] => x | _, _ => y end = y).
    { intros A x y. destruct fn, cust; try reflexivity. destruct NE; contradiction. }
    rewrite cshake_new_spec in E by assumption. injection E as <-.
    pose proof (cprefix_ok r fn cust R0 Hf Hc Bf Bc) as BP.
    destruct (bytepad_code_chunks r fn cust ltac:(lia)) as [BC BL].
    assert (BB : bytes_ok (bytepad_code r fn cust)).
    { unfold bytepad_code. apply bytes_ok_app. split; [exact BP|apply zeros_ok]. }
    destruct (absorb_lanes 24 r st_default (chunks r (bytepad_code r fn cust)) R default_P) as [A1 A2].
    { apply chunks_block_length. lia. }
    { apply chunks_ok; [lia|exact BB]. }
    assert (AS : fold_left (absorb_block 24) (chunks r (bytepad_code r fn cust)) st_default = cstate r fn cust).
    { rewrite BC, fold_left_app. reflexivity. }
    rewrite AS in A1, A2.
    apply (cshake_core_ok r (cstate r fn cust) CSHAKE (cshake_code r fn cust)); [exact R|exact A2|reflexivity|].
    intros msg d B. unfold cshake_code. rewrite C. unfold keccak_c, sponge.
    rewrite pad_turbo; [|lia|sfx|apply bytes_ok_app; now split].
    rewrite turbo_pad_app by (lia || exact BL). unfold absorb at 1. rewrite chunks_app by (lia || exact BL).
    rewrite fold_left_app, default_bytes, A1. reflexivity.
Qed.
Lemma turbo_new_some ds : is_some (turbo_new ds) <-> 0x01 <= ds <= 0x7F.
Proof.
  unfold turbo_new, is_some. destruct (N.leb_spec 1 ds), (N.leb_spec ds 127); cbn; split; intros HH;
    try lia; try (destruct HH; discriminate). eexists. reflexivity.
Qed.
Lemma TurboShake128_ok ds ns : is_some (turbo_new ds) -> core_ok (xof_core (TurboShake128 ds) ns) (Pturbo ds)
    (fun M => Spec.Keccak.TurboSHAKE128 ds M (total ns)) within.
Proof. exact (turbo_ok 168 21 ds ns eq_refl ltac:(lia)). Qed.
Lemma TurboShake256_ok ds ns : is_some (turbo_new ds) -> core_ok (xof_core (TurboShake256 ds) ns) (Pturbo ds)
    (fun M => Spec.Keccak.TurboSHAKE256 ds M (total ns)) within.
Proof. exact (turbo_ok 136 17 ds ns eq_refl ltac:(lia)). Qed.

Lemma cshake_new_some m r fn cust : (0 < r <= 200)%nat ->
  8 * N.of_nat (length fn) < 2 ^ 64 -> 8 * N.of_nat (length cust) < 2 ^ 64 ->
  exists ini, cshake_new m r fn cust = Some ini.
Proof.
  intros R Hf Hc. destruct fn as [|f fn], cust as [|c cust]; [eexists; reflexivity|..];
    (eexists; apply cshake_new_spec; try assumption; try (right; discriminate); try (left; discriminate)).
Qed.
Lemma cshake_standard m r k fn cust : r = (8 * k)%nat -> (0 < k <= 25)%nat -> bytes_ok fn -> bytes_ok cust ->
  8 * N.of_nat (length fn) < 2 ^ 64 -> 8 * N.of_nat (length cust) < 2 ^ 64 ->
  (fn = [] /\ cust = [] \/
   (length (Spec.Keccak.left_encode (N.of_nat r) ++ encode_string fn ++ encode_string cust) mod r <> 0)%nat) ->
  exists ini, cshake_new m r fn cust = Some ini /\
  forall ns cs, Forall bytes_ok cs ->
    h_digest (xof_core (cshake_xof r ini) ns) m cs = Some (Spec.Keccak.cSHAKE r fn cust (concat cs) (total ns)).
Proof.
  intros Er K Bf Bc Hf Hc HN. destruct (cshake_new_some m r fn cust ltac:(lia) Hf Hc) as [ini E].
  exists ini. split; [exact E|]. intros ns cs B.
  rewrite (digest_spec _ _ _ _ (cshake_ok m r k fn cust ini ns Er K Hf Hc Bf Bc E) m cs B I). f_equal.
  unfold cshake_code, Spec.Keccak.cSHAKE.
  destruct HN as [[-> ->]|HN]; [reflexivity|].
  rewrite bytepad_code_eq by (lia || exact HN). reflexivity.
Qed.
Lemma cshake_empty m :
  exists i1 i2, cshake_new m 168 [] [] = Some i1 /\ cshake_new m 136 [] [] = Some i2 /\
  forall ns cs, Forall bytes_ok cs ->
    h_digest (xof_core (CShake128 i1) ns) m cs = Some (Spec.Keccak.SHAKE128 (concat cs) (total ns)) /\
    h_digest (xof_core (CShake256 i2) ns) m cs = Some (Spec.Keccak.SHAKE256 (concat cs) (total ns)).
Proof.
  destruct (cshake_standard m 168 21 [] [] eq_refl ltac:(lia)) as (i1 & E1 & H1); try constructor; try reflexivity; [now split|].
  destruct (cshake_standard m 136 17 [] [] eq_refl ltac:(lia)) as (i2 & E2 & H2); try constructor; try reflexivity; [now split|].
  exists i1, i2. split; [exact E1|]. split; [exact E2|]. intros ns cs B. split; [exact (H1 ns cs B)|exact (H2 ns cs B)].
Qed.
Lemma cshake_always r : r = 168%nat \/ r = 136%nat -> forall m fn cust, bytes_ok fn -> bytes_ok cust ->
  8 * N.of_nat (length fn) < 2 ^ 64 -> 8 * N.of_nat (length cust) < 2 ^ 64 -> fn <> [] \/ cust <> [] ->
  exists ini, cshake_new m r fn cust = Some ini /\
  forall ns cs, Forall bytes_ok cs ->
    h_digest (xof_core (cshake_xof r ini) ns) m cs =
    Some (let z := Spec.Keccak.left_encode (N.of_nat r) ++ encode_string fn ++ encode_string cust in
          keccak_c r Spec.Keccak.sfx_cshake (z ++ zeros (r - length z mod r) ++ concat cs) (total ns)).
Proof.
  intros Hr m fn cust Bf Bc Hf Hc NE.
  assert (K : exists k, r = (8 * k)%nat /\ (0 < k <= 25)%nat) by (destruct Hr as [-> | ->]; [exists 21%nat|exists 17%nat]; lia).
  destruct K as (k & Er & K).
  destruct (cshake_new_some m r fn cust ltac:(lia) Hf Hc) as [ini E]. exists ini. split; [exact E|]. intros ns cs B.
  rewrite (digest_spec _ _ _ _ (cshake_ok m r k fn cust ini ns Er K Hf Hc Bf Bc E) m cs B I). f_equal. cbv zeta.
  unfold cshake_code, bytepad_code, cprefix. cbv zeta.
  destruct fn, cust; try (now rewrite <- app_assoc). destruct NE; contradiction.
Qed.
(** Witnesses of the disagreement. *)
Lemma cshake128_wrong : exists cust, bytes_ok cust /\ length cust = 161%nat /\
  forall m, exists ini, cshake_new m 168 [] cust = Some ini /\
    h_digest (xof_core (CShake128 ini) [1%nat]) m [] <> Some (Spec.Keccak.cSHAKE128 [] cust [] 1).
Proof.
  exists (zeros 161). split; [apply zeros_ok|]. split; [reflexivity|]. intros m.
  destruct (cshake_always 168 (or_introl eq_refl) m [] (zeros 161)) as (ini & E & H);
    [constructor|apply zeros_ok|reflexivity|reflexivity|right; discriminate|].
  exists ini. split; [exact E|]. specialize (H [1%nat] [] (Forall_nil _)). unfold CShake128. rewrite H.
  clear. vm_compute. discriminate.
Qed.
Lemma cshake256_wrong : exists cust, bytes_ok cust /\ length cust = 129%nat /\
  forall m, exists ini, cshake_new m 136 [] cust = Some ini /\
    h_digest (xof_core (CShake256 ini) [1%nat]) m [] <> Some (Spec.Keccak.cSHAKE256 [] cust [] 1).
Proof.
  exists (zeros 129). split; [apply zeros_ok|]. split; [reflexivity|]. intros m.
  destruct (cshake_always 136 (or_intror eq_refl) m [] (zeros 129)) as (ini & E & H);
    [constructor|apply zeros_ok|reflexivity|reflexivity|right; discriminate|].
  exists ini. split; [exact E|]. specialize (H [1%nat] [] (Forall_nil _)). unfold CShake256. rewrite H.
  clear. vm_compute. discriminate.
Qed.
Lemma cshake_customized m cust : bytes_ok cust -> 8 * N.of_nat (length cust) < 2 ^ 64 ->
  (cust = [] \/ (length (Spec.Keccak.left_encode 168 ++ Spec.Keccak.encode_string [] ++ Spec.Keccak.encode_string cust) mod 168 <> 0)%nat ->
   exists ini, cshake_new_customized m 168 cust = Some ini /\
   forall ns cs, Forall bytes_ok cs ->
     h_digest (xof_core (CShake128 ini) ns) m cs = Some (Spec.Keccak.cSHAKE128 [] cust (concat cs) (total ns))) /\
  (cust = [] \/ (length (Spec.Keccak.left_encode 136 ++ Spec.Keccak.encode_string [] ++ Spec.Keccak.encode_string cust) mod 136 <> 0)%nat ->
   exists ini, cshake_new_customized m 136 cust = Some ini /\
   forall ns cs, Forall bytes_ok cs ->
     h_digest (xof_core (CShake256 ini) ns) m cs = Some (Spec.Keccak.cSHAKE256 [] cust (concat cs) (total ns))).
Proof.
  intros B L. split; intros H.
  - apply (cshake_standard m 168 21 [] cust eq_refl ltac:(lia)); [constructor|exact B|reflexivity|exact L|].
    destruct H as [H|H]; [left; now split|right; exact H].
  - apply (cshake_standard m 136 17 [] cust eq_refl ltac:(lia)); [constructor|exact B|reflexivity|exact L|].
    destruct H as [H|H]; [left; now split|right; exact H].
Qed.
