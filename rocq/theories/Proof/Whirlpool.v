(** The whirlpool crate computes Whirlpool. *)
From Verif Require Import Base.Words Base.Bytes Base.ByteFacts Base.Codec Base.BlockBuffer Base.BlockBufferFacts Base.Digest
  Base.DigestFacts Base.MDFacts Base.Limit Spec.GF Proof.GF Model.WhirlpoolTables Model.Whirlpool.
From Verif Require Spec.Whirlpool.
Import Spec.Whirlpool (matrix, at_, gamma, pi, theta, sigma, rho, W, c).

Definition TABS : list (list N) := [C0; C1; C2; C3; C4; C5; C6; C7].
Lemma tabs_check : check_tables le_val 0x11d (transpose Spec.Whirlpool.C) Spec.Whirlpool.S TABS = true.
Proof. vm_compute. reflexivity. Qed.
Lemma rc_check : RC = map (fun r => le_val (nth 0 (c r) [])) (seq 1 10).
Proof. vm_compute. reflexivity. Qed.
Lemma S_lt_check : forallb (fun x => Spec.Whirlpool.S (N.of_nat x) <? 256) (seq 0 256) = true.
Proof. vm_compute. reflexivity. Qed.
Lemma S_lt x : x < 256 -> Spec.Whirlpool.S x < 256.
Proof.
  intros H. pose proof (proj1 (forallb_forall _ _) S_lt_check (N.to_nat x) ltac:(apply in_seq; lia)) as E.
  cbv beta in E. rewrite N2Nat.id in E. now apply N.ltb_lt in E.
Qed.
Lemma M_ok : Forall bytes_ok (transpose Spec.Whirlpool.C).
Proof. repeat constructor. Qed.
Local Opaque Spec.Whirlpool.S C0 C1 C2 C3 C4 C5 C6 C7 RC Spec.Whirlpool.C.

Definition mok (R : matrix) : Prop := length R = 8%nat /\ Forall (fun r => length r = 8%nat /\ bytes_ok r) R.
Definition enc (R : matrix) : list N := map le_val R.

Lemma byte_of r t : length r = 8%nat -> bytes_ok r -> (t < 8)%nat ->
  N.land (N.shiftr (le_val r) (8 * N.of_nat t)) 255 = get r t.
Proof. intros L B H. rewrite <- (get_le_bytes 8) by exact H. rewrite <- L at 1. now rewrite le_bytes_val. Qed.
Lemma get_enc R i : (i < length R)%nat -> get (enc R) i = le_val (nth i R []).
Proof. intros H. unfold get, enc. rewrite (nth_indep _ oob (le_val [])) by now rewrite map_length. apply map_nth. Qed.
Lemma mok_row R i : mok R -> (i < 8)%nat -> length (nth i R []) = 8%nat /\ bytes_ok (nth i R []).
Proof. intros [L F] H. apply (proj1 (Forall_forall _ _) F). apply nth_In. lia. Qed.

Definition lookt (k : nat) (x : N) : N := get (nth k TABS []) (N.to_nat x).
Lemma row_xors k i : row k i = xors (map (fun t => lookt t (N.land (N.shiftr (get k ((8 - t + i) mod 8)) (8 * N.of_nat t)) 255)) (seq 0 8)).
Proof.
  unfold row. cbn [seq map]. rewrite !xors_cons. change (xors []) with 0. rewrite N.lxor_0_r. rewrite !N.lxor_assoc.
  change (8 * N.of_nat 0) with 0. rewrite N.shiftr_0_r.
  replace ((8 - 0 + i) mod 8)%nat with (i mod 8)%nat.
  - reflexivity.
  - replace (8 - 0 + i)%nat with (i + 1 * 8)%nat by lia. symmetry. apply Nat.mod_add. lia.
Qed.
Lemma row_spec R i : mok R -> (i < 8)%nat -> row (enc R) i = le_val (nth i (theta (pi (gamma R))) []).
Proof.
  intros OK H. pose proof OK as [L F]. rewrite row_xors.
  set (v := map (fun j => at_ R ((i + 8 - j) mod 8) j) (seq 0 8)).
  assert (Bv : forall j, (j < 8)%nat -> at_ R ((i + 8 - j) mod 8) j < 256).
  { intros j Hj. unfold at_. change 256 with (2 ^ 8). apply get_ok; [|reflexivity]. apply mok_row; [exact OK|]. apply Nat.mod_upper_bound. lia. }
  transitivity (xors (map (fun t => lookt t (get v t)) (seq 0 8))).
  - f_equal. apply map_ext_in. intros t Ht. apply in_seq in Ht. f_equal. unfold v. rewrite get_map_seq by lia.
    assert (Hm : ((8 - t + i) mod 8 < 8)%nat) by (apply Nat.mod_upper_bound; lia).
    rewrite get_enc by lia. destruct (mok_row R ((8 - t + i) mod 8) OK Hm) as [Lr Br].
    rewrite byte_of by (assumption || lia). unfold at_. do 2 f_equal. f_equal. lia.
  - rewrite (ttable le_val 0x11d (transpose Spec.Whirlpool.C) Spec.Whirlpool.S lookt v); [|exact le_linear|lia|exact M_ok| | |].
    + f_equal. unfold theta, pi. rewrite map_map. rewrite nth_map_seq by exact H. f_equal. unfold v. rewrite map_map.
      apply map_ext_in. intros j Hj. apply in_seq in Hj. unfold at_, gamma, get.
      assert (Hm : ((i + 8 - j) mod 8 < 8)%nat) by (apply Nat.mod_upper_bound; lia).
      rewrite (nth_indep (map (map Spec.Whirlpool.S) R) [] (map Spec.Whirlpool.S [])) by (rewrite map_length; lia).
      rewrite map_nth. rewrite (nth_indep (map Spec.Whirlpool.S _) oob (Spec.Whirlpool.S oob)).
      * now rewrite map_nth.
      * rewrite map_length. destruct (mok_row R ((i + 8 - j) mod 8) OK Hm) as [-> _]. lia.
    + apply Forall_forall. intros x Hx. apply in_map_iff in Hx as (j & <- & Hj). apply in_seq in Hj. apply Bv. lia.
    + unfold v. now rewrite map_length, seq_length.
    + intros k x Hk Hx. unfold lookt. now apply (check_tables_ok _ _ _ _ _ tabs_check).
Qed.

(** The matrices stay 8 x 8 byte matrices. *)
Lemma theta_ok R : mok (theta (pi (gamma R))).
Proof.
  unfold theta, pi. rewrite map_map. split; [now rewrite map_length, seq_length|].
  apply Forall_forall. intros r Hr. apply in_map_iff in Hr as (i & <- & _). split.
  - unfold mat_vec. rewrite map_length. reflexivity.
  - unfold mat_vec. apply Forall_forall. intros x Hx. apply in_map_iff in Hx as (q & <- & Hq). unfold dot.
    change 256 with (2 ^ 8). apply xors_lt, Forall_forall. intros y Hy. apply in_map_iff in Hy as (k & <- & _).
    apply gmul_lt; [lia|]. change 256 with (2 ^ 8). apply get_ok; [|reflexivity]. exact (proj1 (Forall_forall _ _) M_ok q Hq).
Qed.
Lemma sigma_ok A B : mok A -> mok B -> mok (sigma A B).
Proof.
  intros [La Fa] [Lb Fb]. unfold sigma. split; [rewrite map_length, combine_length; lia|].
  apply Forall_forall. intros r Hr. apply in_map_iff in Hr as ([a b] & <- & Hin). cbn [fst snd].
  pose proof (proj1 (Forall_forall _ _) Fa a (in_combine_l _ _ _ _ Hin)) as [L1 B1].
  pose proof (proj1 (Forall_forall _ _) Fb b (in_combine_r _ _ _ _ Hin)) as [L2 B2].
  split; [rewrite xor_bytes_length; lia|now apply xor_bytes_ok].
Qed.
Lemma enc_sigma A B i : mok A -> mok B -> (i < 8)%nat ->
  le_val (nth i (sigma A B) []) = N.lxor (le_val (nth i A [])) (le_val (nth i B [])).
Proof.
  intros OA OB H. pose proof OA as [La _]. pose proof OB as [Lb _]. unfold sigma.
  change (@nil N) with ((fun p : list N * list N => xor_bytes (fst p) (snd p)) ([], [])) at 1.
  rewrite map_nth, combine_nth by lia. cbn [fst snd].
  destruct (mok_row A i OA H), (mok_row B i OB H). apply le_val_xor; auto; lia.
Qed.
Lemma enc_eq (f : nat -> N) R : length R = 8%nat -> (forall i, (i < 8)%nat -> f i = le_val (nth i R [])) -> map f (seq 0 8) = enc R.
Proof.
  intros L E. apply list_eq_get; unfold enc; rewrite !map_length, ?seq_length; [lia|].
  intros i Hi. rewrite get_map_seq by exact Hi. fold (enc R). rewrite get_enc by lia. now apply E.
Qed.

Lemma c_ok r : mok (c r).
Proof.
  unfold c. split; [reflexivity|]. constructor.
  - split; [now rewrite map_length, seq_length|]. apply Forall_forall. intros x Hx. apply in_map_iff in Hx as (j & <- & _).
    set (y := N.of_nat (8 * (r - 1) + j)). unfold Spec.Whirlpool.c in *.
    destruct (N.lt_ge_cases y 256) as [Hy|Hy]; [now apply S_lt|].
    Transparent Spec.Whirlpool.S. unfold Spec.Whirlpool.S, Spec.Whirlpool.box.
    assert (EB : forall x, get Spec.Whirlpool.E x < 16) by (intros x; change 16 with (2 ^ 4); apply get_ok; repeat constructor).
    assert (IB : forall x, Spec.Whirlpool.Einv x < 16).
    { intros x. unfold Spec.Whirlpool.Einv. destruct (find _ _) as [n|] eqn:F; [|reflexivity].
      apply find_some in F as [F _]. apply in_seq in F. lia. }
    cbv zeta. match goal with |- 16 * get Spec.Whirlpool.E ?a + Spec.Whirlpool.Einv ?b < 256 => pose proof (EB a); pose proof (IB b) end. lia.
  - cbn [repeat]. repeat constructor.
Qed.
Opaque Spec.Whirlpool.S.

Lemma key_add r i : (r < 10)%nat -> (i < 8)%nat -> (if (i =? 0)%nat then get RC r else 0) = le_val (nth i (c (S r)) []).
Proof.
  intros Hr Hi. destruct i as [|i]; cbn [Nat.eqb].
  - rewrite rc_check. unfold get.
    rewrite (nth_indep _ oob (le_val (nth 0 (c 0%nat) []))) by (rewrite map_length, seq_length; exact Hr).
    rewrite (map_nth (fun r => le_val (nth 0 (c r) []))), seq_nth by exact Hr. reflexivity.
  - unfold c. cbn [nth]. do 7 (destruct i as [|i]; [reflexivity|]). lia.
Qed.

Lemma round_spec K M r : mok K -> mok M -> (r < 10)%nat ->
  round (enc K, enc M) r = (let KM := Spec.Whirlpool.round (K, M) (S r) in (enc (fst KM), enc (snd KM))) /\
  mok (fst (Spec.Whirlpool.round (K, M) (S r))) /\ mok (snd (Spec.Whirlpool.round (K, M) (S r))).
Proof.
  intros OK OM Hr. unfold round, Spec.Whirlpool.round. cbn [fst snd]. cbv zeta. cbn [fst snd].
  assert (OK' : mok (rho (c (S r)) K)) by (apply sigma_ok; [apply c_ok|apply theta_ok]).
  assert (OM' : mok (rho (rho (c (S r)) K) M)) by (apply sigma_ok; [exact OK'|apply theta_ok]).
  assert (EK : map (fun i => N.lxor (row (enc K) i) (if (i =? 0)%nat then get RC r else 0)) (seq 0 8) = enc (rho (c (S r)) K)).
  { apply enc_eq; [apply OK'|]. intros i Hi. unfold rho at 1. rewrite enc_sigma by (apply c_ok || apply theta_ok || exact Hi).
    rewrite row_spec by assumption. rewrite key_add by assumption. apply N.lxor_comm. }
  rewrite EK. split; [|split; assumption]. f_equal.
  apply enc_eq; [apply OM'|]. intros i Hi. unfold rho at 2. rewrite enc_sigma by (exact OK' || apply theta_ok || exact Hi).
  rewrite row_spec by assumption. rewrite get_enc by (destruct OK' as [-> _]; exact Hi). apply N.lxor_comm.
Qed.

Lemma rounds_spec n : forall r K M, mok K -> mok M -> (r + n <= 10)%nat ->
  fold_left round (seq r n) (enc K, enc M) =
    (let KM := fold_left Spec.Whirlpool.round (seq (S r) n) (K, M) in (enc (fst KM), enc (snd KM))) /\
  mok (snd (fold_left Spec.Whirlpool.round (seq (S r) n) (K, M))).
Proof.
  induction n as [|n IH]; intros r K M OK OM H.
  - split; [reflexivity|exact OM].
  - cbn [seq fold_left]. destruct (round_spec K M r OK OM ltac:(lia)) as (E & O1 & O2).
    rewrite E. cbv zeta. destruct (Spec.Whirlpool.round (K, M) (S r)) as [K' M']. cbn [fst snd] in *. apply IH; auto; lia.
Qed.

Lemma block_ok block : length block = 64%nat -> bytes_ok block -> mok (chunks 8 block).
Proof.
  intros L B. split; [rewrite chunks_length, L by lia; reflexivity|].
  apply Forall_and; [apply chunks_block_length; lia|]. now apply chunks_ok; [lia|].
Qed.
Lemma compress_spec H block : mok H -> length block = 64%nat -> bytes_ok block ->
  compress_block (enc H) block = enc (Spec.Whirlpool.compress H block) /\ mok (Spec.Whirlpool.compress H block).
Proof.
  intros OH L B. unfold compress_block, Spec.Whirlpool.compress. cbv zeta.
  pose proof (block_ok block L B) as OM. change (words_of_le 8 block) with (enc (chunks 8 block)).
  set (M := chunks 8 block) in *. clearbody M.
  assert (ES : map (fun i => N.lxor (get (enc M) i) (get (enc H) i)) (seq 0 8) = enc (sigma H M)).
  { apply enc_eq; [now apply sigma_ok|]. intros i Hi. rewrite enc_sigma by assumption.
    rewrite !get_enc by (destruct OM, OH; lia). apply N.lxor_comm. }
  rewrite ES. destruct (rounds_spec 10 0 H (sigma H M) OH (sigma_ok _ _ OH OM) ltac:(lia)) as [E OW].
  rewrite E. cbv zeta. fold (W H M) in *. set (w := W H M) in *.
  assert (OR : mok (sigma (sigma w H) M)) by (apply sigma_ok; [apply sigma_ok|]; assumption).
  split; [|exact OR]. apply enc_eq; [apply OR|]. intros i Hi.
  rewrite enc_sigma; [|now apply sigma_ok|exact OM|exact Hi]. rewrite enc_sigma by assumption.
  rewrite !get_enc by (destruct OM, OH, OW; lia). rewrite N.lxor_assoc, (N.lxor_comm (le_val (nth i H []))), !N.lxor_assoc.
  f_equal. apply N.lxor_comm.
Qed.

(** ** The 256-bit length counter *)
Definition wl (v : N) : list N :=
  [v / 2 ^ 64 / 2 ^ 64 / 2 ^ 64 mod 2 ^ 64; v / 2 ^ 64 / 2 ^ 64 mod 2 ^ 64; v / 2 ^ 64 mod 2 ^ 64; v mod 2 ^ 64].
Lemma carry_div B v x : B <> 0 -> v / B + (v mod B + x) / B = (v + x) / B.
Proof.
  intros H. rewrite (N.div_mod v B H) at 3. rewrite <- N.add_assoc, (N.mul_comm B), N.div_add_l by exact H. reflexivity.
Qed.
Lemma update_len_wl v x : update_len (wl v) x = wl (v + x).
Proof.
  unfold update_len, wl, adc. cbn [get nth]. rewrite !N.shiftr_div_pow2, !N.add_0_r.
  set (B := 2 ^ 64). assert (HB : B <> 0) by discriminate.
  rewrite <- !(carry_div B v x HB). set (c1 := (v mod B + x) / B).
  rewrite <- !(carry_div B (v / B) c1 HB). set (c2 := (v / B mod B + c1) / B).
  rewrite <- !(carry_div B (v / B / B) c2 HB). set (c3 := (v / B / B mod B + c2) / B).
  now rewrite !N.add_mod_idemp_l.
Qed.
Lemma wl_bytes v : words_to_be 8 (wl v) = be_bytes 32 v.
Proof.
  unfold words_to_be, wl. cbn [map concat]. rewrite app_nil_r.
  change (2 ^ 64) with (2 ^ (8 * N.of_nat 8)). rewrite !be_bytes_mod.
  rewrite (be_bytes_app 24 8), (be_bytes_app 16 8), (be_bytes_app 8 8), <- !app_assoc. reflexivity.
Qed.
Lemma wl_ok v : length (wl v) = 4%nat /\ words_ok 64 (wl v).
Proof. split; [reflexivity|]. repeat constructor; apply N.mod_lt; discriminate. Qed.

(** ** The hasher with an unbounded block count per call *)
Definition ideal_update (m : mode) (s : wp_st) (blocks : list bytes) : option wp_st :=
  Some (compress (fst s) blocks, update_len (snd s) (512 * N.of_nat (length blocks))).
Definition P (s : list N) : Prop := exists R, mok R /\ s = enc R.
Definition inv (s : wp_st) : Prop := P (fst s) /\ exists v, snd s = wl v.
Definition within (len : nat) : Prop := 8 * N.of_nat len < 2 ^ 256.
Definition iv : matrix := repeat (zeros 8) 8.
Lemma iv_ok : mok iv.
Proof. split; [reflexivity|]. unfold iv. apply Forall_forall. intros r Hr. apply repeat_spec in Hr as ->. split; [reflexivity|]. repeat constructor. Qed.
Lemma P_state s : P s -> length s = 8%nat /\ words_ok 64 s.
Proof.
  intros (R & [L F] & ->). unfold enc. split; [now rewrite map_length|]. apply Forall_map.
  apply (Forall_impl _ ltac:(intros r Hr; exact Hr)) in F. eapply Forall_impl; [|exact F]. intros r [Lr Br].
  pose proof (le_val_lt r Br) as Lt. rewrite Lr in Lt. exact Lt.
Qed.
Lemma P_compress s b : P s -> length b = 64%nat -> bytes_ok b -> P (compress_block s b).
Proof. intros (R & O & ->) L B. destruct (compress_spec R b O L B) as [-> O']. eexists. split; [exact O'|reflexivity]. Qed.
Lemma digest_rows R : mok R -> words_to_le 8 (enc R) = concat R.
Proof.
  intros [_ F]. unfold words_to_le, enc. rewrite map_map. f_equal. rewrite <- (map_id R) at 2.
  apply map_ext_in. intros r Hr. rewrite Forall_forall in F. destruct (F r Hr) as [L B]. rewrite <- L at 1. now apply le_bytes_val.
Qed.

Lemma ideal_ok : core_ok (with_update Whirlpool ideal_update) inv Spec.Whirlpool.Whirlpool within.
Proof.
  constructor; cbn [cst c_bs c_kind c_init c_ibuf c_update c_final c_reset c_codec with_update Whirlpool].
  - lia.
  - reflexivity.
  - unfold within. lia.
  - split; [exists iv; split; [exact iv_ok|reflexivity]|]. exists 0. reflexivity.
  - intros m s bl s' [I1 [v I2]] L B [= <-]. split; cbn [fst snd].
    + apply (fold_P 64 compress_block P); auto. exact P_compress.
    + rewrite I2, update_len_wl. eexists. reflexivity.
  - intros m [s bl] [_ [v E]]. cbn [snd] in E. subst bl. unfold ideal_update. cbn [fst snd length]. rewrite update_len_wl.
    change (512 * N.of_nat 0) with 0. now rewrite N.add_0_r.
  - intros m [s bl] a b [_ [v E]]. cbn [snd] in E. subst bl. unfold ideal_update. cbn [fst snd obind].
    rewrite !update_len_wl, app_length, Nat2N.inj_add. unfold compress. rewrite fold_left_app. do 3 f_equal. lia.
  - intros m msg W B. cbn [app]. rewrite kblocks_eager, krem_eager by lia. unfold ideal_update. cbn [fst snd].
    change (repeat 0 4) with (wl 0). rewrite update_len_wl, N.add_0_l, chunks_length by lia.
    eexists. eexists. split; [reflexivity|]. split; [|reflexivity]. unfold wp_finalize. cbn [fst snd].
    rewrite remainder_length by lia. unfold cmul. rewrite fit_small.
    2:{ pose proof (Nat.mod_upper_bound (length msg) 64 ltac:(lia)). change (2 ^ 64) with 18446744073709551616. lia. }
    cbn [obind]. rewrite update_len_wl, wl_bytes.
    replace (512 * N.of_nat (length msg / 64) + 8 * N.of_nat (length msg mod 64)) with (8 * N.of_nat (length msg))
      by (pose proof (Nat.div_mod_eq (length msg) 64); lia).
    apply f_equal, f_equal2; [|reflexivity]. unfold Spec.Whirlpool.Whirlpool, compress.
    pose proof (md_sim (fun s v => mok v /\ s = enc v) compress_block Spec.Whirlpool.compress 64 (repeat 0 8) iv
      0x80 (be_bytes 32 (8 * blen msg)) msg) as S.
    destruct S as [O S].
    + lia.
    + rewrite be_bytes_length. lia.
    + reflexivity.
    + apply be_bytes_ok.
    + exact B.
    + intros s v x [V ->] L Bx. destruct (compress_spec v x V L Bx) as [-> V']. split; [exact V'|reflexivity].
    + split; [exact iv_ok|reflexivity].
    + unfold blen in *. rewrite S. now apply digest_rows.
  - reflexivity.
  - constructor.
  - intros cd s [= <-] [PP [v E]]. apply P_state in PP as [L Wd]. destruct s as [s bl]. cbn [fst snd] in *. subst bl.
    cbn [cd_len cd_ser cd_deser wp_codec fst snd].
    destruct (wl_ok v) as [L2 W2]. assert (L1 : length (words_to_le 8 s) = 64%nat) by now rewrite words_to_le_length, L.
    rewrite app_length, L1, words_to_le_length, L2. split; [reflexivity|].
    rewrite (firstn_app_exact 64), (skipn_app_exact 64) by exact L1.
    rewrite !words_le_roundtrip by first [lia | exact Wd | exact W2]. reflexivity.
Qed.
Lemma ideal_update_eq m s bl : N.of_nat (64 * length bl) < 2 ^ 61 -> wp_update m s bl = ideal_update m s bl.
Proof. intros H. unfold wp_update, ideal_update, cmul. change (8 * 64) with 512. now rewrite fit_small by lia. Qed.
Lemma Whirlpool_digest m cs : Forall bytes_ok cs -> Forall slice_ok cs -> 8 * N.of_nat (length (concat cs)) < 2 ^ 256 ->
  h_digest Whirlpool m cs = Some (Spec.Whirlpool.Whirlpool (concat cs)).
Proof.
  intros B S Wn. rewrite (limit_digest Whirlpool (2 ^ 61) ideal_update).
  - exact (digest_spec _ _ _ _ ideal_ok m cs B Wn).
  - cbn. lia.
  - reflexivity.
  - exact ideal_update_eq.
  - exact S.
Qed.
