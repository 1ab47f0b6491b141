(** The streebog crate computes Streebog. *)
From Verif Require Import Base.Words Base.Bytes Base.ByteFacts Base.Codec Base.BlockBuffer Base.BlockBufferFacts Base.Digest
  Base.DigestFacts Base.MDFacts Spec.GF Proof.GF Model.Streebog.
From Verif Require Spec.Streebog Model.StreebogTables.
Import Spec.Streebog (pi, rev8, l, L_matrix, PI, LPS, X).

(** ** Tables *)
Lemma pi_check : PI = StreebogTables.P.
Proof. vm_compute. reflexivity. Qed.
Lemma C_check : C64 = map (words_of_le 8) Spec.StreebogTables.C.
Proof. vm_compute. reflexivity. Qed.
Lemma C_ok : Forall (fun c => length c = 64%nat /\ bytes_ok c) Spec.StreebogTables.C.
Proof.
  assert (E : forallb (fun c => (length c =? 64)%nat && forallb (fun x => x <? 256) c) Spec.StreebogTables.C = true) by (vm_compute; reflexivity).
  apply Forall_forall. intros c Hc. rewrite forallb_forall in E. specialize (E c Hc). apply andb_true_iff in E as [E1 E2].
  split; [now apply Nat.eqb_eq|]. apply Forall_forall. intros x Hx. rewrite forallb_forall in E2. now apply N.ltb_lt, E2.
Qed.

Lemma rev8_lt x : rev8 x < 256.
Proof.
  unfold rev8. change 256 with (2 ^ 8). apply xors_lt, Forall_forall. intros y Hy. apply in_map_iff in Hy as (i & <- & Hi).
  apply in_seq in Hi. destruct (N.testbit x _); [|reflexivity]. apply N.pow_lt_mono_r; lia.
Qed.
Lemma rev8_xor x y : rev8 (N.lxor x y) = N.lxor (rev8 x) (rev8 y).
Proof.
  unfold rev8. generalize (seq 0 8). intros s. induction s as [|i s IH]; cbn [map]; [reflexivity|].
  rewrite !xors_cons, IH, N.lxor_spec.
  set (A := xors _). set (B := xors (map (fun i => if N.testbit y _ then _ else _) s)). clearbody A B. set (p := 2 ^ _). clearbody p.
  destruct (N.testbit x _), (N.testbit y _); cbn [xorb]; rewrite ?N.lxor_0_l; bitblast.
Qed.
Definition enc (v : list N) : N := le_val (map rev8 v).
Lemma enc_linear : linear enc.
Proof.
  split.
  - intros a b Ba Bb E. unfold enc. rewrite <- le_val_xor.
    + f_equal. unfold xor_bytes. clear. revert b. induction a as [|x a IH]; intros [|y b]; try reflexivity.
      cbn [combine map fst snd]. now rewrite IH, rev8_xor.
    + apply Forall_map, Forall_forall. intros. apply rev8_lt.
    + apply Forall_map, Forall_forall. intros. apply rev8_lt.
    + now rewrite !map_length.
  - intros n. unfold enc. rewrite <- (le_val_zeros n). f_equal. unfold zeros. induction n as [|n IH]; cbn; [reflexivity|]. now rewrite IH.
Qed.
Definition M' : list (list N) := rev (map (@rev N) L_matrix).
Lemma M'_ok : Forall bytes_ok M'.
Proof. repeat constructor. Qed.
Definition piP (x : N) : N := get StreebogTables.P (N.to_nat x).
Lemma pi_piP x : pi x = piP x.
Proof. unfold pi, piP. now rewrite pi_check. Qed.
Lemma tabs_check : check_tables enc 0x171 M' (fun x => rev8 (piP x)) SHUFFLED_LIN_TABLE = true.
Proof. vm_compute. reflexivity. Qed.
Global Opaque PI.

(** ** The transformation LPS *)
Definition vok (a : list N) : Prop := length a = 64%nat /\ bytes_ok a.
Definition W (a : list N) : list N := words_of_le 8 a.
Definition row (a : list N) (i : nat) : list N := map (fun t => get a (8 * i + t)) (seq 0 8).
Lemma chunks_rows (a : list N) : length a = 64%nat -> chunks 8 a = map (row a) (seq 0 8).
Proof. intros L. explode a. reflexivity. Qed.
Lemma W_rows (a : list N) : length a = 64%nat -> W a = map (fun i => le_val (row a i)) (seq 0 8).
Proof. intros L. unfold W, words_of_le. rewrite chunks_rows by exact L. now rewrite map_map. Qed.
Lemma row_ok a i : bytes_ok a -> bytes_ok (row a i).
Proof. intros B. unfold row. apply Forall_map, Forall_forall. intros t _. change 256 with (2 ^ 8). now apply get_ok. Qed.
Lemma row_length a i : length (row a i) = 8%nat.
Proof. reflexivity. Qed.
Lemma l_length w : length (l w) = 8%nat.
Proof. unfold l. rewrite rev_length, map_length. unfold mat_vec. now rewrite map_length. Qed.
Lemma l_ok w : bytes_ok (l w).
Proof. unfold l. apply Forall_rev, Forall_map, Forall_forall. intros. apply rev8_lt. Qed.
Lemma X_ok a b : vok a -> vok b -> vok (X a b).
Proof. intros [La Ba] [Lb Bb]. split; [unfold X; rewrite xor_bytes_length; lia|now apply xor_bytes_ok]. Qed.
Lemma LPS_rows x : length x = 64%nat ->
  LPS x = concat (map (fun i => l (map (fun j => pi (get x (8 * j + i))) (seq 0 8))) (seq 0 8)).
Proof.
  intros L. unfold LPS, Spec.Streebog.L. f_equal. rewrite chunks_rows by (unfold Spec.Streebog.P; now rewrite map_length, seq_length).
  rewrite map_map. apply map_ext_in. intros i Hi. apply in_seq in Hi. f_equal. unfold row. apply map_ext_in. intros j Hj. apply in_seq in Hj.
  unfold Spec.Streebog.P. rewrite get_map_seq by lia. unfold Spec.Streebog.tau.
  replace ((8 * i + j) mod 8)%nat with j by (rewrite (Nat.mul_comm 8), Nat.add_comm, Nat.mod_add by lia; symmetry; apply Nat.mod_small; lia).
  replace ((8 * i + j) / 8)%nat with i by (rewrite (Nat.mul_comm 8), Nat.add_comm, Nat.div_add by lia; rewrite Nat.div_small by lia; lia).
  unfold Spec.Streebog.S, get. rewrite (nth_indep (map pi x) oob (pi oob)) by (rewrite map_length; lia). now rewrite map_nth.
Qed.
Lemma LPS_ok x : length x = 64%nat -> vok (LPS x).
Proof.
  intros L. rewrite LPS_rows by exact L. split; [reflexivity|]. apply bytes_ok_concat, Forall_map, Forall_forall. intros. apply l_ok.
Qed.
Lemma get_W a i : length a = 64%nat -> (i < 8)%nat -> get (W a) i = le_val (row a i).
Proof. intros L H. rewrite W_rows by exact L. now rewrite get_map_seq. Qed.
Lemma get_xor a b i : length a = length b -> (i < length a)%nat -> get (xor_bytes a b) i = N.lxor (get a i) (get b i).
Proof.
  revert b i. induction a as [|x a IH]; intros [|y b] i E H; try discriminate; [cbn in H; lia|]. injection E as E.
  destruct i as [|i]; [reflexivity|]. unfold get, xor_bytes in *. cbn [combine map nth fst snd length] in *. apply IH; [exact E|lia].
Qed.
Lemma row_X a b i : length a = length b -> (8 * i + 8 <= length a)%nat -> row (X a b) i = xor_bytes (row a i) (row b i).
Proof. intros E H. unfold row. rewrite <- map_xor. apply map_ext_in. intros t Ht. apply in_seq in Ht. unfold X. apply get_xor; [exact E|lia]. Qed.
Lemma W_X a b i : vok a -> vok b -> (i < 8)%nat -> get (W (X a b)) i = N.lxor (get (W a) i) (get (W b) i).
Proof.
  intros [La Ba] [Lb Bb] H. pose proof (X_ok a b (conj La Ba) (conj Lb Bb)) as [Lx Bx].
  rewrite !get_W by assumption. rewrite row_X by (congruence || lia). apply le_val_xor; try apply row_ok; auto.
Qed.
Lemma W_byte a j i : vok a -> (j < 8)%nat -> (i < 8)%nat ->
  N.land (N.shiftr (get (W a) j) (8 * N.of_nat i)) 0xff = get a (8 * j + i).
Proof.
  intros [L B] Hj Hi. rewrite get_W by assumption. change 0xff with 255. rewrite <- (get_le_bytes 8) by exact Hi.
  rewrite <- (row_length a j) at 1. rewrite le_bytes_val by now apply row_ok. unfold row. now rewrite get_map_seq.
Qed.

Lemma dot_rev r v : length r = 8%nat -> length v = 8%nat -> dot 0x171 r (rev v) = dot 0x171 (rev r) v.
Proof.
  intros Lr Lv. explode r. explode v. unfold dot. cbn [rev app seq map get nth]. rewrite !xors_cons. change (xors []) with 0.
  generalize (gmul 0x171). intros f. rewrite !N.lxor_0_r.
  repeat match goal with |- context [f ?a ?b] => let z := fresh "z" in set (z := f a b); clearbody z end.
  apply N.bits_inj. intros i. rewrite !N.lxor_spec. repeat match goal with |- context [N.testbit ?a ?b] => destruct (N.testbit a b) end; reflexivity.
Qed.
Lemma L_matrix_rows : Forall (fun r => length r = 8%nat) L_matrix.
Proof. repeat constructor. Qed.
Lemma l_enc w : length w = 8%nat -> le_val (l w) = enc (mat_vec 0x171 M' (map rev8 w)).
Proof.
  intros Lw. unfold l, enc, M'. f_equal. rewrite <- map_rev. f_equal. unfold mat_vec. rewrite map_rev, (map_rev _ (map (@rev N) L_matrix)), map_map.
  f_equal. apply map_ext_in. intros r Hr. apply dot_rev; [|now rewrite map_length].
  exact (proj1 (Forall_forall _ _) L_matrix_rows r Hr).
Qed.
Lemma fold_xors {A} (f : A -> N) (s : list A) x : fold_left (fun b j => N.lxor b (f j)) s x = N.lxor x (xors (map f s)).
Proof.
  revert x. induction s as [|a s IH]; intros x; cbn [fold_left map]; [now rewrite N.lxor_0_r|].
  rewrite IH, xors_cons. apply N.lxor_assoc.
Qed.
Definition lookt (k : nat) (x : N) : N := get (nth k SHUFFLED_LIN_TABLE []) (N.to_nat x).
Lemma lps_spec a b : vok a -> vok b -> lps (W a) (W b) = W (LPS (X a b)).
Proof.
  intros Va Vb. pose proof (X_ok a b Va Vb) as Vx. unfold lps. cbv zeta.
  assert (E : map (fun i => N.lxor (get (W a) i) (get (W b) i)) (seq 0 8) = W (X a b)).
  { rewrite (W_rows (X a b)) by apply Vx. apply map_ext_in. intros i Hi. apply in_seq in Hi. rewrite <- get_W by (apply Vx || lia).
    symmetry. apply W_X; auto; lia. }
  rewrite E. clear E. set (x := X a b) in *. clearbody x. clear a b Va Vb.
  unfold W at 2, words_of_le. rewrite LPS_rows by apply Vx. rewrite chunks_concat; [|lia|apply Forall_map, Forall_forall; intros; apply l_length].
  rewrite map_map. apply map_ext_in. intros i Hi. apply in_seq in Hi.
  rewrite l_enc by now rewrite map_length, seq_length. rewrite map_map.
  rewrite (fold_xors (fun j => get (nth j SHUFFLED_LIN_TABLE []) (N.to_nat (N.land (N.shiftr (get (W x) j) (8 * N.of_nat i)) 255)))).
  rewrite N.lxor_0_l.
  pose proof (ttable enc 0x171 M' (fun x => rev8 (piP x)) lookt (map (fun j => get x (8 * j + i)) (seq 0 8)) enc_linear ltac:(lia) M'_ok) as T.
  rewrite map_map in T. etransitivity; [|etransitivity; [apply T|]].
  - f_equal. apply map_ext_in. intros j Hj. apply in_seq in Hj. unfold lookt. rewrite get_map_seq by lia.
    now rewrite W_byte by (exact Vx || lia).
  - apply Forall_map, Forall_forall. intros j _. change 256 with (2 ^ 8). apply get_ok; [|reflexivity]. apply Vx.
  - now rewrite map_length, seq_length.
  - intros k y Hk Hy. unfold lookt. now apply (check_tables_ok _ _ _ _ _ tabs_check).
  - apply f_equal, f_equal, map_ext. intros j. exact (f_equal rev8 (eq_sym (pi_piP _))).
Qed.
Global Opaque SHUFFLED_LIN_TABLE.

(** ** The compression function *)
Lemma W_length a : vok a -> length (W a) = 8%nat.
Proof. intros [L _]. rewrite W_rows by exact L. reflexivity. Qed.
Lemma rounds_spec cs m K : Forall vok cs -> vok m -> vok K ->
  exists m' K', fold_left Spec.Streebog.round cs (K, m) = (K', m') /\ vok m' /\ vok K' /\
  fold_left (fun s c => let '(block, key) := s in (lps block key, lps key c))
    (map W cs) (W m, W K) = (W m', W K').
Proof.
  intros F. revert m K. induction F as [|c cs Vc F IH]; intros m K Vm VK; cbn [fold_left map].
  - exists m, K. auto.
  - rewrite !lps_spec by assumption. unfold Spec.Streebog.round at 2.
    assert (E : X m K = X K m).
    { unfold X, xor_bytes. clear. revert K. induction m as [|x m IH]; intros [|y K]; try reflexivity. cbn [combine map fst snd].
      f_equal; [apply N.lxor_comm|apply IH]. }
    rewrite E. apply IH; apply LPS_ok, X_ok; assumption.
Qed.
Lemma g_spec h n m : vok h -> vok n -> vok m -> g (W h) (W n) (W m) = W (Spec.Streebog.g n h m) /\ vok (Spec.Streebog.g n h m).
Proof.
  intros Vh Vn Vm. unfold g. cbv zeta. rewrite lps_spec by assumption. rewrite C_check.
  assert (VK : vok (LPS (X h n))) by (apply LPS_ok, X_ok; assumption).
  destruct (rounds_spec Spec.StreebogTables.C m (LPS (X h n)) C_ok Vm VK) as (m' & K' & E & Vm' & VK' & R).
  change (words_of_le 8) with W. rewrite R. unfold Spec.Streebog.g, Spec.Streebog.E. rewrite E.
  assert (V1 : vok (X K' m')) by now apply X_ok. assert (V2 : vok (X h m)) by now apply X_ok.
  assert (V3 : vok (X (X K' m') (X h m))) by now apply X_ok. split; [|exact V3].
  rewrite (W_rows (X (X K' m') (X h m))) by apply V3. apply map_ext_in. intros i Hi. apply in_seq in Hi.
  rewrite <- get_W by (apply V3 || lia). rewrite !W_X by (assumption || lia). bitblast.
Qed.

(** ** 512-bit counters *)
Fixpoint wval (l : list N) : N := match l with [] => 0 | x :: t => x + 2 ^ 64 * wval t end.
Lemma wval_lt ws : words_ok 64 ws -> wval ws < 2 ^ (64 * N.of_nat (length ws)).
Proof.
  induction 1 as [|x ws H _ IH]; [reflexivity|]. cbn [wval length].
  replace (64 * N.of_nat (S (length ws))) with (64 + 64 * N.of_nat (length ws)) by lia. rewrite N.pow_add_r.
  set (p := 2 ^ (64 * _)) in *. clearbody p. nia.
Qed.
Lemma wval_words ws : words_ok 64 ws -> words_of_le 8 (le_bytes (8 * length ws) (wval ws)) = ws.
Proof.
  induction 1 as [|x ws H F IH]; [reflexivity|]. cbn [length wval]. replace (8 * S (length ws))%nat with (8 + 8 * length ws)%nat by lia.
  rewrite le_bytes_app. unfold words_of_le. rewrite chunks_cons by (lia || apply le_bytes_length). cbn [map]. apply f_equal2.
  - rewrite le_val_bytes. change (256 ^ N.of_nat 8) with (2 ^ 64). rewrite (N.mul_comm (2 ^ 64)), N.mod_add by discriminate. now apply N.mod_small.
  - change (256 ^ N.of_nat 8) with (2 ^ 64). rewrite (N.mul_comm (2 ^ 64)), N.div_add by discriminate. rewrite N.div_small by exact H.
    exact IH.
Qed.
Lemma wval_W (b : bytes) : vok b -> wval (W b) = le_val b.
Proof.
  intros [L B]. rewrite W_rows by exact L. explode b. unfold row. cbn [Nat.mul Nat.add seq map get nth le_val wval]. lia.
Qed.
Lemma adc_spec a b c : a < 2 ^ 64 -> b < 2 ^ 64 ->
  fst (adc a b c) < 2 ^ 64 /\ fst (adc a b c) + 2 ^ 64 * N.b2n (snd (adc a b c)) = a + b + N.b2n c.
Proof.
  intros Ha Hb. unfold adc, wadd. cbv zeta. cbn [fst snd]. set (M := 2 ^ 64) in *.
  split; [apply N.mod_lt; discriminate|].
  assert (HM : 1 < M) by reflexivity. clearbody M.
  assert (Hc : N.b2n c <= 1) by (destruct c; cbn; lia). set (k := N.b2n c) in *. clearbody k.
  destruct (N.leb_spec M (a + b)) as [L1|L1].
  - replace ((a + b) mod M) with (a + b - M) by (apply (N.mod_unique _ _ 1); lia).
    destruct (N.leb_spec M (a + b - M + k)) as [L2|L2]; [lia|]. cbn [orb N.b2n]. rewrite N.mod_small by lia. lia.
  - rewrite (N.mod_small (a + b)) by lia.
    destruct (N.leb_spec M (a + b + k)) as [L2|L2]; cbn [orb N.b2n].
    + replace ((a + b + k) mod M) with (a + b + k - M) by (apply (N.mod_unique _ _ 1); lia). lia.
    + rewrite N.mod_small by lia. lia.
Qed.
Lemma mod_of_sum x c s m : x < m -> x + m * c = s -> x = s mod m.
Proof. intros H <-. rewrite N.mul_comm, N.mod_add by lia. symmetry. now apply N.mod_small. Qed.
Ltac adc_step :=
  match goal with |- context [adc ?a ?b ?c] =>
    let Ha := fresh "A" in
    assert (Ha : a < 2 ^ 64) by first [assumption | reflexivity]; let Hb := fresh "B" in assert (Hb : b < 2 ^ 64) by first [assumption | reflexivity | lia];
    let S1 := fresh "S" in let S2 := fresh "S" in destruct (adc_spec a b c Ha Hb) as [S1 S2];
    let x := fresh "x" in let d := fresh "d" in
    destruct (adc a b c) as [x d]; cbn [fst snd] in S1, S2; clear Ha Hb end.
Lemma update_sigma_spec s m : words_ok 64 s -> length s = 8%nat -> words_ok 64 m -> length m = 8%nat ->
  words_ok 64 (update_sigma s m) /\ length (update_sigma s m) = 8%nat /\
  wval (update_sigma s m) = (wval s + wval m) mod 2 ^ 512.
Proof.
  intros Os Ls Om Lm. explode s. explode m.
  unfold words_ok in *. repeat match goal with H : Forall _ (_ :: _) |- _ => apply Forall_cons_iff in H as [? H] end.
  unfold update_sigma. cbn [seq fold_left get nth upd firstn skipn app].
  do 8 (adc_step; cbn [seq fold_left get nth upd firstn skipn app]). cbn [fst].
  split; [repeat (constructor; [assumption|]); constructor|]. split; [reflexivity|].
  apply (mod_of_sum _ (N.b2n d6)).
  - match goal with |- wval ?l < _ => apply (wval_lt l) end. repeat (constructor; [assumption|]); constructor.
  - cbn [wval]. change (N.b2n false) with 0 in *. change (2 ^ 512) with (2 ^ 64 * (2 ^ 64 * (2 ^ 64 * (2 ^ 64 * (2 ^ 64 * (2 ^ 64 * (2 ^ 64 * 2 ^ 64))))))).
    lia.
Qed.
Definition wok (ws : list N) : Prop := words_ok 64 ws /\ length ws = 8%nat.
Lemma update_n_spec n len : wok n -> len <= 64 ->
  wok (update_n n len) /\ (wval n + 8 * len < 2 ^ 448 -> wval (update_n n len) = wval n + 8 * len).
Proof.
  intros [On Ln] Hl. explode n. unfold wok.
  unfold words_ok in *. repeat match goal with H : Forall _ (_ :: _) |- _ => apply Forall_cons_iff in H as [? H] end.
  unfold update_n. cbn [seq fold_left get nth upd firstn skipn app].
  do 7 (adc_step; cbn [seq fold_left get nth upd firstn skipn app]). cbn [fst].
  split; [split; [repeat (constructor; [assumption|]); constructor|reflexivity]|].
  cbn [wval]. change (N.b2n false) with 0 in *.
  intros W1. assert (D : N.b2n d5 = 0).
  { destruct d5; [|reflexivity]. exfalso. change (N.b2n true) with 1 in *. change (2 ^ 448) with (2 ^ 64 * (2 ^ 64 * (2 ^ 64 * (2 ^ 64 * (2 ^ 64 * (2 ^ 64 * (2 ^ 64))))))) in W1. lia. }
  rewrite D in *. lia.
Qed.
(** The carry into the last word of [n] is lost. *)
Lemma update_n_wraps : exists n, wok n /\ wval n = 2 ^ 448 - 512 /\ wval (update_n n 64) = 0.
Proof.
  exists [2 ^ 64 - 512; 2 ^ 64 - 1; 2 ^ 64 - 1; 2 ^ 64 - 1; 2 ^ 64 - 1; 2 ^ 64 - 1; 2 ^ 64 - 1; 0].
  split; [split; [repeat constructor|reflexivity]|]. split; vm_compute; reflexivity.
Qed.

(** ** Hashing *)
Import Spec.Streebog (vec, stage2, stage3).
Lemma vec_ok x : vok (vec x).
Proof. split; [apply le_bytes_length|apply le_bytes_ok]. Qed.
Lemma wok_vec ws : wok ws -> ws = W (vec (wval ws)).
Proof. intros [O L]. pose proof (wval_words ws O) as E. rewrite L in E. symmetry. exact E. Qed.
Lemma W_wok a : vok a -> wok (W a).
Proof.
  intros V. split; [|now apply W_length]. destruct V as [L B]. exact (words_of_le_ok 8 a ltac:(lia) B).
Qed.
Lemma wok_vok ws : wok ws -> exists a, vok a /\ ws = W a.
Proof. intros H. exists (vec (wval ws)). split; [apply vec_ok|now apply wok_vec]. Qed.
Definition Pst (s : sb_st) : Prop := let '(h, n, sigma) := s in wok h /\ wok n /\ wok sigma.
Lemma compress_P len s b : len <= 64 -> Pst s -> vok b -> Pst (compress len s b).
Proof.
  destruct s as [[h n] sg]. intros Hl (Hh & Hn & Hs) Vb. unfold compress. cbv zeta. cbn [Pst].
  destruct (wok_vok h Hh) as (hb & Vh & ->). rewrite (wok_vec n Hn) at 1.
  change (words_of_le 8 b) with (W b). destruct (g_spec hb (vec (wval n)) b Vh (vec_ok _) Vb) as [-> V].
  pose proof (W_wok b Vb) as [Ob Lb]. destruct Hs as [Os Ls].
  destruct (update_sigma_spec sg (W b) Os Ls Ob Lb) as (O' & L' & _).
  split; [now apply W_wok|]. split; [now apply update_n_spec|]. split; assumption.
Qed.
Definition R (s : sb_st) (t : list N * N * N) : Prop :=
  let '(h, n, sigma) := s in let '(hb, N_, S_) := t in
  vok hb /\ h = W hb /\ wok n /\ wval n = N_ /\ wok sigma /\ wval sigma = S_.
Lemma compress_R len h n sg hb N_ S_ b : len <= 64 -> N_ + 8 * len < 2 ^ 448 -> R (h, n, sg) (hb, N_, S_) -> vok b ->
  R (compress len (h, n, sg) b) (Spec.Streebog.g (vec N_) hb b, N_ + 8 * len, (S_ + le_val b) mod 2 ^ 512).
Proof.
  intros Hl HN (Vh & -> & Hn & <- & Hs & <-) Vb. unfold compress. cbv zeta. cbn [R].
  change (words_of_le 8 b) with (W b).
  destruct (g_spec hb (vec (wval n)) b Vh (vec_ok _) Vb) as [G V]. rewrite <- (wok_vec n Hn) in G. rewrite G.
  pose proof (W_wok b Vb) as [Ob Lb]. destruct Hs as [Os Ls].
  destruct (update_sigma_spec sg (W b) Os Ls Ob Lb) as (O' & L' & E'). rewrite (wval_W b Vb) in E'.
  destruct (update_n_spec n len Hn Hl) as [Hn' En]. repeat split; try assumption; try apply Hn'; try apply V. now apply En.
Qed.
Lemma blocks_R bl : Forall vok bl -> forall s t, R s t -> snd (fst t) + 512 * N.of_nat (length bl) < 2 ^ 448 ->
  R (fold_left (compress 64) bl s) (fold_left stage2 bl t) /\
  snd (fst (fold_left stage2 bl t)) = snd (fst t) + 512 * N.of_nat (length bl).
Proof.
  induction 1 as [|b bl Vb F IH]; intros s t HR HN; cbn [fold_left length].
  - split; [exact HR|]. lia.
  - destruct s as [[h n] sg], t as [[hb N_] S_]. cbn [fst snd length] in HN.
    pose proof (compress_R 64 h n sg hb N_ S_ b ltac:(lia) ltac:(lia) HR Vb) as HR'.
    assert (E : stage2 (hb, N_, S_) b = (Spec.Streebog.g (vec N_) hb b, N_ + 8 * 64, (S_ + le_val b) mod 2 ^ 512)).
    { unfold stage2. f_equal. f_equal. change (8 * 64) with 512. apply N.mod_small.
      assert (2 ^ 448 < 2 ^ 512) by reflexivity. lia. }
    rewrite E. destruct (IH _ _ HR') as [H1 H2]; [cbn [fst snd]; lia|]. split; [exact H1|]. rewrite H2. cbn [fst snd]. lia.
Qed.
Lemma last_block (M : bytes) : (length M < 64)%nat -> upd (pad_with_zeros 64 M) (length M) 1 = M ++ [1] ++ zeros (63 - length M).
Proof.
  intros H. unfold pad_with_zeros. replace (64 - length M)%nat with (S (63 - length M)) by lia.
  rewrite upd_app_r, Nat.sub_diag by lia. reflexivity.
Qed.
Lemma W_bytes a : vok a -> words_to_le 8 (W a) = a.
Proof. intros [L B]. unfold W. apply (words_le_canonical 8 8); [lia|exact B|exact L]. Qed.

Definition within (len : nat) : Prop := 8 * N.of_nat len < 2 ^ 448.
Lemma core_sb_ok hl h0 : repeat h0 8 = W (Spec.Streebog.IV hl) -> vok (Spec.Streebog.IV hl) ->
  core_ok (streebog_core hl h0) Pst (Spec.Streebog.Streebog hl) within.
Proof.
  intros EI VI. assert (Z : wok (repeat 0 8)) by (split; [repeat constructor|reflexivity]).
  apply (fold_core_ok 64 (compress 64) (repeat h0 8, repeat 0 8, repeat 0 8) Pst).
  - lia.
  - split; [|split; exact Z]. rewrite EI. now apply W_wok.
  - intros s b Ps L B. apply compress_P; [lia|exact Ps|now split].
  - unfold within. lia.
  - reflexivity.
  - reflexivity.
  - intros m msg Hw B. unfold within in Hw. unfold sb_finalize. cbv zeta.
    pose proof (len_split 64 (length msg) ltac:(lia)) as ES. change (N.of_nat 64) with 64 in ES.
    pose proof (Nat.mod_upper_bound (length msg) 64 ltac:(lia)) as EU.
    assert (VB : Forall vok (chunks 64 msg)).
    { apply Forall_forall. intros c Hc. split.
      - exact (proj1 (Forall_forall _ _) (chunks_block_length 64 msg ltac:(lia)) c Hc).
      - exact (proj1 (Forall_forall _ _) (chunks_ok 64 msg ltac:(lia) B) c Hc). }
    assert (R0 : R (repeat h0 8, repeat 0 8, repeat 0 8) (Spec.Streebog.IV hl, 0, 0)).
    { cbn [R]. repeat split; try assumption; try apply VI; try apply Z; vm_compute; reflexivity. }
    destruct (blocks_R _ VB _ _ R0) as [R1 EN]; [cbn [fst snd]; rewrite chunks_length by lia; lia|].
    cbn [fst snd] in EN. rewrite chunks_length in EN by lia.
    unfold Spec.Streebog.Streebog. destruct (fold_left stage2 (chunks 64 msg) (Spec.Streebog.IV hl, 0, 0)) as [[hb N_] S_].
    destruct (fold_left (compress 64) (chunks 64 msg) _) as [[h n] sg]. cbn [fst snd] in EN. cbn [stage3]. unfold stage3.
    rewrite last_block by (rewrite remainder_length by lia; exact EU).
    set (M := remainder 64 msg). assert (LM : length M = (length msg mod 64)%nat) by (apply remainder_length; lia).
    set (b := M ++ [1] ++ zeros (63 - length M)).
    assert (Vb : vok b).
    { split; [unfold b; rewrite !app_length, zeros_length; cbn [length]; lia|]. unfold b. apply bytes_ok_app. split; [now apply remainder_ok|].
      constructor; [reflexivity|apply zeros_ok]. }
    pose proof (compress_R (N.of_nat (length M)) h n sg hb N_ S_ b ltac:(lia) ltac:(lia) R1 Vb) as R2.
    replace ((N_ + 8 * N.of_nat (length M)) mod 2 ^ 512) with (N_ + 8 * N.of_nat (length M)).
    2:{ symmetry. apply N.mod_small. assert (2 ^ 448 < 2 ^ 512) by reflexivity. lia. }
    destruct (compress _ (h, n, sg) b) as [[h1 n1] sg1]. destruct R2 as (V1 & -> & Hn & En & Hs & Es).
    set (h2 := Spec.Streebog.g (vec N_) hb b) in *. clearbody h2.
    assert (VZ : vok (zeros 64)) by (split; [reflexivity|apply zeros_ok]).
    change (repeat 0 8) with (W (zeros 64)). rewrite (wok_vec n1 Hn), (wok_vec sg1 Hs), En, Es.
    destruct (g_spec h2 (zeros 64) (vec (N_ + 8 * N.of_nat (length M))) V1 VZ (vec_ok _)) as [-> V2].
    match goal with |- context [vec (?x mod ?y)] => destruct (g_spec _ (zeros 64) (vec (x mod y)) V2 VZ (vec_ok _)) as [-> V3] end.
    eexists. split; [|reflexivity]. now rewrite W_bytes.
  - intros cd st [= <-]. destruct st as [[h n] sg]. intros ([O1 L1] & [O2 L2] & [O3 L3]). apply sized_roundtrip. cbn [cd_len cd_ser cd_deser sb_codec].
    assert (K : forall ws, length ws = 8%nat -> length (words_to_le 8 ws) = 64%nat) by (intros ws Lw; now rewrite words_to_le_length, Lw).
    split; [rewrite !app_length, !K by assumption; reflexivity|].
    rewrite (firstn_app_exact 64 (words_to_le 8 h)) by now apply K. rewrite (skipn_app_exact 64 (words_to_le 8 h)) by now apply K.
    rewrite firstn_app_exact by now apply K.
    rewrite app_assoc. rewrite skipn_app_exact by (rewrite app_length, !K by assumption; reflexivity).
    now rewrite !words_le_roundtrip by (lia || assumption).
Qed.
Lemma Streebog256_ok : core_ok Streebog256 Pst (Spec.Streebog.Streebog 32) within.
Proof. apply core_sb_ok; [reflexivity|]. split; [reflexivity|repeat constructor]. Qed.
Lemma Streebog512_ok : core_ok Streebog512 Pst (Spec.Streebog.Streebog 64) within.
Proof. apply core_sb_ok; [reflexivity|]. split; [reflexivity|repeat constructor]. Qed.
Lemma Streebog256_digest m cs : Forall bytes_ok cs -> 8 * N.of_nat (length (concat cs)) < 2 ^ 448 ->
  h_digest Streebog256 m cs = Some (Spec.Streebog.Streebog 32 (concat cs)).
Proof. exact (digest_spec _ _ _ _ Streebog256_ok m cs). Qed.
Lemma Streebog512_digest m cs : Forall bytes_ok cs -> 8 * N.of_nat (length (concat cs)) < 2 ^ 448 ->
  h_digest Streebog512 m cs = Some (Spec.Streebog.Streebog 64 (concat cs)).
Proof. exact (digest_spec _ _ _ _ Streebog512_ok m cs). Qed.
Lemma update_n_refuted : ~ (forall n len, words_ok 64 n -> length n = 8%nat -> len <= 64 ->
  le_val (words_to_le 8 (update_n n len)) = (le_val (words_to_le 8 n) + 8 * len) mod 2 ^ 512).
Proof.
  intros H. specialize (H [2 ^ 64 - 512; 2 ^ 64 - 1; 2 ^ 64 - 1; 2 ^ 64 - 1; 2 ^ 64 - 1; 2 ^ 64 - 1; 2 ^ 64 - 1; 0] 64).
  specialize (H ltac:(repeat constructor) eq_refl ltac:(discriminate)).
  match type of H with ?a = ?b => assert (E : (a =? b) = false) by (vm_compute; reflexivity) end.
  rewrite H, N.eqb_refl in E. discriminate E.
Qed.
