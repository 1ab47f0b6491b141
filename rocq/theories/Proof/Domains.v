(** Domain separation. *)
From Verif Require Import Base.Words Base.Bytes Base.ByteFacts Base.Digest Base.DigestFacts Base.Xof Spec.Collision Spec.Blocks Spec.Domains
  Proof.Encodings Proof.Collision Proof.Padding Proof.PaddedHashers.
From Verif Require Spec.Keccak Spec.BLAKE2 Model.Sha3 Model.Blake2 Proof.Sha3 Proof.Blake2.
Import Spec.Keccak (turbo_pad).

Lemma families_apart r f f' M M' : (0 < r)%nat -> f <> f' ->
  chunks r (turbo_pad r (domain_byte f) M) <> chunks r (turbo_pad r (domain_byte f') M').
Proof.
  intros R D E. apply D. apply turbo_blocks_inj in E; [|exact R|destruct f; cbn; lia|destruct f'; cbn; lia].
  destruct E as [_ E]. destruct f, f'; (reflexivity || discriminate E).
Qed.
Lemma domains_apart r D D' M M' : (0 < r)%nat -> 0x01 <= D <= 0x7F -> 0x01 <= D' <= 0x7F -> D <> D' ->
  chunks r (turbo_pad r D M) <> chunks r (turbo_pad r D' M').
Proof. intros R H H' N E. apply N. apply turbo_blocks_inj in E; [now destruct E|exact R|lia|lia]. Qed.

(** ** cSHAKE *)
Lemma cshake_absorbs r : r = 168%nat \/ r = 136%nat -> forall m fn cust, bytes_ok fn -> bytes_ok cust ->
  8 * N.of_nat (length fn) < 2 ^ 64 -> 8 * N.of_nat (length cust) < 2 ^ 64 -> fn <> [] \/ cust <> [] ->
  exists ini, Model.Sha3.cshake_new m r fn cust = Some ini /\
  forall ns cs, Forall bytes_ok cs ->
    h_digest (xof_core (Model.Sha3.cshake_xof r ini) ns) m cs = Some (sponge_run 24 r (total ns) (cshake_blocks r fn cust (concat cs))).
Proof.
  intros Hr m fn cust Bf Bc Hf Hc NE. destruct (Proof.Sha3.cshake_always r Hr m fn cust Bf Bc Hf Hc NE) as (ini & E & H).
  exists ini. split; [exact E|]. intros ns cs B. rewrite (H ns cs B). f_equal. cbv zeta.
  unfold cshake_blocks, cshake_prefix. cbv zeta. set (z := Spec.Keccak.left_encode (N.of_nat r) ++ Spec.Keccak.encode_string fn ++ Spec.Keccak.encode_string cust). rewrite <- (app_assoc z). subst z.
  apply sponge_turbo; [destruct Hr; lia|unfold Proof.Sha3.sfx_ok; cbn [In]; auto|reflexivity|].
  assert (BC : bytes_ok (concat cs)).
  { clear -B. induction B; [constructor|]. cbn [concat]. apply bytes_ok_app. now split. }
  assert (BE : forall x, bytes_ok x -> 8 * N.of_nat (length x) < 2 ^ 64 -> bytes_ok (Spec.Keccak.encode_string x)).
  { intros x Bx Hx. unfold Spec.Keccak.encode_string. apply bytes_ok_app. split; [now apply Proof.Sha3.left_encode_ok|exact Bx]. }
  apply bytes_ok_app. split; [|apply bytes_ok_app; split; [apply zeros_ok|exact BC]].
  apply bytes_ok_app. split; [apply Proof.Sha3.left_encode_ok; destruct Hr as [-> | ->]; reflexivity|].
  apply bytes_ok_app. split; apply BE; assumption.
Qed.
Lemma estring_spec s : 8 * N.of_nat (length s) < 2 ^ 64 -> Spec.Keccak.encode_string s = estring s.
Proof. intros H. unfold Spec.Keccak.encode_string, estring. now rewrite (proj1 (Proof.Sha3.left_encode_spec _ (zeros 9) H eq_refl)). Qed.
Lemma cshake_apart r fn cust fn' cust' M M' : (0 < r)%nat ->
  Forall (fun x => 8 * N.of_nat (length x) < 2 ^ 64) [fn; cust; fn'; cust'] ->
  cshake_blocks r fn cust M = cshake_blocks r fn' cust' M' -> fn = fn' /\ cust = cust' /\ M = M'.
Proof.
  intros R H E. apply turbo_blocks_inj in E; [|exact R|lia|lia]. destruct E as [E _].
  unfold cshake_prefix in E. cbv zeta in E. rewrite <- !app_assoc in E. apply app_inv_head in E.
  pose proof H as HH. inversion_clear HH as [|? ? H1 H2]. inversion_clear H2 as [|? ? H3 H4]. inversion_clear H4 as [|? ? H5 H6].
  inversion_clear H6 as [|? ? H7 _]. rewrite !estring_spec in E by assumption.
  apply strings_inj in E; [|exact H]. destruct E as (-> & -> & E). apply app_inv_head in E. auto.
Qed.

(** ** BLAKE2 *)
Import Spec.BLAKE2 (zpad, param_block, xor_words, le_words).
Lemma xor_words_inj iv : forall a b, length a = length iv -> length b = length iv -> xor_words iv a = xor_words iv b -> a = b.
Proof.
  induction iv as [|x iv IH]; intros [|y a] [|z b] L L' E; try discriminate; [reflexivity|].
  injection L as L. injection L' as L'. unfold xor_words in E. cbn [combine map fst snd] in E. injection E as E1 E2.
  f_equal; [|now apply IH]. rewrite <- (N.lxor_0_l y), <- (N.lxor_nilpotent x), N.lxor_assoc, E1, <- N.lxor_assoc, N.lxor_nilpotent. apply N.lxor_0_l.
Qed.
Lemma le_val_inj a b : length a = length b -> bytes_ok a -> bytes_ok b -> le_val a = le_val b -> a = b.
Proof. intros L A B E. rewrite <- (le_bytes_val a A), <- (le_bytes_val b B), L, E. reflexivity. Qed.
Lemma map_le_inj k (bs : list bytes) : Forall (fun b => length b = k) bs -> Forall bytes_ok bs ->
  forall bs', Forall (fun b => length b = k) bs' -> Forall bytes_ok bs' -> map le_val bs = map le_val bs' -> bs = bs'.
Proof.
  intros L B. induction L as [|b bs Lb L IH]; intros [|b' bs'] L' B' E; try discriminate; [reflexivity|].
  inversion_clear L' as [|? ? Lb' L2]. inversion_clear B as [|? ? Bb B2]. inversion_clear B' as [|? ? Bb' B2'].
  injection E as E1 E2. f_equal; [apply le_val_inj; congruence|now apply IH].
Qed.
Lemma le_words_inj V a b k : (0 < Spec.BLAKE2.wbytes V)%nat -> length a = (Spec.BLAKE2.wbytes V * k)%nat ->
  length b = (Spec.BLAKE2.wbytes V * k)%nat -> bytes_ok a -> bytes_ok b -> le_words V a = le_words V b -> a = b.
Proof.
  intros W La Lb Ba Bb E. unfold le_words in E.
  rewrite <- (chunks_whole _ k a W La), <- (chunks_whole _ k b W Lb). f_equal.
  apply (map_le_inj (Spec.BLAKE2.wbytes V)) in E; [exact E|now apply chunks_block_length|now apply chunks_ok|now apply chunks_block_length|now apply chunks_ok].
Qed.
Lemma zpad_ok n l : bytes_ok l -> bytes_ok (zpad n l).
Proof. intros H. apply bytes_ok_app. split; [exact H|apply zeros_ok]. Qed.
Lemma init_inj P V salt persona kk nn salt' persona' kk' nn' : Proof.Blake2.same P V ->
  Proof.Blake2.params_ok P salt persona kk nn -> Proof.Blake2.params_ok P salt' persona' kk' nn' ->
  bytes_ok salt -> bytes_ok persona -> bytes_ok salt' -> bytes_ok persona' ->
  Spec.BLAKE2.init V salt persona kk nn = Spec.BLAKE2.init V salt' persona' kk' nn' ->
  nn = nn' /\ kk = kk' /\ zpad (Model.Blake2.BYTES P / 4) salt = zpad (Model.Blake2.BYTES P / 4) salt' /\
  zpad (Model.Blake2.BYTES P / 4) persona = zpad (Model.Blake2.BYTES P / 4) persona'.
Proof.
  intros SV (K & O & Sa & Pe) (K' & O' & Sa' & Pe') B1 B2 B3 B4 E.
  pose proof (Proof.Blake2.wb_pos _ _ SV) as W.
  pose proof (Proof.Blake2.s_bytes _ _ SV) as MB. pose proof (Proof.Blake2.s_wb _ _ SV) as WB.
  assert (Q : (Model.Blake2.BYTES P / 4 = 2 * Model.Blake2.wb P)%nat)
    by (destruct (Proof.Blake2.s_two _ _ SV) as [(-> & _ & -> & _)|(-> & _ & -> & _)]; reflexivity).
  assert (BB : (Model.Blake2.BYTES P <= 64)%nat) by (destruct (Proof.Blake2.s_two _ _ SV) as [(_ & _ & -> & _)|(_ & _ & -> & _)]; lia).
  assert (L : forall s p n k, (length s <= 2 * Model.Blake2.wb P)%nat -> (length p <= 2 * Model.Blake2.wb P)%nat ->
    length (param_block V s p n k) = (Spec.BLAKE2.wbytes V * 8)%nat).
  { intros s p n k Ls Lp. unfold param_block. cbv zeta. rewrite <- MB, Q, !app_length, !Proof.Blake2.zpad_length; [lia|assumption|assumption|cbn [length]; lia]. }
  assert (OKp : forall s p n k, bytes_ok s -> bytes_ok p -> (n <= 64)%nat -> (k <= 64)%nat -> bytes_ok (param_block V s p n k)).
  { intros s p n k Bs Bp Ln Lk. unfold param_block. cbv zeta. apply bytes_ok_app. split.
    - apply zpad_ok. repeat constructor; lia.
    - apply bytes_ok_app. split; now apply zpad_ok. }
  rewrite Q in *. apply xor_words_inj in E.
  2,3: unfold le_words; rewrite map_length, chunks_length, L by lia; rewrite <- (Proof.Blake2.s_iv _ _ SV), (Proof.Blake2.s_ivlen _ _ SV);
    rewrite Nat.mul_comm; apply Nat.div_mul; lia.
  apply (le_words_inj V _ _ 8) in E; [|lia|apply L; lia|apply L; lia|apply OKp; (assumption || lia)|apply OKp; (assumption || lia)].
  unfold param_block in E. cbv zeta in E. rewrite <- MB, Q in E.
  apply app_inv_len in E; [|now rewrite !Proof.Blake2.zpad_length by (cbn [length]; lia)]. destruct E as [E0 E].
  apply app_inv_len in E; [|now rewrite !Proof.Blake2.zpad_length by lia]. destruct E as [E1 E2].
  unfold zpad in E0. cbn [app] in E0. injection E0 as N1 N2. repeat split; (assumption || lia).
Qed.
Lemma h8_inj h h' : Proof.Blake2.h8 h = Proof.Blake2.h8 h' -> h = h'.
Proof.
  destruct h as [[[[a b] c] d] [[[e f] g] i]], h' as [[[[a' b'] c'] d'] [[[e' f'] g'] i']]. intros E. injection E as -> -> -> -> -> -> -> ->. reflexivity.
Qed.
Lemma blake2_apart P V salt persona kk nn salt' persona' kk' nn' s s' : Proof.Blake2.same P V ->
  bytes_ok salt -> bytes_ok persona -> bytes_ok salt' -> bytes_ok persona' ->
  Model.Blake2.new_with_params P salt persona kk nn = Some s -> Model.Blake2.new_with_params P salt' persona' kk' nn' = Some s' ->
  (Model.Blake2.b_h s = Model.Blake2.b_h s' <->
   nn = nn' /\ kk = kk' /\ zpad (Model.Blake2.BYTES P / 4) salt = zpad (Model.Blake2.BYTES P / 4) salt' /\
   zpad (Model.Blake2.BYTES P / 4) persona = zpad (Model.Blake2.BYTES P / 4) persona').
Proof.
  intros SV B1 B2 B3 B4 E E'.
  assert (D : forall sa pe k n x, Model.Blake2.new_with_params P sa pe k n = Some x -> Proof.Blake2.params_ok P sa pe k n).
  { intros sa pe k n x Ex. unfold Proof.Blake2.params_ok.
    assert (DEC : Proof.Blake2.params_ok P sa pe k n \/ ~ Proof.Blake2.params_ok P sa pe k n) by (unfold Proof.Blake2.params_ok; lia).
    destruct DEC as [?|DEC]; [assumption|]. rewrite (Proof.Blake2.new_none _ _ _ _ _ DEC) in Ex. discriminate. }
  pose proof (D _ _ _ _ _ E) as OK. pose proof (D _ _ _ _ _ E') as OK'.
  destruct (Proof.Blake2.new_spec P V salt persona kk nn SV OK) as (h & F & I).
  destruct (Proof.Blake2.new_spec P V salt' persona' kk' nn' SV OK') as (h' & F' & I').
  rewrite E in F. rewrite E' in F'. injection F as ->. injection F' as ->. cbn [Model.Blake2.b_h]. split.
  - intros <-. apply (init_inj P V); try assumption. congruence.
  - intros (<- & <- & Q1 & Q2). apply h8_inj. rewrite I, I'. unfold Spec.BLAKE2.init, param_block. cbv zeta.
    rewrite <- (Proof.Blake2.s_bytes _ _ SV). now rewrite Q1, Q2.
Qed.
