(** C47: the tables are those the rules of the standards give.  The rules are in Spec/Constants.v and in the
    specification of each algorithm; the left-hand sides are the tables of the source. *)
From Verif Require Import Base.Words Base.Bytes Base.Codec Spec.GF Spec.Constants.
From Verif Require Model.Sha2Consts Model.Blake2 Model.Sha1 Model.Sha1Checked Model.Sha1CheckedTables Model.Md2 Model.Md4 Model.Md5 Model.Ripemd
  Model.Sm3 Model.Belt Model.Tiger Model.TigerTables Model.GroestlTable Model.WhirlpoolTables Model.Streebog Model.StreebogTables
  Model.KupynaTables Model.ShabalTables Model.JhTables Model.Ascon.
From Verif Require Spec.SHA2 Spec.MD2 Spec.MD5 Spec.SM3 Spec.Belt Spec.Tiger Spec.Groestl Spec.Whirlpool Spec.Streebog Spec.StreebogTables
  Spec.Shabal Spec.JH Spec.Ascon Spec.SHA1C.
From Verif Require Proof.Constants Proof.Sha2 Proof.Md2 Proof.Md5 Proof.Sm3 Proof.Belt Proof.TigerSboxes Proof.Whirlpool
  Proof.Streebog Proof.Kupyna Proof.Shabal Proof.Jh Proof.Ascon Proof.Sha1Checked.

(** ** Roots of primes *)
Theorem C47_sha256_k : forall i, (i < 64)%nat -> exists p, nth_prime i p /\ root_bits 3 32 p (get Model.Sha2Consts.K32 i).
Proof. exact Proof.Constants.k32_roots. Qed.
Print Assumptions C47_sha256_k.
Theorem C47_sha512_k : forall i, (i < 80)%nat -> exists p, nth_prime i p /\ root_bits 3 64 p (get Model.Sha2Consts.K64 i).
Proof. exact Proof.Constants.k64_roots. Qed.
Print Assumptions C47_sha512_k.
Theorem C47_sha256_iv : forall i, (i < 8)%nat -> exists p, nth_prime i p /\ root_bits 2 32 p (get Model.Sha2Consts.H256_256 i).
Proof. exact Proof.Constants.h256_roots. Qed.
Print Assumptions C47_sha256_iv.
Theorem C47_sha512_iv : forall i, (i < 8)%nat -> exists p, nth_prime i p /\ root_bits 2 64 p (get Model.Sha2Consts.H512_512 i).
Proof. exact Proof.Constants.h512_roots. Qed.
Print Assumptions C47_sha512_iv.
Theorem C47_sha384_iv : forall i, (i < 8)%nat -> exists p, nth_prime (8 + i) p /\ root_bits 2 64 p (get Model.Sha2Consts.H512_384 i).
Proof. exact Proof.Constants.h384_roots. Qed.
Print Assumptions C47_sha384_iv.
(** SHA-224: the second 32 bits of the fractional parts *)
Theorem C47_sha224_iv : forall i, (i < 8)%nat ->
  exists p x, nth_prime (8 + i) p /\ root_bits 2 64 p x /\ get Model.Sha2Consts.H256_224 i = x mod 2 ^ 32.
Proof. exact Proof.Constants.h224_roots. Qed.
Print Assumptions C47_sha224_iv.
(** SHA-512/t: the generation function of FIPS 180-4, 5.3.6 *)
Theorem C47_sha512t_iv :
  Spec.SHA2.iv512t Spec.SHA2.name512_224 = Spec.SHA2.vars_of_list Model.Sha2Consts.H512_224 /\
  Spec.SHA2.iv512t Spec.SHA2.name512_256 = Spec.SHA2.vars_of_list Model.Sha2Consts.H512_256.
Proof. exact (conj Proof.Sha2.iv512_224_ok Proof.Sha2.iv512_256_ok). Qed.
Print Assumptions C47_sha512t_iv.
Theorem C47_blake2_iv : forall i, (i < 8)%nat ->
  (exists p, nth_prime i p /\ root_bits 2 64 p (get Model.Blake2.BLAKE2B_IV i)) /\
  (exists p, nth_prime i p /\ root_bits 2 32 p (get Model.Blake2.BLAKE2S_IV i)).
Proof. exact (fun i H => conj (Proof.Constants.blake2b_roots i H) (Proof.Constants.blake2s_roots i H)). Qed.
Print Assumptions C47_blake2_iv.
Theorem C47_sha1_k : forall i, (i < 4)%nat -> scaled_root 2 30 (nth i [2; 3; 5; 10] 0) (get Model.Sha1.K i) /\
  get Model.Sha1Checked.K i = get Model.Sha1.K i.
Proof. exact Proof.Constants.sha1_roots. Qed.
Print Assumptions C47_sha1_k.
Theorem C47_md4_k : scaled_root 2 30 2 Model.Md4.K1 /\ scaled_root 2 30 3 Model.Md4.K2.
Proof. exact Proof.Constants.md4_roots. Qed.
Print Assumptions C47_md4_k.

(** ** Permutations and counted bytes *)
Theorem C47_blake2_sigma : length Model.Blake2.SIGMA = 12%nat /\
  (forall r, (r < 12)%nat -> forall k, (k < 16)%nat -> count_occ Nat.eq_dec (nth r Model.Blake2.SIGMA []) k = 1%nat) /\
  nth 10 Model.Blake2.SIGMA [] = nth 0 Model.Blake2.SIGMA [] /\ nth 11 Model.Blake2.SIGMA [] = nth 1 Model.Blake2.SIGMA [].
Proof. exact Proof.Constants.sigma_perms. Qed.
Print Assumptions C47_blake2_sigma.
Theorem C47_counted_ivs :
  let four := words_of_le 4 counting in let five := words_of_le 4 (counting ++ fifth) in
  Model.Md4.S0 = four /\ Model.Md5.STATE_INIT = four /\ Model.Ripemd.H0_128 = four /\
  Model.Sha1.H0 = five /\ Model.Sha1Checked.INITIAL_H = five /\ Model.Ripemd.H0_160 = five /\
  Model.Ripemd.H0_256 = four ++ words_of_le 4 (swapped counting) /\
  Model.Ripemd.H0_320 = five ++ words_of_le 4 (swapped (counting ++ fifth)).
Proof. exact Proof.Constants.counted_ivs. Qed.
Print Assumptions C47_counted_ivs.

(** ** Digits of pi (MD2), sines (MD5, by the series with 200 terms and 256 bits) *)
Theorem C47_md2 : Model.Md2.S_ = Spec.MD2.S_table.
Proof. exact (eq_sym Proof.Md2.S_ok). Qed.
Print Assumptions C47_md2.
Theorem C47_md5 : Model.Md5.RC = map (fun i => Spec.MD5.T (N.of_nat i)) (seq 1 64).
Proof. exact (eq_sym Proof.Md5.T_ok). Qed.
Print Assumptions C47_md5.
Theorem C47_sm3 : Model.Sm3.T32 = map (fun j => rotl32 (Spec.SM3.T j) (N.of_nat (j mod 32))) (seq 0 64).
Proof. exact (eq_sym Proof.Sm3.T_ok). Qed.
Print Assumptions C47_sm3.

(** ** A shift register *)
Theorem C47_belt : belt_table Spec.Belt.H /\ words_to_le 4 Model.Belt.H0 = firstn 32 Spec.Belt.H.
Proof. exact (conj Proof.Constants.belt_H Proof.Belt.H0_spec). Qed.
Print Assumptions C47_belt.

(** ** Generated by the function itself *)
Theorem C47_tiger : Model.TigerTables.TABLES = Spec.Tiger.SBOXES.
Proof. exact (eq_sym Proof.TigerSboxes.tiger_sboxes). Qed.
Print Assumptions C47_tiger.
Theorem C47_shabal :
  Model.ShabalTables.INIT_192 = Spec.Shabal.iv 192 /\ Model.ShabalTables.INIT_224 = Spec.Shabal.iv 224 /\
  Model.ShabalTables.INIT_256 = Spec.Shabal.iv 256 /\ Model.ShabalTables.INIT_384 = Spec.Shabal.iv 384 /\
  Model.ShabalTables.INIT_512 = Spec.Shabal.iv 512.
Proof.
  exact (conj Proof.Shabal.INIT_192_ok (conj Proof.Shabal.INIT_224_ok (conj Proof.Shabal.INIT_256_ok
    (conj Proof.Shabal.INIT_384_ok Proof.Shabal.INIT_512_ok)))).
Qed.
Print Assumptions C47_shabal.
Theorem C47_jh_iv :
  Model.JhTables.JH224_H0 = words_of_le 16 (Spec.JH.H0 28) /\ Model.JhTables.JH256_H0 = words_of_le 16 (Spec.JH.H0 32) /\
  Model.JhTables.JH384_H0 = words_of_le 16 (Spec.JH.H0 48) /\ Model.JhTables.JH512_H0 = words_of_le 16 (Spec.JH.H0 64).
Proof.
  exact (conj (proj1 Proof.Jh.H0_224) (conj (proj1 Proof.Jh.H0_256) (conj (proj1 Proof.Jh.H0_384) (proj1 Proof.Jh.H0_512)))).
Qed.
Print Assumptions C47_jh_iv.
Theorem C47_ascon : Model.Ascon.Parameters = Spec.Ascon.p12 (0x0000080100cc0002, 0, 0, 0, 0) /\
  Model.Ascon.ParametersXof = Spec.Ascon.p12 (0x0000080000cc0003, 0, 0, 0, 0).
Proof. exact (conj (eq_sym Proof.Ascon.iv_hash) (eq_sym Proof.Ascon.iv_xof)). Qed.
Print Assumptions C47_ascon.

(** ** Products of an S-box with a matrix *)
Theorem C47_aes_sbox : aes_sbox Spec.Groestl.S.
Proof. exact Proof.Constants.aes_ok. Qed.
Print Assumptions C47_aes_sbox.
Theorem C47_groestl : forall k x, (k < 8)%nat -> x < 256 ->
  get (nth k Model.GroestlTable.TABLE []) (N.to_nat x) =
  be_val (map (fun i => gmul 0x11b (get (nth i (circulant [2; 2; 3; 4; 5; 3; 5; 7]) []) k) (Spec.Groestl.S x)) (seq 0 8)).
Proof. exact Proof.Constants.groestl_table. Qed.
Print Assumptions C47_groestl.
Theorem C47_whirlpool : forall k x, (k < 8)%nat -> x < 256 ->
  get (nth k [Model.WhirlpoolTables.C0; Model.WhirlpoolTables.C1; Model.WhirlpoolTables.C2; Model.WhirlpoolTables.C3;
              Model.WhirlpoolTables.C4; Model.WhirlpoolTables.C5; Model.WhirlpoolTables.C6; Model.WhirlpoolTables.C7] []) (N.to_nat x) =
  le_val (map (fun j => gmul 0x11d (get (nth k (circulant [1; 1; 4; 1; 8; 5; 2; 9]) []) j) (Spec.Whirlpool.S x)) (seq 0 8)).
Proof. exact Proof.Constants.whirlpool_table. Qed.
Print Assumptions C47_whirlpool.
Theorem C47_whirlpool_rc : Model.WhirlpoolTables.RC =
  map (fun r => le_val (map (fun j => Spec.Whirlpool.S (N.of_nat (8 * r + j))) (seq 0 8))) (seq 0 10).
Proof. exact Proof.Whirlpool.rc_check. Qed.
Print Assumptions C47_whirlpool_rc.
Theorem C47_streebog : Model.StreebogTables.P = Spec.Streebog.PI /\
  forall k x, (k < 8)%nat -> x < 256 -> get (nth k Model.Streebog.SHUFFLED_LIN_TABLE []) (N.to_nat x) =
    le_val (Spec.Streebog.l (upd (zeros 8) k (Spec.Streebog.pi x))).
Proof. exact (conj (eq_sym Proof.Streebog.pi_check) Proof.Constants.streebog_table). Qed.
Print Assumptions C47_streebog.
Theorem C47_kupyna_mds : Model.KupynaTables.MDS_MATRIX = circulant [1; 1; 5; 1; 8; 6; 7; 4].
Proof. exact Proof.Kupyna.mds_eq. Qed.
Print Assumptions C47_kupyna_mds.

(** ** Disturbance vectors *)
Theorem C47_sha1_checked_dvs :
  map (fun d => (Proof.Sha1Checked.t_num (Model.Sha1CheckedTables.i_testt d), Model.Sha1CheckedTables.i_dm d)) Model.Sha1CheckedTables.SHA1_DVS =
  map Spec.SHA1C.dv_of (seq 0 32).
Proof. exact Proof.Sha1Checked.DVS_table. Qed.
Print Assumptions C47_sha1_checked_dvs.

Example C47_prime_5 : nth_prime 2 5.
Proof.
  split; [split; [discriminate|intros d [H1 H2]; assert (d = 2 \/ d = 3 \/ d = 4) as [-> | [-> | ->]] by lia; discriminate]|].
  exists [2; 3]. split; [reflexivity|]. split; [repeat constructor; cbn; intuition discriminate|]. intros q. cbn. split.
  - intros [<-|[<-|[]]]; (split; [split; [discriminate|intros d [H1 H2]; assert (d = 2) as -> by lia; (lia || discriminate)]|reflexivity]).
  - intros [[H1 H2] H3]. assert (q = 2 \/ q = 3 \/ q = 4) as [-> | [-> | ->]] by lia; [auto|auto|]. now exfalso; apply (H2 2).
Qed.
