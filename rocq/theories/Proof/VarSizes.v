(** Run-time output sizes: which sizes the constructors accept, and the hashers they make. *)
From Verif Require Import Base.Words Base.Bytes Base.BlockBuffer Base.Digest Base.DigestFacts Base.MDFacts Base.Codec Model.VarSizes Spec.Sizes.
From Verif Require Proof.Blake2 Proof.Groestl Proof.Jh Proof.Kupyna Proof.Sha2 Proof.Shabal Proof.Streebog.

(** ** The fixed-size types *)
Lemma ct_Sha224 : ct_new FSha256 28 = Some Model.Sha2.Sha224. Proof. reflexivity. Qed.
Lemma ct_Sha256 : ct_new FSha256 32 = Some Model.Sha2.Sha256. Proof. reflexivity. Qed.
Lemma ct_Sha384 : ct_new FSha512 48 = Some Model.Sha2.Sha384. Proof. reflexivity. Qed.
Lemma ct_Sha512 : ct_new FSha512 64 = Some Model.Sha2.Sha512. Proof. reflexivity. Qed.
Lemma ct_Sha512_224 : ct_new FSha512 28 = Some Model.Sha2.Sha512_224. Proof. reflexivity. Qed.
Lemma ct_Sha512_256 : ct_new FSha512 32 = Some Model.Sha2.Sha512_256. Proof. reflexivity. Qed.
Lemma ct_Streebog256 : ct_new FStreebog 32 = Some Model.Streebog.Streebog256. Proof. reflexivity. Qed.
Lemma ct_Streebog512 : ct_new FStreebog 64 = Some Model.Streebog.Streebog512. Proof. reflexivity. Qed.
Lemma ct_Jh224 : ct_new FJh 28 = Some Model.Jh.Jh224. Proof. reflexivity. Qed.
Lemma ct_Jh256 : ct_new FJh 32 = Some Model.Jh.Jh256. Proof. reflexivity. Qed.
Lemma ct_Jh384 : ct_new FJh 48 = Some Model.Jh.Jh384. Proof. reflexivity. Qed.
Lemma ct_Jh512 : ct_new FJh 64 = Some Model.Jh.Jh512. Proof. reflexivity. Qed.
Lemma ct_Shabal192 : ct_new FShabal 24 = Some Model.Shabal.Shabal192. Proof. reflexivity. Qed.
Lemma ct_Shabal224 : ct_new FShabal 28 = Some Model.Shabal.Shabal224. Proof. reflexivity. Qed.
Lemma ct_Shabal256 : ct_new FShabal 32 = Some Model.Shabal.Shabal256. Proof. reflexivity. Qed.
Lemma ct_Shabal384 : ct_new FShabal 48 = Some Model.Shabal.Shabal384. Proof. reflexivity. Qed.
Lemma ct_Shabal512 : ct_new FShabal 64 = Some Model.Shabal.Shabal512. Proof. reflexivity. Qed.
Lemma rt_GroestlShort n : rt_new FGroestlShort n = if (n <=? 32)%nat then Made (Model.Groestl.GroestlShort n) else InvalidOutputSize.
Proof.
  cbn [rt_new]. unfold Model.Groestl.var_new. change (Model.Groestl.out_size Model.Groestl.v512) with 32%nat.
  destruct (Nat.ltb_spec 32 n), (Nat.leb_spec n 32); try lia; reflexivity.
Qed.
Lemma rt_GroestlLong n : rt_new FGroestlLong n = if (n <=? 64)%nat then Made (Model.Groestl.GroestlLong n) else InvalidOutputSize.
Proof.
  cbn [rt_new]. unfold Model.Groestl.var_new. change (Model.Groestl.out_size Model.Groestl.v1024) with 64%nat.
  destruct (Nat.ltb_spec 64 n), (Nat.leb_spec n 64); try lia; reflexivity.
Qed.
Lemma rt_KupynaShort n : rt_new FKupynaShort n = if (n <=? 32)%nat then Made (Model.Kupyna.KupynaShort n) else InvalidOutputSize.
Proof.
  cbn [rt_new]. unfold Model.Kupyna.short_new. destruct (Nat.ltb_spec 32 n), (Nat.leb_spec n 32); try lia; reflexivity.
Qed.
Lemma rt_KupynaLong n : rt_new FKupynaLong n = if ((32 <=? n) && (n <=? 64))%nat%bool then Made (Model.Kupyna.KupynaLong n) else InvalidOutputSize.
Proof.
  cbn [rt_new]. unfold Model.Kupyna.long_new.
  destruct (Nat.ltb_spec n 32), (Nat.ltb_spec 64 n), (Nat.leb_spec 32 n), (Nat.leb_spec n 64); try lia; reflexivity.
Qed.

Lemma rt_blake2 P V n : Proof.Blake2.same P V ->
  match Model.Blake2.var_new P n with
  | Some (Some ini) => (n <= Model.Blake2.BYTES P)%nat /\ Model.Blake2.new_with_params P [] [] 0 n = Some ini
  | Some None => (Model.Blake2.BYTES P < n)%nat
  | None => False
  end.
Proof.
  intros SV. unfold Model.Blake2.var_new. destruct (Nat.ltb_spec (Model.Blake2.BYTES P) n) as [L|L]; [exact L|].
  destruct (Proof.Blake2.new_spec P V [] [] 0 n SV) as (h & E & _); [unfold Proof.Blake2.params_ok; cbn [length]; lia|].
  rewrite E. cbn [obind]. now split.
Qed.

Ltac size n k := destruct (Nat.eq_dec n k) as [->|?].

(** ** Exactly the supported sizes *)
Lemma sizes f n : match rt_new f n with Made _ => supported f n | InvalidOutputSize => ~ supported f n | Panics => False end.
Proof.
  destruct f.
  - size n 28%nat; [cbn; tauto|]. size n 32%nat; [cbn; tauto|].
    assert (E : Model.Sha2.sha256_new n = None) by (unfold Model.Sha2.sha256_new; do 33 (destruct n as [|n]; [reflexivity || congruence|]); reflexivity).
    cbn [rt_new]. rewrite E. cbn. intuition congruence.
  - size n 28%nat; [cbn; tauto|]. size n 32%nat; [cbn; tauto|]. size n 48%nat; [cbn; tauto|]. size n 64%nat; [cbn; tauto|].
    assert (E : Model.Sha2.sha512_new n = None) by (unfold Model.Sha2.sha512_new; do 65 (destruct n as [|n]; [reflexivity || congruence|]); reflexivity).
    cbn [rt_new]. rewrite E. cbn. intuition congruence.
  - cbn [rt_new supported]. pose proof (rt_blake2 _ _ n Proof.Blake2.same_b) as H. cbn [Model.Blake2.BYTES Model.Blake2.Blake2b] in H.
    destruct (Model.Blake2.var_new _ n) as [[ini|]|]; [apply H|lia|exact H].
  - cbn [rt_new supported]. pose proof (rt_blake2 _ _ n Proof.Blake2.same_s) as H. cbn [Model.Blake2.BYTES Model.Blake2.Blake2s] in H.
    destruct (Model.Blake2.var_new _ n) as [[ini|]|]; [apply H|lia|exact H].
  - rewrite rt_GroestlShort. destruct (Nat.leb_spec n 32); cbn [supported]; lia.
  - rewrite rt_GroestlLong. destruct (Nat.leb_spec n 64); cbn [supported]; lia.
  - rewrite rt_KupynaShort. destruct (Nat.leb_spec n 32); cbn [supported]; lia.
  - rewrite rt_KupynaLong. destruct (Nat.leb_spec 32 n), (Nat.leb_spec n 64); cbn [andb supported]; lia.
  - cbn [rt_new]. unfold Model.Streebog.var_new. destruct (Nat.eqb_spec n 32); [subst; cbn; tauto|].
    destruct (Nat.eqb_spec n 64); [subst; cbn; tauto|]. cbn. intuition congruence.
  - cbn [rt_new]. unfold Model.Jh.var_new.
    do 4 (match goal with |- context [(n =? ?k)%nat] => destruct (Nat.eqb_spec n k); [subst; cbn; tauto|] end). cbn. intuition congruence.
  - cbn [rt_new]. unfold Model.Shabal.var_new.
    do 5 (match goal with |- context [(n =? ?k)%nat] => destruct (Nat.eqb_spec n k); [subst; cbn; tauto|] end). cbn. intuition congruence.
Qed.
Lemma rt_iff f n : (exists C, rt_new f n = Made C) <-> supported f n.
Proof.
  pose proof (sizes f n) as H. split.
  - intros [C E]. now rewrite E in H.
  - intros S. destruct (rt_new f n) as [C| |]; [now exists C|tauto|tauto].
Qed.
Lemma rt_err f n : rt_new f n = InvalidOutputSize <-> ~ supported f n.
Proof.
  pose proof (sizes f n) as H. split; intros E; [now rewrite E in H|].
  destruct (rt_new f n) as [C| |]; [tauto|reflexivity|tauto].
Qed.

(** ** The function of each size *)
Lemma made_inj C C' : Made C = Made C' -> C = C'. Proof. now intros [= ->]. Qed.
Lemma ct_made f n C C' : ct_new f n = Some C' -> rt_new f n = Made C -> C = C'.
Proof. unfold ct_new. intros H E. rewrite E in H. now injection H as ->. Qed.
Lemma eight n w : N.of_nat n < 2 ^ w -> 8 * N.of_nat n < 2 ^ (3 + w).
Proof. intros H. rewrite N.pow_add_r. change (2 ^ 3) with 8. lia. Qed.
Ltac ct E L := apply (ct_made _ _ _ _ L) in E; subst.

Lemma rt_digest f n C m cs : rt_new f n = Made C -> Forall bytes_ok cs -> in_limit f (length (concat cs)) ->
  h_digest C m cs = Some (function f n (concat cs)).
Proof.
  intros E B L. pose proof (sizes f n) as S. rewrite E in S. destruct f; cbn [supported] in S; unfold in_limit in L; cbn [limit] in L.
  - apply (eight _ 61) in L. cbn [In] in S. destruct S as [<-|[<-|[]]].
    + ct E ct_Sha224. exact (digest_spec _ _ _ _ Proof.Sha2.Sha224_ok m cs B L).
    + ct E ct_Sha256. exact (digest_spec _ _ _ _ Proof.Sha2.Sha256_ok m cs B L).
  - apply (eight _ 125) in L. cbn [In] in S. destruct S as [<-|[<-|[<-|[<-|[]]]]].
    + ct E ct_Sha512_224. exact (digest_spec _ _ _ _ Proof.Sha2.Sha512_224_ok m cs B L).
    + ct E ct_Sha512_256. exact (digest_spec _ _ _ _ Proof.Sha2.Sha512_256_ok m cs B L).
    + ct E ct_Sha384. exact (digest_spec _ _ _ _ Proof.Sha2.Sha384_ok m cs B L).
    + ct E ct_Sha512. exact (digest_spec _ _ _ _ Proof.Sha2.Sha512_ok m cs B L).
  - destruct (Proof.Blake2.var_digest _ _ n m cs Proof.Blake2.same_b S B L) as (s & E1 & E2).
    cbn [rt_new] in E. rewrite E1 in E. apply made_inj in E. subst C. exact E2.
  - destruct (Proof.Blake2.var_digest _ _ n m cs Proof.Blake2.same_s S B L) as (s & E1 & E2).
    cbn [rt_new] in E. rewrite E1 in E. apply made_inj in E. subst C. exact E2.
  - rewrite rt_GroestlShort in E. destruct (Nat.leb_spec n 32); [|lia]. apply made_inj in E. subst C.
    apply (digest_spec _ _ _ _ (Proof.Groestl.GroestlShort_ok n S) m cs B). apply (Proof.Groestl.within_bytes _ _ _ Proof.Groestl.short_matches). lia.
  - rewrite rt_GroestlLong in E. destruct (Nat.leb_spec n 64); [|lia]. apply made_inj in E. subst C.
    apply (digest_spec _ _ _ _ (Proof.Groestl.GroestlLong_ok n S) m cs B). apply (Proof.Groestl.within_bytes _ _ _ Proof.Groestl.long_matches). lia.
  - rewrite rt_KupynaShort in E. destruct (Nat.leb_spec n 32); [|lia]. apply made_inj in E. subst C.
    exact (Proof.Kupyna.Kupyna_short_digest n m cs S B L).
  - rewrite rt_KupynaLong in E. destruct (Nat.leb_spec 32 n), (Nat.leb_spec n 64); try lia. apply made_inj in E. subst C.
    exact (Proof.Kupyna.Kupyna_long_digest n m cs (proj2 S) B L).
  - apply (eight _ 445) in L. cbn [In] in S. destruct S as [<-|[<-|[]]].
    + ct E ct_Streebog256. exact (digest_spec _ _ _ _ Proof.Streebog.Streebog256_ok m cs B L).
    + ct E ct_Streebog512. exact (digest_spec _ _ _ _ Proof.Streebog.Streebog512_ok m cs B L).
  - apply (eight _ 61) in L. cbn [In] in S. destruct S as [<-|[<-|[<-|[<-|[]]]]].
    + ct E ct_Jh224. exact (digest_spec _ _ _ _ Proof.Jh.Jh224_ok m cs B L).
    + ct E ct_Jh256. exact (digest_spec _ _ _ _ Proof.Jh.Jh256_ok m cs B L).
    + ct E ct_Jh384. exact (digest_spec _ _ _ _ Proof.Jh.Jh384_ok m cs B L).
    + ct E ct_Jh512. exact (digest_spec _ _ _ _ Proof.Jh.Jh512_ok m cs B L).
  - destruct (Proof.Shabal.Shabal_digest m cs B) as (D1 & D2 & D3 & D4 & D5). cbn [In] in S. destruct S as [<-|[<-|[<-|[<-|[<-|[]]]]]].
    + ct E ct_Shabal192. exact D1.
    + ct E ct_Shabal224. exact D2.
    + ct E ct_Shabal256. exact D3.
    + ct E ct_Shabal384. exact D4.
    + ct E ct_Shabal512. exact D5.
Qed.

(** ** The digests have the size asked for *)
Lemma sha2_output k v : length (Spec.SHA2.output k v) = (8 * k)%nat.
Proof.
  destruct v as [[[[[[[a b] c] d] e] f] g] h]. unfold Spec.SHA2.output. cbn [Spec.SHA2.list_of_vars map concat].
  rewrite !app_length, !be_bytes_length. cbn [length]. lia.
Qed.
Lemma hash256_length iv n msg : (n <= 32)%nat -> length (Spec.SHA2.hash256 iv n msg) = n.
Proof. intros H. unfold Spec.SHA2.hash256. rewrite firstn_length, sha2_output. lia. Qed.
Lemma hash512_length iv n msg : (n <= 64)%nat -> length (Spec.SHA2.hash512 iv n msg) = n.
Proof. intros H. unfold Spec.SHA2.hash512. rewrite firstn_length, sha2_output. lia. Qed.

Lemma F_length V h m t f : length (Spec.BLAKE2.F V h m t f) = 8%nat.
Proof. unfold Spec.BLAKE2.F. now rewrite map_length, seq_length. Qed.
Lemma absorb_length V k : forall h t d, length (Spec.BLAKE2.absorb V (S k) h t d) = 8%nat.
Proof.
  induction k as [|k IH]; intros h t d; cbn [Spec.BLAKE2.absorb]; destruct (_ <=? _)%nat; try apply F_length. apply IH.
Qed.
Lemma concat_map_length {A B} (f : A -> list B) k l : (forall x, length (f x) = k) -> length (concat (map f l)) = (k * length l)%nat.
Proof. intros H. induction l as [|x l IH]; cbn [map concat length]; [lia|]. rewrite app_length, IH, H. lia. Qed.
Lemma blake2_length V nn msg : (nn <= 8 * Spec.BLAKE2.wbytes V)%nat -> length (Spec.BLAKE2.BLAKE2 V [] [] [] nn msg) = nn.
Proof.
  intros H. unfold Spec.BLAKE2.BLAKE2. rewrite firstn_length, (concat_map_length _ (Spec.BLAKE2.wbytes V)) by (intros; apply le_bytes_length).
  rewrite absorb_length. lia.
Qed.

Definition shape (n : nat) (A : list (list N)) : Prop := length A = n /\ Forall (fun c => length c = 8%nat) A.
Lemma build_shape n f : shape n (Spec.Groestl.build n f).
Proof.
  unfold Spec.Groestl.build. split; [now rewrite map_length, seq_length|]. apply Forall_map, Forall_forall. intros j _.
  now rewrite map_length, seq_length.
Qed.
Lemma map_shape n (g : list N -> list N) A : (forall c, length c = 8%nat -> length (g c) = 8%nat) -> shape n A -> shape n (map g A).
Proof.
  intros H [L F]. split; [now rewrite map_length|]. apply Forall_map. revert F. apply Forall_impl. exact H.
Qed.
Lemma sum_shape n X Y : shape n X -> shape n Y -> shape n (Spec.Groestl.sum X Y).
Proof.
  intros [LX FX] [LY FY]. unfold Spec.Groestl.sum. split; [rewrite map_length, combine_length; lia|].
  apply Forall_map, Forall_forall. intros [x y] I. cbn [fst snd].
  pose proof (proj1 (Forall_forall _ _) FX x (in_combine_l _ _ _ _ I)) as Hx.
  pose proof (proj1 (Forall_forall _ _) FY y (in_combine_r _ _ _ _ I)) as Hy. rewrite xor_bytes_length. cbn beta in Hx, Hy. rewrite Hx, Hy. reflexivity.
Qed.
Lemma shape_concat n A : shape n A -> length (concat A) = (8 * n)%nat.
Proof. intros [<- F]. induction F as [|c A Lc F IH]; cbn [concat length]; [lia|]. rewrite app_length, IH. lia. Qed.
Lemma chunks_shape n b : length b = (8 * n)%nat -> shape n (chunks 8 b).
Proof.
  intros L. split; [|apply chunks_block_length; lia]. rewrite chunks_length, L by lia.
  rewrite Nat.mul_comm. apply Nat.div_mul. lia.
Qed.
Lemma fold_last {A B} (g : A -> B -> A) (P : A -> Prop) (l : list B) a : l <> [] -> (forall a b, P (g a b)) -> P (fold_left g l a).
Proof. intros H G. destruct (exists_last H) as (l' & b & ->). rewrite fold_left_app. apply G. Qed.
Lemma fold_keep {A B} (g : A -> B -> A) (P : A -> Prop) (l : list B) a : P a -> (forall a b, P a -> P (g a b)) -> P (fold_left g l a).
Proof. revert a. induction l as [|b l IH]; intros a Pa G; [exact Pa|]. apply IH; auto. Qed.

Lemma mat_vec_length poly r v : length r = 8%nat -> length (Spec.GF.mat_vec poly (Spec.GF.circulant r) v) = 8%nat.
Proof. intros L. unfold Spec.GF.mat_vec, Spec.GF.circulant. now rewrite !map_length, seq_length. Qed.
Lemma groestl_P p A : (0 < Spec.Groestl.rounds p)%nat -> shape (Spec.Groestl.v p) (Spec.Groestl.P p A).
Proof.
  intros R. unfold Spec.Groestl.P. apply (fold_last _ (shape (Spec.Groestl.v p))); [destruct (Spec.Groestl.rounds p); [lia|discriminate]|]. intros a r.
  apply map_shape; [intros; now apply mat_vec_length|]. apply build_shape.
Qed.
Lemma groestl_Q p A : (0 < Spec.Groestl.rounds p)%nat -> shape (Spec.Groestl.v p) (Spec.Groestl.Q p A).
Proof.
  intros R. unfold Spec.Groestl.Q. apply (fold_last _ (shape (Spec.Groestl.v p))); [destruct (Spec.Groestl.rounds p); [lia|discriminate]|]. intros a r.
  apply map_shape; [intros; now apply mat_vec_length|]. apply build_shape.
Qed.
Lemma groestl_length p n msg : (0 < Spec.Groestl.rounds p)%nat -> (n <= 8 * Spec.Groestl.v p)%nat -> length (Spec.Groestl.hash p n msg) = n.
Proof.
  intros R H. unfold Spec.Groestl.hash, Spec.Groestl.Omega. rewrite skipn_length.
  assert (X : shape (Spec.Groestl.v p) (Spec.MD.md_iterate (Spec.Groestl.f p) (Spec.Groestl.l p) (Spec.Groestl.iv p n)
    (Spec.MD.md_pad (Spec.Groestl.l p) 0x80 (be_bytes 8 (Spec.Groestl.padded_blocks p (length msg))) msg))).
  { unfold Spec.MD.md_iterate. apply (fold_keep _ (shape (Spec.Groestl.v p))); [apply chunks_shape; now rewrite be_bytes_length|]. intros a b Sa. unfold Spec.Groestl.f.
    apply sum_shape; [apply sum_shape; [now apply groestl_P|now apply groestl_Q]|exact Sa]. }
  rewrite (shape_concat (Spec.Groestl.v p)) by (apply sum_shape; [now apply groestl_P|exact X]). lia.
Qed.
Lemma kupyna_Txor p A : (0 < Spec.Kupyna.rounds p)%nat -> shape (Spec.Kupyna.c p) (Spec.Kupyna.Txor p A).
Proof.
  intros R. unfold Spec.Kupyna.Txor. apply (fold_last _ (shape (Spec.Kupyna.c p))); [destruct (Spec.Kupyna.rounds p); [lia|discriminate]|]. intros a r.
  apply map_shape; [intros; now apply mat_vec_length|]. apply build_shape.
Qed.
Lemma kupyna_Tplus p A : (0 < Spec.Kupyna.rounds p)%nat -> shape (Spec.Kupyna.c p) (Spec.Kupyna.Tplus p A).
Proof.
  intros R. unfold Spec.Kupyna.Tplus. apply (fold_last _ (shape (Spec.Kupyna.c p))); [destruct (Spec.Kupyna.rounds p); [lia|discriminate]|]. intros a r.
  apply map_shape; [intros; now apply mat_vec_length|]. apply build_shape.
Qed.
Lemma kupyna_length p n msg : (0 < Spec.Kupyna.rounds p)%nat -> (0 < Spec.Kupyna.c p)%nat -> (n <= 8 * Spec.Kupyna.c p)%nat ->
  length (Spec.Kupyna.hash p n msg) = n.
Proof.
  intros R C0 H. unfold Spec.Kupyna.hash, Spec.Kupyna.R. rewrite skipn_length.
  assert (X : shape (Spec.Kupyna.c p) (Spec.MD.md_iterate (Spec.Kupyna.compress p) (Spec.Kupyna.l p) (Spec.Kupyna.iv p)
    (Spec.MD.md_pad (Spec.Kupyna.l p) 0x80 (le_bytes 12 (8 * Spec.MD.blen msg)) msg))).
  { unfold Spec.MD.md_iterate. apply (fold_keep _ (shape (Spec.Kupyna.c p))); [apply chunks_shape; cbn [length]; rewrite zeros_length; unfold Spec.Kupyna.l; lia|]. intros a b Sa. unfold Spec.Kupyna.compress.
    apply sum_shape; [apply sum_shape; [now apply kupyna_Txor|now apply kupyna_Tplus]|exact Sa]. }
  rewrite (shape_concat (Spec.Kupyna.c p)) by (apply sum_shape; [now apply kupyna_Txor|exact X]). lia.
Qed.

(** Streebog *)
Lemma L_length a : length a = 64%nat -> length (Spec.Streebog.L a) = 64%nat.
Proof.
  intros H. unfold Spec.Streebog.L. rewrite (concat_map_length _ 8).
  - rewrite chunks_length, H by lia. reflexivity.
  - intros w. unfold Spec.Streebog.l. rewrite rev_length, map_length. reflexivity.
Qed.
Lemma LPS_length a : length (Spec.Streebog.LPS a) = 64%nat.
Proof. apply L_length. unfold Spec.Streebog.P. now rewrite map_length, seq_length. Qed.
Lemma E_length K m : length (Spec.Streebog.E K m) = 64%nat.
Proof.
  unfold Spec.Streebog.E.
  assert (H : (fun KA : list N * list N => length (fst KA) = 64%nat /\ length (snd KA) = 64%nat) (fold_left Spec.Streebog.round Spec.StreebogTables.C (K, m))).
  { apply fold_last; [discriminate|]. intros [k a] b. cbn [Spec.Streebog.round fst snd]. split; apply LPS_length. }
  destruct (fold_left _ _ _) as [k a]. destruct H as [H1 H2]. cbn [fst snd] in *. unfold Spec.Streebog.X. rewrite xor_bytes_length. lia.
Qed.
Lemma g_length n h m : length h = 64%nat -> length m = 64%nat -> length (Spec.Streebog.g n h m) = 64%nat.
Proof. intros H1 H2. unfold Spec.Streebog.g, Spec.Streebog.X. rewrite !xor_bytes_length, E_length. lia. Qed.
Lemma streebog_length n msg : (n <= 64)%nat -> length (Spec.Streebog.Streebog n msg) = n.
Proof.
  intros H. unfold Spec.Streebog.Streebog. rewrite skipn_length.
  assert (X : forall bl st, Forall (fun b => length b = 64%nat) bl -> length (fst (fst st)) = 64%nat ->
            length (fst (fst (fold_left Spec.Streebog.stage2 bl st))) = 64%nat).
  { induction bl as [|b bl IH]; intros st F S; [exact S|]. apply Forall_cons_iff in F as [Lb F]. cbn [fold_left]. apply IH; [exact F|].
    destruct st as [[h k] s]. cbn [Spec.Streebog.stage2 fst] in *. now apply g_length. }
  specialize (X (chunks 64 msg) (Spec.Streebog.IV n, 0, 0) (chunks_block_length 64 msg ltac:(lia))). cbn [fst] in X.
  assert (I : length (Spec.Streebog.IV n) = 64%nat) by (unfold Spec.Streebog.IV; destruct (n =? 32)%nat; reflexivity).
  specialize (X I). destruct (fold_left _ _ _) as [[h k] s]. cbn [fst] in X. unfold Spec.Streebog.stage3.
  pose proof (remainder_length 64 msg ltac:(lia)) as LR. pose proof (Nat.mod_upper_bound (length msg) 64 ltac:(lia)).
  assert (LM : length (remainder 64 msg ++ [1] ++ zeros (63 - length (remainder 64 msg))) = 64%nat).
  { cbn [app]. rewrite app_length. cbn [length]. rewrite zeros_length. lia. }
  rewrite g_length; [lia| |apply le_bytes_length]. apply g_length; [|apply le_bytes_length]. now apply g_length.
Qed.

(** JH *)
Lemma F8_length h m : length m = 64%nat -> length (Spec.JH.F8 h m) = 128%nat.
Proof.
  intros L. unfold Spec.JH.F8.
  assert (E : forall a, length (Spec.JH.E8 a) = 128%nat) by (intros a; unfold Spec.JH.E8, Spec.JH.degroup; now rewrite map_length, seq_length).
  rewrite app_length, xor_bytes_length, firstn_length, skipn_length, E, L. reflexivity.
Qed.
Lemma jh_length n msg : (n <= 128)%nat -> length (Spec.JH.JH n msg) = n.
Proof.
  intros H. unfold Spec.JH.JH. rewrite skipn_length.
  assert (X : forall bl h, Forall (fun b => length b = 64%nat) bl -> length h = 128%nat -> length (fold_left Spec.JH.F8 bl h) = 128%nat).
  { induction bl as [|b bl IH]; intros h F S; [exact S|]. apply Forall_cons_iff in F as [Lb F]. apply IH; [exact F|]. now apply F8_length. }
  rewrite X; [lia|apply chunks_block_length; lia|]. unfold Spec.JH.H0. now apply F8_length.
Qed.

(** Shabal *)
Definition sizes3 (S : Spec.Shabal.state) : Prop := length (snd (fst S)) = 16%nat /\ length (snd S) = 16%nat.
Lemma P_length M A B C : length B = 16%nat -> length (snd (Spec.Shabal.P M A B C)) = length B.
Proof.
  intros LB. unfold Spec.Shabal.P.
  assert (X : forall l A B, length B = 16%nat -> length (snd (fold_left (Spec.Shabal.step M C) l (A, B))) = length B).
  { clear. induction l as [|i l IH]; intros A B LB; [reflexivity|]. cbn [fold_left]. unfold Spec.Shabal.step at 2.
    pose proof (Nat.mod_upper_bound i 16 ltac:(lia)). rewrite IH; rewrite upd_length; lia. }
  specialize (X (seq 0 48) A (map (fun b => rotl32 b 17) B)). destruct (fold_left _ _ _) as [a b]. cbn [snd] in *.
  rewrite X; rewrite map_length; [reflexivity|exact LB].
Qed.
Lemma round_sizes S w M : sizes3 S -> length M = 16%nat -> sizes3 (Spec.Shabal.round S w M).
Proof.
  intros [H1 H2] L. destruct S as [[A B] C]. cbn [fst snd] in *. unfold Spec.Shabal.round.
  pose proof (P_length M (Spec.Shabal.map2 N.lxor A ([w mod 2 ^ 32; w / 2 ^ 32] ++ repeat 0 10)) (Spec.Shabal.map2 add32 B M) C) as X.
  specialize (X ltac:(unfold Spec.Shabal.map2; rewrite map_length, combine_length; lia)).
  destruct (Spec.Shabal.P _ _ _ _) as [a b]. unfold sizes3. cbn [fst snd] in *. rewrite X.
  unfold Spec.Shabal.map2. rewrite !map_length, !combine_length. lia.
Qed.
Lemma rounds_sizes Ms : Forall (fun M => length M = 16%nat) Ms -> forall S w, sizes3 S -> sizes3 (Spec.Shabal.rounds S w Ms).
Proof.
  induction 1 as [|M Ms L F IH]; intros S w H; [exact H|]. cbn [Spec.Shabal.rounds]. apply IH. now apply round_sizes.
Qed.
Lemma shabal_length n msg : (n <= 64)%nat -> length (Spec.Shabal.Shabal n msg) = n.
Proof.
  intros H. unfold Spec.Shabal.Shabal. set (pd := Spec.MD.md_pad 64 0x80 [] msg).
  assert (Lp : (64 <= length pd)%nat).
  { unfold pd, Spec.MD.md_pad, Spec.MD.zpad. rewrite !app_length, zeros_length. cbn [length].
    pose proof (Nat.mod_upper_bound (length msg + 1 + 0) 64 ltac:(lia)) as U.
    pose proof (Nat.div_mod (length msg + 1 + 0) 64 ltac:(lia)) as D.
    set (q := ((length msg + 1 + 0) / 64)%nat) in *. set (r := ((length msg + 1 + 0) mod 64)%nat) in *. clearbody q r.
    destruct (Nat.eq_dec r 0) as [->|Hr]; [change ((64 - 0) mod 64)%nat with 0%nat; lia|]. rewrite (Nat.mod_small (64 - r)) by lia. lia. }
  clearbody pd. cbv zeta.
  assert (F : Forall (fun M => length M = 16%nat) (map (words_of_le 4) (chunks 64 pd))).
  { apply Forall_map. eapply Forall_impl; [|apply (chunks_block_length 64 pd); lia]. intros b Lb. cbn in Lb. now rewrite words_of_le_length, Lb by lia. }
  assert (K : (0 < length (map (words_of_le 4) (chunks 64 pd)))%nat).
  { rewrite map_length, chunks_length by lia. apply Nat.div_str_pos. lia. }
  set (Ms := map (words_of_le 4) (chunks 64 pd)) in *. clearbody Ms.
  assert (LL : length (nth (length Ms - 1) Ms []) = 16%nat).
  { apply (proj1 (Forall_forall _ _) F). apply nth_In. lia. }
  assert (I : sizes3 (Spec.Shabal.iv (8 * n))).
  { unfold Spec.Shabal.iv. apply rounds_sizes; [|now split]. constructor; [now rewrite map_length, seq_length|]. constructor; [|constructor].
    now rewrite map_length, seq_length. }
  pose proof (rounds_sizes Ms F (Spec.Shabal.iv (8 * n)) 1 I) as X.
  set (last := nth (length Ms - 1) Ms []) in *. clearbody last. set (wk := N.of_nat (length Ms) mod 2 ^ 64). clearbody wk.
  apply (round_sizes _ wk last) in X; [|exact LL]. apply (round_sizes _ wk last) in X; [|exact LL]. apply (round_sizes _ wk last) in X; [|exact LL].
  destruct (Spec.Shabal.round _ wk last) as [[a b] c]. destruct X as [_ X]. cbn [snd] in X.
  rewrite skipn_length, words_to_le_length, X. lia.
Qed.

Lemma function_length f n msg : supported f n -> length (function f n msg) = n.
Proof.
  intros S. destruct f; cbn [supported In] in S; cbn [function].
  - destruct S as [<-|[<-|[]]]; apply hash256_length; lia.
  - destruct S as [<-|[<-|[<-|[<-|[]]]]]; apply hash512_length; lia.
  - apply blake2_length. exact S.
  - apply blake2_length. exact S.
  - apply groestl_length; cbn; lia.
  - apply groestl_length; cbn; lia.
  - apply kupyna_length; cbn; lia.
  - apply kupyna_length; cbn; lia.
  - apply streebog_length. lia.
  - apply jh_length. lia.
  - apply shabal_length. lia.
Qed.

Lemma ct_iff f n : (exists C, ct_new f n = Some C) <-> supported f n.
Proof.
  rewrite <- rt_iff. unfold ct_new. split; intros [C E].
  - destruct (rt_new f n) as [C'| |]; [now exists C'|discriminate..].
  - exists C. now rewrite E.
Qed.
Lemma standard_sizes_refuted : ~ (forall f n, (exists C, rt_new f n = Made C) -> standard f n).
Proof. intros H. specialize (H FKupynaLong 32%nat). rewrite rt_iff in H. cbn in H. lia. Qed.
Lemma deviations f n : (exists C, rt_new f n = Made C) <->
  standard f n \/ (n = 0%nat /\ In f [FBlake2b; FBlake2s; FGroestlShort; FGroestlLong; FKupynaShort]) \/
  (f = FGroestlLong /\ (n <= 32)%nat) \/ (f = FKupynaLong /\ n = 32%nat).
Proof.
  rewrite rt_iff. destruct f; cbn [standard supported In]; split; intros H;
    try (repeat match goal with H : _ \/ _ |- _ => destruct H | H : _ /\ _ |- _ => destruct H end; try discriminate; try contradiction; lia || tauto);
    destruct (Nat.eq_dec n 0); destruct (Nat.le_gt_cases n 32); try destruct (Nat.eq_dec n 32); try (left; lia); intuition lia.
Qed.
