(** The compression functions of Model/Pointers.v from their pointers to the final memory. *)
From Verif Require Import Base.Words Base.Bytes Base.Codec Spec.FlatMemory Spec.Memory.
From Verif Require Import Model.Sha2Consts Model.Simd Model.Sha2Simd Model.Sha1Simd Model.Pointers Proof.Pointers Proof.PointersRiscv.
From Verif Require Model.LoongCpu Model.Sha2Riscv Model.Sha256Soft Model.Sha512Soft Model.Jh Model.Backends.
From Verif Require Spec.SHA1 Spec.SHA2 Spec.JH.
From Verif Require Proof.LoongCpu Proof.Loads Proof.Backends Proof.Sha256Soft Proof.Sha512Soft Proof.Jh.
Import Model.LoongCpu (bytes_at, write, allowed).
Import Spec.SHA2 (vars_of_list, list_of_vars, sha256_params, sha512_params, p_K).

Lemma whole_concat n blocks : whole n blocks -> length (concat blocks) = (n * length blocks)%nat.
Proof. intros H. apply (concat_length_blocks n). eapply Forall_impl; [|exact H]. now intros a []. Qed.
Lemma whole_skipn n i blocks : whole n blocks -> whole n (skipn i blocks).
Proof. revert blocks. induction i as [|i IH]; intros [|b bl] H; auto. inversion_clear H. now apply IH. Qed.
Lemma whole_firstn n i blocks : whole n blocks -> whole n (firstn i blocks).
Proof. revert blocks. induction i as [|i IH]; intros [|b bl] H; try constructor; inversion_clear H; auto. now apply IH. Qed.
Lemma skipn_concat {A} n i (l : list (list A)) : Forall (fun b => length b = n) l -> (i <= length l)%nat ->
  skipn (n * i) (concat l) = concat (skipn i l).
Proof.
  revert l. induction i as [|i IH]; intros [|b l] F H; try (now rewrite ?Nat.mul_0_r, ?skipn_nil).
  inversion_clear F as [|? ? Hb F']. rewrite Nat.mul_succ_r, Nat.add_comm. cbn [concat skipn length] in *.
  rewrite <- Proof.Loads.skipn_skipn', skipn_app_exact by exact Hb. apply IH; [exact F'|lia].
Qed.

Section Blocks.
  Variables (rd : list (N * N)) (m : N -> N) (pb : N) (n : nat) (blocks : list bytes).
  Hypothesis W : whole n blocks.
  Hypothesis T : there rd m pb (concat blocks).
  Lemma there_sub a l i k : there rd m a l -> (i + k <= length l)%nat -> there rd m (a + N.of_nat i) (firstn k (skipn i l)).
  Proof using Type.
    intros [H R] L. split.
    - apply Proof.LoongCpu.holds_bytes_at. rewrite firstn_length_le by (rewrite skipn_length; lia). now apply holds_slice.
    - rewrite firstn_length_le by (rewrite skipn_length; lia). eapply readable_sub; [exact R|lia|lia].
  Qed.
  Lemma there_blocks i k : (i + k <= length blocks)%nat -> there rd m (pb + N.of_nat n * N.of_nat i) (concat (firstn k (skipn i blocks))).
  Proof using W T.
    intros L. replace (pb + N.of_nat n * N.of_nat i) with (pb + N.of_nat (n * i)) by lia.
    assert (F : Forall (fun b => length b = n) blocks) by (eapply Forall_impl; [|exact W]; now intros a []).
    replace (concat (firstn k (skipn i blocks))) with (firstn (n * k) (skipn (n * i) (concat blocks))).
    - apply there_sub; [exact T|]. rewrite (whole_concat n) by exact W. nia.
    - rewrite skipn_concat by (exact F || lia). rewrite <- (firstn_skipn k (skipn i blocks)) at 1. rewrite concat_app.
      apply firstn_app_exact. rewrite (whole_concat n) by now apply whole_firstn, whole_skipn. rewrite firstn_length_le; [reflexivity|].
      rewrite skipn_length. lia.
  Qed.
  Lemma nth_skipn {A} i (l : list A) d : (i < length l)%nat -> firstn 1 (skipn i l) = [nth i l d].
  Proof using Type. revert l. induction i as [|i IH]; intros [|x l] H; cbn [length] in H; try lia; [reflexivity|]. cbn [skipn nth]. apply IH. lia. Qed.
  Lemma there_block i : (i < length blocks)%nat -> there rd m (pb + N.of_nat n * N.of_nat i) (nth i blocks []) /\ length (nth i blocks []) = n.
  Proof using W T.
    intros H. pose proof (there_blocks i 1 ltac:(lia)) as B. rewrite (nth_skipn i blocks []) in B by exact H. cbn [concat] in B. rewrite app_nil_r in B.
    split; [exact B|]. unfold whole in W. rewrite Forall_forall in W. now apply W, nth_In.
  Qed.
  Lemma each_at {S} (f : S -> N -> option S) (h : S -> bytes -> S) s :
    (forall s p b, there rd m p b -> length b = n -> f s p = Some (h s b)) ->
    each pb (length blocks) (N.of_nat n) f s = Some (fold_left h blocks s).
  Proof using W T.
    intros H. unfold each. rewrite (loop_fold _ (fun s i => h s (nth i blocks []))); [now rewrite fold_nth|].
    intros s0 i Hi. apply in_seq in Hi. destruct (there_block i ltac:(lia)) as [Th L]. now apply H.
  Qed.
  (** RISC-V: the blocks with the memory around them *)
  Definition placed (k c : nat) : list (nat * bytes) := map (fun i => placed_at m k c (pb + N.of_nat n * N.of_nat i)) (seq 0 (length blocks)).
  Lemma placed_ok k c : (0 < k)%nat -> n = (k * c)%nat -> bytes_mem m -> Forall2 (in_memory k) (placed k c) blocks.
  Proof using W T.
    intros Hk Hn BM. unfold placed.
    assert (G : forall i j, (i + j = length blocks)%nat -> Forall2 (in_memory k) (map (fun i => placed_at m k c (pb + N.of_nat n * N.of_nat i)) (seq i j)) (skipn i blocks)).
    { intros i j. revert i. induction j as [|j IH]; intros i E.
      - rewrite skipn_all2 by lia. constructor.
      - assert (Hi : (i < length blocks)%nat) by lia. destruct (there_block i Hi) as [Th L].
        replace (skipn i blocks) with (nth i blocks [] :: skipn (S i) blocks).
        + cbn [seq map]. constructor; [|apply IH; lia]. rewrite Hn in L. now apply (placed_in rd m BM).
        + clear - Hi. revert i Hi. induction blocks as [|b bl IHb]; intros [|i] Hi; cbn [length] in Hi; try lia; [reflexivity|]. cbn [nth skipn]. apply IHb. lia. }
    apply (G 0%nat). lia.
  Qed.
  Lemma zknh_at k c load_p load one_p one s :
    (forall p b, there rd m p b -> length b = n -> load_p p = Some (load (fst (placed_at m k c p)) (snd (placed_at m k c p)))) ->
    (forall s b, one_p s b = Some (one s b)) ->
    each pb (length blocks) (N.of_nat n) (with_load load_p one_p) s = Some (Model.Sha2Riscv.compress_with load one s (placed k c)).
  Proof using W T.
    intros HL HO. unfold each. rewrite (loop_fold _ (fun s i => one s (load (fst (placed_at m k c (pb + N.of_nat n * N.of_nat i))) (snd (placed_at m k c (pb + N.of_nat n * N.of_nat i)))))).
    - f_equal. unfold Model.Sha2Riscv.compress_with, placed. generalize (seq 0 (length blocks)). intros l. revert s.
      induction l as [|i l IH]; intros s; [reflexivity|]. cbn [fold_left map]. rewrite IH. now destruct (placed_at m k c _).
    - intros s0 i Hi. apply in_seq in Hi. destruct (there_block i ltac:(lia)) as [Th L]. unfold with_load.
      rewrite (HL _ _ Th L). cbn [obind]. apply HO.
  Qed.
End Blocks.

(** AVX2: the blocks two at a time *)
Definition pairs_by (h : list N -> bytes -> list N) : list N -> list bytes -> list N :=
  fix pairs_by (state : list N) (blocks : list bytes) {struct blocks} : list N :=
  match blocks with
  | b1 :: b2 :: rest => pairs_by (h state (b1 ++ b2)) rest
  | _ => state
  end.
Lemma pairs_by_fold h q : forall rest s, length rest = (2 * q)%nat ->
  fold_left (fun s j => h s (concat (firstn 2 (skipn (2 * j) rest)))) (seq 0 q) s = pairs_by h s rest.
Proof.
  induction q as [|q IH]; intros rest s L; [destruct rest; [reflexivity|cbn [length] in L; lia]|].
  destruct rest as [|b1 [|b2 rest]]; cbn [length] in L; try lia. cbn [seq fold_left pairs_by]. change (2 * 0)%nat with 0%nat. cbn [skipn firstn concat]. rewrite app_nil_r.
  rewrite <- (IH rest _ ltac:(lia)). rewrite <- seq_shift.
  assert (HS : forall j, skipn (2 * S j) (b1 :: b2 :: rest) = skipn (2 * j) rest).
  { intros j. replace (2 * S j)%nat with (S (S (2 * j))) by lia. reflexivity. }
  generalize (h s (b1 ++ b2)). generalize (seq 0 q). revert HS. clear. intros HS l.
  induction l as [|j l IH]; intros s; [reflexivity|]. cbn [map fold_left]. rewrite HS. apply IH.
Qed.
Lemma pairs_fold q rest s : length rest = (2 * q)%nat ->
  fold_left (fun s j => avx2_pair s (concat (firstn 2 (skipn (2 * j) rest)))) (seq 0 q) s = avx2_pairs s rest.
Proof. exact (pairs_by_fold avx2_pair q rest s). Qed.
Lemma avx2_at rd m pk pb blocks s : there rd m pk (words_to_le 8 K64) -> whole 128 blocks -> there rd m pb (concat blocks) ->
  sha512_avx2_p rd m pk s pb (length blocks) = Some (sha512_avx2 s blocks).
Proof.
  intros HK W T. unfold sha512_avx2_p, sha512_avx2.
  assert (G : forall start s, (start <= length blocks)%nat -> Nat.Even (length blocks - start) ->
    loop (fun s j => avx2_pair_p rd m pk s (pb + 128 * N.of_nat (start + 2 * j))) (seq 0 ((length blocks - start + 1) / 2)) s
    = Some (avx2_pairs s (skipn start blocks))).
  { intros start s0 Hs [q Hq]. rewrite Hq. replace ((2 * q + 1) / 2)%nat with q.
    2:{ apply (Nat.div_unique _ _ _ 1); lia. }
    rewrite <- (pairs_fold q) by (rewrite skipn_length; exact Hq).
    apply loop_fold. intros s1 j Hj. apply in_seq in Hj.
    pose proof (there_blocks rd m pb 128 blocks W T (start + 2 * j) 2 ltac:(lia)) as B. change (N.of_nat 128) with 128 in B.
    rewrite Proof.Loads.skipn_skipn'. apply avx2_pair_at; [exact HK|exact B|].
    rewrite (whole_concat 128) by now apply whole_firstn, whole_skipn. rewrite firstn_length_le; [reflexivity|rewrite skipn_length; lia]. }
  destruct (Nat.odd (length blocks)) eqn:O.
  - destruct blocks as [|b rest] eqn:E; [discriminate O|]. rewrite <- E in *.
    destruct (there_block rd m pb 128 blocks W T 0) as [Tb Lb]; [rewrite E; cbn [length]; lia|].
    replace (nth 0 blocks []) with b in * by now rewrite E. cbn [N.of_nat] in Tb. rewrite N.mul_0_r, N.add_0_r in Tb.
    rewrite (block512_at rd m pk HK avx_load64 avx_update_x avx_load_0 pb b s Tb Lb). cbn [obind]. rewrite G.
    + rewrite E. unfold avx_block. cbn [skipn]. reflexivity.
    + rewrite E. cbn [length]. lia.
    + rewrite E in *. cbn [length]. cbn [length] in O. replace (S (length rest) - 1)%nat with (length rest) by lia.
      rewrite Nat.odd_succ in O. now apply Nat.even_spec.
  - cbn [obind]. rewrite G; [reflexivity|lia|]. rewrite Nat.sub_0_r. apply Nat.even_spec. rewrite <- Nat.negb_odd. now rewrite O.
Qed.

(** ** Stores *)
Definition stored (m m' : N -> N) (a : N) (l : bytes) : Prop := holds m' a l /\ unchanged_but [(a, N.of_nat (length l))] m m'.
Lemma write_stored m a l : stored m (write m a l) a l.
Proof.
  split; [apply Proof.LoongCpu.holds_bytes_at, Proof.LoongCpu.write_at|].
  intros x F. inversion_clear F. now apply Proof.LoongCpu.write_out.
Qed.
Lemma stored_app m m' a l l' : stored m m' a l -> stored m (write m' (a + N.of_nat (length l)) l') a (l ++ l').
Proof.
  intros [H U]. split.
  - intros i Hi. rewrite app_length in Hi. destruct (Nat.ltb_spec i (length l)) as [L|L].
    + rewrite app_nth1 by exact L. rewrite Proof.LoongCpu.write_out by (left; cbn [fst]; lia). now apply H.
    + rewrite app_nth2 by exact L.
      pose proof (Proof.LoongCpu.holds_bytes_at (write m' (a + N.of_nat (length l)) l') (a + N.of_nat (length l)) l' (Proof.LoongCpu.write_at _ _ _)) as H'.
      rewrite <- H' by lia. f_equal. lia.
  - intros x F. inversion_clear F as [|? ? O _]. unfold outside in O. cbn [fst snd] in O. rewrite app_length in O.
    rewrite Proof.LoongCpu.write_out by (unfold outside; cbn [fst snd]; lia). apply U. constructor; [|constructor]. unfold outside. cbn [fst snd]. lia.
Qed.
Lemma st_at wr m a l : readable wr a (N.of_nat (length l)) -> st wr m a l = Some (write m a l).
Proof. intros H. unfold st. now rewrite readable_allowed. Qed.

Lemma by_ref_at rd wr m ps k n s s' f : (0 < k)%nat -> there rd m ps (words_to_le k s) -> words_ok (8 * N.of_nat k) s -> length s = n ->
  f s = Some s' -> length s' = n -> readable wr ps (N.of_nat (k * n)) ->
  exists m', by_ref rd wr m ps k n f = Some m' /\ stored m m' ps (words_to_le k s').
Proof.
  intros Hk T Ws L F L' R. unfold by_ref. destruct T as [H Rd]. rewrite words_to_le_length, L in Rd. rewrite ld_at by exact Rd.
  replace (bytes_at m ps (k * n)) with (words_to_le k s).
  2:{ symmetry. rewrite <- L, <- words_to_le_length. now apply Proof.LoongCpu.bytes_at_holds. }
  cbn [obind]. rewrite words_le_roundtrip by assumption. rewrite F. cbn [obind].
  rewrite st_at by (now rewrite words_to_le_length, L'). eexists. split; [reflexivity|apply write_stored].
Qed.

(** ** SHA-256 *)
Lemma ld_v4 rd m a st t : there rd m a (words_to_le 4 st) -> words_ok 32 st -> (t + 4 <= length st)%nat ->
  exists b, ld rd m (a + N.of_nat (4 * t)) 16 = Some b /\ v4_of_bytes b = v4_of_list (firstn 4 (skipn t st)).
Proof.
  intros T W L. eexists. split; [apply (ld_slice rd m a (words_to_le 4 st)); [exact T|rewrite words_to_le_length; lia]|].
  unfold v4_of_bytes. change 16%nat with (4 * 4)%nat. now rewrite (firstn_skipn_le 4) by (exact W || lia).
Qed.
Lemma ld_v2 rd m a st t : there rd m a (words_to_le 8 st) -> words_ok 64 st -> (t + 2 <= length st)%nat ->
  exists b, ld rd m (a + N.of_nat (8 * t)) 16 = Some b /\ v2_of_bytes b = v2_of_list (firstn 2 (skipn t st)).
Proof.
  intros T W L. eexists. split; [apply (ld_slice rd m a (words_to_le 8 st)); [exact T|rewrite words_to_le_length; lia]|].
  unfold v2_of_bytes. change 16%nat with (8 * 2)%nat. now rewrite (firstn_skipn_le 8) by (exact W || lia).
Qed.
Lemma words_to_le_app k a b : words_to_le k (a ++ b) = words_to_le k a ++ words_to_le k b.
Proof. unfold words_to_le. now rewrite map_app, concat_app. Qed.
Lemma v4_bytes_length v : length (v4_bytes v) = 16%nat.
Proof. unfold v4_bytes. rewrite words_to_le_length. now destruct v as (((?, ?), ?), ?). Qed.
Lemma v2_bytes_length v : length (v2_bytes v) = 16%nat.
Proof. unfold v2_bytes. rewrite words_to_le_length. now destruct v. Qed.
Lemma two_stores wr m ps a b k : length a = 16%nat -> length b = k -> readable wr ps (16 + N.of_nat k) ->
  exists m', (let* m1 := st wr m ps a in st wr m1 (ps + 16) b) = Some m' /\ stored m m' ps (a ++ b).
Proof.
  intros La Lb R. rewrite <- Lb in R. rewrite st_at by (eapply readable_sub; [exact R|lia|lia]). cbn [obind]. rewrite st_at by (eapply readable_sub; [exact R|lia|lia]).
  eexists. split; [reflexivity|]. replace 16 with (N.of_nat (length a)) by lia. apply stored_app, write_stored.
Qed.
Lemma vl4 st : length st = 8%nat -> v4_of_list (firstn 4 (skipn 4 st)) = v4_of_list (skipn 4 st).
Proof. intros L. do 9 (destruct st as [|? st]; try discriminate L). reflexivity. Qed.

Section Run.
  Variables (rd wr : list (N * N)) (m : N -> N) (ps pb pk : N) (s : list N) (blocks : list bytes).
  Hypothesis BM : bytes_mem m.
  Hypothesis TB : there rd m pb (concat blocks).

  Section Sha256.
    Hypothesis W : whole 64 blocks.
    Hypothesis TS : there rd m ps (words_to_le 4 s).
    Hypothesis WS : words_ok 32 s.
    Hypothesis LS : length s = 8%nat.
    Hypothesis TK : there rd m pk (words_to_le 4 K32).
    Hypothesis AK : pk mod 4 = 0.
    Hypothesis RW : readable wr ps 32.
    Definition target256 (t : machine) : Model.Backends.sha2_target :=
      match t with
      | MPortable => Model.Backends.Portable
      | MX86 => Model.Backends.X86 true
      | MAarch64 => Model.Backends.Aarch64 true
      | MWasm => Model.Backends.Wasm32Simd
      | MZknh r => Model.Backends.Zknh r (placed m pb 64 blocks 4 16)
      | MZknhCompact r => Model.Backends.ZknhCompact r (placed m pb 64 blocks 4 16)
      end.
    Lemma sees_256 t : Model.Backends.sees256 (target256 t) blocks.
    Proof using BM TB W. destruct t; try exact I; apply (placed_ok rd); assumption || reflexivity || (clear; lia). Qed.
    Notation result t := (Model.Backends.compress256 (target256 t) s blocks).
    Lemma result256 t : result t = list_of_vars (fold_left (Spec.SHA2.compress sha256_params) blocks (vars_of_list s)).
    Proof using BM TB W WS LS. apply Proof.Backends.fips256; [exact LS|exact WS|exact W|apply sees_256]. Qed.
    Lemma result256_len t : length (result t) = 8%nat.
    Proof using BM TB W WS LS. rewrite result256. now destruct (fold_left _ _ _) as [[[[[[[? ?] ?] ?] ?] ?] ?] ?]. Qed.
    Lemma ref256 f t : f s = Some (result t) -> exists m', by_ref rd wr m ps 4 8 f = Some m' /\ stored m m' ps (words_to_le 4 (result t)).
    Proof using BM TB W TS WS LS RW. intros F. apply (by_ref_at rd wr m ps 4 8 s); try assumption; [clear; lia|apply result256_len]. Qed.
    Lemma run256_at t : exists m', run256 rd wr m ps pb pk (length blocks) t = Some m' /\ stored m m' ps (words_to_le 4 (result t)).
    Proof using All.
      destruct t; unfold run256.
      - apply (ref256 _ MPortable). apply (each_at rd m pb 64 blocks W TB _ Model.Sha256Soft.compress_block). intros. now apply soft256_at.
      - unfold sha256_shani_p.
        destruct (ld_v4 rd m ps s 0 TS WS ltac:(lia)) as (b0 & E0 & V0). change (ps + N.of_nat (4 * 0)) with (ps + 0) in E0. rewrite N.add_0_r in E0.
        destruct (ld_v4 rd m ps s 4 TS WS ltac:(lia)) as (b1 & E1 & V1). change (ps + N.of_nat (4 * 4)) with (ps + 16) in E1.
        rewrite E0. cbn [obind]. rewrite E1. cbn [obind]. rewrite V0, V1, vl4 by exact LS.
        rewrite (each_at rd m pb 64 blocks W TB (ni_block_p rd m) (fun s b => ni_block (fst s) (snd s) b)) by (intros; now apply ni_at).
        cbn [obind skipn]. cbn [target256 Model.Backends.compress256]. unfold sha256_shani. destruct (fold_left _ blocks _) as [abef cdgh].
        rewrite words_to_le_app. eapply two_stores; [apply v4_bytes_length|apply v4_bytes_length|exact RW].
      - unfold sha256_arm_p.
        destruct (ld_v4 rd m ps s 0 TS WS ltac:(lia)) as (b0 & E0 & V0). change (ps + N.of_nat (4 * 0)) with (ps + 0) in E0. rewrite N.add_0_r in E0.
        destruct (ld_v4 rd m ps s 4 TS WS ltac:(lia)) as (b1 & E1 & V1). change (ps + N.of_nat (4 * 4)) with (ps + 16) in E1.
        rewrite E0. cbn [obind]. rewrite E1. cbn [obind]. rewrite V0, V1, vl4 by exact LS.
        rewrite (each_at rd m pb 64 blocks W TB (arm256_block_p rd m pk) arm256_block) by (intros; now apply arm256_at).
        cbn [obind skipn]. cbn [target256 Model.Backends.compress256]. unfold sha256_arm. destruct (fold_left _ blocks _) as [abcd efgh].
        rewrite words_to_le_app. eapply two_stores; [apply v4_bytes_length|apply v4_bytes_length|exact RW].
      - apply (ref256 _ MWasm). apply (each_at rd m pb 64 blocks W TB _ wasm256_block). intros. now apply wasm256_at.
      - apply (ref256 _ (MZknh rv64)). apply (zknh_at rd m pb 64 blocks W TB 4 16); [intros; now apply (load256_at rd m p b)|].
        intros. apply compress_u_at; try assumption; try lia; try exact K32_words; reflexivity.
      - apply (ref256 _ (MZknhCompact rv64)). apply (zknh_at rd m pb 64 blocks W TB 4 16); [intros; now apply (load256_at rd m p b)|].
        reflexivity.
    Qed.
  End Sha256.

  Section Sha512.
    Hypothesis W : whole 128 blocks.
    Hypothesis TS : there rd m ps (words_to_le 8 s).
    Hypothesis WS : words_ok 64 s.
    Hypothesis LS : length s = 8%nat.
    Hypothesis TK : there rd m pk (words_to_le 8 K64).
    Hypothesis AK : pk mod 8 = 0.
    Hypothesis RW : readable wr ps 64.
    Definition placed512 (r : bool) := if r then placed m pb 128 blocks 8 16 else placed m pb 128 blocks 4 32.
    Definition target512 (t : machine) : Model.Backends.sha2_target :=
      match t with
      | MPortable => Model.Backends.Portable
      | MX86 => Model.Backends.X86 true
      | MAarch64 => Model.Backends.Aarch64 true
      | MWasm => Model.Backends.Wasm32Simd
      | MZknh r => Model.Backends.Zknh r (placed512 r)
      | MZknhCompact r => Model.Backends.ZknhCompact r (placed512 r)
      end.
    Lemma sees_512 t : Model.Backends.sees512 (target512 t) blocks.
    Proof using BM TB W. destruct t as [| | | |[]|[]]; try exact I; apply (placed_ok rd); assumption || reflexivity || (clear; lia). Qed.
    Notation result t := (Model.Backends.compress512 (target512 t) s blocks).
    Lemma result512 t : result t = list_of_vars (fold_left (Spec.SHA2.compress sha512_params) blocks (vars_of_list s)).
    Proof using BM TB W WS LS. apply Proof.Backends.fips512; [exact LS|exact WS|exact W|apply sees_512]. Qed.
    Lemma result512_len t : length (result t) = 8%nat.
    Proof using BM TB W WS LS. rewrite result512. now destruct (fold_left _ _ _) as [[[[[[[? ?] ?] ?] ?] ?] ?] ?]. Qed.
    Lemma ref512 f t : f s = Some (result t) -> exists m', by_ref rd wr m ps 8 8 f = Some m' /\ stored m m' ps (words_to_le 8 (result t)).
    Proof using BM TB W TS WS LS RW. intros F. apply (by_ref_at rd wr m ps 8 8 s); try assumption; [clear; lia|apply result512_len]. Qed.
    Lemma four_stores a b c d : length a = 16%nat -> length b = 16%nat -> length c = 16%nat -> length d = 16%nat ->
      exists m', (let* m := st wr m ps a in let* m := st wr m (ps + 16) b in let* m := st wr m (ps + 32) c in st wr m (ps + 48) d) = Some m' /\ stored m m' ps (a ++ b ++ c ++ d).
    Proof using RW.
      intros La Lb Lc Ld. clear - RW La Lb Lc Ld.
      rewrite st_at by (eapply readable_sub; [exact RW|lia|lia]). cbn [obind]. rewrite st_at by (eapply readable_sub; [exact RW|lia|lia]). cbn [obind].
      rewrite st_at by (eapply readable_sub; [exact RW|lia|lia]). cbn [obind]. rewrite st_at by (eapply readable_sub; [exact RW|lia|lia]).
      eexists. split; [reflexivity|]. rewrite !app_assoc.
      replace (ps + 48) with (ps + N.of_nat (length ((a ++ b) ++ c))) by (rewrite !app_length; lia). apply stored_app.
      replace (ps + 32) with (ps + N.of_nat (length (a ++ b))) by (rewrite !app_length; lia). apply stored_app.
      replace (ps + 16) with (ps + N.of_nat (length a)) by lia. apply stored_app, write_stored.
    Qed.
    Lemma run512_at t : exists m', run512 rd wr m ps pb pk (length blocks) t = Some m' /\ stored m m' ps (words_to_le 8 (result t)).
    Proof using All.
      destruct t; unfold run512.
      - apply (ref512 _ MPortable). apply (each_at rd m pb 128 blocks W TB _ Model.Sha512Soft.compress_block). intros. now apply soft512_at.
      - apply (ref512 _ MX86). now apply avx2_at.
      - unfold sha512_arm_p.
        destruct (ld_v2 rd m ps s 0 TS WS ltac:(lia)) as (b0 & E0 & V0). change (ps + N.of_nat (8 * 0)) with (ps + 0) in E0. rewrite N.add_0_r in E0.
        destruct (ld_v2 rd m ps s 2 TS WS ltac:(lia)) as (b1 & E1 & V1). change (ps + N.of_nat (8 * 2)) with (ps + 16) in E1.
        destruct (ld_v2 rd m ps s 4 TS WS ltac:(lia)) as (b2 & E2 & V2). change (ps + N.of_nat (8 * 4)) with (ps + 32) in E2.
        destruct (ld_v2 rd m ps s 6 TS WS ltac:(lia)) as (b3 & E3 & V3). change (ps + N.of_nat (8 * 6)) with (ps + 48) in E3.
        rewrite E0. cbn [obind]. rewrite E1. cbn [obind]. rewrite E2. cbn [obind]. rewrite E3. cbn [obind]. rewrite V0, V1, V2, V3.
        rewrite (each_at rd m pb 128 blocks W TB (arm512_block_p rd m pk) arm512_block) by (intros; now apply arm512_at).
        cbn [obind]. cbn [target512 Model.Backends.compress512]. unfold sha512_arm. destruct (fold_left _ blocks _) as [[[ab cd] ef] gh].
        rewrite !words_to_le_app. apply four_stores; apply v2_bytes_length.
      - apply (ref512 _ MWasm). apply (each_at rd m pb 128 blocks W TB _ (block512 wasm_load64 wasm_update_x)). intros. apply block512_at; assumption || exact wasm_load_0.
      - apply (ref512 _ (MZknh rv64)). destruct rv64.
        + apply (zknh_at rd m pb 128 blocks W TB 8 16); [intros; now apply (rv64_load512_at rd m p b)|].
          intros. apply compress_u_at; try assumption; try lia; try exact K64_words; reflexivity.
        + apply (zknh_at rd m pb 128 blocks W TB 4 32); [intros; now apply (rv32_load512_at rd m p b)|].
          intros. apply compress_u_at; try assumption; try lia; try exact K64_words; reflexivity.
      - apply (ref512 _ (MZknhCompact rv64)). destruct rv64.
        + apply (zknh_at rd m pb 128 blocks W TB 8 16); [intros; now apply (rv64_load512_at rd m p b)|]. reflexivity.
        + apply (zknh_at rd m pb 128 blocks W TB 4 32); [intros; now apply (rv32_load512_at rd m p b)|]. reflexivity.
    Qed.
  End Sha512.

  Section Sha1.
    Hypothesis W : whole 64 blocks.
    Hypothesis TS : there rd m ps (words_to_le 4 s).
    Hypothesis WS : words_ok 32 s.
    Hypothesis LS : length s = 5%nat.
    Hypothesis RW : readable wr ps 20.
    Definition target1 (x86 : bool) := if x86 then Model.Backends.X86_1 true else Model.Backends.Aarch64_1 true.
    Lemma run1_at x86 : exists m', run1 rd wr m ps pb (length blocks) x86 = Some m' /\ stored m m' ps (words_to_le 4 (Model.Backends.compress1 (target1 x86) s blocks)).
    Proof using W TB TS WS LS RW.
      destruct (ld_v4 rd m ps s 0 TS WS ltac:(lia)) as (b0 & E0 & V0). change (ps + N.of_nat (4 * 0)) with (ps + 0) in E0. rewrite N.add_0_r in E0.
      cbn [skipn] in V0.
      assert (E1 : exists b, ld rd m (ps + 16) 4 = Some b /\ le_val b = get s 4).
      { eexists. split; [apply (ld_slice rd m ps (words_to_le 4 s) 16 4 TS); rewrite words_to_le_length; lia|].
        apply (word_at 4 s 4); [lia|exact WS|lia]. }
      destruct E1 as (b1 & E1 & V1).
      destruct x86; unfold run1.
      - unfold sha1_shani_p. rewrite E0. cbn [obind]. rewrite E1. cbn [obind]. rewrite V0, V1.
        rewrite (each_at rd m pb 64 blocks W TB (ni1_block_p rd m) ni1_block) by (intros; now apply ni1_at).
        cbn [obind]. cbn [target1 Model.Backends.compress1]. unfold sha1_shani. destruct (fold_left _ blocks _) as [abcd [[[x y] z] e]].
        rewrite words_to_le_app. replace (words_to_le 4 [e]) with (le_bytes 4 e) by (unfold words_to_le; cbn [map concat]; now rewrite app_nil_r).
        eapply two_stores; [apply v4_bytes_length|apply le_bytes_length|exact RW].
      - unfold sha1_arm_p. rewrite E0. cbn [obind]. rewrite E1. cbn [obind]. rewrite V0, V1.
        rewrite (each_at rd m pb 64 blocks W TB (arm1_block_p rd m) arm1_block) by (intros; now apply arm1_at).
        cbn [obind]. cbn [target1 Model.Backends.compress1]. unfold sha1_arm. destruct (fold_left _ blocks _) as [abcd e].
        rewrite words_to_le_app. replace (words_to_le 4 [e]) with (le_bytes 4 e) by (unfold words_to_le; cbn [map concat]; now rewrite app_nil_r).
        eapply two_stores; [apply v4_bytes_length|apply le_bytes_length|exact RW].
    Qed.
  End Sha1.
End Run.

(** ** The statements *)
Lemma readable_in (l : list (N * N)) (a n : N) : In (a, n) l -> readable l a n.
Proof. intros H. exists (a, n). cbn [fst snd]. split; [exact H|lia]. Qed.
Section Final.
  Variables (mem : N -> N) (ps pb pk : N) (s : list N) (blocks : list bytes).
  Hypothesis BM : bytes_mem mem.
  Lemma there_in rd a l n : holds mem a l -> In (a, n) rd -> n = N.of_nat (length l) -> there rd mem a l.
  Proof using Type. intros H I ->. split; [exact H|now apply readable_in]. Qed.
  Theorem run256_spec t (RS := (ps, 32)) (RB := (pb, 64 * N.of_nat (length blocks))) (RK := (pk, 256)) :
    whole 64 blocks -> length s = 8%nat -> words_ok 32 s ->
    holds mem ps (words_to_le 4 s) -> holds mem pb (concat blocks) -> holds mem pk (words_to_le 4 (p_K sha256_params)) -> pk mod 4 = 0 ->
    exists mem', run256 [RS; RB; RK] [RS] mem ps pb pk (length blocks) t = Some mem' /\
      holds mem' ps (words_to_le 4 (list_of_vars (fold_left (Spec.SHA2.compress sha256_params) blocks (vars_of_list s)))) /\
      unchanged_but [RS] mem mem'.
  Proof using BM.
    intros W L Ws HS HB HK A. rewrite Proof.Sha256Soft.K32_ok in HK.
    assert (TB : there [RS; RB; RK] mem pb (concat blocks)).
    { apply (there_in _ _ _ (64 * N.of_nat (length blocks))); [exact HB|right; now left|]. rewrite (whole_concat 64) by exact W. lia. }
    destruct (run256_at [RS; RB; RK] [RS] mem ps pb pk s blocks BM TB W) with (t := t) as (m' & E & H & U); try assumption.
    - apply (there_in _ _ _ 32); [exact HS|now left|]. rewrite words_to_le_length, L. reflexivity.
    - apply (there_in _ _ _ 256); [exact HK|right; right; now left|]. rewrite words_to_le_length. reflexivity.
    - apply readable_in. now left.
    - exists m'. split; [exact E|]. rewrite words_to_le_length in U. rewrite (result256_len [RS; RB; RK] mem pb s blocks BM TB W Ws L) in U.
      rewrite (result256 [RS; RB; RK] mem pb s blocks BM TB W Ws L) in H. split; [exact H|exact U].
  Qed.
  Theorem run512_spec t (RS := (ps, 64)) (RB := (pb, 128 * N.of_nat (length blocks))) (RK := (pk, 640)) :
    whole 128 blocks -> length s = 8%nat -> words_ok 64 s ->
    holds mem ps (words_to_le 8 s) -> holds mem pb (concat blocks) -> holds mem pk (words_to_le 8 (p_K sha512_params)) -> pk mod 8 = 0 ->
    exists mem', run512 [RS; RB; RK] [RS] mem ps pb pk (length blocks) t = Some mem' /\
      holds mem' ps (words_to_le 8 (list_of_vars (fold_left (Spec.SHA2.compress sha512_params) blocks (vars_of_list s)))) /\
      unchanged_but [RS] mem mem'.
  Proof using BM.
    intros W L Ws HS HB HK A. rewrite Proof.Sha512Soft.K64_ok in HK.
    assert (TB : there [RS; RB; RK] mem pb (concat blocks)).
    { apply (there_in _ _ _ (128 * N.of_nat (length blocks))); [exact HB|right; now left|]. rewrite (whole_concat 128) by exact W. lia. }
    destruct (run512_at [RS; RB; RK] [RS] mem ps pb pk s blocks BM TB W) with (t := t) as (m' & E & H & U); try assumption.
    - apply (there_in _ _ _ 64); [exact HS|now left|]. rewrite words_to_le_length, L. reflexivity.
    - apply (there_in _ _ _ 640); [exact HK|right; right; now left|]. rewrite words_to_le_length. reflexivity.
    - apply readable_in. now left.
    - exists m'. split; [exact E|]. rewrite words_to_le_length in U. rewrite (result512_len [RS; RB; RK] mem pb s blocks BM TB W Ws L) in U.
      rewrite (result512 [RS; RB; RK] mem pb s blocks BM TB W Ws L) in H. split; [exact H|exact U].
  Qed.
  Theorem run1_spec x86 v (RS := (ps, 20)) (RB := (pb, 64 * N.of_nat (length blocks))) :
    whole 64 blocks -> words_ok 32 (Proof.Backends.list1 v) ->
    holds mem ps (words_to_le 4 (Proof.Backends.list1 v)) -> holds mem pb (concat blocks) ->
    exists mem', run1 [RS; RB] [RS] mem ps pb (length blocks) x86 = Some mem' /\
      holds mem' ps (words_to_le 4 (Proof.Backends.list1 (fold_left Spec.SHA1.compress blocks v))) /\
      unchanged_but [RS] mem mem'.
  Proof using Type.
    intros W Ws HS HB. clear - W Ws HS HB.
    assert (L5 : forall v, length (Proof.Backends.list1 v) = 5%nat) by now intros ((((?, ?), ?), ?), ?).
    destruct (run1_at [RS; RB] [RS] mem ps pb (Proof.Backends.list1 v) blocks) with (x86 := x86) as (m' & E & H & U); try assumption.
    - apply (there_in _ _ _ (64 * N.of_nat (length blocks))); [exact HB|right; now left|]. rewrite (whole_concat 64) by exact W. lia.
    - apply (there_in _ _ _ 20); [exact HS|now left|]. rewrite words_to_le_length, L5. reflexivity.
    - apply L5.
    - apply readable_in. now left.
    - exists m'. split; [exact E|]. rewrite words_to_le_length in U. rewrite Proof.Backends.fips1 in H, U by (assumption || now destruct x86).
      rewrite L5 in U. split; [exact H|exact U].
  Qed.
  Lemma f8_fold : forall bl h, whole 64 bl -> Proof.Jh.vok h ->
    fold_left Model.Jh.f8_impl bl (words_of_le 16 h) = words_of_le 16 (fold_left Spec.JH.F8 bl h) /\ Proof.Jh.vok (fold_left Spec.JH.F8 bl h).
  Proof using Type.
    induction bl as [|b bl IH]; intros h W V; [now split|]. inversion_clear W as [|? ? [Lb Bb] W']. cbn [fold_left].
    destruct (Proof.Jh.F8_spec h b V Lb Bb) as [-> V']. now apply IH.
  Qed.
  Theorem jh_spec h (RS := (ps, 128)) (RB := (pb, 64 * N.of_nat (length blocks))) :
    whole 64 blocks -> length h = 128%nat -> bytes_ok h -> holds mem ps h -> holds mem pb (concat blocks) ->
    exists mem', run_jh [RS; RB] [RS] mem ps pb (length blocks) = Some mem' /\
      holds mem' ps (fold_left Spec.JH.F8 blocks h) /\ unchanged_but [RS] mem mem'.
  Proof using Type.
    intros W Lh Bh HS HB. clear - W Lh Bh HS HB.
    assert (TB : there [RS; RB] mem pb (concat blocks)).
    { apply (there_in _ _ _ (64 * N.of_nat (length blocks))); [exact HB|right; now left|]. rewrite (whole_concat 64) by exact W. lia. }
    destruct (f8_fold blocks h W (conj Lh Bh)) as [F [LF BF]].
    assert (C : forall x, length x = 128%nat -> bytes_ok x -> words_to_le 16 (words_of_le 16 x) = x) by (intros x ? ?; now apply (words_le_canonical 16 8); [lia| |]).
    destruct (by_ref_at [RS; RB] [RS] mem ps 16 8 (words_of_le 16 h) (words_of_le 16 (fold_left Spec.JH.F8 blocks h))
      (each pb (length blocks) 64 (f8_p [RS; RB] mem))) as (m' & E & H & U).
    - lia.
    - rewrite C by assumption. apply (there_in _ _ _ 128); [exact HS|now left|]. now rewrite Lh.
    - apply words_of_le_ok; [lia|exact Bh].
    - rewrite words_of_le_length, Lh by lia. reflexivity.
    - rewrite <- F. apply (each_at [RS; RB] mem pb 64 blocks W TB). intros. now apply f8_at.
    - rewrite words_of_le_length, LF by lia. reflexivity.
    - apply readable_in. now left.
    - exists m'. rewrite C in H, U by assumption. rewrite LF in U. split; [exact E|]. split; [exact H|exact U].
  Qed.
End Final.

(** ** [ptr::add] *)
Lemma zknh_adds_ok k n p A S : (0 < k)%nat -> (2 <= n)%nat -> A <= p -> p + N.of_nat (k * n) <= A + S ->
  (Forall (fun r => A <= fst r /\ fst r + snd r <= A + S) (zknh_adds k n p) <-> (p mod N.of_nat k = 0 \/ A <= p - p mod N.of_nat k)).
Proof.
  intros Hk Hn HA HS. unfold zknh_adds. cbv zeta. destruct (N.eqb_spec (p mod N.of_nat k) 0) as [E|E].
  - split; [now left|]. intros _. apply Forall_map, Forall_forall. intros i Hi. apply in_seq in Hi. cbn [fst snd]. nia.
  - pose proof (N.mod_upper_bound p (N.of_nat k) ltac:(lia)) as U. pose proof (N.mod_le p (N.of_nat k) ltac:(lia)) as Le.
    split.
    + intros F. right. apply Forall_map in F. rewrite Forall_forall in F. specialize (F 0%nat). cbn [fst snd] in F. apply F, in_seq. lia.
    + intros [X|X]; [contradiction|]. apply Forall_map, Forall_forall. intros i Hi. apply in_seq in Hi. cbn [fst snd]. nia.
Qed.
Lemma zknh_adds_outside : ~ (forall k n p A S, In (k, n) [(4, 16); (8, 16); (4, 32)]%nat -> A <= p -> p + N.of_nat (k * n) <= A + S ->
  Forall (fun r => A <= fst r /\ fst r + snd r <= A + S) (zknh_adds k n p)).
Proof.
  intros H. specialize (H 4%nat 16%nat 1 1 64 (or_introl eq_refl) ltac:(lia) ltac:(lia)).
  apply (proj1 (zknh_adds_ok 4 16 1 1 64 ltac:(lia) ltac:(lia) ltac:(lia) ltac:(lia))) in H. now destruct H.
Qed.
Lemma f8_unsafe : ~ (forall rd mem s p, f8_p rd mem s p <> None).
Proof. intros H. exact (H [] (fun _ => 0) [] 0 eq_refl). Qed.
