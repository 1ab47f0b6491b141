(** C49: dropping a hasher with the feature [zeroize].

    [drop_erases C fields drop] (Spec/Erase.v): [fields] shows the whole core of the hasher model [C]; and for every value
    of the core reachable by any history of calls, [drop] leaves zero in every word of memory in which two reachable
    values differ.  Model/Drop.v has the structs and their [Drop] implementations. *)
From Verif Require Import Base.Words Base.Bytes Base.Codec Base.Digest Base.Xof Spec.Erase Model.Drop.
From Verif Require Model.Belt Model.Blake2 Model.Gost94 Model.K12 Model.Md2 Model.Sha1Checked Model.Sha3 Model.Shabal Model.Skein
  Model.Streebog Model.Whirlpool Model.Sha1 Model.Sha2 Model.Sm3 Model.Md4 Model.Md5 Model.Ripemd Model.Tiger Model.Groestl Model.Kupyna
  Model.Fsb Model.Jh.
From Verif Require Proof.Drop Proof.Blake2.

Theorem C49_sha1 : drop_erases Model.Sha1.Sha1 counted_fields counted_drop.
Proof. exact (conj Proof.Drop.counted_complete (Proof.Drop.counted_erases _)). Qed.
Print Assumptions C49_sha1.
(** All the SHA-2 hashers: [iv] and [n] are the initial state and the output size. *)
Theorem C49_sha256 : forall iv n, drop_erases (Model.Sha2.sha256_var_core iv n) counted_fields counted_drop.
Proof. exact (fun iv n => conj Proof.Drop.counted_complete (Proof.Drop.counted_erases _)). Qed.
Print Assumptions C49_sha256.
Theorem C49_sha512 : forall iv n, drop_erases (Model.Sha2.sha512_var_core iv n) counted_fields counted_drop.
Proof. exact (fun iv n => conj Proof.Drop.counted_complete (Proof.Drop.counted_erases _)). Qed.
Print Assumptions C49_sha512.
Theorem C49_sm3 : drop_erases Model.Sm3.Sm3 counted_fields counted_drop.
Proof. exact (conj Proof.Drop.counted_complete (Proof.Drop.counted_erases _)). Qed.
Print Assumptions C49_sm3.
Theorem C49_md2 : drop_erases Model.Md2.Md2 pair_fields pair_drop.
Proof. exact (conj Proof.Drop.pair_complete (Proof.Drop.pair_erases _)). Qed.
Print Assumptions C49_md2.
Theorem C49_md4 : drop_erases Model.Md4.Md4 counted_fields counted_drop.
Proof. exact (conj Proof.Drop.counted_complete (Proof.Drop.counted_erases _)). Qed.
Print Assumptions C49_md4.
Theorem C49_md5 : drop_erases Model.Md5.Md5 counted_fields counted_drop.
Proof. exact (conj Proof.Drop.counted_complete (Proof.Drop.counted_erases _)). Qed.
Print Assumptions C49_md5.
Theorem C49_ripemd : forall n h0 compress, drop_erases (Model.Ripemd.rmd_core n h0 compress) counted_fields counted_drop.
Proof. exact (fun n h0 compress => conj Proof.Drop.counted_complete (Proof.Drop.counted_erases _)). Qed.
Print Assumptions C49_ripemd.
Theorem C49_tiger : forall ver2, drop_erases (Model.Tiger.tiger_core ver2) counted_fields counted_drop.
Proof. exact (fun ver2 => conj Proof.Drop.counted_complete (Proof.Drop.counted_erases _)). Qed.
Print Assumptions C49_tiger.
Theorem C49_whirlpool : drop_erases Model.Whirlpool.Whirlpool pair_fields pair_drop.
Proof. exact (conj Proof.Drop.pair_complete (Proof.Drop.pair_erases _)). Qed.
Print Assumptions C49_whirlpool.
Theorem C49_groestl : forall k, drop_erases (Model.Groestl.GroestlShort k) counted_fields counted_drop /\
  drop_erases (Model.Groestl.GroestlLong k) counted_fields counted_drop.
Proof.
  exact (fun k => conj (conj Proof.Drop.counted_complete (Proof.Drop.counted_erases _))
                       (conj Proof.Drop.counted_complete (Proof.Drop.counted_erases _))).
Qed.
Print Assumptions C49_groestl.
Theorem C49_kupyna : forall k, drop_erases (Model.Kupyna.KupynaShort k) counted_fields counted_drop /\
  drop_erases (Model.Kupyna.KupynaLong k) counted_fields counted_drop.
Proof.
  exact (fun k => conj (conj Proof.Drop.counted_complete (Proof.Drop.counted_erases _))
                       (conj Proof.Drop.counted_complete (Proof.Drop.counted_erases _))).
Qed.
Print Assumptions C49_kupyna.
Theorem C49_fsb : forall PI P, drop_erases (Model.Fsb.fsb_core PI P) counted_fields counted_drop.
Proof. exact (fun PI P => conj Proof.Drop.counted_complete (Proof.Drop.counted_erases _)). Qed.
Print Assumptions C49_fsb.
Theorem C49_jh : forall h0 k, drop_erases (Model.Jh.jh_core h0 k) counted_fields counted_drop.
Proof. exact (fun h0 k => conj Proof.Drop.counted_complete (Proof.Drop.counted_erases _)). Qed.
Print Assumptions C49_jh.
Theorem C49_streebog : drop_erases Model.Streebog.Streebog256 triple_fields triple_drop /\
  drop_erases Model.Streebog.Streebog512 triple_fields triple_drop.
Proof.
  exact (conj (conj Proof.Drop.triple_complete (Proof.Drop.triple_erases _))
              (conj Proof.Drop.triple_complete (Proof.Drop.triple_erases _))).
Qed.
Print Assumptions C49_streebog.
Theorem C49_gost94 : forall Pr, drop_erases (Model.Gost94.gost94_core Pr) triple_fields triple_drop.
Proof. exact (fun Pr => conj Proof.Drop.triple_complete (Proof.Drop.triple_erases _)). Qed.
Print Assumptions C49_gost94.
Theorem C49_belt : forall E, drop_erases (Model.Belt.belt_core E) belt_fields belt_drop.
Proof. exact (fun E => conj Proof.Drop.belt_complete (Proof.Drop.belt_erases _)). Qed.
Print Assumptions C49_belt.
Theorem C49_shabal : forall ini k, drop_erases (Model.Shabal.shabal_core ini k) shabal_fields shabal_drop.
Proof. exact (fun ini k => conj Proof.Drop.shabal_complete (Proof.Drop.shabal_erases _)). Qed.
Print Assumptions C49_shabal.
Theorem C49_skein : forall NB NO E ini, drop_erases (Model.Skein.skein_core NB NO E ini) skein_fields skein_drop.
Proof. exact (fun NB NO E ini => conj Proof.Drop.skein_complete (Proof.Drop.skein_erases _)). Qed.
Print Assumptions C49_skein.
(** SHA-3 and the extendable-output functions, with their readers *)
Theorem C49_sha3 : forall rate out pad, drop_erases (Model.Sha3.sha3_core rate out pad) sha3_fields sha3_drop.
Proof. exact (fun rate out pad => conj Proof.Drop.sha3_complete (Proof.Drop.sha3_erases _)). Qed.
Print Assumptions C49_sha3.
Theorem C49_shake : forall rate pad ns, drop_erases (xof_core (Model.Sha3.shake_xof rate pad) ns) sha3_fields sha3_drop /\
  reader_drop_erases (Model.Sha3.shake_xof rate pad) sha3_fields sha3_drop.
Proof.
  exact (fun rate pad ns => conj (conj Proof.Drop.sha3_complete (Proof.Drop.sha3_erases _))
                                 (conj Proof.Drop.sha3_complete (Proof.Drop.sha3_erases _))).
Qed.
Print Assumptions C49_shake.
Theorem C49_turbo_shake : forall rate ds ns, drop_erases (xof_core (Model.Sha3.turbo_xof rate ds) ns) counted_fields turbo_drop /\
  reader_drop_erases (Model.Sha3.turbo_xof rate ds) sha3_fields sha3_drop.
Proof.
  exact (fun rate ds ns => conj (conj Proof.Drop.counted_complete (Proof.Drop.counted_erases _))
                                (conj Proof.Drop.sha3_complete (Proof.Drop.sha3_erases _))).
Qed.
Print Assumptions C49_turbo_shake.
Theorem C49_cshake : forall rate ini ns, drop_erases (xof_core (Model.Sha3.cshake_xof rate ini) ns) cshake_fields cshake_drop /\
  reader_drop_erases (Model.Sha3.cshake_xof rate ini) sha3_fields sha3_drop.
Proof.
  exact (fun rate ini ns => conj (conj Proof.Drop.cshake_complete (Proof.Drop.cshake_erases _))
                                 (conj Proof.Drop.sha3_complete (Proof.Drop.sha3_erases _))).
Qed.
Print Assumptions C49_cshake.
(** KangarooTwelve: the customization string, borrowed by the hasher, is the same in all its values. *)
Theorem C49_k12 : forall cust ns, erases (core_reachable (xof_core (Model.K12.K12 cust) ns)) k12_fields k12_drop.
Proof. exact Proof.Drop.k12_erases. Qed.
Print Assumptions C49_k12.
(** Its fields show all but the buffers of the two inner hashers, which belong to the digest crate's wrapper. *)
Theorem C49_k12_whole : forall s s', k12_fields s = k12_fields s' ->
  snd (Model.K12.final_tshk s) = snd (Model.K12.final_tshk s') -> snd (Model.K12.chain_tshk s) = snd (Model.K12.chain_tshk s') -> s = s'.
Proof. exact Proof.Drop.k12_whole. Qed.
Print Assumptions C49_k12_whole.
(** BLAKE2 without a key: [h0], which is kept, depends on the parameters only. *)
Theorem C49_blake2 : forall P ini ibuf nn, drop_erases (Model.Blake2.blake2_core P ini ibuf nn) blake2_fields blake2_drop.
Proof. exact Proof.Drop.blake2_erases. Qed.
Print Assumptions C49_blake2.

(** The MACs of builds without the feature [reset], in which [h0] and [key_block] do not exist *)
Theorem C49_blake2b_mac_partial : forall nn klen salt persona,
  erases (mac_reachable Model.Blake2.Blake2b nn klen salt persona) (mac_fields_no_reset 128) mac_drop.
Proof. exact (Proof.Drop.mac_erases _ _ Proof.Blake2.same_b). Qed.
Print Assumptions C49_blake2b_mac_partial.
Theorem C49_blake2s_mac_partial : forall nn klen salt persona,
  erases (mac_reachable Model.Blake2.Blake2s nn klen salt persona) (mac_fields_no_reset 64) mac_drop.
Proof. exact (Proof.Drop.mac_erases _ _ Proof.Blake2.same_s). Qed.
Print Assumptions C49_blake2s_mac_partial.
(** Nothing is missing from the fields of the MACs: [h], [t] and the buffer without [reset], and everything with it. *)
Theorem C49_mac_no_reset_whole : forall bs s s', mac_fields_no_reset bs s = mac_fields_no_reset bs s' ->
  Model.Blake2.b_h (Model.Blake2.m_core s) = Model.Blake2.b_h (Model.Blake2.m_core s') /\
  Model.Blake2.b_t (Model.Blake2.m_core s) = Model.Blake2.b_t (Model.Blake2.m_core s') /\
  Model.Blake2.m_buf s = Model.Blake2.m_buf s'.
Proof. exact Proof.Drop.mac_no_reset_whole. Qed.
Print Assumptions C49_mac_no_reset_whole.
Theorem C49_blake2b_mac_whole : forall nn klen salt persona s s',
  mac_reachable Model.Blake2.Blake2b nn klen salt persona s -> mac_reachable Model.Blake2.Blake2b nn klen salt persona s' ->
  mac_fields 128 s = mac_fields 128 s' -> s = s'.
Proof. exact Proof.Drop.mac_whole_b. Qed.
Print Assumptions C49_blake2b_mac_whole.
Theorem C49_blake2s_mac_whole : forall nn klen salt persona s s',
  mac_reachable Model.Blake2.Blake2s nn klen salt persona s -> mac_reachable Model.Blake2.Blake2s nn klen salt persona s' ->
  mac_fields 64 s = mac_fields 64 s' -> s = s'.
Proof. exact Proof.Drop.mac_whole_s. Qed.
Print Assumptions C49_blake2s_mac_whole.
(** With the feature [reset] the key stays in memory: the property is false for every key length. *)
Theorem C49_blake2b_mac_refuted : forall nn klen salt persona, (nn <= 64)%nat -> (0 < klen <= 64)%nat ->
  (length salt <= 16)%nat -> (length persona <= 16)%nat ->
  ~ erases (mac_reachable Model.Blake2.Blake2b nn klen salt persona) (mac_fields 128) mac_drop.
Proof. exact (Proof.Drop.mac_refuted _ _ Proof.Blake2.same_b). Qed.
Print Assumptions C49_blake2b_mac_refuted.
Theorem C49_blake2s_mac_refuted : forall nn klen salt persona, (nn <= 32)%nat -> (0 < klen <= 32)%nat ->
  (length salt <= 8)%nat -> (length persona <= 8)%nat ->
  ~ erases (mac_reachable Model.Blake2.Blake2s nn klen salt persona) (mac_fields 64) mac_drop.
Proof. exact (Proof.Drop.mac_refuted _ _ Proof.Blake2.same_s). Qed.
Print Assumptions C49_blake2s_mac_refuted.

(** Indeed the whole key can be read off the memory of a dropped MAC, whatever was done with it before: field 4 is [key_block]. *)
Theorem C49_blake2b_mac_leaks : forall nn key s0 s,
  (exists salt persona, Model.Blake2.new_with_salt_and_personal Model.Blake2.Blake2b nn (Some key) salt persona = Model.Blake2.Ok s0) \/
  Model.Blake2.new_from_slice Model.Blake2.Blake2b nn key = Model.Blake2.Ok s0 ->
  mac_later Model.Blake2.Blake2b nn s0 s -> nth 4 (mac_fields 128 (mac_drop s)) [] = key ++ repeat 0 (64 - length key)%nat.
Proof. exact (Proof.Drop.key_stays Model.Blake2.Blake2b 128). Qed.
Print Assumptions C49_blake2b_mac_leaks.
Theorem C49_blake2s_mac_leaks : forall nn key s0 s,
  (exists salt persona, Model.Blake2.new_with_salt_and_personal Model.Blake2.Blake2s nn (Some key) salt persona = Model.Blake2.Ok s0) \/
  Model.Blake2.new_from_slice Model.Blake2.Blake2s nn key = Model.Blake2.Ok s0 ->
  mac_later Model.Blake2.Blake2s nn s0 s -> nth 4 (mac_fields 64 (mac_drop s)) [] = key ++ repeat 0 (32 - length key)%nat.
Proof. exact (Proof.Drop.key_stays Model.Blake2.Blake2s 64). Qed.
Print Assumptions C49_blake2s_mac_leaks.
(** A MAC with the key 1, 2, 3 that has been updated, and is in [mac_later] and [mac_reachable] *)
Example C49_mac_case : exists s0 s, Model.Blake2.new_with_salt_and_personal Model.Blake2.Blake2s 16 (Some [1; 2; 3]) [] [] = Model.Blake2.Ok s0 /\
  mac_later Model.Blake2.Blake2s 16 s0 s /\ mac_reachable Model.Blake2.Blake2s 16 3 [] [] s /\ s <> s0.
Proof.
  assert (H : exists s0, Model.Blake2.new_with_salt_and_personal Model.Blake2.Blake2s 16 (Some [1; 2; 3]) [] [] = Model.Blake2.Ok s0 /\
    exists s, Model.Blake2.mac_update Model.Blake2.Blake2s Checked s0 (repeat 7 70) = Some s /\ s <> s0).
  { eexists. split; [vm_compute; reflexivity|]. eexists. split; [vm_compute; reflexivity|discriminate]. }
  destruct H as (s0 & E0 & s & E & D). exists s0, s. split; [exact E0|]. split; [|split; [|exact D]].
  - exact (later_update _ _ _ Checked _ _ _ (later_start _ _ _) E).
  - refine (mac_updated _ _ _ _ _ Checked _ _ _ (mac_new _ _ _ _ _ [1; 2; 3] _ eq_refl _ E0) _ E); repeat constructor.
Qed.

Theorem C49_sha1_checked_whole : forall h d n h' d' n',
  sha1c_fields ((h, d), n) = sha1c_fields ((h', d'), n') -> ((h, d), n) = ((h', d'), n').
Proof. exact Proof.Drop.sha1c_whole. Qed.
Print Assumptions C49_sha1_checked_whole.
(** sha1-checked: the type is marked [ZeroizeOnDrop] but the chaining value and the block count stay, *)
Theorem C49_sha1_checked_refuted : forall b, ~ erases (core_reachable (Model.Sha1Checked.Sha1Checked b)) sha1c_fields sha1c_drop.
Proof. exact Proof.Drop.sha1c_not_erased. Qed.
Print Assumptions C49_sha1_checked_refuted.
(** so that a dropped hasher that has been finalized still holds the digest, *)
Theorem C49_sha1_checked_leaks : forall b m s buf out s', c_final (Model.Sha1Checked.Sha1Checked b) m s buf = Some (out, s') ->
  words_to_be 4 (nth 0 (sha1c_fields (sha1c_drop s')) []) = out.
Proof. exact Proof.Drop.sha1c_leaks. Qed.
Print Assumptions C49_sha1_checked_leaks.
(** while the arrays of the detection state are cleared. *)
Theorem C49_sha1_checked_detection_partial : forall s,
  map (@length N) (detection_fields (detection_drop s)) = map (@length N) (detection_fields s) /\
  forall i j, (4 <= i)%nat -> word detection_fields (detection_drop s) i j = 0.
Proof. exact Proof.Drop.detection_erases. Qed.
Print Assumptions C49_sha1_checked_detection_partial.

(** A word that depends on the message, and a reachable value whose word is not zero before the drop *)
Example C49_depends : depends (core_reachable Model.Md5.Md5) counted_fields 1 0 /\
  exists s, core_reachable Model.Md5.Md5 s /\ word counted_fields s 0 3 <> 0 /\ word counted_fields s 1 0 <> 0.
Proof.
  assert (R : exists s, core_reachable Model.Md5.Md5 s /\ word counted_fields s 0 3 <> 0 /\ word counted_fields s 1 0 <> 0).
  { eexists. split; [exists []; refine (at_update Model.Md5.Md5 Checked _ (repeat 7 64) _ (at_new _) _ _);
      [repeat constructor | vm_compute; reflexivity] | split; vm_compute; discriminate]. }
  split; [|exact R]. destruct R as (s & R & _ & W). exists s, (c_init Model.Md5.Md5). split; [exact R|]. split; [|exact W].
  exists []. exact (at_new _).
Qed.
