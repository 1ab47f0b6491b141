(** C51: BLAKE2 and Tiger do not depend on the target.  The blake2 crate reads its
    message words in the byte order of the machine, and chooses the way it rotates and
    shuffles vectors by the CPU and cargo features it is built with; tiger reads its
    tables from the bytes of a file.  The results are the same for all of them. *)
From Verif Require Import Base.Words Base.Bytes Base.Digest Spec.Target Model.Blake2 Model.Blake2Target
  Proof.Blake2 Proof.Blake2Target.
From Verif Require Spec.BLAKE2.

(** Every rotation used, by whatever shuffle of bytes or lanes. *)
Theorem C51_rotations : forall t P n v, exists_target t -> P = Blake2b \/ P = Blake2s ->
  0 < n -> n < wbits P -> Forall (fun x => x < 2 ^ wbits P) (v4_list v) ->
  v4_list (rotate_right_const t P n v) = map (fun x => rotr (wbits P) x n) (v4_list v).
Proof. exact rotations. Qed.
Print Assumptions C51_rotations.

(** The hashers, keyed or not, with any salt and personalization. *)
Theorem C51_blake2b : forall t nn m key salt persona s cs, exists_target t -> (nn <= 64)%nat ->
  bytes_ok (key_of key) -> bytes_ok salt -> bytes_ok persona ->
  new_with_salt_and_personal Blake2b nn key salt persona = Ok s ->
  Forall bytes_ok cs -> N.of_nat (128 + length (concat cs)) < 2 ^ 64 ->
  h_digest (blake2_core_t t Blake2b (m_core s) (m_buf s) nn) m cs
  = Some (Spec.BLAKE2.BLAKE2 Spec.BLAKE2.BLAKE2b salt persona (key_of key) nn (concat cs)).
Proof. exact target_tag_b. Qed.
Print Assumptions C51_blake2b.

Theorem C51_blake2s : forall t nn m key salt persona s cs, exists_target t -> (nn <= 32)%nat ->
  bytes_ok (key_of key) -> bytes_ok salt -> bytes_ok persona ->
  new_with_salt_and_personal Blake2s nn key salt persona = Ok s ->
  Forall bytes_ok cs -> N.of_nat (64 + length (concat cs)) < 2 ^ 64 ->
  h_digest (blake2_core_t t Blake2s (m_core s) (m_buf s) nn) m cs
  = Some (Spec.BLAKE2.BLAKE2 Spec.BLAKE2.BLAKE2s salt persona (key_of key) nn (concat cs)).
Proof. exact target_tag_s. Qed.
Print Assumptions C51_blake2s.

(** Two targets give the same outputs, or panic alike, in every history of calls,
    whatever the length of the messages. *)
Theorem C51_histories : forall t t' P salt persona kk nn s ibuf m ops,
  exists_target t -> exists_target t' -> P = Blake2b \/ P = Blake2s -> bytes_ok salt -> bytes_ok persona ->
  new_with_params P salt persona kk nn = Some s -> bytes_ok ibuf -> (length ibuf <= BLOCK P)%nat -> ops_ok ops ->
  run_history (blake2_core_t t P s ibuf nn) m ops = run_history (blake2_core_t t' P s ibuf nn) m ops.
Proof. exact target_histories. Qed.
Print Assumptions C51_histories.

(** The S-boxes of Tiger are the little-endian words of the file. *)
Theorem C51_tiger_tables : forall e file, bytes_ok file -> tiger_tables e file = chunks 256 (map le_val (chunks 8 file)).
Proof. exact tiger_tables_ok. Qed.
Print Assumptions C51_tiger_tables.

Example C51_hyps : exists_target be_neon /\ exists_target x86_ssse3 /\
  exists s, new_with_salt_and_personal Blake2s 32 (Some [1; 2]) [3] [4] = Ok s.
Proof. split; [discriminate|]. split; [intros _; reflexivity|]. eexists. vm_compute. reflexivity. Qed.
Example C51_kat_neon : option_map be_val (let* s := new_with_params Blake2s [] [] 0 32 in
  h_digest (blake2_core_t be_neon Blake2s s [] 32) Checked [[97]; [98; 99]])
  = Some 0x508c5e8c327c14e2e1a72ba34eeb452f37458b209ed63a294d999b4c86675982.
Proof. vm_compute. reflexivity. Qed.
Example C51_kat_ssse3 : option_map be_val (let* s := new_with_params Blake2s [] [] 0 32 in
  h_digest (blake2_core_t x86_ssse3 Blake2s s [] 32) Checked [[97]; [98; 99]])
  = Some 0x508c5e8c327c14e2e1a72ba34eeb452f37458b209ed63a294d999b4c86675982.
Proof. vm_compute. reflexivity. Qed.
Example C51_tiger_be : tiger_tables Big (concat (repeat [1; 2; 3; 4; 5; 6; 7; 8] 256)) = [repeat 0x0807060504030201 256].
Proof. vm_compute. reflexivity. Qed.
