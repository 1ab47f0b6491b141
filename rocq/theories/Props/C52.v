(** C52: the SHA-1, SHA-2 and MD5 hashers compute their standards on every back end.
    Each call of the compression function may run on any target, with any contents of
    scratch registers, stack and surrounding memory (an [env] chooses them). *)
From Verif Require Import Base.Words Base.Bytes Base.Digest Spec.Memory Model.Backends Model.Sha2 Model.BackendHashers
  Proof.BackendHashers.
From Verif Require Spec.SHA2 Spec.SHA1 Spec.MD5 Model.Sha1 Model.Md5.

Theorem C52_sha256 : forall e m cs, sound256 e -> Forall bytes_ok cs -> 8 * N.of_nat (length (concat cs)) < 2 ^ 64 ->
  h_digest (Sha224_on e) m cs = Some (Spec.SHA2.SHA224 (concat cs)) /\
  h_digest (Sha256_on e) m cs = Some (Spec.SHA2.SHA256 (concat cs)).
Proof. exact on_sha256. Qed.
Print Assumptions C52_sha256.

Theorem C52_sha512 : forall e m cs, sound512 e -> Forall bytes_ok cs -> 8 * N.of_nat (length (concat cs)) < 2 ^ 128 ->
  h_digest (Sha384_on e) m cs = Some (Spec.SHA2.SHA384 (concat cs)) /\
  h_digest (Sha512_on e) m cs = Some (Spec.SHA2.SHA512 (concat cs)) /\
  h_digest (Sha512_224_on e) m cs = Some (Spec.SHA2.SHA512_224 (concat cs)) /\
  h_digest (Sha512_256_on e) m cs = Some (Spec.SHA2.SHA512_256 (concat cs)).
Proof. exact on_sha512. Qed.
Print Assumptions C52_sha512.

Theorem C52_sha1 : forall e m cs, sound1 e -> Forall bytes_ok cs -> 8 * N.of_nat (length (concat cs)) < 2 ^ 64 ->
  h_digest (Sha1_on e) m cs = Some (Spec.SHA1.SHA1 (concat cs)).
Proof. exact on_sha1. Qed.
Print Assumptions C52_sha1.

Theorem C52_md5 : forall e m cs, sound5 e -> Forall bytes_ok cs ->
  h_digest (Md5_on e) m cs = Some (Spec.MD5.MD5 (concat cs)).
Proof. exact on_md5. Qed.
Print Assumptions C52_md5.

(** In every history of calls (clones, resets, saved and restored states included),
    with messages of any length, a hasher gives the outputs, or the panic, of the
    portable one. *)
Theorem C52_histories : forall e e1 e5 m ops, sound256 e -> sound512 e -> sound1 e1 -> sound5 e5 -> ops_ok ops ->
  run_history (Sha224_on e) m ops = run_history Sha224 m ops /\
  run_history (Sha256_on e) m ops = run_history Sha256 m ops /\
  run_history (Sha384_on e) m ops = run_history Sha384 m ops /\
  run_history (Sha512_on e) m ops = run_history Sha512 m ops /\
  run_history (Sha512_224_on e) m ops = run_history Sha512_224 m ops /\
  run_history (Sha512_256_on e) m ops = run_history Sha512_256 m ops /\
  run_history (Sha1_on e1) m ops = run_history Sha1.Sha1 m ops /\
  run_history (Md5_on e5) m ops = run_history Md5.Md5 m ops.
Proof. exact on_histories. Qed.
Print Assumptions C52_histories.

(** Environments: LoongArch with garbage in the registers, x86 whose detection
    depends on the call, and RISC-V with every block at an odd address. *)
Example C52_hyps :
  sound256 (fun st bl => Loongarch64 (repeat 7 13) (repeat (N.of_nat (length bl)) 16)) /\
  sound512 (fun st bl => X86 (length bl =? 1)%nat) /\
  sound256 (fun st bl => Zknh true (map (fun b => (1%nat, 255 :: b ++ [1; 2; 3])) bl)) /\
  sound1 (fun st bl => Loongarch64_1 (repeat 7 13) (repeat 9 16)) /\
  sound5 (fun st bl => Loongarch64_5 (repeat 7 13)).
Proof.
  split; [now split|]. split; [now intros st bl|]. split; [|split; now split].
  intros st bl W. cbn. induction W as [|b bl [L B] _ IH]; cbn [map]; constructor; [|exact IH].
  exists [255], [1; 2; 3]. cbn [fst snd length]. split; [reflexivity|]. split.
  - split; [reflexivity|]. split; [repeat constructor|now right].
  - apply Forall_cons; [reflexivity|]. apply Forall_app. split; [exact B|repeat constructor].
Qed.
Example C52_kat : option_map be_val (h_digest (Md5_on (fun st bl => Loongarch64_5 (repeat 7 13))) Checked [[97; 98]; []; [99]])
  = Some 0x900150983cd24fb0d6963f7d28e17f72.
Proof. vm_compute. reflexivity. Qed.
