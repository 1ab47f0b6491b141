(** C57: a digest is a state.  For the hashers that output their whole chaining value, a saved state can be written down from the
    digest and the length of an unknown message; the restored hasher continues after the padded message ("length extension").
    [continues] is in Spec/Resume.v; the paddings are those of the standards. *)
From Verif Require Import Base.Words Base.Bytes Base.Digest Spec.MD Spec.Resume.
From Verif Require Model.Sha1 Model.Sha2 Model.Md5 Model.Md4 Model.Sm3 Model.Ripemd Model.Tiger Spec.SHA2 Spec.SHA1 Spec.MD5 Spec.MD4 Spec.SM3 Spec.RIPEMD.
From Verif Require Proof.Resume.

(** The words of the digest with their bytes reversed, the number of blocks, the output size (SHA-2 only), an empty buffer *)
Theorem C57_sha256 : continues Model.Sha2.Sha256 Spec.SHA2.pad256 64
  (fun d n => swap_words 4 d ++ le_bytes 8 n ++ 32 :: 0 :: zeros 64).
Proof. exact Proof.Resume.sha256. Qed.
Print Assumptions C57_sha256.
Theorem C57_sha512 : continues Model.Sha2.Sha512 Spec.SHA2.pad512 128
  (fun d n => swap_words 8 d ++ le_bytes 16 n ++ 64 :: 0 :: zeros 128).
Proof. exact Proof.Resume.sha512. Qed.
Print Assumptions C57_sha512.
Theorem C57_sha1 : continues Model.Sha1.Sha1 Spec.SHA1.pad 64 (fun d n => swap_words 4 d ++ le_bytes 8 n ++ 0 :: zeros 64).
Proof. exact Proof.Resume.sha1. Qed.
Print Assumptions C57_sha1.
Theorem C57_sm3 : continues Model.Sm3.Sm3 Spec.SM3.pad 64 (fun d n => swap_words 4 d ++ le_bytes 8 n ++ 0 :: zeros 64).
Proof. exact Proof.Resume.sm3. Qed.
Print Assumptions C57_sm3.
(** The little-endian ones: the digest itself *)
Theorem C57_md5 : continues Model.Md5.Md5 Spec.MD5.pad 64 (fun d n => d ++ le_bytes 8 n ++ 0 :: zeros 64).
Proof. exact Proof.Resume.md5. Qed.
Print Assumptions C57_md5.
Theorem C57_md4 : continues Model.Md4.Md4 Spec.MD4.pad 64 (fun d n => d ++ le_bytes 8 n ++ 0 :: zeros 64).
Proof. exact Proof.Resume.md4. Qed.
Print Assumptions C57_md4.
Theorem C57_ripemd : forall C, In C [Model.Ripemd.Ripemd128; Model.Ripemd.Ripemd160; Model.Ripemd.Ripemd256; Model.Ripemd.Ripemd320] ->
  continues C Spec.RIPEMD.pad 64 (fun d n => d ++ le_bytes 8 n ++ 0 :: zeros 64).
Proof. exact Proof.Resume.ripemd. Qed.
Print Assumptions C57_ripemd.
Theorem C57_tiger : continues Model.Tiger.Tiger (fun msg => md_pad 64 0x01 (le_bytes 8 (8 * blen msg)) msg) 64
  (fun d n => d ++ le_bytes 8 n ++ 0 :: zeros 64).
Proof. exact Proof.Resume.tiger. Qed.
Print Assumptions C57_tiger.
Theorem C57_tiger2 : continues Model.Tiger.Tiger2 (fun msg => md_pad 64 0x80 (le_bytes 8 (8 * blen msg)) msg) 64
  (fun d n => d ++ le_bytes 8 n ++ 0 :: zeros 64).
Proof. exact Proof.Resume.tiger2. Qed.
Print Assumptions C57_tiger2.

(** The MD5 of "abc", and the MD5 of "abc", its padding and "x" computed from it *)
Example C57_hyps : exists d cd, c_codec Model.Md5.Md5 = Some cd /\ bytes_ok [97; 98; 99] /\
  8 * N.of_nat (length (Spec.MD5.pad [97; 98; 99])) < 2 ^ 64 /\ h_digest Model.Md5.Md5 Checked [[97; 98; 99]] = Some d /\
  be_val d = 0x900150983cd24fb0d6963f7d28e17f72 /\
  (let* h := h_deserialize Model.Md5.Md5 cd (d ++ le_bytes 8 1 ++ 0 :: zeros 64) in
   let* h := h_update Model.Md5.Md5 Checked h [120] in h_finalize Model.Md5.Md5 Checked h)
  = h_digest Model.Md5.Md5 Checked [Spec.MD5.pad [97; 98; 99]; [120]].
Proof.
  eexists. eexists. split; [reflexivity|]. split; [repeat constructor|]. split; [vm_compute; reflexivity|].
  split; [vm_compute; reflexivity|]. split; [vm_compute; reflexivity|]. vm_compute. reflexivity.
Qed.
