(** C03: serializing a hasher and restoring it is lossless, whatever it was fed. *)
From Verif Require Import Base.Words Base.Bytes Base.Digest Model.Hashers Proof.Hashers.

Theorem C03_roundtrip : forall m0 a C m cs h cd, params_ok a -> hasher m0 a = Some C -> c_codec C = Some cd ->
  Forall bytes_ok cs -> slices a cs -> h_updates C m (h_new C) cs = Some h ->
  length (h_serialize C cd h) = state_len C cd /\ h_deserialize C cd (h_serialize C cd h) = Some h.
Proof. exact alg_save_restore. Qed.
Print Assumptions C03_roundtrip.
(** Going on with the restored value gives what going on with the saved one gives. *)
Theorem C03_continue : forall m0 a C m cs cs' h cd, params_ok a -> hasher m0 a = Some C -> c_codec C = Some cd ->
  Forall bytes_ok cs -> slices a cs -> h_updates C m (h_new C) cs = Some h ->
  (let* h' := h_deserialize C cd (h_serialize C cd h) in
   let* h' := h_updates C m h' cs' in h_finalize C m h') = h_digest C m (cs ++ cs').
Proof. exact alg_continue. Qed.
Print Assumptions C03_continue.

(** Which hashers have a serialization: one of each crate that implements it. *)
Example C03_codecs : forall PI Pr, map (fun a => option_map has_codec (hasher Checked a))
    [Sha1; Sha224; Sha256; Sha384; Sha512; Sha512_224; Sha512_256; Md2; Md4; Md5; Sm3; Ripemd128; Ripemd160; Ripemd256; Ripemd320;
     Keccak224; Keccak256; Keccak384; Keccak512; Keccak256Full; Sha3_224; Sha3_256; Sha3_384; Sha3_512; Tiger; Tiger2; Whirlpool;
     GroestlShort 32; GroestlLong 64; KupynaShort 32; KupynaLong 64; Streebog256; Streebog512; Gost94 Pr;
     Shabal192; Shabal224; Shabal256; Shabal384; Shabal512; Fsb160 PI; Fsb224 PI; Fsb256 PI; Fsb384 PI; Fsb512 PI]
  = repeat (Some true) 44.
Proof. reflexivity. Qed.
(** A concrete save in the middle of a block. *)
Example C03_hyps : exists C cd h, hasher Checked Md5 = Some C /\ c_codec C = Some cd /\
  h_updates C Checked (h_new C) [repeat 5 70; [1; 2; 3]] = Some h /\
  nth 24 (h_serialize C cd h) 0 = 9 /\ skipn 25 (h_serialize C cd h) = repeat 5 6 ++ [1; 2; 3] ++ zeros 55.
Proof. eexists. eexists. eexists. split; [reflexivity|]. split; [reflexivity|]. split; [vm_compute; reflexivity|]. split; vm_compute; reflexivity. Qed.
