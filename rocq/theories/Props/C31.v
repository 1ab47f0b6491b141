(** C31: the gost94 crate computes GOST R 34.11-94 (Spec/GOST94.v, on 256-bit numbers) for every
    parameter set with eight S-boxes of 4-bit entries, and so for the four sets it defines, on
    every message, cut into any pieces (a Rust slice is shorter than 2^63 bytes). *)
From Verif Require Import Base.Words Base.Bytes Base.Digest Base.Limit Model.Gost94 Proof.Gost94.
From Verif Require Spec.GOST94.

Theorem C31_step : forall Pr m h mm, length (S_BOX Pr) = 8%nat -> Forall (fun r => Forall (fun e => e < 16) r) (S_BOX Pr) ->
  length h = 32%nat -> bytes_ok h -> length mm = 32%nat -> bytes_ok mm ->
  f Pr m h mm = Some (le_bytes 32 (Spec.GOST94.chi (S_BOX Pr) (le_val mm) (le_val h))) /\
  Spec.GOST94.chi (S_BOX Pr) (le_val mm) (le_val h) < 2 ^ 256.
Proof. exact (fun Pr m h mm L T Lh Bh Lm Bm => f_spec Pr m h mm (conj L T) (conj Lh Bh) (conj Lm Bm)). Qed.
Print Assumptions C31_step.

Theorem C31_any_parameters : forall Pr m cs, length (S_BOX Pr) = 8%nat -> Forall (fun r => Forall (fun e => e < 16) r) (S_BOX Pr) ->
  length (H0 Pr) = 32%nat -> bytes_ok (H0 Pr) ->
  Forall bytes_ok cs -> Forall (slice_below (2 ^ 63)) cs ->
  h_digest (gost94_core Pr) m cs = Some (Spec.GOST94.GOST94 (S_BOX Pr) (H0 Pr) (concat cs)).
Proof. exact (fun Pr m cs L T Lh Bh => gost94_digest Pr (conj L T) (conj Lh Bh) m cs). Qed.
Print Assumptions C31_any_parameters.

Theorem C31_crypto_pro : forall m cs, Forall bytes_ok cs -> Forall (slice_below (2 ^ 63)) cs ->
  h_digest Gost94CryptoPro m cs = Some (Spec.GOST94.GOST94 Spec.GOST94.pi_CryptoPro (zeros 32) (concat cs)).
Proof. exact (gost94_digest CryptoProParam CryptoPro_table vok_zeros). Qed.
Print Assumptions C31_crypto_pro.
Theorem C31_s2015 : forall m cs, Forall bytes_ok cs -> Forall (slice_below (2 ^ 63)) cs ->
  h_digest Gost94s2015 m cs = Some (Spec.GOST94.GOST94 Spec.GOST94.pi_2015 (zeros 32) (concat cs)).
Proof. exact (gost94_digest S2015Param S2015_table vok_zeros). Qed.
Print Assumptions C31_s2015.
Theorem C31_test : forall m cs, Forall bytes_ok cs -> Forall (slice_below (2 ^ 63)) cs ->
  h_digest Gost94Test m cs = Some (Spec.GOST94.GOST94 Spec.GOST94.pi_test (zeros 32) (concat cs)).
Proof. exact (gost94_digest TestParam Test_table vok_zeros). Qed.
Print Assumptions C31_test.
Theorem C31_ua : forall m cs, Forall bytes_ok cs -> Forall (slice_below (2 ^ 63)) cs ->
  h_digest Gost94UA m cs = Some (Spec.GOST94.GOST94 Spec.GOST94.pi_UA (zeros 32) (concat cs)).
Proof. exact (gost94_digest GOST28147UAParam UA_table vok_zeros). Qed.
Print Assumptions C31_ua.

(** Non-vacuity and a known answer: RFC 5831 test parameters, "abc". *)
Example C31_hyps : let cs := [[97; 98]; []; [99]] in Forall bytes_ok cs /\ Forall (slice_below (2 ^ 63)) cs.
Proof. split; repeat constructor. Qed.
Example C31_hyps_params : length (S_BOX TestParam) = 8%nat /\ Forall (fun r => Forall (fun e => e < 16) r) (S_BOX TestParam) /\
  length (H0 TestParam) = 32%nat /\ bytes_ok (H0 TestParam).
Proof. split; [reflexivity|]. split; [repeat constructor|]. split; [reflexivity|repeat constructor]. Qed.
Example C31_kat : option_map be_val (h_digest Gost94Test Checked [[97; 98]; []; [99]])
  = Some 0xf3134348c44fb1b2a277729e2285ebb5cb5e0f29c975bc753b70497c06a4d51d.
Proof. vm_compute. reflexivity. Qed.
