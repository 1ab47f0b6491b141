(** C42: a collision reported by the sha1-checked hasher comes with a partner: a
    block of the padded message, a different block whose expanded message
    differs by one of the listed disturbance vectors, and a chaining value
    from which that block gives the very same SHA-1 output chaining value. *)
From Verif Require Import Base.Words Base.Bytes Base.Digest Base.DigestFacts
  Model.Sha1CheckedTables Model.Sha1Checked Proof.Sha1Checked.
From Verif Require Spec.SHA1 Spec.SHA1C Proof.Sha1CheckedProps.

Theorem C42_partner : forall b m cs r,
  Forall bytes_ok cs -> 8 * N.of_nat (length (concat cs)) < 2 ^ 64 ->
  b_reduced b = false -> try_digest b m cs = Some r -> has_collision r = true ->
  exists pre block post ty k s H2 block2,
    chunks 64 (Spec.SHA1.pad (concat cs)) = pre ++ block :: post /\
    In (ty, k, s) Spec.SHA1C.dvs /\
    length block2 = 64%nat /\ bytes_ok block2 /\ block2 <> block /\ Spec.SHA1C.vars_ok H2 /\
    Spec.SHA1.schedule (Spec.SHA1C.words_of block2)
      = xor_bytes (Spec.SHA1.schedule (Spec.SHA1C.words_of block)) (Spec.SHA1C.dv_diff ty k (N.of_nat s)) /\
    Spec.SHA1.compress H2 block2
      = Spec.SHA1.compress (fold_left Spec.SHA1.compress pre Spec.SHA1.iv) block.
Proof. exact Proof.Sha1CheckedProps.partner_of_report. Qed.
Print Assumptions C42_partner.

(** The detector is exact: it reports if and only if such a partner exists for
    some vector (among those its bit conditions leave, when they are used). *)
Theorem C42_exact : forall b m cs r,
  Forall bytes_ok cs -> 8 * N.of_nat (length (concat cs)) < 2 ^ 64 ->
  b_detect b = true -> try_digest b m cs = Some r ->
  has_collision r = true <->
  exists pre block post i H2 block2,
    chunks 64 (Spec.SHA1.pad (concat cs)) = pre ++ block :: post /\ (i < 32)%nat /\
    let H := fold_left Spec.SHA1.compress pre Spec.SHA1.iv in
    let W := Spec.SHA1.schedule (Spec.SHA1C.words_of block) in
    (b_ubc b = true -> N.testbit (ubc_check W) (N.of_nat i) = true) /\
    Spec.SHA1C.partner (Spec.SHA1C.dv_of i) H block H2 block2 /\
    (Spec.SHA1.compress H2 block2 = Spec.SHA1.compress H block \/ (b_reduced b = true /\ H2 = H)).
Proof. exact Proof.Sha1CheckedProps.exact_report. Qed.
Print Assumptions C42_exact.

(** The table of the crate is the one derived from the vectors' definition. *)
Theorem C42_table :
  map (fun d => (match i_testt d with T58 => 58%nat | T65 => 65%nat end, i_dm d)) SHA1_DVS
    = map Spec.SHA1C.dv_of (seq 0 32)
  /\ map i_maskb SHA1_DVS = map N.of_nat (seq 0 32).
Proof. exact (conj DVS_table DVS_maskb). Qed.
Print Assumptions C42_table.

(** The hypotheses are met: the first 320 bytes of tests/data/shattered-1.pdf,
    which hold the two near-collision blocks of the SHAttered attack. *)
Definition shattered : bytes := be_bytes 320
  0x255044462d312e330a25e2e3cfd30a0a0a312030206f626a0a3c3c2f57696474682032203020522f4865696768742033203020522f547970652034203020522f537562747970652035203020522f46696c7465722036203020522f436f6c6f7253706163652037203020522f4c656e6774682038203020522f42697473506572436f6d706f6e656e7420383e3e0a73747265616d0affd8fffe00245348412d3120697320646561642121212121852fec092339759c39b1a1c63c4c97e1fffe017346dc9166b67e118f029ab621b2560ff9ca67cca8c7f85ba84c79030c2b3de218f86db3a90901d5df45c14f26fedfb3dc38e96ac22fe7bd728f0e45bce046d23c570feb141398bb552ef5a0a82be331fea48037b8b5d71f0e332edf93ac3500eb4ddc0decc1a864790c782c76215660dd309791d06bd0af3f98cda4bc4629b1.
Example C42_hyps : 8 * N.of_nat (length (concat [shattered])) < 2 ^ 64 /\ b_reduced builder = false /\
  try_digest builder Checked [shattered] = Some (RMitigated (be_bytes 20 0x7117b3cb9225aaf0d8ef1a40e493957b0bf8693d)) /\
  has_collision (RMitigated (be_bytes 20 0x7117b3cb9225aaf0d8ef1a40e493957b0bf8693d)) = true.
Proof. refine (conj _ (conj _ (conj _ _))); vm_compute; reflexivity. Qed.
