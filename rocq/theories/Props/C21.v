(** C21: BLAKE2b and BLAKE2s compute the functions of RFC 7693 (Spec/BLAKE2.v) for
    every output size and every message shorter than 2^64 bytes, however cut. *)
From Verif Require Import Base.Words Base.Bytes Base.Digest Base.DigestFacts Model.Blake2 Proof.Blake2.
From Verif Require Spec.BLAKE2.

Theorem C21_blake2b : forall nn m cs, (nn <= 64)%nat -> Forall bytes_ok cs -> N.of_nat (length (concat cs)) < 2 ^ 64 ->
  exists s, var_new Blake2b nn = Some (Some s) /\
    h_digest (blake2_core Blake2b s [] nn) m cs = Some (Spec.BLAKE2.BLAKE2 Spec.BLAKE2.BLAKE2b [] [] [] nn (concat cs)).
Proof. exact (fun nn m cs => var_digest Blake2b _ nn m cs same_b). Qed.
Print Assumptions C21_blake2b.

Theorem C21_blake2s : forall nn m cs, (nn <= 32)%nat -> Forall bytes_ok cs -> N.of_nat (length (concat cs)) < 2 ^ 64 ->
  exists s, var_new Blake2s nn = Some (Some s) /\
    h_digest (blake2_core Blake2s s [] nn) m cs = Some (Spec.BLAKE2.BLAKE2 Spec.BLAKE2.BLAKE2s [] [] [] nn (concat cs)).
Proof. exact (fun nn m cs => var_digest Blake2s _ nn m cs same_s). Qed.
Print Assumptions C21_blake2s.

(** The personalized constructor [new_customized]. *)
Theorem C21_blake2b_customized : forall persona nn m cs s, new_customized Blake2b persona nn = Some s ->
  Forall bytes_ok cs -> N.of_nat (length (concat cs)) < 2 ^ 64 ->
  h_digest (blake2_core Blake2b s [] nn) m cs = Some (Spec.BLAKE2.BLAKE2 Spec.BLAKE2.BLAKE2b [] persona [] nn (concat cs)).
Proof. exact (fun persona nn m cs s E B W => digest_spec _ _ _ _ (unkeyed_ok Blake2b _ [] persona nn s same_b E) m cs B W). Qed.
Print Assumptions C21_blake2b_customized.

Theorem C21_blake2s_customized : forall persona nn m cs s, new_customized Blake2s persona nn = Some s ->
  Forall bytes_ok cs -> N.of_nat (length (concat cs)) < 2 ^ 64 ->
  h_digest (blake2_core Blake2s s [] nn) m cs = Some (Spec.BLAKE2.BLAKE2 Spec.BLAKE2.BLAKE2s [] persona [] nn (concat cs)).
Proof. exact (fun persona nn m cs s E B W => digest_spec _ _ _ _ (unkeyed_ok Blake2s _ [] persona nn s same_s E) m cs B W). Qed.
Print Assumptions C21_blake2s_customized.

(** Non-vacuity: "abc" in three pieces (RFC 7693, appendices A and B). *)
Example C21_hyps : Forall bytes_ok [[97; 98]; []; [99]] /\ N.of_nat (length (concat [[97; 98]; []; [99]])) < 2 ^ 64 /\
  is_some (new_customized Blake2b [1; 2; 3] 64).
Proof. repeat split; [repeat constructor|eexists; reflexivity]. Qed.
Example C21_kat_b : option_map be_val (let* s := new_with_params Blake2b [] [] 0 64 in
   h_digest (blake2_core Blake2b s [] 64) Checked [[97; 98]; []; [99]])
  = Some 0xBA80A53F981C4D0D6A2797B69F12F6E94C212F14685AC4B74B12BB6FDBFFA2D17D87C5392AAB792DC252D5DE4533CC9518D38AA8DBF1925AB92386EDD4009923.
Proof. vm_compute. reflexivity. Qed.
Example C21_kat_s : option_map be_val (let* s := new_with_params Blake2s [] [] 0 32 in
   h_digest (blake2_core Blake2s s [] 32) Checked [[97; 98]; []; [99]])
  = Some 0x508C5E8C327C14E2E1A72BA34EEB452F37458B209ED63A294D999B4C86675982.
Proof. vm_compute. reflexivity. Qed.
