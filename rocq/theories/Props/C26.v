(** C26: the whirlpool crate computes Whirlpool (Spec/Whirlpool.v, with its S-box
    and diffusion matrix derived from the mini-boxes and the polynomial) on every
    message shorter than 2^256 bits, cut into any pieces shorter than 2^61 bytes. *)
From Verif Require Import Base.Words Base.Bytes Base.Digest Base.Limit Model.Whirlpool Proof.Whirlpool.
From Verif Require Spec.Whirlpool.

Theorem C26_whirlpool : forall m cs, Forall bytes_ok cs -> Forall slice_ok cs -> 8 * N.of_nat (length (concat cs)) < 2 ^ 256 ->
  h_digest Whirlpool m cs = Some (Spec.Whirlpool.Whirlpool (concat cs)).
Proof. exact Whirlpool_digest. Qed.
Print Assumptions C26_whirlpool.

(** Non-vacuity and the known answer for "abc" (ISO/IEC 10118-3). *)
Example C26_hyps : let cs := [[97; 98]; []; [99]] in
  Forall bytes_ok cs /\ Forall slice_ok cs /\ 8 * N.of_nat (length (concat cs)) < 2 ^ 256.
Proof. split; [repeat constructor|split; [repeat constructor|reflexivity]]. Qed.
Example C26_kat : option_map be_val (h_digest Whirlpool Checked [[97; 98]; []; [99]])
  = Some 0x4E2448A4C6F486BB16B6562C73B4020BF3043E3A731BCE721AE1B303D97E6D4C7181EEBDB6C57E277D0E34957114CBD6C797FC9D95D8B582D225292076D4EEF5.
Proof. vm_compute. reflexivity. Qed.
