(** Each hash function as a function of the blocks of the padded message. *)
From Verif Require Import Base.Words Base.Bytes Base.Codec Base.Digest Spec.MD Spec.Collision.
From Verif Require Spec.Keccak Spec.MD2 Spec.JH Spec.Ascon Spec.SHA2 Spec.Groestl Spec.Kupyna Spec.Shabal.
Import Spec.Keccak (turbo_pad, squeeze, keccak_bytes).

Definition any (_ : bytes) : Prop := True.
Definition sponge_run (nr r d : nat) (bl : list bytes) : bytes :=
  firstn d (squeeze nr r d (fold_left (fun S Pi => keccak_bytes nr (xor_bytes S (Pi ++ zeros (200 - r)))) bl (zeros 200))).

Definition sponge_hasher (C : core) (nr r d : nat) (D : N) : Prop :=
  hashes_blocks C any r (turbo_pad r D) (sponge_run nr r d) /\ blocks_differ r (turbo_pad r D).
Definition md2_run (bl : list bytes) : bytes := firstn 16 (fold_left Spec.MD2.process (bl ++ [Spec.MD2.checksum bl]) (zeros 48)).
Definition jh_run (k : nat) (bl : list bytes) : bytes := skipn (128 - k) (fold_left Spec.JH.F8 bl (Spec.JH.H0 k)).
Definition jh_hasher (C : core) (k : nat) : Prop :=
  hashes_blocks C (bits_below 64) 64 Spec.JH.pad (jh_run k) /\ blocks_differ 64 Spec.JH.pad.
Definition ascon_run (iv : N) (d : nat) (bl : list bytes) : bytes :=
  firstn d (Spec.Ascon.squeeze d (fold_left Spec.Ascon.absorb bl (Spec.Ascon.p12 (iv, 0, 0, 0, 0)))).
Definition run256 iv n (bl : list bytes) : bytes := firstn n (Spec.SHA2.output 4 (fold_left (Spec.SHA2.compress Spec.SHA2.sha256_params) bl iv)).
Definition run512 iv n (bl : list bytes) : bytes := firstn n (Spec.SHA2.output 8 (fold_left (Spec.SHA2.compress Spec.SHA2.sha512_params) bl iv)).
Definition groestl_pad (p : Spec.Groestl.params) (msg : bytes) : bytes :=
  md_pad (Spec.Groestl.l p) 0x80 (be_bytes 8 (Spec.Groestl.padded_blocks p (length msg))) msg.
Definition groestl_run p k (bl : list bytes) : bytes := Spec.Groestl.Omega p k (fold_left (Spec.Groestl.f p) bl (Spec.Groestl.iv p k)).
Definition groestl_hasher (C : core) (p : Spec.Groestl.params) (k : nat) : Prop :=
  hashes_blocks C (fun msg => Spec.Groestl.padded_blocks p (length msg) < 2 ^ 64) (Spec.Groestl.l p) (groestl_pad p) (groestl_run p k) /\
  blocks_differ (Spec.Groestl.l p) (groestl_pad p).
Definition kupyna_pad (p : Spec.Kupyna.params) (msg : bytes) : bytes := md_pad (Spec.Kupyna.l p) 0x80 (le_bytes 12 (8 * blen msg)) msg.
Definition kupyna_run p k (bl : list bytes) : bytes :=
  let h := fold_left (Spec.Kupyna.compress p) bl (Spec.Kupyna.iv p) in
  Spec.Kupyna.R k (concat (Spec.Groestl.sum (Spec.Kupyna.Txor p h) h)).
Definition kupyna_hasher (C : core) p k : Prop :=
  hashes_blocks C (fun msg => N.of_nat (length msg) < 2 ^ 70) (Spec.Kupyna.l p) (kupyna_pad p) (kupyna_run p k) /\
  blocks_differ (Spec.Kupyna.l p) (kupyna_pad p).
Definition shabal_run (n : nat) (bl : list bytes) : bytes :=
  let Ms := map (words_of_le 4) bl in
  let k := length Ms in
  let S := Spec.Shabal.rounds (Spec.Shabal.iv (8 * n)) 1 Ms in
  let wk := N.of_nat k mod 2 ^ 64 in
  let last := nth (k - 1) Ms [] in
  let '(_, _, C) := Spec.Shabal.round (Spec.Shabal.round (Spec.Shabal.round S wk last) wk last) wk last in
  skipn (64 - n) (words_to_le 4 C).
Definition shabal_hasher (C : core) n : Prop :=
  hashes_blocks C any 64 (md_pad 64 0x80 []) (shabal_run n) /\ blocks_differ 64 (md_pad 64 0x80 []).
