(** What BelT, FSB, Skein, Streebog, Whirlpool and GOST R 34.11-94 do with messages longer than their
    length counters can express (continues Spec/Overflow.v). *)
From Verif Require Import Base.Words Base.Bytes Base.Codec Base.Digest Spec.MD Spec.Overflow.
From Verif Require Spec.Belt Spec.Whirlpool Spec.FSB Spec.Skein Spec.Streebog.

(** BelT with the number [bits] in place of the length of [X] in bits *)
Definition belt_len (bits : N) (X : bytes) : bytes :=
  let padded := X ++ zeros ((32 - length X mod 32) mod 32) in
  let '(s, h) := fold_left (Spec.Belt.step Spec.Belt.F) (chunks 32 padded) (zeros 16, firstn 32 Spec.Belt.H) in
  Spec.Belt.sigma2 Spec.Belt.F (le_bytes 16 bits) s (Spec.Belt.lo h) (Spec.Belt.hi h).
(** The number of whole blocks is always kept modulo 2^128; only the multiplications at the end are checked. *)
Definition belt_panics_or_wraps (C : core) : Prop :=
  forall cs, Forall bytes_ok cs -> let msg := concat cs in
  let counted := 32 * ((blen msg / 32) mod 2 ^ 128) + blen msg mod 32 in
  h_digest C Checked cs = (if 8 * counted <? 2 ^ 128 then Some (belt_len (8 * counted) msg) else None) /\
  h_digest C Wrapping cs = Some (belt_len ((8 * blen msg) mod 2 ^ 128) msg).

Definition whirlpool_len (bits : N) (msg : bytes) : bytes :=
  concat (md_iterate Spec.Whirlpool.compress 64 (repeat (zeros 8) 8) (md_pad 64 0x80 (be_bytes 32 bits) msg)).

Definition fsb_len (PI : bytes) (P : Spec.FSB.params) (out : nat) (bits : N) (msg : bytes) : bytes :=
  firstn out (Spec.Whirlpool.Whirlpool (Spec.FSB.pack
    (md_iterate (Spec.FSB.compress PI P) ((Spec.FSB.s P - Spec.FSB.r P) / 8) (repeat false (Spec.FSB.r P))
      (md_pad ((Spec.FSB.s P - Spec.FSB.r P) / 8) 0x80 (be_bytes 8 bits) msg)))).

(** Streebog counting message bits modulo 2^w (the standard has w = 512) *)
Section Streebog.
  Import Spec.Streebog.
  Definition stage2_mod (w : N) (st : list N * N * N) (m : bytes) : list N * N * N :=
    let '(h, n, sigma) := st in (g (vec n) h m, (n + 512) mod 2 ^ w, (sigma + le_val m) mod 2 ^ 512).
  Definition stage3_mod (w : N) (st : list N * N * N) (M : bytes) : list N :=
    let '(h, n, sigma) := st in
    let m := M ++ [1] ++ zeros (63 - length M) in
    let h := g (vec n) h m in
    let n := (n + 8 * N.of_nat (length M)) mod 2 ^ w in
    let sigma := (sigma + le_val m) mod 2 ^ 512 in
    let h := g (zeros 64) h (vec n) in
    g (zeros 64) h (vec sigma).
  Definition Streebog_mod (w : N) (hl : nat) (msg : bytes) : bytes :=
    skipn (64 - hl) (stage3_mod w (fold_left (stage2_mod w) (chunks 64 msg) (IV hl, 0, 0)) (remainder 64 msg)).
End Streebog.

(** Skein with the position in the message kept in 64 bits (the standard has 96) *)
Section Skein.
  Context (Nb : nat) (E : bytes -> bytes -> bytes -> bytes).
  Import Spec.Skein.
  Fixpoint UBI64_from (fuel : nat) (H : bytes) (pos : N) (first : bool) (M : bytes) (Ts : N) : bytes :=
    match fuel with
    | O => H
    | S fuel =>
        if (length M <=? Nb)%nat
        then step E H (Ts + (pos + N.of_nat (length M)) mod 2 ^ 64 + N.b2n first * 2 ^ 126 + 2 ^ 127) (zpad Nb M)
        else UBI64_from fuel (step E H (Ts + (pos + N.of_nat Nb) mod 2 ^ 64 + N.b2n first * 2 ^ 126) (firstn Nb M))
               (pos + N.of_nat Nb) false (skipn Nb M) Ts
    end.
  Definition Skein64 (No : nat) (M : bytes) : bytes :=
    Output Nb E (UBI64_from (S (length M)) (UBI Nb E (zeros Nb) (config No) T_cfg) 0 true M T_msg) No.
End Skein.
