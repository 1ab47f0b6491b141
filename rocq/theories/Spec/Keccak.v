(** FIPS 202 (SHA-3), the Keccak submission, TurboSHAKE (RFC 9861 section 2) and
    cSHAKE (NIST SP 800-185).  The state is a string of 200 bytes; bit strings
    are lists of booleans, first bit first. *)
From Verif Require Import Base.Words Base.Bytes Base.Codec.

(** ** Keccak-p[1600, nr] (FIPS 202 section 3).  Lane (x, y) is element 5y + x. *)
Definition lane (A : list N) (x y : nat) : N := get A (5 * (y mod 5) + x mod 5).
Definition tabulate (f : nat -> nat -> N) : list N :=
  map (fun i => f (i mod 5)%nat (i / 5)%nat) (seq 0 25).
(** 3.2.1 *)
Definition theta (A : list N) : list N :=
  let C := map (fun x => N.lxor (lane A x 0) (N.lxor (lane A x 1) (N.lxor (lane A x 2)
                        (N.lxor (lane A x 3) (lane A x 4))))) (seq 0 5) in
  let D := map (fun x => N.lxor (get C ((x + 4) mod 5)) (rotl64 (get C ((x + 1) mod 5)) 1)) (seq 0 5) in
  tabulate (fun x y => N.lxor (lane A x y) (get D x)).
(** 3.2.2: offsets (Table 2, modulo 64); [rho_rule] is the rule of Algorithm 2. *)
Definition rho_offsets : list N :=
  [ 0;  1; 62; 28; 27;
   36; 44;  6; 55; 20;
    3; 10; 43; 25; 39;
   41; 45; 15; 21;  8;
   18;  2; 61; 56; 14].
Fixpoint rho_walk (k t x y : nat) (off : list N) : list N :=
  match k with
  | O => off
  | S k => rho_walk k (S t) y ((2 * x + 3 * y) mod 5)
             (upd off (5 * y + x) (N.of_nat ((t + 1) * (t + 2) / 2) mod 64))
  end.
Definition rho_rule : list N := rho_walk 24 0 1 0 (repeat 0 25).
Definition rho (A : list N) : list N :=
  tabulate (fun x y => rotl64 (lane A x y) (get rho_offsets (5 * y + x))).
(** 3.2.3 *)
Definition pi (A : list N) : list N := tabulate (fun x y => lane A (x + 3 * y) x).
(** 3.2.4 *)
Definition chi (A : list N) : list N :=
  tabulate (fun x y => N.lxor (lane A x y) (N.land (not64 (lane A (x + 1) y)) (lane A (x + 2) y))).
(** 3.2.5: round constants; [RC_rule] is the rule of Algorithms 5 and 6. *)
Definition RC : list N :=
  [0x0000000000000001; 0x0000000000008082; 0x800000000000808A; 0x8000000080008000;
   0x000000000000808B; 0x0000000080000001; 0x8000000080008081; 0x8000000000008009;
   0x000000000000008A; 0x0000000000000088; 0x0000000080008009; 0x000000008000000A;
   0x000000008000808B; 0x800000000000008B; 0x8000000000008089; 0x8000000000008003;
   0x8000000000008002; 0x8000000000000080; 0x000000000000800A; 0x800000008000000A;
   0x8000000080008081; 0x8000000000008080; 0x0000000080000001; 0x8000000080008008].
(** Algorithm 5: the register R[0..7], R[0] is bit 0. *)
Definition lfsr (r : N) : N :=
  let r := 2 * r in
  let b := r / 256 in            (* R[8] *)
  N.lxor (r mod 256) (if b =? 1 then 0x71 else 0).
Definition rc (t : nat) : N := (Nat.iter (t mod 255) lfsr 1) mod 2.
Definition RC_rule (ir : nat) : N :=
  fold_left (fun acc j => acc + rc (j + 7 * ir) * 2 ^ (2 ^ N.of_nat j - 1)) (seq 0 7) 0.
Definition iota (ir : nat) (A : list N) : list N := upd A 0 (N.lxor (lane A 0 0) (get RC ir)).
Definition round (A : list N) (ir : nat) : list N := iota ir (chi (pi (rho (theta A)))).
(** 3.3 *)
Definition keccak_p (nr : nat) (A : list N) : list N := fold_left round (seq (24 - nr) nr) A.
(** On state strings (3.1.2, 3.1.3). *)
Definition keccak_bytes (nr : nat) (S : bytes) : bytes := words_to_le 8 (keccak_p nr (words_of_le 8 S)).

(** ** The sponge (section 4), for a rate of [r] bytes and a padded string [P] *)
Definition absorb (nr r : nat) (S : bytes) (P : bytes) : bytes :=
  fold_left (fun S Pi => keccak_bytes nr (xor_bytes S (Pi ++ zeros (200 - r)))) (chunks r P) S.
Fixpoint squeeze (nr r n : nat) (S : bytes) : bytes :=   (* at least n bytes *)
  match n with
  | O => []
  | Datatypes.S n => firstn r S ++ squeeze nr r n (keccak_bytes nr S)
  end.
Definition sponge (nr r : nat) (P : bytes) (d : nat) : bytes :=
  firstn d (squeeze nr r d (absorb nr r (zeros 200) P)).

(** ** Bit strings (appendix B.1) and pad10*1 (5.1) *)
Definition bits_of_byte (b : N) : list bool := map (fun i => N.testbit b (N.of_nat i)) (seq 0 8).
Definition bits_of_bytes (l : bytes) : list bool := concat (map bits_of_byte l).
Definition byte_of_bits (l : list bool) : N := fold_right (fun (b : bool) acc => (if b then 1 else 0) + 2 * acc) 0 l.
Definition bytes_of_bits (l : list bool) : bytes := map byte_of_bits (chunks 8 l).
(** [pad10*1(x, m)]: j = (-m - 2) mod x *)
Definition pad101 (x m : nat) : list bool :=
  let j := ((x - (m + 2) mod x) mod x)%nat in true :: repeat false j ++ [true].
(** M followed by the suffix bits and pad10*1. *)
Definition pad (r : nat) (suffix : list bool) (M : bytes) : bytes :=
  let N := bits_of_bytes M ++ suffix in
  bytes_of_bits (N ++ pad101 (8 * r) (length N)).

(** ** The functions (section 6); rate r = 200 - c/8 *)
Definition keccak_c (r : nat) (suffix : list bool) (M : bytes) (d : nat) : bytes :=
  sponge 24 r (pad r suffix M) d.
Definition sfx_sha3 := [false; true].
Definition sfx_shake := [true; true; true; true].
Definition sfx_cshake := [false; false].
Definition SHA3_224 M := keccak_c 144 sfx_sha3 M 28.
Definition SHA3_256 M := keccak_c 136 sfx_sha3 M 32.
Definition SHA3_384 M := keccak_c 104 sfx_sha3 M 48.
Definition SHA3_512 M := keccak_c 72 sfx_sha3 M 64.
Definition SHAKE128 M d := keccak_c 168 sfx_shake M d.
Definition SHAKE256 M d := keccak_c 136 sfx_shake M d.
(** The original submission: no suffix. *)
Definition Keccak_224 M := keccak_c 144 [] M 28.
Definition Keccak_256 M := keccak_c 136 [] M 32.
Definition Keccak_384 M := keccak_c 104 [] M 48.
Definition Keccak_512 M := keccak_c 72 [] M 64.
(** CryptoNight: the whole state after absorbing. *)
Definition Keccak_256_full M := absorb 24 136 (zeros 200) (pad 136 [] M).

(** ** TurboSHAKE: 12 rounds; M || D || 00..00, the last byte of the padded
    string xored with 0x80 *)
Definition turbo_pad (r : nat) (D : N) (M : bytes) : bytes :=
  let X := M ++ [D] in
  let X := X ++ zeros ((r - length X mod r) mod r) in
  firstn (length X - 1) X ++ [N.lxor (last X 0) 0x80].
Definition TurboSHAKE (r : nat) (D : N) (M : bytes) (d : nat) : bytes :=
  sponge 12 r (turbo_pad r D M) d.
Definition TurboSHAKE128 := TurboSHAKE 168.
Definition TurboSHAKE256 := TurboSHAKE 136.

(** ** cSHAKE (SP 800-185 sections 2.3 and 3.3) *)
(** left_encode(x): the smallest n > 0 with 2^(8n) > x, then x on n bytes, big endian. *)
Definition enc_len (x : N) : nat := if x =? 0 then 1%nat else S (N.to_nat (N.log2 x) / 8).
Definition left_encode (x : N) : bytes := N.of_nat (enc_len x) :: be_bytes (enc_len x) x.
Definition encode_string (s : bytes) : bytes := left_encode (8 * N.of_nat (length s)) ++ s.
Definition bytepad (x : bytes) (w : nat) : bytes :=
  let z := left_encode (N.of_nat w) ++ x in z ++ zeros ((w - length z mod w) mod w).
Definition cSHAKE (r : nat) (N S X : bytes) (d : nat) : bytes :=
  match N, S with
  | [], [] => keccak_c r sfx_shake X d
  | _, _ => keccak_c r sfx_cshake (bytepad (encode_string N ++ encode_string S) r ++ X) d
  end.
Definition cSHAKE128 := cSHAKE 168.
Definition cSHAKE256 := cSHAKE 136.
