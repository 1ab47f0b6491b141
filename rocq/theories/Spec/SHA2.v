(** FIPS 180-4: SHA-224, SHA-256, SHA-384, SHA-512, SHA-512/224, SHA-512/256. *)
From Verif Require Import Base.Words Base.Bytes Spec.MD Spec.Roots.

(** Section 4.1.2 / 4.1.3: logical functions. *)
Definition Ch (w x y z : N) : N := N.lxor (N.land x y) (N.land (wnot w x) z).
Definition Maj (x y z : N) : N := N.lxor (N.lxor (N.land x y) (N.land x z)) (N.land y z).
Definition xor3 (a b c : N) : N := N.lxor (N.lxor a b) c.

(** The parameters in which the two families differ. *)
Record params := {
  p_w : N;                     (* word size in bits *)
  p_rounds : nat;
  p_S0 : N -> N; p_S1 : N -> N; (* capital sigmas *)
  p_s0 : N -> N; p_s1 : N -> N; (* small sigmas *)
  p_K : list N
}.

(** Section 4.2.2: K is the first 32 (64) bits of the fractional parts of the
    cube roots of the first 64 (80) primes. *)
Definition sha256_params : params := {|
  p_w := 32; p_rounds := 64;
  p_S0 := fun x => xor3 (rotr 32 x 2) (rotr 32 x 13) (rotr 32 x 22);
  p_S1 := fun x => xor3 (rotr 32 x 6) (rotr 32 x 11) (rotr 32 x 25);
  p_s0 := fun x => xor3 (rotr 32 x 7) (rotr 32 x 18) (N.shiftr x 3);
  p_s1 := fun x => xor3 (rotr 32 x 17) (rotr 32 x 19) (N.shiftr x 10);
  p_K := map (cbrt_frac 32) (primes 64) |}.
Definition sha512_params : params := {|
  p_w := 64; p_rounds := 80;
  p_S0 := fun x => xor3 (rotr 64 x 28) (rotr 64 x 34) (rotr 64 x 39);
  p_S1 := fun x => xor3 (rotr 64 x 14) (rotr 64 x 18) (rotr 64 x 41);
  p_s0 := fun x => xor3 (rotr 64 x 1) (rotr 64 x 8) (N.shiftr x 7);
  p_s1 := fun x => xor3 (rotr 64 x 19) (rotr 64 x 61) (N.shiftr x 6);
  p_K := map (cbrt_frac 64) (primes 80) |}.

Section Family.
  Variable P : params.
  Local Notation "a [+] b" := (wadd (p_w P) a b) (at level 50, left associativity).

  (** Message schedule: W_t for t >= 16. *)
  Definition next_w (W : list N) : N :=
    let t := length W in
    p_s1 P (get W (t - 2)) [+] get W (t - 7) [+] p_s0 P (get W (t - 15)) [+] get W (t - 16).
  Fixpoint extend (n : nat) (W : list N) : list N :=
    match n with O => W | S k => extend k (W ++ [next_w W]) end.
  Definition schedule (M : list N) : list N := extend (p_rounds P - 16) M.

  (** One round on the working variables a..h. *)
  Definition vars := (N * N * N * N * N * N * N * N)%type.
  Definition round (v : vars) (k w : N) : vars :=
    let '(a, b, c, d, e, f, g, h) := v in
    let T1 := h [+] p_S1 P e [+] Ch (p_w P) e f g [+] k [+] w in
    let T2 := p_S0 P a [+] Maj a b c in
    (T1 [+] T2, a, b, c, d [+] T1, e, f, g).
  Definition rounds (W : list N) (v : vars) : vars :=
    fold_left (fun v t => round v (get (p_K P) t) (get W t)) (seq 0 (p_rounds P)) v.

  (** Section 6.2.2 / 6.4.2: the hash computation on one block. *)
  Definition compress (H : vars) (block : bytes) : vars :=
    let M := map be_val (chunks (N.to_nat (p_w P / 8)) block) in
    let '(a0, b0, c0, d0, e0, f0, g0, h0) := H in
    let '(a, b, c, d, e, f, g, h) := rounds (schedule M) H in
    (a [+] a0, b [+] b0, c [+] c0, d [+] d0, e [+] e0, f [+] f0, g [+] g0, h [+] h0).
End Family.

Definition vars_of_list (l : list N) : vars :=
  (get l 0, get l 1, get l 2, get l 3, get l 4, get l 5, get l 6, get l 7).
Definition list_of_vars (v : vars) : list N :=
  let '(a, b, c, d, e, f, g, h) := v in [a; b; c; d; e; f; g; h].
Definition output (k : nat) (v : vars) : bytes := concat (map (be_bytes k) (list_of_vars v)).

(** Section 5.3: initial values from the fractional parts of square roots:
    SHA-256, SHA-512 of the first eight primes; SHA-384 of the ninth to
    sixteenth; SHA-224 takes the second 32 bits of those. *)
Definition iv256 : vars := vars_of_list (map (sqrt_frac 32) (primes 8)).
Definition iv224 : vars := vars_of_list (map (fun p => sqrt_frac 64 p mod 2 ^ 32) (skipn 8 (primes 16))).
Definition iv512 : vars := vars_of_list (map (sqrt_frac 64) (primes 8)).
Definition iv384 : vars := vars_of_list (map (sqrt_frac 64) (skipn 8 (primes 16))).

(** Section 5.1: padding, with the message length in bits. *)
Definition pad256 (msg : bytes) : bytes := md_pad 64 0x80 (be_bytes 8 (8 * blen msg)) msg.
Definition pad512 (msg : bytes) : bytes := md_pad 128 0x80 (be_bytes 16 (8 * blen msg)) msg.

Definition hash256 (iv : vars) (n : nat) (msg : bytes) : bytes :=
  firstn n (output 4 (md_iterate (compress sha256_params) 64 iv (pad256 msg))).
Definition hash512 (iv : vars) (n : nat) (msg : bytes) : bytes :=
  firstn n (output 8 (md_iterate (compress sha512_params) 128 iv (pad512 msg))).

(** Section 5.3.6: the SHA-512/t IV generation function: SHA-512 with the IV
    xored with a5a5...a5, applied to the ASCII name "SHA-512/t". *)
Definition iv512t (name : bytes) : vars :=
  let iv := vars_of_list (map (fun x => N.lxor x 0xa5a5a5a5a5a5a5a5) (list_of_vars iv512)) in
  md_iterate (compress sha512_params) 128 iv (pad512 name).
Definition name512_224 : bytes := [83; 72; 65; 45; 53; 49; 50; 47; 50; 50; 52]. (* "SHA-512/224" *)
Definition name512_256 : bytes := [83; 72; 65; 45; 53; 49; 50; 47; 50; 53; 54]. (* "SHA-512/256" *)

Definition SHA224 : bytes -> bytes := hash256 iv224 28.
Definition SHA256 : bytes -> bytes := hash256 iv256 32.
Definition SHA384 : bytes -> bytes := hash512 iv384 48.
Definition SHA512 : bytes -> bytes := hash512 iv512 64.
Definition SHA512_224 : bytes -> bytes := hash512 (iv512t name512_224) 28.
Definition SHA512_256 : bytes -> bytes := hash512 (iv512t name512_256) 32.
