(** What a SHA-1 collision detector based on disturbance vectors decides
    (M. Stevens, "Counter-cryptanalysis", CRYPTO 2013), on top of FIPS 180-4. *)
From Verif Require Import Base.Words Base.Bytes Spec.MD Spec.SHA1.

(** ** Disturbance vectors (S. Manuel, "Classification and generation of
    disturbance vectors for collision attacks against SHA-1").  A vector is given
    by 16 consecutive words from position K on; the others follow from the
    message recurrence, run in both directions. *)
Inductive dvtype := I | II.
Definition window (ty : dvtype) (b : N) : list N :=
  match ty with
  | I => zeros 15 ++ [rotl32 1 b]
  | II => [0; rotl32 (2 ^ 31) b; 0; rotl32 (2 ^ 31) b] ++ zeros 11 ++ [rotl32 1 b]
  end.
(** the word before a window: W(t) from W(t+2), W(t+8), W(t+13), W(t+16) *)
Definition prev_w (W : list N) : N :=
  N.lxor (N.lxor (N.lxor (rotr32 (get W 15) 1) (get W 12)) (get W 7)) (get W 1).
Fixpoint extend_back (n : nat) (W : list N) : list N :=
  match n with O => W | S k => extend_back k (prev_w W :: W) end.
(** words -5 .. 79 of the vector *)
Definition dv_words (ty : dvtype) (k : nat) (b : N) : list N :=
  extend (64 - k) (extend_back (k + 5) (window ty b)).
(** Message difference: every disturbance starts a local collision of six steps. *)
Definition dv_diff (ty : dvtype) (k : nat) (b : N) : list N :=
  let D := dv_words ty k b in
  map (fun i => N.lxor (get D (i + 5)) (N.lxor (rotl32 (get D (i + 4)) 5) (N.lxor (get D (i + 3))
         (N.lxor (rotl32 (get D (i + 2)) 30) (N.lxor (rotl32 (get D (i + 1)) 30) (rotl32 (get D i) 30))))))
      (seq 0 80).
(** The vectors to look for, in the order of their mask bits. *)
Definition dvs : list (dvtype * nat * nat) :=
  [(I, 43, 0); (I, 44, 0); (I, 45, 0); (I, 46, 0); (I, 46, 2); (I, 47, 0); (I, 47, 2); (I, 48, 0); (I, 48, 2);
   (I, 49, 0); (I, 49, 2); (I, 50, 0); (I, 50, 2); (I, 51, 0); (I, 51, 2); (I, 52, 0);
   (II, 45, 0); (II, 46, 0); (II, 46, 2); (II, 47, 0); (II, 48, 0); (II, 49, 0); (II, 49, 2); (II, 50, 0);
   (II, 50, 2); (II, 51, 0); (II, 51, 2); (II, 52, 0); (II, 53, 0); (II, 54, 0); (II, 55, 0); (II, 56, 0)]%nat.
(** a step at which the two computations are in the same state *)
Definition meet (k : nat) : nat := (if k <? 50 then 58 else 65)%nat.
(** step, difference of the i-th vector *)
Definition dv_of (i : nat) : nat * list N :=
  let '(ty, k, b) := nth i dvs (I, 0%nat, 0%nat) in (meet k, dv_diff ty k (N.of_nat b)).

(** ** Partner blocks *)
Definition words_of (block : bytes) : list N := map be_val (chunks 4 block).
Definition steps (W : list N) (t : nat) (v : vars) : vars :=
  fold_left (fun v t => round v (f t) (K t) (get W t)) (seq 0 t) v.
Definition vars_ok (v : vars) : Prop :=
  let '(a, b, c, d, e) := v in a < 2 ^ 32 /\ b < 2 ^ 32 /\ c < 2 ^ 32 /\ d < 2 ^ 32 /\ e < 2 ^ 32.
(** [block2] with chaining value [H2] is the partner of [block] with chaining
    value [H] for a vector: the expanded messages differ by the vector's
    difference and both computations are in the same state at its step. *)
Definition partner (dv : nat * list N) (H : vars) (block : bytes) (H2 : vars) (block2 : bytes) : Prop :=
  let W := schedule (words_of block) in
  let W2 := schedule (words_of block2) in
  vars_ok H2 /\ length block2 = 64%nat /\ bytes_ok block2 /\
  W2 = xor_bytes W (snd dv) /\ steps W2 (fst dv) H2 = steps W (fst dv) H.

(** [block] is reported in chaining value [H]: some vector passes the
    [filter] and gives a partner with the same output chaining value (or, when
    attacks on reduced SHA-1 are looked for, with the same input chaining value). *)
Definition hit (filter : list N -> nat -> bool) (reduced : bool) (H : vars) (block : bytes) : Prop :=
  exists i, (i < 32)%nat /\ filter (schedule (words_of block)) i = true /\
  exists H2 block2, partner (dv_of i) H block H2 block2 /\
    (compress H2 block2 = compress H block \/ (reduced = true /\ H2 = H)).

(** Some block of the padded message is reported, in the chaining value
    SHA-1 has there. *)
Definition reported (hit : vars -> bytes -> Prop) (msg : bytes) : Prop :=
  exists pre b post, chunks 64 (pad msg) = pre ++ b :: post /\ hit (fold_left compress pre iv) b.

(** Safe hash: a reported block is processed three times. *)
Inductive safe_chain (hit : vars -> bytes -> Prop) : vars -> list bytes -> vars -> Prop :=
| safe_nil v : safe_chain hit v [] v
| safe_skip v b l v' : ~ hit v b -> safe_chain hit (compress v b) l v' -> safe_chain hit v (b :: l) v'
| safe_hit v b l v' : hit v b -> safe_chain hit (compress (compress (compress v b) b) b) l v' ->
    safe_chain hit v (b :: l) v'.
