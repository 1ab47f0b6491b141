(** Tiger and Tiger2 (Anderson and Biham, "Tiger: A Fast New Hash Function", FSE
    1996; Tiger2 differs in the first padding byte only). *)
From Verif Require Import Base.Words Base.Bytes Spec.MD.

Definition vars := (N * N * N)%type.
(** S-boxes: [T n i] is entry [i] of table t_(n+1). *)
Definition sboxes := nat -> N -> N.
(** "c_0 is the least significant byte of c". *)
Definition byte (c : N) (k : N) : N := N.land (N.shiftr c (8 * k)) 255.

(** One round; then the roles of the registers rotate. *)
Definition round (T : sboxes) (mul : N) (v : vars) (x : N) : vars :=
  let '(a, b, c) := v in
  let c := N.lxor c x in
  let a := sub64 a (N.lxor (N.lxor (T 0%nat (byte c 0)) (T 1%nat (byte c 2))) (N.lxor (T 2%nat (byte c 4)) (T 3%nat (byte c 6)))) in
  let b := mul64 (add64 b (N.lxor (N.lxor (T 3%nat (byte c 1)) (T 2%nat (byte c 3))) (N.lxor (T 1%nat (byte c 5)) (T 0%nat (byte c 7))))) mul in
  (b, c, a).
Definition pass (T : sboxes) (mul : N) (x : list N) (v : vars) : vars := fold_left (round T mul) x v.

Definition keys := (N * N * N * N * N * N * N * N)%type.
Definition schedule (x : keys) : keys :=
  let '(x0, x1, x2, x3, x4, x5, x6, x7) := x in
  let y0 := sub64 x0 (N.lxor x7 0xA5A5A5A5A5A5A5A5) in
  let y1 := N.lxor x1 y0 in
  let y2 := add64 x2 y1 in
  let y3 := sub64 x3 (N.lxor y2 (wshl 64 (not64 y1) 19)) in
  let y4 := N.lxor x4 y3 in
  let y5 := add64 x5 y4 in
  let y6 := sub64 x6 (N.lxor y5 (N.shiftr (not64 y4) 23)) in
  let y7 := N.lxor x7 y6 in
  let z0 := add64 y0 y7 in
  let z1 := sub64 y1 (N.lxor z0 (wshl 64 (not64 y7) 19)) in
  let z2 := N.lxor y2 z1 in
  let z3 := add64 y3 z2 in
  let z4 := sub64 y4 (N.lxor z3 (N.shiftr (not64 z2) 23)) in
  let z5 := N.lxor y5 z4 in
  let z6 := add64 y6 z5 in
  let z7 := sub64 y7 (N.lxor z6 0x0123456789ABCDEF) in
  (z0, z1, z2, z3, z4, z5, z6, z7).
Definition keys_of (x : list N) : keys := (get x 0, get x 1, get x 2, get x 3, get x 4, get x 5, get x 6, get x 7).
Definition words_of (x : keys) : list N :=
  let '(x0, x1, x2, x3, x4, x5, x6, x7) := x in [x0; x1; x2; x3; x4; x5; x6; x7].

(** 24 rounds in three passes, then the feed-forward. *)
Definition compress_words (T : sboxes) (v : vars) (x : list N) : vars :=
  let k1 := keys_of x in
  let k2 := schedule k1 in
  let k3 := schedule k2 in
  let '(a0, b0, c0) := v in
  let '(a, b, c) := pass T 9 (words_of k3) (pass T 7 (words_of k2) (pass T 5 (words_of k1) v)) in
  (N.lxor a a0, sub64 b b0, add64 c c0).
Definition compress (T : sboxes) (v : vars) (block : bytes) : vars :=
  compress_words T v (map le_val (chunks 8 block)).
Definition iv : vars := (0x0123456789ABCDEF, 0xFEDCBA9876543210, 0xF096A5B4C3B2E187).

(** ** The S-boxes, by the designers' generation program (gen.c of the reference
    implementation): start with all columns the identity, and permute the columns
    with bytes taken from the compression function itself, run with the tables
    generated so far on the 64-byte text below; five passes. *)
Definition text : bytes :=
  [84; 105; 103; 101; 114; 32; 45; 32; 65; 32; 70; 97; 115; 116; 32; 78; 101; 119; 32; 72; 97; 115; 104; 32;
   70; 117; 110; 99; 116; 105; 111; 110; 44; 32; 98; 121; 32; 82; 111; 115; 115; 32; 65; 110; 100; 101; 114;
   115; 111; 110; 32; 97; 110; 100; 32; 69; 108; 105; 32; 66; 105; 104; 97; 109].

(** Tables as binary trees indexed by the bits of a byte, so that they can be run. *)
Inductive tree := Leaf (v : N) | Node (l r : tree).
Fixpoint tget (t : tree) (i : N) : N :=
  match t with
  | Leaf v => v
  | Node l r => if N.odd i then tget r (N.div2 i) else tget l (N.div2 i)
  end.
Fixpoint tset (t : tree) (i v : N) : tree :=
  match t with
  | Leaf _ => Leaf v
  | Node l r => if N.odd i then Node l (tset r (N.div2 i) v) else Node (tset l (N.div2 i) v) r
  end.
(** The table of [f 0, ..., f (2^d - 1)]. *)
Fixpoint tmake (d : nat) (f : N -> N) : tree :=
  match d with
  | O => Leaf (f 0)
  | S d => Node (tmake d (fun i => f (2 * i))) (tmake d (fun i => f (2 * i + 1)))
  end.
Definition tabs := (tree * tree * tree * tree)%type.
Definition tab_get (t : tabs) (n : nat) : tree :=
  let '(t0, t1, t2, t3) := t in match n with 0%nat => t0 | 1%nat => t1 | 2%nat => t2 | _ => t3 end.
Definition tab_set (t : tabs) (n : nat) (x : tree) : tabs :=
  let '(t0, t1, t2, t3) := t in
  match n with 0%nat => (x, t1, t2, t3) | 1%nat => (t0, x, t2, t3) | 2%nat => (t0, t1, x, t3) | _ => (t0, t1, t2, x) end.
Definition look (t : tabs) : sboxes := fun n i => tget (tab_get t n) i.
(** All eight columns hold the identity. *)
Definition start : tabs := let t := tmake 8 (fun i => i * 0x0101010101010101) in (t, t, t, t).

(** Exchange column [col] of the rows [i] and [j]. *)
Definition swap (t : tree) (col i j : N) : tree :=
  let d := N.land (N.lxor (tget t i) (tget t j)) (N.shiftl 255 (8 * col)) in
  let t := tset t i (N.lxor (tget t i) d) in
  tset t j (N.lxor (tget t j) d).
(** Permute row [i] of table [n] with the bytes of [w]. *)
Definition scramble (t : tree) (i w : N) : tree :=
  fold_left (fun t col => swap t col i (byte w col)) [0; 1; 2; 3; 4; 5; 6; 7] t.

(** The registers are used up one after the other; when all three are used the
    compression function is run again. *)
Definition gen_st := (tabs * vars * list N)%type.
Definition gen_step (x : list N) (g : gen_st) (in_ : N * nat) : gen_st :=
  let '(t, v, ws) := g in
  let '(i, n) := in_ in
  match ws with
  | w :: ws => (tab_set t n (scramble (tab_get t n) i w), v, ws)
  | [] => let '(a, b, c) := compress_words (look t) v x in
          (tab_set t n (scramble (tab_get t n) i a), (a, b, c), [b; c])
  end.
Definition bytes256 : list N := map N.of_nat (seq 0 256).
Definition gen_pass (x : list N) (g : gen_st) : gen_st :=
  fold_left (gen_step x) (flat_map (fun i => [(i, 0%nat); (i, 1%nat); (i, 2%nat); (i, 3%nat)]) bytes256) g.
Definition generate : tabs :=
  let x := map le_val (chunks 8 text) in
  let '(t, _, _) := Nat.iter 5 (gen_pass x) (start, iv, []) in t.
Definition SBOXES : list (list N) := map (fun n => map (look generate n) bytes256) [0; 1; 2; 3]%nat.
Definition T : sboxes := fun n i => nth (N.to_nat i) (nth n SBOXES []) 0.

(** ** The hash functions.  Tiger pads with the byte 0x01, Tiger2 with 0x80; the
    length in bits follows, as 64 bits, little-endian. *)
Definition output (v : vars) : bytes := let '(a, b, c) := v in le_bytes 8 a ++ le_bytes 8 b ++ le_bytes 8 c.
Definition hash (first : N) (msg : bytes) : bytes :=
  output (md_iterate (compress T) 64 iv (md_pad 64 first (le_bytes 8 (8 * blen msg)) msg)).
Definition Tiger : bytes -> bytes := hash 0x01.
Definition Tiger2 : bytes -> bytes := hash 0x80.
