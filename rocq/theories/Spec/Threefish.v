(** The tweakable block cipher Threefish (Skein 1.3, section 3.3) on 64-bit words. *)
From Verif Require Import Base.Words Base.Bytes.

Record variant := mkVariant { Nw : nat; Nr : nat; rot : list (list N); pi : list nat }.
Definition Threefish256 : variant := mkVariant 4 72
  [[14; 16]; [52; 57]; [23; 40]; [5; 37]; [25; 33]; [46; 12]; [58; 22]; [32; 32]] [0; 3; 2; 1]%nat.
Definition Threefish512 : variant := mkVariant 8 72
  [[46; 36; 19; 37]; [33; 27; 14; 42]; [17; 49; 36; 39]; [44; 9; 54; 56];
   [39; 30; 34; 24]; [13; 50; 10; 17]; [25; 29; 39; 43]; [8; 35; 56; 22]] [2; 1; 4; 7; 6; 5; 0; 3]%nat.
Definition Threefish1024 : variant := mkVariant 16 80
  [[24; 13; 8; 47; 8; 17; 22; 37]; [38; 19; 10; 55; 49; 18; 23; 52]; [33; 4; 51; 13; 34; 41; 59; 17]; [5; 20; 48; 41; 47; 28; 16; 25];
   [41; 9; 37; 31; 12; 47; 44; 30]; [16; 34; 56; 51; 4; 53; 42; 41]; [31; 44; 47; 46; 19; 42; 44; 25]; [9; 48; 35; 52; 23; 31; 37; 20]]
  [0; 9; 2; 13; 6; 11; 4; 15; 10; 7; 12; 3; 14; 5; 8; 1]%nat.

Section Cipher.
  Context (V : variant).
  Definition C240 : N := 0x1BD11BDAA9FC1A22.
  (** Key schedule: subkey [s] *)
  Definition subkey (K T : list N) (s : nat) : list N :=
    let k := K ++ [fold_left N.lxor K C240] in
    let t := T ++ [N.lxor (get T 0) (get T 1)] in
    map (fun i =>
      let x := get k ((s + i) mod (Nw V + 1)) in
      if (i =? Nw V - 3)%nat then add64 x (get t (s mod 3))
      else if (i =? Nw V - 2)%nat then add64 x (get t ((s + 1) mod 3))
      else if (i =? Nw V - 1)%nat then add64 x (N.of_nat s) else x) (seq 0 (Nw V)).
  Definition addk (v k : list N) : list N := map (fun i => add64 (get v i) (get k i)) (seq 0 (Nw V)).
  (** One round: subkey addition every four rounds, MIX on the word pairs, permutation *)
  Definition round (K T : list N) (v : list N) (d : nat) : list N :=
    let e := if (d mod 4 =? 0)%nat then addk v (subkey K T (d / 4)) else v in
    let f := flat_map (fun j =>
      let y0 := add64 (get e (2 * j)) (get e (2 * j + 1)) in
      [y0; N.lxor (rotl64 (get e (2 * j + 1)) (get (nth (d mod 8) (rot V) []) j)) y0]) (seq 0 (Nw V / 2)) in
    map (fun i => get f (nth i (pi V) 0%nat)) (seq 0 (Nw V)).
  Definition encrypt (K T P : list N) : list N :=
    addk (fold_left (round K T) (seq 0 (Nr V)) P) (subkey K T (Nr V / 4)).
End Cipher.
