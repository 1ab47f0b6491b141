(** Model of the md2 crate, md2/src/lib.rs. *)
From Verif Require Import Base.Words Base.Bytes Base.Codec Base.BlockBuffer Base.Digest.

(** md2/src/consts.rs 2-16: [S] *)
Definition S_ : list N :=
  [41; 46; 67; 201; 162; 216; 124; 1; 61; 54; 84; 161; 236; 240; 6; 19;
   98; 167; 5; 243; 192; 199; 115; 140; 152; 147; 43; 217; 188; 76; 130; 202;
   30; 155; 87; 60; 253; 212; 224; 22; 103; 66; 111; 24; 138; 23; 229; 18;
   190; 78; 196; 214; 218; 158; 222; 73; 160; 251; 245; 142; 187; 47; 238; 122;
   169; 104; 121; 145; 21; 178; 7; 63; 148; 194; 16; 137; 11; 34; 95; 33;
   128; 127; 93; 154; 90; 144; 50; 39; 53; 62; 204; 231; 191; 247; 151; 3;
   255; 25; 48; 179; 72; 165; 181; 209; 215; 94; 146; 42; 172; 86; 170; 198;
   79; 184; 56; 210; 150; 164; 125; 182; 118; 252; 107; 226; 156; 116; 4; 241;
   69; 157; 112; 89; 100; 113; 135; 32; 134; 91; 207; 101; 230; 45; 168; 2;
   27; 96; 37; 173; 174; 176; 185; 246; 28; 70; 97; 105; 52; 64; 126; 15;
   85; 71; 163; 35; 221; 81; 175; 58; 195; 92; 249; 206; 186; 197; 234; 38;
   44; 83; 13; 110; 133; 40; 132; 9; 211; 223; 205; 244; 65; 129; 77; 82;
   106; 220; 55; 200; 108; 193; 171; 250; 36; 225; 123; 8; 12; 189; 177; 74;
   120; 136; 149; 139; 227; 99; 232; 109; 233; 203; 213; 254; 59; 0; 29; 57;
   242; 239; 183; 14; 102; 88; 208; 228; 166; 119; 114; 248; 235; 117; 75; 10;
   49; 68; 80; 180; 143; 237; 31; 26; 219; 153; 141; 51; 159; 17; 131; 20].

(** ** Md2Core (lib.rs 35-38): [x] (48 bytes) and [checksum] (16 bytes) *)
Definition md2_st := (bytes * bytes)%type.

(** lib.rs 48-51 *)
Definition load_block (x block : bytes) : bytes :=
  fold_left (fun x j =>
    let x := upd x (16 + j) (get block j) in
    upd x (32 + j) (N.lxor (get x (16 + j)) (get x j))) (seq 0 16) x.
(** lib.rs 55-58, one iteration *)
Definition mix_k (st : bytes * N) (k : nat) : bytes * N :=
  let '(x, t) := st in
  let x := upd x k (N.lxor (get x k) (get S_ (N.to_nat t))) in
  (x, get x k).
(** lib.rs 54-60, one iteration *)
Definition mix_j (st : bytes * N) (j : nat) : bytes * N :=
  let '(x, t) := fold_left mix_k (seq 0 48) st in
  (x, wadd 8 t (N.of_nat j)).
(** lib.rs 64-67, one iteration *)
Definition check_j (block : bytes) (st : bytes * N) (j : nat) : bytes * N :=
  let '(checksum, l) := st in
  let checksum := upd checksum j (N.lxor (get checksum j) (get S_ (N.to_nat (N.lxor (get block j) l)))) in
  (checksum, get checksum j).
(** lib.rs 46-68 *)
Definition compress (s : md2_st) (block : bytes) : md2_st :=
  let '(x, checksum) := s in
  let x := load_block x block in
  let '(x, _) := fold_left mix_j (seq 0 18) (x, 0) in
  let l := get checksum 15 in
  let '(checksum, _) := fold_left (check_j block) (seq 0 16) (checksum, l) in
  (x, checksum).

(** lib.rs 87-91 *)
Definition md2_update (_ : mode) (s : md2_st) (blocks : list bytes) : option md2_st :=
  Some (fold_left compress blocks s).
(** lib.rs 96-106; [remaining()] is the block size minus the position *)
Definition md2_finalize (_ : mode) (s : md2_st) (buffer : bytes) : option (bytes * md2_st) :=
  let pos := length buffer in
  let rem := N.of_nat (16 - pos) mod 256 in
  let block := pad_with_zeros 16 buffer in
  let block := firstn pos block ++ map (fun _ => rem) (skipn pos block) in
  let s := compress s block in
  let checksum := snd s in
  let s := compress s checksum in
  Some (firstn 16 (fst s), s).
(** lib.rs 156-173 *)
Definition md2_codec : codec md2_st :=
  mkCodec 64 (fun s => fst s ++ snd s) (fun b => Some (firstn 48 b, skipn 48 b)).
(** lib.rs 41; 109-124 [Default], [Reset] *)
Definition Md2 : core :=
  mkCore md2_st 16 Eager (zeros 48, zeros 16) [] md2_update md2_finalize
    (fun _ => ((zeros 48, zeros 16), [])) (Some md2_codec).
