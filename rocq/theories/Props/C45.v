(** C45: the length encodings of cSHAKE and KangarooTwelve. *)
From Verif Require Import Base.Words Base.Bytes.
From Verif Require Model.Sha3 Model.K12 Spec.Keccak Spec.K12 Proof.Sha3 Proof.Encodings.

(** [left_encode] returns the number of digits and the digits of the shortest
    non-empty base-256 representation, whatever its scratch array holds. *)
Theorem C45_left_encode : forall x b, x < 2 ^ 64 -> length b = 9%nat ->
  exists d, fst (Model.Sha3.left_encode x b) = N.of_nat (length d) :: d /\ bytes_ok d /\ be_val d = x /\ (0 < length d)%nat /\
    forall d', bytes_ok d' -> be_val d' = x -> (0 < length d')%nat -> (length d <= length d')%nat.
Proof. exact Proof.Encodings.left_minimal. Qed.
Print Assumptions C45_left_encode.
(** [length_encode] succeeds and returns the digits of the shortest representation and their number. *)
Theorem C45_length_encode : forall x, x < 2 ^ 64 ->
  exists d, Model.K12.length_encode x = Some (d ++ [N.of_nat (length d)]) /\ bytes_ok d /\ be_val d = x /\
    forall d', bytes_ok d' -> be_val d' = x -> (length d <= length d')%nat.
Proof. exact Proof.Encodings.right_minimal. Qed.
Print Assumptions C45_length_encode.
(** A string beginning with an encoded length can be read in one way only. *)
Theorem C45_left_decodable : forall x y b c t u, x < 2 ^ 64 -> y < 2 ^ 64 -> length b = 9%nat -> length c = 9%nat ->
  fst (Model.Sha3.left_encode x b) ++ t = fst (Model.Sha3.left_encode y c) ++ u -> x = y /\ t = u.
Proof. exact Proof.Encodings.left_inj. Qed.
Print Assumptions C45_left_decodable.
(** encode_string(N) || encode_string(S) || rest determines N, S and the rest. *)
Theorem C45_strings : forall n s n' s' t t',
  let encode_string x := fst (Model.Sha3.left_encode (8 * N.of_nat (length x)) (zeros 9)) ++ x in
  Forall (fun x => 8 * N.of_nat (length x) < 2 ^ 64) [n; s; n'; s'] ->
  encode_string n ++ encode_string s ++ t = encode_string n' ++ encode_string s' ++ t' -> n = n' /\ s = s' /\ t = t'.
Proof. exact Proof.Encodings.strings_inj. Qed.
Print Assumptions C45_strings.
(** A string ending with an encoded length can be read in one way only. *)
Theorem C45_right_decodable : forall x y t u ex ey, x < 2 ^ 64 -> y < 2 ^ 64 ->
  Model.K12.length_encode x = Some ex -> Model.K12.length_encode y = Some ey -> t ++ ex = u ++ ey -> x = y /\ t = u.
Proof. exact Proof.Encodings.right_inj. Qed.
Print Assumptions C45_right_decodable.
(** The string M || C || length_encode(|C|) that KangarooTwelve hashes determines M and C. *)
Theorem C45_k12_input : forall M C M' C' e e', N.of_nat (length C) < 2 ^ 64 -> N.of_nat (length C') < 2 ^ 64 ->
  Model.K12.length_encode (N.of_nat (length C)) = Some e -> Model.K12.length_encode (N.of_nat (length C')) = Some e' ->
  M ++ C ++ e = M' ++ C' ++ e' -> M = M' /\ C = C'.
Proof. exact Proof.Encodings.k12_input_inj. Qed.
Print Assumptions C45_k12_input.

Example C45_cases : fst (Model.Sha3.left_encode 168 (repeat 9 9)) = [1; 168] /\
  fst (Model.Sha3.left_encode 0 (repeat 9 9)) = [1; 0] /\ fst (Model.Sha3.left_encode 65538 (repeat 9 9)) = [3; 1; 0; 2] /\
  fst (Model.Sha3.left_encode (2 ^ 64 - 1) (repeat 9 9)) = 8 :: repeat 255 8 /\
  Model.K12.length_encode 0 = Some [0] /\ Model.K12.length_encode 65538 = Some [1; 0; 2; 3].
Proof. vm_compute. repeat split. Qed.
Example C45_hyps : Forall (fun x => 8 * N.of_nat (length x) < 2 ^ 64) [[1; 2]; []; [1]; [2]] /\
  N.of_nat (length (repeat 5 300)) < 2 ^ 64 /\ exists e, Model.K12.length_encode (N.of_nat (length (repeat 5 300))) = Some e.
Proof. split; [repeat constructor|]. split; [reflexivity|]. eexists. reflexivity. Qed.
