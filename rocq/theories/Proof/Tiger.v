(** The tiger crate computes Tiger and Tiger2. *)
From Verif Require Import Base.Words Base.Bytes Base.ByteFacts Base.Codec Base.BlockBuffer Base.BlockBufferFacts Base.Digest
  Base.DigestFacts Base.MDFacts Base.Unroll Model.TigerTables Model.Tiger Proof.TigerSboxes.
From Verif Require Spec.Tiger.
Import Spec.Tiger (vars, T, keys_of, words_of, schedule).

Lemma table_ok n i : table n i = T n i.
Proof. unfold table, T. now rewrite tiger_sboxes. Qed.
Local Opaque TABLES T table Spec.Tiger.SBOXES Spec.Tiger.generate.

Definition round_t (tb : nat -> N -> N) (a b c x mul : N) : N * N * N :=
  assign c := N.lxor c x in
  assign c2 := le_bytes 8 c in
  assign a2 := N.lxor (N.lxor (N.lxor (tb 0%nat (get c2 0)) (tb 1%nat (get c2 2))) (tb 2%nat (get c2 4))) (tb 3%nat (get c2 6)) in
  assign b2 := N.lxor (N.lxor (N.lxor (tb 3%nat (get c2 1)) (tb 2%nat (get c2 3))) (tb 1%nat (get c2 5))) (tb 0%nat (get c2 7)) in
  (sub64 a a2, mul64 (add64 b b2) mul, c).
Lemma round_gen tb S a b c x mul : (forall n i, tb n i = S n i) ->
  round_t tb a b c x mul = (let '(b', c', a') := Spec.Tiger.round S mul (a, b, c) x in (a', b', c')).
Proof.
  intros E. unfold round_t, bind, Spec.Tiger.round. rewrite !get_le_bytes by lia. rewrite !E. unfold Spec.Tiger.byte.
  rewrite !N.lxor_assoc. reflexivity.
Qed.
Lemma round_ok a b c x mul : round a b c x mul = (let '(b', c', a') := Spec.Tiger.round T mul (a, b, c) x in (a', b', c')).
Proof. exact (round_gen table T a b c x mul table_ok). Qed.
Opaque Spec.Tiger.round.

Lemma pass_ok a b c x mul : length x = 8%nat ->
  pass a b c x mul = (let '(c', a', b') := Spec.Tiger.pass T mul x (a, b, c) in (a', b', c')).
Proof.
  intros L. explode x. unfold pass, Spec.Tiger.pass, get. cbn [nth].
  rewrite (round_ok a b c). cbn [fold_left]. destruct (Spec.Tiger.round T mul (a, b, c) _) as [[b1 c1] a1].
  rewrite (round_ok b1 c1 a1). destruct (Spec.Tiger.round T mul (b1, c1, a1) _) as [[c2 a2] b2].
  rewrite (round_ok c2 a2 b2). destruct (Spec.Tiger.round T mul (c2, a2, b2) _) as [[a3 b3] c3].
  rewrite (round_ok a3 b3 c3). destruct (Spec.Tiger.round T mul (a3, b3, c3) _) as [[b4 c4] a4].
  rewrite (round_ok b4 c4 a4). destruct (Spec.Tiger.round T mul (b4, c4, a4) _) as [[c5 a5] b5].
  rewrite (round_ok c5 a5 b5). destruct (Spec.Tiger.round T mul (c5, a5, b5) _) as [[a6 b6] c6].
  rewrite (round_ok a6 b6 c6). destruct (Spec.Tiger.round T mul (a6, b6, c6) _) as [[b7 c7] a7].
  rewrite (round_ok b7 c7 a7). destruct (Spec.Tiger.round T mul (b7, c7, a7) _) as [[c8 a8] b8].
  reflexivity.
Qed.

Lemma schedule_ok x : length x = 8%nat -> key_schedule x = words_of (schedule (keys_of x)).
Proof.
  intros L. explode x. unfold key_schedule, keys_of. cbn [get nth]. unfold schedule.
  repeat (apply bind_eq with (1 := eq_refl); cbn [upd get nth]). reflexivity.
Qed.
Lemma words_of_len k : length (words_of k) = 8%nat.
Proof. now destruct k as [[[[[[[? ?] ?] ?] ?] ?] ?] ?]. Qed.
Lemma keys_words k : keys_of (words_of k) = k.
Proof. now destruct k as [[[[[[[? ?] ?] ?] ?] ?] ?] ?]. Qed.
Lemma words_keys x : length x = 8%nat -> words_of (keys_of x) = x.
Proof. intros L. explode x. reflexivity. Qed.

Definition vok (v : vars) : Prop := let '(a, b, c) := v in a < 2 ^ 64 /\ b < 2 ^ 64 /\ c < 2 ^ 64.
Definition list_of_vars (v : vars) : list N := let '(a, b, c) := v in [a; b; c].

Lemma pass_bound mul x v : x <> [] -> let '(a, _, _) := Spec.Tiger.pass T mul x v in a < 2 ^ 64.
Proof.
  intros H. destruct (exists_last H) as (l & y & ->). unfold Spec.Tiger.pass. rewrite fold_left_app. cbn [fold_left].
  destruct (fold_left _ l v) as [[a b] c]. Transparent Spec.Tiger.round. unfold Spec.Tiger.round, mul64. apply wmul_lt.
Qed.

Lemma compress_spec v block : vok v -> length block = 64%nat ->
  compress (list_of_vars v) block = list_of_vars (Spec.Tiger.compress T v block) /\ vok (Spec.Tiger.compress T v block).
Proof.
  intros V L. destruct v as [[a0 b0] c0]. unfold compress, Spec.Tiger.compress, Spec.Tiger.compress_words, list_of_vars.
  cbv zeta. cbn [get nth]. change (get [a0; b0; c0] 0) with a0.
  change (get [a0; b0; c0] 1) with b0. change (get [a0; b0; c0] 2) with c0.
  assert (Lx : length (words_of_le 8 block) = 8%nat) by (now rewrite words_of_le_length, L by lia).
  change (map le_val (chunks 8 block)) with (words_of_le 8 block). set (x := words_of_le 8 block) in *. clearbody x.
  rewrite (words_keys x Lx), (schedule_ok x Lx).
  rewrite (schedule_ok (words_of (schedule (keys_of x)))) by apply words_of_len. rewrite keys_words.
  rewrite pass_ok by exact Lx. destruct (Spec.Tiger.pass T 5 x (a0, b0, c0)) as [[c1 a1] b1].
  rewrite pass_ok by apply words_of_len. destruct (Spec.Tiger.pass T 7 _ _) as [[b2 c2] a2].
  rewrite pass_ok by apply words_of_len.
  pose proof (pass_bound 9 (words_of (schedule (schedule (keys_of x)))) (b2, c2, a2)) as Bd.
  destruct (Spec.Tiger.pass T 9 _ _) as [[a3 b3] c3]. destruct V as (? & ? & ?). split.
  - now rewrite N.lxor_comm.
  - unfold vok, sub64, add64. repeat split; auto with words. apply lxor_lt; [|assumption]. apply Bd.
    now destruct (schedule (schedule (keys_of x))) as [[[[[[[? ?] ?] ?] ?] ?] ?] ?].
Qed.

Definition within (len : nat) : Prop := 8 * N.of_nat len < 2 ^ 64.
Definition P (s : list N) : Prop := exists v, vok v /\ s = list_of_vars v.
Definition inv (st : list N * N) : Prop := P (fst st) /\ snd st < 2 ^ 64.
Lemma P_state s : P s -> length s = 3%nat /\ words_ok 64 s.
Proof.
  intros (v & V & ->). destruct v as [[a b] c]. destruct V as (? & ? & ?).
  split; [reflexivity|]. repeat constructor; assumption.
Qed.
Lemma iv_ok : vok Spec.Tiger.iv.
Proof. repeat split; reflexivity. Qed.

Lemma tiger_ok ver2 : core_ok (tiger_core ver2) inv (Spec.Tiger.hash (if ver2 then 0x80 else 0x01)) within.
Proof.
  apply (counted_core_ok 64 64 compress S0 P).
  - lia.
  - exists Spec.Tiger.iv. split; [exact iv_ok|reflexivity].
  - intros s b (v & V & ->) L _. destruct (compress_spec v b V L) as [-> V'].
    eexists. split; [exact V'|reflexivity].
  - unfold within. intros. lia.
  - intros len W. now apply (count_lt 64 8).
  - reflexivity.
  - reflexivity.
  - intros m msg W B. unfold tiger_finalize. cbn [fst snd].
    rewrite remainder_length by lia. rewrite (bit_len_ok m 64 64 (length msg)); [|lia|reflexivity|exact W].
    eexists. split; [|reflexivity]. cbv zeta. apply f_equal, f_equal2; [|reflexivity]. unfold Spec.Tiger.hash.
    pose proof (md_sim (fun s v => vok v /\ s = list_of_vars v) compress (Spec.Tiger.compress T) 64 S0 Spec.Tiger.iv
      (if ver2 then 0x80 else 0x01) (le_bytes 8 (8 * blen msg)) msg) as S.
    destruct S as [_ S].
    + lia.
    + rewrite le_bytes_length. lia.
    + now destruct ver2.
    + apply le_bytes_ok.
    + exact B.
    + intros s v x [V ->] L _. destruct (compress_spec v x V L) as [-> V']. split; [exact V'|reflexivity].
    + split; [exact iv_ok|reflexivity].
    + replace (if ver2 then len64_padding_le 64 (8 * N.of_nat (length msg)) (remainder 64 msg)
               else pad_blocks 64 1 (le_bytes 8 (8 * N.of_nat (length msg))) (remainder 64 msg))
        with (pad_blocks 64 (if ver2 then 0x80 else 0x01) (le_bytes 8 (8 * N.of_nat (length msg))) (remainder 64 msg))
        by now destruct ver2.
      unfold blen in *. rewrite S. destruct (md_iterate _ _ _ _) as [[a b] c]. unfold words_to_le. cbn [map list_of_vars concat Spec.Tiger.output].
      now rewrite app_nil_r.
  - intros cd st [= <-] PP C. apply P_state in PP as [L Wd]. cbn [cd_len cd_ser cd_deser tiger_codec].
    exact (counted_roundtrip 8 3 8 st ltac:(lia) L Wd C).
Qed.
Lemma Tiger_ok : core_ok Tiger inv Spec.Tiger.Tiger within.
Proof. exact (tiger_ok false). Qed.
Lemma Tiger2_ok : core_ok Tiger2 inv Spec.Tiger.Tiger2 within.
Proof. exact (tiger_ok true). Qed.
