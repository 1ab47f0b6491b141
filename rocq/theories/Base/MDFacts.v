(** Cores that keep a chaining value and a block counter. *)
From Verif Require Import Base.Words Base.Bytes Base.BlockBuffer Base.BlockBufferFacts Base.Digest Base.DigestFacts.

Section Counted.
  Context {S : Type} (bs : nat) (cw : N) (compress : S -> bytes -> S) (iv : S) (P : S -> Prop).

  Definition counted_update (m : mode) (st : S * N) (bl : list bytes) : option (S * N) :=
    let* n := cadd m cw (snd st) (N.of_nat (length bl)) in
    Some (fold_left compress bl (fst st), n).

  Lemma counted_update_chunks m l : (0 < bs)%nat -> N.of_nat (length l / bs) < 2 ^ cw ->
    counted_update m (iv, 0) (chunks bs l)
    = Some (fold_left compress (chunks bs l) iv, N.of_nat (length l / bs)).
  Proof.
    intros H B. unfold counted_update. cbn [fst snd]. rewrite chunks_length by exact H.
    unfold cadd. rewrite N.add_0_l, fit_small by exact B. reflexivity.
  Qed.

  Lemma fold_P bl : (forall s b, P s -> length b = bs -> bytes_ok b -> P (compress s b)) ->
    Forall (fun b => length b = bs) bl -> Forall bytes_ok bl ->
    forall s, P s -> P (fold_left compress bl s).
  Proof.
    intros HP. induction bl as [|b bl IH]; intros L B s Hs; cbn; [exact Hs|].
    inversion L; inversion B; subst. apply IH; auto.
  Qed.

  Lemma counted_core_ok upd fin rst cod (H : bytes -> bytes) (within : nat -> Prop) :
    (0 < bs)%nat -> P iv ->
    (forall s b, P s -> length b = bs -> bytes_ok b -> P (compress s b)) ->
    (forall a b, (a <= b)%nat -> within b -> within a) ->
    (forall len, within len -> N.of_nat (len / bs) < 2 ^ cw) ->
    (forall m st bl, upd m st bl = counted_update m st bl) ->
    (forall st, P (fst st) -> snd st < 2 ^ cw -> rst st = ((iv, 0), [])) ->
    (forall m msg, within (length msg) -> bytes_ok msg ->
       exists s', fin m (fold_left compress (chunks bs msg) iv, N.of_nat (length msg / bs)) (remainder bs msg)
         = Some (H msg, s') /\ rst s' = ((iv, 0), [])) ->
    (forall cd st, cod = Some cd -> P (fst st) -> snd st < 2 ^ cw ->
       length (cd_ser cd st) = cd_len cd /\ cd_deser cd (cd_ser cd st) = Some st) ->
    core_ok (mkCore (S * N) bs Eager (iv, 0) [] upd fin rst cod)
      (fun st => P (fst st) /\ snd st < 2 ^ cw) H within.
  Proof.
    intros Hbs HPi HPc HW HWc HU HR HF HC.
    constructor; cbn [cst c_bs c_kind c_init c_ibuf c_update c_final c_reset c_codec].
    - exact Hbs.
    - now apply Nat.ltb_lt.
    - exact HW.
    - split; [exact HPi|]. cbn. apply pow2_pos.
    - intros m s bl s' [I1 I2] L B E. rewrite HU in E. unfold counted_update in E.
      destruct (cadd m cw (snd s) _) as [n|] eqn:En; [|discriminate]. injection E as <-. cbn. split.
      + now apply fold_P.
      + now apply fit_some in En.
    - intros m [s n] [I1 I2]. rewrite HU. unfold counted_update. cbn [fst snd length fold_left] in *.
      change (N.of_nat 0) with 0. now rewrite cadd_0.
    - intros m s a b [I1 I2]. rewrite !HU. unfold counted_update.
      rewrite app_length, Nat2N.inj_add, <- cadd_assoc.
      destruct (cadd m cw (snd s) (N.of_nat (length a))) as [n|]; [|reflexivity].
      cbn [obind]. rewrite HU. unfold counted_update. cbn [fst snd]. now rewrite fold_left_app.
    - intros m msg W B. destruct (HF m msg W B) as (s' & F & Rs). exists
        (fold_left compress (chunks bs msg) iv, N.of_nat (length msg / bs)), s'.
      cbn [app]. rewrite kblocks_eager, krem_eager, HU by exact Hbs. repeat split; auto.
      apply counted_update_chunks; auto.
    - intros s [I1 I2]. now apply HR.
    - constructor.
    - intros cd s E [I1 I2]. now apply HC.
  Qed.
End Counted.

(** The bit length the crates compute from the block counter and the buffer position. *)
Lemma len_split (bs len : nat) : (0 < bs)%nat ->
  N.of_nat bs * N.of_nat (len / bs) + N.of_nat (len mod bs) = N.of_nat len.
Proof.
  intros H. rewrite <- Nat2N.inj_mul, <- Nat2N.inj_add. f_equal.
  symmetry. apply Nat.div_mod. lia.
Qed.
Lemma byte_len_ok m w bs len NB : (0 < bs)%nat -> NB = N.of_nat bs -> N.of_nat len < 2 ^ w ->
  (let* t := cmul m w NB (N.of_nat (len / bs)) in cadd m w (N.of_nat (len mod bs)) t) = Some (N.of_nat len).
Proof.
  intros H -> B. pose proof (len_split bs len H) as E.
  unfold cmul, cadd. rewrite fit_small by lia. cbn [obind]. rewrite N.add_comm, E. now apply fit_small.
Qed.
Lemma bit_len_ok {B} m w bs len NB (k : N -> option B) : (0 < bs)%nat -> NB = N.of_nat bs -> 8 * N.of_nat len < 2 ^ w ->
  (let* t := cmul m w NB (N.of_nat (len / bs)) in
   let* t := cadd m w (N.of_nat (len mod bs)) t in
   let* l := cmul m w 8 t in k l) = k (8 * N.of_nat len).
Proof.
  intros H E Bd.
  pose proof (byte_len_ok m w bs len NB H E ltac:(lia)) as Eq.
  destruct (cmul m w NB _) as [t|]; [|discriminate]. cbn [obind] in *. rewrite Eq. cbn [obind].
  unfold cmul. now rewrite fit_small.
Qed.
(** Multiplying a byte length bound down to a block counter bound. *)
Lemma count_lt w k bs len : 0 < k -> k * N.of_nat len < 2 ^ w -> N.of_nat (len / bs) < 2 ^ w.
Proof.
  intros Hk B. destruct bs as [|bs].
  - cbn [Nat.div]. apply pow2_pos.
  - pose proof (Nat.div_le_upper_bound len (S bs) len ltac:(lia) ltac:(nia)). nia.
Qed.
Lemma fold_sim {A B} (R : A -> B -> Prop) (f : A -> bytes -> A) (g : B -> bytes -> B) (Q : bytes -> Prop) :
  (forall a b x, R a b -> Q x -> R (f a x) (g b x)) ->
  forall l a b, Forall Q l -> R a b -> R (fold_left f l a) (fold_left g l b).
Proof.
  intros H l. induction l as [|x l IH]; intros a b F HR; cbn; [exact HR|].
  inversion F; subst. apply IH; auto.
Qed.

(** The same for a block counter that wraps silently (no length limit). *)
Section WCounted.
  Context {S : Type} (bs : nat) (cw : N) (compress : S -> bytes -> S) (iv : S) (P : S -> Prop).

  Lemma wcounted_update_chunks m l : m = Wrapping -> (0 < bs)%nat ->
    counted_update cw compress m (iv, 0) (chunks bs l)
    = Some (fold_left compress (chunks bs l) iv, N.of_nat (length l / bs) mod 2 ^ cw).
  Proof. intros -> H. unfold counted_update. cbn [fst snd]. now rewrite chunks_length by exact H. Qed.

  Lemma wcounted_core_ok upd fin rst cod (H : bytes -> bytes) (within : nat -> Prop) :
    (0 < bs)%nat -> P iv ->
    (forall s b, P s -> length b = bs -> bytes_ok b -> P (compress s b)) ->
    (forall a b, (a <= b)%nat -> within b -> within a) ->
    (forall m st bl, upd m st bl = counted_update cw compress Wrapping st bl) ->
    (forall st, P (fst st) -> snd st < 2 ^ cw -> rst st = ((iv, 0), [])) ->
    (forall m msg, within (length msg) -> bytes_ok msg ->
       exists s', fin m (fold_left compress (chunks bs msg) iv, N.of_nat (length msg / bs) mod 2 ^ cw) (remainder bs msg)
         = Some (H msg, s') /\ rst s' = ((iv, 0), [])) ->
    (forall cd st, cod = Some cd -> P (fst st) -> snd st < 2 ^ cw ->
       length (cd_ser cd st) = cd_len cd /\ cd_deser cd (cd_ser cd st) = Some st) ->
    core_ok (mkCore (S * N) bs Eager (iv, 0) [] upd fin rst cod)
      (fun st => P (fst st) /\ snd st < 2 ^ cw) H within.
  Proof.
    intros Hbs HPi HPc HW HU HR HF HC.
    constructor; cbn [cst c_bs c_kind c_init c_ibuf c_update c_final c_reset c_codec].
    - exact Hbs.
    - now apply Nat.ltb_lt.
    - exact HW.
    - split; [exact HPi|]. cbn. apply pow2_pos.
    - intros m s bl s' [I1 I2] L B E. rewrite HU in E. unfold counted_update in E.
      destruct (cadd Wrapping cw (snd s) _) as [n|] eqn:En; [|discriminate]. injection E as <-. cbn. split.
      + now apply (fold_P bs compress P).
      + exact (fit_some Wrapping cw _ _ En).
    - intros m [s n] [I1 I2]. rewrite HU. unfold counted_update. cbn [fst snd length fold_left] in *.
      change (N.of_nat 0) with 0. now rewrite cadd_0.
    - intros m s a b [I1 I2]. rewrite !HU. unfold counted_update.
      rewrite app_length, Nat2N.inj_add, <- cadd_assoc.
      destruct (cadd Wrapping cw (snd s) (N.of_nat (length a))) as [n|]; [|reflexivity].
      cbn [obind]. rewrite HU. unfold counted_update. cbn [fst snd]. now rewrite fold_left_app.
    - intros m msg W B. destruct (HF m msg W B) as (s' & F & Rs). exists
        (fold_left compress (chunks bs msg) iv, N.of_nat (length msg / bs) mod 2 ^ cw), s'.
      cbn [app]. rewrite kblocks_eager, krem_eager, HU by exact Hbs. repeat split; auto.
      apply wcounted_update_chunks; auto.
    - intros s [I1 I2]. now apply HR.
    - constructor.
    - intros cd s E [I1 I2]. now apply HC.
  Qed.
End WCounted.

(** Model and specification compression functions that agree step by step
    agree on padded messages. *)
Lemma pad_blocks_ok bs delim suffix data : delim < 256 -> bytes_ok suffix -> bytes_ok data ->
  Forall bytes_ok (pad_blocks bs delim suffix data).
Proof.
  intros Hd Hs Hb. unfold pad_blocks.
  destruct (bs - length data - 1 <? length suffix)%nat; repeat constructor;
    repeat first [apply bytes_ok_firstn | apply bytes_ok_app; split | apply zeros_ok | assumption
                 | apply Forall_cons | apply Forall_nil].
Qed.
Lemma md_sim {A B} (R : A -> B -> Prop) (f : A -> bytes -> A) (g : B -> bytes -> B) bs a0 b0 delim suf msg :
  (0 < bs)%nat -> (length suf < bs)%nat -> delim < 256 -> bytes_ok suf -> bytes_ok msg ->
  (forall a b x, R a b -> length x = bs -> bytes_ok x -> R (f a x) (g b x)) -> R a0 b0 ->
  R (fold_left f (pad_blocks bs delim suf (remainder bs msg)) (fold_left f (chunks bs msg) a0))
    (md_iterate g bs b0 (md_pad bs delim suf msg)).
Proof.
  intros Hbs Hs Hd Bs Bm HR H0. unfold md_iterate, md_pad.
  rewrite (chunks_padded bs delim) by assumption. rewrite fold_left_app.
  assert (Q : forall a b x, R a b -> length x = bs /\ bytes_ok x -> R (f a x) (g b x)).
  { intros a b x Hab [L K]. now apply HR. }
  apply (fold_sim R f g _ Q).
  - apply Forall_and.
    + apply pad_blocks_length; [|lia]. rewrite remainder_length by exact Hbs. apply Nat.mod_upper_bound. lia.
    + apply pad_blocks_ok; [exact Hd|exact Bs|]. now apply remainder_ok.
  - apply (fold_sim R f g _ Q); [|exact H0]. apply Forall_and.
    + now apply chunks_block_length.
    + now apply chunks_ok.
Qed.

(** The wrapping computation of the bit length. *)
Lemma wbit_len bs len NB : (0 < bs)%nat -> NB = N.of_nat bs ->
  wmul 64 (wadd 64 (wmul 64 (N.of_nat (len / bs) mod 2 ^ 64) NB) (N.of_nat (len mod bs))) 8
  = (8 * N.of_nat len) mod 2 ^ 64.
Proof.
  intros H ->. pose proof (len_split bs len H) as E. unfold wmul, wadd.
  rewrite (N.mul_mod_idemp_l (N.of_nat (len / bs))), N.add_mod_idemp_l, N.mul_mod_idemp_l by discriminate.
  rewrite (N.mul_comm (N.of_nat (len / bs))), E. f_equal. lia.
Qed.
Lemma wbit_len' bs len NB : (0 < bs)%nat -> NB = N.of_nat bs ->
  wmul 64 8 (wadd 64 (wmul 64 NB (N.of_nat (len / bs) mod 2 ^ 64)) (N.of_nat (len mod bs)))
  = (8 * N.of_nat len) mod 2 ^ 64.
Proof.
  intros H E. rewrite <- (wbit_len bs len NB H E). unfold wmul. now rewrite (N.mul_comm 8), (N.mul_comm NB).
Qed.
Lemma le_bytes_mod n x : le_bytes n (x mod 2 ^ (8 * N.of_nat n)) = le_bytes n x.
Proof.
  rewrite <- pow256.
  rewrite <- (le_bytes_val (le_bytes n x)) by apply le_bytes_ok. rewrite le_bytes_length. now rewrite le_val_bytes.
Qed.
Lemma be_bytes_mod n x : be_bytes n (x mod 2 ^ (8 * N.of_nat n)) = be_bytes n x.
Proof. unfold be_bytes. now rewrite le_bytes_mod. Qed.

(** Cores without a counter: [update] folds a total compression function. *)
Section Folded.
  Context {S : Type} (bs : nat) (compress : S -> bytes -> S) (iv : S) (P : S -> Prop).

  Lemma fold_core_ok upd fin rst cod (H : bytes -> bytes) (within : nat -> Prop) :
    (0 < bs)%nat -> P iv ->
    (forall s b, P s -> length b = bs -> bytes_ok b -> P (compress s b)) ->
    (forall a b, (a <= b)%nat -> within b -> within a) ->
    (forall m st bl, upd m st bl = Some (fold_left compress bl st)) ->
    (forall st, P st -> rst st = (iv, [])) ->
    (forall m msg, within (length msg) -> bytes_ok msg ->
       exists s', fin m (fold_left compress (chunks bs msg) iv) (remainder bs msg)
         = Some (H msg, s') /\ rst s' = (iv, [])) ->
    (forall cd st, cod = Some cd -> P st ->
       length (cd_ser cd st) = cd_len cd /\ cd_deser cd (cd_ser cd st) = Some st) ->
    core_ok (mkCore S bs Eager iv [] upd fin rst cod) P H within.
  Proof.
    intros Hbs HPi HPc HW HU HR HF HC.
    constructor; cbn [cst c_bs c_kind c_init c_ibuf c_update c_final c_reset c_codec].
    - exact Hbs.
    - now apply Nat.ltb_lt.
    - exact HW.
    - exact HPi.
    - intros m s bl s' I L B E. rewrite HU in E. injection E as <-. now apply (fold_P bs compress P).
    - intros m s I. now rewrite HU.
    - intros m s a b I. rewrite !HU. cbn [obind]. now rewrite HU, fold_left_app.
    - intros m msg W B. destruct (HF m msg W B) as (s' & F & Rs).
      exists (fold_left compress (chunks bs msg) iv), s'.
      cbn [app]. rewrite kblocks_eager, krem_eager, HU by exact Hbs. repeat split; auto.
    - intros s I. now apply HR.
    - constructor.
    - intros cd s E I. now apply HC.
  Qed.
End Folded.

Lemma chunks_tail {A} bs (msg tail : list A) : (0 < bs)%nat ->
  chunks bs (msg ++ tail) = chunks bs msg ++ chunks bs (remainder bs msg ++ tail).
Proof.
  intros H. rewrite <- (concat_chunks_rem bs msg H) at 1. rewrite <- app_assoc.
  rewrite chunks_app; [f_equal; apply chunks_concat; auto using chunks_block_length|exact H|].
  rewrite (concat_length_blocks bs) by auto using chunks_block_length.
  rewrite Nat.mul_comm. apply Nat.mod_mul. lia.
Qed.
Lemma chunks_one {A} n (b : list A) : (0 < n)%nat -> length b = n -> chunks n b = [b].
Proof.
  intros H L. rewrite <- (app_nil_r b) at 1. rewrite chunks_cons by assumption.
  now rewrite chunks_short by exact H.
Qed.
(** Name the elements of a list of known length. *)
Ltac explode l :=
  lazymatch goal with
  | L : length l = S _ |- _ =>
      let x := fresh "x" in destruct l as [|x l]; [discriminate L|]; cbn [length] in L; apply eq_add_S in L; explode l
  | L : length l = O |- _ => destruct l; [clear L|discriminate L]
  end.
