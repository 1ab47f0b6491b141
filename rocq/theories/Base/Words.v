(** Machine words over [N], with the wrap-around written out explicitly, and
    the build-mode dependent ("checked") arithmetic of Rust. *)
From Coq Require Export NArith List Lia Bool PeanoNat ZArith.
From Coq Require Export ZifyBool ZifyNat ZifyN.
Export ListNotations.
Global Open Scope N_scope.
Global Open Scope list_scope.
Global Arguments N.add : simpl never.
Global Arguments N.sub : simpl never.
Global Arguments N.mul : simpl never.
Global Arguments N.div : simpl never.
Global Arguments N.modulo : simpl never.
Global Arguments N.pow : simpl never.
Global Arguments N.shiftl : simpl never.
Global Arguments N.shiftr : simpl never.
Global Arguments N.land : simpl never.
Global Arguments N.lor : simpl never.
Global Arguments N.lxor : simpl never.
Global Arguments N.ldiff : simpl never.
Global Arguments N.ones : simpl never.
Global Arguments N.testbit : simpl never.
Global Arguments N.of_nat : simpl never.
Global Arguments N.to_nat : simpl never.

(** ** Words of [w] bits *)
Definition wadd (w a b : N) : N := (a + b) mod 2 ^ w.
Definition wsub (w a b : N) : N := (a + (2 ^ w - b mod 2 ^ w)) mod 2 ^ w.
Definition wmul (w a b : N) : N := (a * b) mod 2 ^ w.
Definition wnot (w a : N) : N := N.ldiff (N.ones w) a.
Definition wshl (w a n : N) : N := (N.shiftl a n) mod 2 ^ w.
(** [rotate_left n] and [rotate_right n] of Rust, for 0 <= n <= w. *)
Definition rotl (w x n : N) : N := N.lor (wshl w x n) (N.shiftr x (w - n)).
Definition rotr (w x n : N) : N := N.lor (N.shiftr x n) (wshl w x (w - n)).

Definition add32 := wadd 32.
Definition sub32 := wsub 32.
Definition mul32 := wmul 32.
Definition not32 := wnot 32.
Definition rotl32 := rotl 32.
Definition rotr32 := rotr 32.
Definition add64 := wadd 64.
Definition sub64 := wsub 64.
Definition mul64 := wmul 64.
Definition not64 := wnot 64.
Definition rotl64 := rotl 64.
Definition rotr64 := rotr 64.

(** ** Build modes.  [Checked]: overflow checks on, an overflow panics (None).
    [Wrapping]: overflow checks off, arithmetic wraps. *)
Inductive mode := Checked | Wrapping.
Definition fit (m : mode) (w x : N) : option N :=
  match m with
  | Checked => if x <? 2 ^ w then Some x else None
  | Wrapping => Some (x mod 2 ^ w)
  end.
Definition cadd (m : mode) (w a b : N) : option N := fit m w (a + b).
Definition cmul (m : mode) (w a b : N) : option N := fit m w (a * b).

Definition obind {A B} (x : option A) (f : A -> option B) : option B :=
  match x with Some a => f a | None => None end.
Notation "'let*' x ':=' e1 'in' e2" := (obind e1 (fun x => e2))
  (at level 200, x pattern, e1 at level 100, e2 at level 200, right associativity).
(** An assignment in a long straight-line sequence: the same as [let], but not
    expanded by conversion. *)
Definition bind {A B} (x : A) (f : A -> B) : B := f x.
Notation "'assign' x ':=' e1 'in' e2" := (bind e1 (fun x => e2))
  (at level 200, x binder, e1 at level 100, e2 at level 200).
Definition is_some {A} (x : option A) : Prop := exists a, x = Some a.

(** ** Array access: the model's [a[i]] and [a[i] = v].  A read beyond the end,
    where the Rust code would panic, gives a value about which nothing is known but that it
    is a single bit ([oob], sealed by [Qed]); so what is proved about a result does not depend on
    such reads.  Models that can panic test the index explicitly. *)
Lemma oob_sealed : {x : N | x < 2}.
Proof. exists 0. reflexivity. Qed.
Definition oob : N := proj1_sig oob_sealed.
Lemma oob_bit : oob < 2.
Proof. exact (proj2_sig oob_sealed). Qed.
Definition get (l : list N) (i : nat) : N := nth i l oob.
(** Likewise a write beyond the end gives a list of unknown length (the elements before, and
    [oob_length] times the value written). *)
Lemma oob_length_sealed : nat.
Proof. exact 0%nat. Qed.
Definition oob_length : nat := oob_length_sealed.
Fixpoint upd {A} (l : list A) (i : nat) (v : A) : list A :=
  match l, i with
  | [], _ => repeat v oob_length
  | _ :: t, O => v :: t
  | h :: t, S i => h :: upd t i v
  end.

(** ** Elementary facts *)
Lemma pow2_pos w : 0 < 2 ^ w.
Proof. apply N.neq_0_lt_0, N.pow_nonzero; discriminate. Qed.

Lemma wadd_lt w a b : wadd w a b < 2 ^ w.
Proof. apply N.mod_lt, N.pow_nonzero; discriminate. Qed.
Lemma wsub_lt w a b : wsub w a b < 2 ^ w.
Proof. apply N.mod_lt, N.pow_nonzero; discriminate. Qed.
Lemma wmul_lt w a b : wmul w a b < 2 ^ w.
Proof. apply N.mod_lt, N.pow_nonzero; discriminate. Qed.
Lemma wshl_lt w a b : wshl w a b < 2 ^ w.
Proof. apply N.mod_lt, N.pow_nonzero; discriminate. Qed.

Lemma wadd_comm w a b : wadd w a b = wadd w b a.
Proof. unfold wadd. now rewrite N.add_comm. Qed.
Lemma wadd_assoc w a b c : wadd w a (wadd w b c) = wadd w (wadd w a b) c.
Proof.
  unfold wadd. pose proof (N.pow_nonzero 2 w ltac:(discriminate)) as H.
  rewrite N.add_mod_idemp_r, N.add_mod_idemp_l by exact H. f_equal. lia.
Qed.
Lemma wadd_0_r w a : a < 2 ^ w -> wadd w a 0 = a.
Proof. intros H. unfold wadd. rewrite N.add_0_r. now apply N.mod_small. Qed.
Lemma wadd_0_l w a : a < 2 ^ w -> wadd w 0 a = a.
Proof. intros H. unfold wadd. rewrite N.add_0_l. now apply N.mod_small. Qed.

(** A number is below [2^w] iff all its bits from [w] on are clear. *)
Lemma lt_pow2_bits x w : x < 2 ^ w <-> (forall i, w <= i -> N.testbit x i = false).
Proof.
  split.
  - intros H i Hi. destruct (N.eq_dec x 0) as [->|Hx]; [apply N.bits_0|].
    apply N.bits_above_log2. apply N.lt_le_trans with w; [|exact Hi].
    apply N.log2_lt_pow2; lia.
  - intros H. destruct (N.eq_dec x 0) as [->|Hx]; [apply pow2_pos|].
    apply N.log2_lt_pow2; [lia|].
    destruct (N.lt_ge_cases (N.log2 x) w) as [|Hge]; [assumption|].
    specialize (H _ Hge). rewrite N.bit_log2 in H by exact Hx. discriminate.
Qed.

Lemma lxor_lt w a b : a < 2 ^ w -> b < 2 ^ w -> N.lxor a b < 2 ^ w.
Proof.
  rewrite !lt_pow2_bits. intros Ha Hb i Hi.
  now rewrite N.lxor_spec, Ha, Hb.
Qed.
Lemma lor_lt w a b : a < 2 ^ w -> b < 2 ^ w -> N.lor a b < 2 ^ w.
Proof.
  rewrite !lt_pow2_bits. intros Ha Hb i Hi.
  now rewrite N.lor_spec, Ha, Hb.
Qed.
Lemma land_lt_l w a b : a < 2 ^ w -> N.land a b < 2 ^ w.
Proof.
  rewrite !lt_pow2_bits. intros Ha i Hi.
  now rewrite N.land_spec, Ha.
Qed.
Lemma land_lt_r w a b : b < 2 ^ w -> N.land a b < 2 ^ w.
Proof. rewrite N.land_comm. apply land_lt_l. Qed.
Lemma wnot_lt w a : wnot w a < 2 ^ w.
Proof.
  apply lt_pow2_bits. intros i Hi. unfold wnot.
  rewrite N.ldiff_spec, N.ones_spec_high by exact Hi. reflexivity.
Qed.
Lemma shiftr_lt w a n : a < 2 ^ w -> N.shiftr a n < 2 ^ w.
Proof.
  rewrite !lt_pow2_bits. intros Ha i Hi.
  rewrite N.shiftr_spec by lia. apply Ha. lia.
Qed.
Lemma rotl_lt w x n : x < 2 ^ w -> rotl w x n < 2 ^ w.
Proof. intros H. apply lor_lt; [apply wshl_lt | now apply shiftr_lt]. Qed.
Lemma rotr_lt w x n : x < 2 ^ w -> rotr w x n < 2 ^ w.
Proof. intros H. apply lor_lt; [now apply shiftr_lt | apply wshl_lt]. Qed.

(** Bits of the word operations. *)
Lemma testbit_wnot w a i : N.testbit (wnot w a) i = (i <? w) && negb (N.testbit a i).
Proof.
  unfold wnot. rewrite N.ldiff_spec.
  destruct (N.ltb_spec i w) as [H|H].
  - now rewrite N.ones_spec_low.
  - now rewrite N.ones_spec_high.
Qed.
Lemma testbit_mod_pow2 x w i : N.testbit (x mod 2 ^ w) i = (i <? w) && N.testbit x i.
Proof.
  destruct (N.ltb_spec i w) as [H|H].
  - now rewrite N.mod_pow2_bits_low.
  - now rewrite N.mod_pow2_bits_high.
Qed.
Lemma testbit_wshl w x n i :
  N.testbit (wshl w x n) i = (i <? w) && (n <=? i) && N.testbit x (i - n).
Proof.
  unfold wshl. rewrite testbit_mod_pow2.
  destruct (i <? w); [|reflexivity]. cbn [andb].
  destruct (N.leb_spec n i) as [H|H]; cbn [andb].
  - now rewrite N.shiftl_spec_high' by exact H.
  - now rewrite N.shiftl_spec_low.
Qed.
Lemma testbit_shiftr x n i : N.testbit (N.shiftr x n) i = N.testbit x (i + n).
Proof. apply N.shiftr_spec. lia. Qed.

Lemma testbit_rotr w x n i : x < 2 ^ w -> n < w -> i < w ->
  N.testbit (rotr w x n) i = N.testbit x ((i + n) mod w).
Proof.
  intros Hx Hn Hi. unfold rotr. rewrite N.lor_spec, testbit_shiftr, testbit_wshl.
  destruct (N.ltb_spec i w) as [_|]; [|lia]. cbn [andb].
  destruct (N.lt_ge_cases (i + n) w) as [H|H].
  - rewrite (N.mod_small _ w) by exact H.
    destruct (N.leb_spec (w - n) i) as [|_]; [lia|]. cbn [andb].
    apply orb_false_r.
  - rewrite (proj1 (lt_pow2_bits x w) Hx (i + n) H). cbn [orb].
    destruct (N.leb_spec (w - n) i) as [_|]; [|lia]. cbn [andb]. f_equal.
    apply (N.mod_unique _ _ 1); lia.
Qed.
Lemma testbit_rotl w x n i : x < 2 ^ w -> 0 < n -> n <= w -> i < w ->
  N.testbit (rotl w x n) i = N.testbit x ((i + (w - n)) mod w).
Proof.
  intros Hx Hn Hnw Hi.
  replace (rotl w x n) with (rotr w x (w - n)).
  - apply testbit_rotr; lia.
  - unfold rotr, rotl. rewrite N.lor_comm. f_equal. f_equal. lia.
Qed.
Lemma rotr_rotl w x n : n <= w -> rotr w x n = rotl w x (w - n).
Proof.
  intros H. unfold rotr, rotl. rewrite N.lor_comm. do 2 f_equal. lia.
Qed.
Lemma rotl_rotr w x n : n <= w -> rotl w x n = rotr w x (w - n).
Proof.
  intros H. unfold rotr, rotl. rewrite N.lor_comm. do 2 f_equal. lia.
Qed.

(** Extensionality on the low [w] bits. *)
Lemma word_ext w a b : a < 2 ^ w -> b < 2 ^ w ->
  (forall i, i < w -> N.testbit a i = N.testbit b i) -> a = b.
Proof.
  intros Ha Hb H. apply N.bits_inj. intros i.
  destruct (N.lt_ge_cases i w) as [Hi|Hi]; [now apply H|].
  now rewrite (proj1 (lt_pow2_bits a w) Ha i Hi), (proj1 (lt_pow2_bits b w) Hb i Hi).
Qed.

Lemma rotr_rotr w x a b : x < 2 ^ w -> a < w -> b < w ->
  rotr w (rotr w x a) b = rotr w x ((a + b) mod w).
Proof.
  intros Hx Ha Hb.
  assert (Hm : (a + b) mod w < w) by (apply N.mod_lt; lia).
  apply (word_ext w); try (repeat apply rotr_lt; assumption).
  intros i Hi. rewrite !testbit_rotr; try assumption;
    try (apply rotr_lt; assumption); try (apply N.mod_lt; lia).
  f_equal. rewrite N.add_mod_idemp_l, N.add_mod_idemp_r by lia. f_equal. lia.
Qed.
Lemma rotr_0 w x : x < 2 ^ w -> rotr w x 0 = x.
Proof.
  intros Hx. unfold rotr. rewrite N.shiftr_0_r, N.sub_0_r.
  apply N.bits_inj. intros i. rewrite N.lor_spec, testbit_wshl.
  destruct (N.ltb_spec i w), (N.leb_spec w i); cbn [andb]; try lia; apply orb_false_r.
Qed.
Lemma rotl_rotr_cancel w x n : x < 2 ^ w -> 0 < n -> n < w ->
  rotl w (rotr w x n) n = x.
Proof.
  intros Hx Hn Hw. rewrite rotl_rotr by lia. rewrite rotr_rotr by lia.
  replace (n + (w - n)) with w by lia. rewrite N.mod_same by lia. now apply rotr_0.
Qed.
Lemma rotr_rotl_cancel w x n : x < 2 ^ w -> 0 < n -> n < w ->
  rotr w (rotl w x n) n = x.
Proof.
  intros Hx Hn Hw. rewrite rotl_rotr by lia. rewrite rotr_rotr by lia.
  replace (w - n + n) with w by lia. rewrite N.mod_same by lia. now apply rotr_0.
Qed.

(** Rotations distribute over bitwise operations. *)
Lemma shiftr_lxor a b n : N.shiftr (N.lxor a b) n = N.lxor (N.shiftr a n) (N.shiftr b n).
Proof. apply N.bits_inj. intros i. now rewrite N.lxor_spec, !testbit_shiftr, N.lxor_spec. Qed.
Lemma wshl_lxor w a b n : wshl w (N.lxor a b) n = N.lxor (wshl w a n) (wshl w b n).
Proof.
  apply N.bits_inj. intros i. rewrite N.lxor_spec, !testbit_wshl, N.lxor_spec.
  now destruct (i <? w), (n <=? i).
Qed.
Lemma rotr_lxor w a b n : a < 2 ^ w -> b < 2 ^ w -> n < w ->
  rotr w (N.lxor a b) n = N.lxor (rotr w a n) (rotr w b n).
Proof.
  intros Ha Hb Hn. apply (word_ext w).
  - now apply rotr_lt, lxor_lt.
  - now apply lxor_lt; apply rotr_lt.
  - intros i Hi. rewrite N.lxor_spec, !testbit_rotr, N.lxor_spec; try assumption; try reflexivity.
    now apply lxor_lt.
Qed.

(** Subtraction undoes addition. *)
Lemma wsub_wadd w a b : a < 2 ^ w -> wsub w (wadd w a b) b = a.
Proof.
  intros Ha. unfold wsub, wadd. pose proof (N.pow_nonzero 2 w ltac:(discriminate)) as H.
  pose proof (N.mod_lt b (2 ^ w) H) as Hb.
  rewrite N.add_mod_idemp_l by exact H.
  pose proof (N.div_mod b (2 ^ w) H) as E.
  replace (a + b + (2 ^ w - b mod 2 ^ w)) with (a + (b / 2 ^ w + 1) * 2 ^ w) by lia.
  rewrite N.mod_add by exact H. now apply N.mod_small.
Qed.
Lemma wadd_wsub w a b : a < 2 ^ w -> wadd w (wsub w a b) b = a.
Proof.
  intros Ha. unfold wsub, wadd. pose proof (N.pow_nonzero 2 w ltac:(discriminate)) as H.
  pose proof (N.mod_lt b (2 ^ w) H) as Hb.
  rewrite N.add_mod_idemp_l by exact H.
  pose proof (N.div_mod b (2 ^ w) H) as E.
  replace (a + (2 ^ w - b mod 2 ^ w) + b) with (a + (b / 2 ^ w + 1) * 2 ^ w) by lia.
  rewrite N.mod_add by exact H. now apply N.mod_small.
Qed.

(** Checked arithmetic. *)
Lemma fit_small m w x : x < 2 ^ w -> fit m w x = Some x.
Proof.
  intros H. destruct m; cbn [fit].
  - now destruct (N.ltb_spec x (2 ^ w)); [|lia].
  - now rewrite N.mod_small.
Qed.
Lemma fit_some m w x y : fit m w x = Some y -> y < 2 ^ w.
Proof.
  destruct m; cbn [fit].
  - destruct (N.ltb_spec x (2 ^ w)); [|discriminate]. now intros [= <-].
  - intros [= <-]. apply N.mod_lt, N.pow_nonzero; discriminate.
Qed.
Lemma cadd_assoc m w a b c :
  obind (cadd m w a b) (fun x => cadd m w x c) = cadd m w a (b + c).
Proof.
  unfold cadd. destruct m; cbn [fit].
  - destruct (N.ltb_spec (a + b) (2 ^ w)); cbn [obind].
    + now rewrite <- N.add_assoc.
    + destruct (N.ltb_spec (a + (b + c)) (2 ^ w)); [lia|reflexivity].
  - cbn [obind]. rewrite N.add_mod_idemp_l by (apply N.pow_nonzero; discriminate).
    now rewrite N.add_assoc.
Qed.
Lemma cadd_0 m w a : a < 2 ^ w -> cadd m w a 0 = Some a.
Proof. intros H. unfold cadd. rewrite N.add_0_r. now apply fit_small. Qed.

Lemma obind_assoc {A B C} (x : option A) (f : A -> option B) (g : B -> option C) :
  obind (obind x f) g = obind x (fun a => obind (f a) g).
Proof. now destruct x. Qed.
Lemma obind_some {A} (x : option A) : obind x Some = x.
Proof. now destruct x. Qed.
Lemma obind_ext {A B} (x : option A) (f g : A -> option B) :
  (forall a, x = Some a -> f a = g a) -> obind x f = obind x g.
Proof. destruct x; cbn [obind]; auto. Qed.

(** Arrays. *)
Lemma upd_length {A} (l : list A) i v : (i < length l)%nat -> length (upd l i v) = length l.
Proof. revert i. induction l as [|h t IH]; intros [|i] H; cbn in *; try lia. f_equal. apply IH. lia. Qed.
Lemma Forall_upd {A} (P : A -> Prop) l i v : Forall P l -> P v -> Forall P (upd l i v).
Proof.
  intros H V. revert i. induction H as [|x l X F IH]; intros i.
  - cbn [upd]. apply Forall_forall. intros y Y. apply repeat_spec in Y. now subst y.
  - destruct i; cbn [upd]; constructor; auto.
Qed.
Lemma nth_upd_eq {A} (l : list A) i v d : (i < length l)%nat -> nth i (upd l i v) d = v.
Proof.
  revert i. induction l as [|h t IH]; intros [|i] H; cbn in *; try lia; auto.
  apply IH. lia.
Qed.
Lemma nth_upd_neq {A} (l : list A) i j v d : i <> j -> (j < length l)%nat -> nth j (upd l i v) d = nth j l d.
Proof.
  revert i j. induction l as [|h t IH]; intros [|i] [|j] H L; cbn in *; auto; try lia. apply IH; lia.
Qed.
Lemma upd_app_r {A} (l r : list A) i v :
  (length l <= i)%nat -> upd (l ++ r) i v = l ++ upd r (i - length l) v.
Proof.
  revert i. induction l as [|h t IH]; intros i H; cbn in *.
  - now rewrite Nat.sub_0_r.
  - destruct i as [|i]; [lia|]. cbn. now rewrite IH by lia.
Qed.

(** Tactics: bounds on words, and bitwise identities. *)
Create HintDb words.
Global Hint Resolve wadd_lt wsub_lt wmul_lt wshl_lt lxor_lt lor_lt land_lt_l wnot_lt shiftr_lt rotl_lt rotr_lt : words.

(** [bitwise w]: prove equality of two [w]-bit words built with bitwise
    operations by comparing their bits. *)
Ltac bitblast :=
  let i := fresh "i" in
  apply N.bits_inj; intros i;
  repeat (rewrite ?N.lxor_spec, ?N.land_spec, ?N.lor_spec, ?N.ldiff_spec, ?testbit_wnot);
  repeat match goal with |- context [N.testbit ?x i] => destruct (N.testbit x i) eqn:? end;
  try reflexivity.

(** Equality of two nested [wadd]s up to associativity and commutativity, by
    reflection. *)
Inductive wexp := WV (x : N) | WA (a b : wexp).
Fixpoint wev (w : N) (e : wexp) : N := match e with WV x => x | WA a b => wadd w (wev w a) (wev w b) end.
Fixpoint wlin (e : wexp) : N := match e with WV x => x | WA a b => wlin a + wlin b end.
Lemma wev_lin w e : wev w e mod 2 ^ w = wlin e mod 2 ^ w.
Proof.
  induction e as [x|a IHa b IHb]; cbn [wev wlin]; [reflexivity|].
  assert (2 ^ w <> 0) by (apply N.pow_nonzero; discriminate).
  unfold wadd. rewrite N.mod_mod by assumption.
  now rewrite (N.add_mod (wev w a)), IHa, IHb, <- N.add_mod by assumption.
Qed.
Lemma wev_eq w a b c d : wlin (WA a b) = wlin (WA c d) -> wev w (WA a b) = wev w (WA c d).
Proof.
  intros E. rewrite <- (N.mod_small (wev w (WA a b)) (2 ^ w)) by apply wadd_lt.
  rewrite <- (N.mod_small (wev w (WA c d)) (2 ^ w)) by apply wadd_lt.
  now rewrite !wev_lin, E.
Qed.
Ltac wreify w e :=
  lazymatch e with
  | wadd _ ?a ?b => let a' := wreify w a in let b' := wreify w b in constr:(WA a' b')
  | add32 ?a ?b => let a' := wreify w a in let b' := wreify w b in constr:(WA a' b')
  | add64 ?a ?b => let a' := wreify w a in let b' := wreify w b in constr:(WA a' b')
  | ?x => constr:(WV x)
  end.
Ltac wwidth e :=
  lazymatch e with wadd ?w _ _ => w | add32 _ _ => constr:(32%N) | add64 _ _ => constr:(64%N) end.
Ltac wadd_ac :=
  match goal with |- ?l = ?r =>
    let w := wwidth l in
    let a := wreify w l in let b := wreify w r in
    change (wev w a = wev w b); apply wev_eq; cbn [wlin]; lia
  end.

(** Bounds of words of all kinds. *)
Ltac wlt := auto 20 with words.

Definition words_ok (w : N) (l : list N) : Prop := Forall (fun x => x < 2 ^ w) l.
Lemma oob_lt w : 0 < w -> oob < 2 ^ w.
Proof. intros W. apply N.lt_le_trans with 2; [exact oob_bit|]. change 2 with (2 ^ 1) at 1. apply N.pow_le_mono_r; lia. Qed.
Lemma get_ok w l i : words_ok w l -> 0 < w -> get l i < 2 ^ w.
Proof.
  intros H W. pose proof (oob_lt w W) as O.
  unfold get. revert i; induction H as [|x l Hx Hl IH]; intros [|i]; cbn; auto.
Qed.
Lemma get_in w l i : words_ok w l -> (i < length l)%nat -> get l i < 2 ^ w.
Proof. intros H L. unfold get. apply (proj1 (Forall_forall _ _) H), nth_In, L. Qed.
Global Hint Extern 0 (0 < Npos _) => reflexivity : words.
Global Hint Resolve get_ok : words.

(** Lists of known length. *)
Lemma list_eq_get (a b : list N) : length a = length b ->
  (forall i, (i < length a)%nat -> get a i = get b i) -> a = b.
Proof.
  intros L E. apply (nth_ext a b oob oob L E).
Qed.

(** Split an equation between tuples. *)
Ltac tuple_eq := repeat match goal with |- (_, _) = (_, _) => apply f_equal2 end.
