(** Names determine the hasher type, up to Skein's output size. *)
From Coq Require Import Bool Arith Lia String Ascii Decimal DecimalString DecimalNat DecimalFacts List.
From Verif Require Import Model.Names.
Import ListNotations.
Open Scope string_scope.

Lemma decimal_inj n m : decimal n = decimal m -> n = m.
Proof.
  unfold decimal. intros H. apply Unsigned.to_uint_inj.
  assert (E : NilEmpty.uint_of_string (NilEmpty.string_of_uint (Nat.to_uint n)) = NilEmpty.uint_of_string (NilEmpty.string_of_uint (Nat.to_uint m))) by now rewrite H.
  rewrite !NilEmpty.usu in E. now injection E.
Qed.
(** Neither string is a beginning of the other. *)
Fixpoint apart (p q : string) : bool :=
  match p, q with
  | String a p, String b q => if Ascii.eqb a b then apart p q else true
  | _, _ => false
  end.
Lemma apart_neq p : forall q x y, apart p q = true -> p ++ x <> q ++ y.
Proof.
  induction p as [|a p IH]; intros [|b q] x y; cbn; try discriminate.
  destruct (Ascii.eqb_spec a b) as [->|D]; intros H E.
  - injection E as E. exact (IH q x y H E).
  - injection E as E _. contradiction.
Qed.

Definition fixeds := [FSha1; FMd2; FMd4; FMd5; FSm3; FRipemd128; FRipemd160; FRipemd256; FRipemd320;
  FKeccak224; FKeccak256; FKeccak384; FKeccak512; FKeccak256Full;
  FSha3_224; FSha3_256; FSha3_384; FSha3_512;
  FShake128; FShake256; FTurboShake128; FTurboShake256; FCShake128; FCShake256; FKangarooTwelve;
  FTiger; FTiger2; FWhirlpool; FGost94CryptoPro; FGost94s2015; FGost94Test; FGost94UA;
  FFsb160; FFsb224; FFsb256; FFsb384; FFsb512; FBeltHash; FAsconHash256; FAsconXof128].
Definition variables := [VSha256; VSha512; VBlake2b; VBlake2s; VGroestlShort; VGroestlLong; VKupynaShort; VKupynaLong;
  VStreebog; VJh; VShabal].
Inductive kind := KF (f : fixed) | KV (v : variable) | KS (s : skein).
Definition kinds : list kind := (map KF fixeds ++ map KV variables ++ map KS [Skein256; Skein512; Skein1024])%list.
Definition pre (k : kind) : string :=
  match k with KF f => fixed_name f ++ "$" | KV v => variable_name v ++ "_" | KS s => skein_name s ++ "$" end.
Definition kind_of (t : named) : kind := match t with Fixed f => KF f | CtVariable v _ => KV v | Skein s _ => KS s end.
Definition rest (t : named) : string := match t with CtVariable _ n => decimal n ++ "$" | _ => "" end.
Lemma app_assoc_s a : forall b c : string, (a ++ b) ++ c = a ++ b ++ c.
Proof. induction a as [|x a IH]; intros b c; [reflexivity|]. cbn. now rewrite IH. Qed.
Lemma app_nil_s a : a ++ "" = a.
Proof. induction a as [|x a IH]; [reflexivity|]. cbn. now rewrite IH. Qed.
Lemma app_inj_l a : forall b c : string, a ++ b = a ++ c -> b = c.
Proof. induction a as [|x a IH]; intros b c H; [exact H|]. injection H as H. now apply IH. Qed.
Lemma length_app_s a b : String.length (a ++ b) = (String.length a + String.length b)%nat.
Proof. induction a as [|x a IH]; [reflexivity|]. cbn. now rewrite IH. Qed.
Lemma app_inj_r a : forall b, a ++ "$" = b ++ "$" -> a = b.
Proof.
  induction a as [|x a IH]; intros b H.
  - destruct b as [|y b]; [reflexivity|]. apply (f_equal String.length) in H. rewrite !length_app_s in H. cbn in H.
    rewrite Nat.add_comm in H. discriminate H.
  - destruct b as [|y b]; [apply (f_equal String.length) in H; rewrite !length_app_s in H; cbn in H; rewrite Nat.add_comm in H; discriminate H|].
    injection H as -> H. f_equal. now apply IH.
Qed.
Lemma name_split t : alg_name t ++ "$" = pre (kind_of t) ++ rest t.
Proof. destruct t as [f|v n|s n]; cbn [alg_name pre kind_of rest]; rewrite ?app_assoc_s; reflexivity. Qed.
Lemma kinds_all k : exists i, (i < length kinds)%nat /\ nth i kinds (KF FSha1) = k.
Proof.
  assert (I : In k kinds).
  { unfold kinds. rewrite !in_app_iff, !in_map_iff. destruct k as [f|v|s]; [left|right; left|right; right]; eexists; (split; [reflexivity|]);
      [destruct f|destruct v|destruct s]; cbn; tauto. }
  destruct (In_nth _ _ (KF FSha1) I) as (i & L & E). now exists i.
Qed.
Lemma kinds_apart : forallb (fun i => forallb (fun j => Nat.eqb i j || apart (pre (nth i kinds (KF FSha1))) (pre (nth j kinds (KF FSha1))))
  (seq 0 (length kinds))) (seq 0 (length kinds)) = true.
Proof. vm_compute. reflexivity. Qed.
Lemma kind_neq k l x y : k <> l -> pre k ++ x <> pre l ++ y.
Proof.
  intros D. destruct (kinds_all k) as (i & Hi & <-), (kinds_all l) as (j & Hj & <-).
  apply apart_neq. pose proof kinds_apart as A. rewrite forallb_forall in A.
  specialize (A i (proj2 (in_seq _ _ _) (conj (Nat.le_0_l i) Hi))). rewrite forallb_forall in A.
  specialize (A j (proj2 (in_seq _ _ _) (conj (Nat.le_0_l j) Hj))). apply orb_true_iff in A. destruct A as [A|A]; [|exact A].
  apply Nat.eqb_eq in A. subst j. now contradiction D.
Qed.
Lemma kind_dec (k l : kind) : {k = l} + {k <> l}.
Proof. decide equality; decide equality. Qed.
Lemma name_kind t u : alg_name t = alg_name u -> kind_of t = kind_of u /\ rest t = rest u.
Proof.
  intros E. assert (F : pre (kind_of t) ++ rest t = pre (kind_of u) ++ rest u) by now rewrite <- !name_split, E.
  destruct (kind_dec (kind_of t) (kind_of u)) as [K|D].
  - split; [exact K|]. rewrite K in F. now apply app_inj_l in F.
  - contradiction (kind_neq _ _ _ _ D F).
Qed.

Lemma names_unique t u : alg_name t = alg_name u ->
  t = u \/ exists s n m, t = Skein s n /\ u = Skein s m /\ n <> m.
Proof.
  intros E. apply name_kind in E. destruct E as [K R].
  destruct t as [f|v n|s n], u as [g|w m|r m]; cbn in K, R; try discriminate K; injection K as <-.
  - now left.
  - left. apply app_inj_r in R. now rewrite (decimal_inj _ _ R).
  - destruct (Nat.eq_dec n m) as [<-|D]; [now left|]. right. now exists s, n, m.
Qed.
Lemma names_refuted : ~ (forall t u, alg_name t = alg_name u -> t = u).
Proof. intros H. discriminate (H (Skein Skein512 32) (Skein Skein512 64) eq_refl). Qed.
Lemma skein_debug_unique s r n m : skein_debug s n = skein_debug r m -> s = r /\ n = m.
Proof.
  unfold skein_debug. intros E.
  assert (S : s = r).
  { assert (A : forall x, skein_name s ++ "Core<" ++ x = (skein_name s ++ "Core<") ++ x) by (intros; now rewrite app_assoc_s).
    assert (B : forall x, skein_name r ++ "Core<" ++ x = (skein_name r ++ "Core<") ++ x) by (intros; now rewrite app_assoc_s).
    destruct s, r; try reflexivity; rewrite A, B in E; apply apart_neq in E; (contradiction || reflexivity). }
  subst r. split; [reflexivity|]. apply app_inj_l in E. injection E as E. apply decimal_inj.
  assert (G : forall a b t, a ++ t = b ++ t -> a = b).
  { clear. intros a. induction a as [|x a IH]; intros [|y b] t H; [reflexivity| | |].
    - apply (f_equal String.length) in H. cbn in H. rewrite length_app_s in H. lia.
    - apply (f_equal String.length) in H. cbn in H. rewrite length_app_s in H. lia.
    - injection H as -> H. f_equal. now apply (IH b t). }
  exact (G _ _ _ E).
Qed.
