(** Stepping through unrolled code: [let x := e in rest] is opened one binding
    at a time, keeping the bound value as a variable. *)
From Verif Require Import Base.Words.

Lemma bind_intro {A B} (e : A) (f : A -> B) (rhs : B) : (forall x, x = e -> f x = rhs) -> bind e f = rhs.
Proof. intros H. exact (H e eq_refl). Qed.
Lemma bind_eq {A B} (e e' : A) (f : A -> B) (rhs : B) : e = e' -> f e' = rhs -> bind e f = rhs.
Proof. intros -> H. exact H. Qed.
Lemma fold_seq_S {A} (f : A -> nat -> A) s n v : fold_left f (seq s (S n)) v = fold_left f (seq (S s) n) (f v s).
Proof. reflexivity. Qed.
Lemma fold_seq_0 {A} (f : A -> nat -> A) s v : fold_left f (seq s 0) v = v.
Proof. reflexivity. Qed.
Ltac open_let r E := apply bind_intro; intros r E; cbv beta.
