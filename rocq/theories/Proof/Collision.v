(** Padding is injective, and collisions of iterated hash functions come from the compression function. *)
From Verif Require Import Base.Words Base.Bytes Spec.MD Spec.Collision Proof.Encodings.

(** ** Injective padding *)
Lemma zeros_tail_inj (x : N) a b i j : x <> 0 -> a ++ [x] ++ zeros i = b ++ [x] ++ zeros j -> a = b.
Proof.
  intros Hx. revert j. induction i as [|i IH]; intros j E.
  - destruct j as [|j]; [now apply app_inj_tail in E as [-> _]|].
    exfalso. change (zeros 0) with (@nil N) in E. replace (zeros (S j)) with (zeros j ++ [0]) in E
      by (unfold zeros; now rewrite <- repeat_cons).
    rewrite !app_assoc, app_nil_r in E. apply app_inj_tail in E as [_ E]. congruence.
  - replace (zeros (S i)) with (zeros i ++ [0]) in E by (unfold zeros; now rewrite <- repeat_cons).
    destruct j as [|j].
    + exfalso. change (zeros 0) with (@nil N) in E. rewrite !app_assoc, app_nil_r in E. apply app_inj_tail in E as [_ E]. congruence.
    + replace (zeros (S j)) with (zeros j ++ [0]) in E by (unfold zeros; now rewrite <- repeat_cons).
      rewrite !app_assoc in E. apply app_inj_tail in E as [E _]. rewrite <- !app_assoc in E. now apply (IH j).
Qed.
Lemma app_inv_tail_len (A : Type) (a b c d : list A) : length c = length d -> a ++ c = b ++ d -> a = b /\ c = d.
Proof.
  intros L E. apply (f_equal (@rev A)) in E. rewrite !rev_app_distr in E.
  apply app_inv_len in E; [|now rewrite !rev_length]. destruct E as [E1 E2].
  apply (f_equal (@rev A)) in E1, E2. rewrite !rev_involutive in E1, E2. now split.
Qed.
Lemma md_pad_inj bs delim s s' m m' : delim <> 0 -> length s = length s' ->
  md_pad bs delim s m = md_pad bs delim s' m' -> m = m' /\ s = s'.
Proof.
  intros Hd L E. unfold md_pad in E. rewrite !app_assoc in E. apply app_inv_tail_len in E as [E ->]; [|exact L].
  rewrite <- !app_assoc in E. apply zeros_tail_inj in E; [now split|exact Hd].
Qed.
Lemma md_pad_length bs delim s m : (0 < bs)%nat ->
  exists k, length (md_pad bs delim s m) = (bs * S k)%nat /\ (length s <= length (md_pad bs delim s m))%nat.
Proof.
  intros Hb. unfold md_pad. rewrite !app_length, zeros_length. cbn [length]. unfold zpad.
  set (n := (length m + 1 + length s)%nat). pose proof (Nat.div_mod n bs ltac:(lia)) as D.
  pose proof (Nat.mod_upper_bound n bs ltac:(lia)) as U.
  destruct (Nat.eq_dec (n mod bs) 0) as [Z|Z].
  - rewrite Z, Nat.sub_0_r, Nat.mod_same by lia. destruct (n / bs)%nat as [|k] eqn:Q; [unfold n in *; nia|].
    exists k. split; [|lia]. unfold n in *. nia.
  - rewrite (Nat.mod_small (bs - n mod bs)) by lia. exists (n / bs)%nat. split; [|lia]. unfold n in *. nia.
Qed.
Lemma chunks_whole bs k (l : bytes) : (0 < bs)%nat -> length l = (bs * k)%nat -> concat (chunks bs l) = l.
Proof.
  intros Hb L. pose proof (concat_chunks_rem bs l Hb) as E. apply (f_equal (@length N)) in E as EL.
  rewrite app_length in EL. assert (C : length (concat (chunks bs l)) = (bs * k)%nat).
  { pose proof (chunks_block_length bs l Hb) as F. pose proof (chunks_length bs l Hb) as CL.
    rewrite L, Nat.mul_comm, Nat.div_mul in CL by lia. revert CL. clear -F.
    revert k. induction F as [|b x Hx _ IH]; intros k CL; cbn [concat length] in *; [subst k; lia|].
    rewrite app_length, Hx. destruct k as [|k]; [discriminate|]. injection CL as CL. rewrite (IH k CL). lia. }
  destruct (remainder bs l); [now rewrite app_nil_r in E|cbn [length] in EL; lia].
Qed.
(** The blocks of two padded messages are the same only if the messages are. *)
Lemma blocks_inj bs delim s s' m m' : (0 < bs)%nat -> delim <> 0 -> length s = length s' ->
  chunks bs (md_pad bs delim s m) = chunks bs (md_pad bs delim s' m') -> m = m'.
Proof.
  intros Hb Hd L E. destruct (md_pad_length bs delim s m Hb) as (k & K & _).
  destruct (md_pad_length bs delim s' m' Hb) as (k' & K' & _).
  apply (f_equal (@concat N)) in E. rewrite (chunks_whole bs (S k)), (chunks_whole bs (S k')) in E by assumption.
  now apply md_pad_inj in E as [-> _].
Qed.

(** ** Collisions *)
Section Chain.
  Context {S : Type}.
  Variable S_dec : forall x y : S, {x = y} + {x <> y}.
  Variable f : S -> bytes -> S.
  Variable iv : S.
  Lemma last_feeds xs b : feeds f iv (xs ++ [b]) (fold_left f xs iv) b.
  Proof using. exists xs, []. now split. Qed.
  Lemma feeds_more xs c h b : feeds f iv xs h b -> feeds f iv (xs ++ [c]) h b.
  Proof using. intros (pre & post & -> & ->). exists pre, (post ++ [c]). split; [now rewrite <- app_assoc|reflexivity]. Qed.
  Lemma same_number xs : forall ys, length xs = length ys -> xs <> ys ->
    fold_left f xs iv = fold_left f ys iv -> collision_in f iv xs ys.
  Proof using S_dec.
    induction xs as [|x xs IH] using rev_ind; intros ys L D E.
    - destruct ys; [contradiction|discriminate].
    - destruct ys as [|y ys _] using rev_ind; [rewrite app_length in L; cbn in L; lia|].
      rewrite !app_length in L. cbn [length] in L. rewrite !fold_left_app in E. cbn [fold_left] in E.
      destruct (S_dec (fold_left f xs iv) (fold_left f ys iv)) as [H|H], (list_eq_dec N.eq_dec x y) as [B|B].
      + subst y. destruct (IH ys ltac:(lia)) as (h & b & h' & b' & F & F' & N & Q); [congruence|exact H|].
        exists h, b, h', b'. repeat split; [now apply feeds_more|now apply feeds_more|exact N|exact Q].
      + exists (fold_left f xs iv), x, (fold_left f ys iv), y.
        repeat split; [apply last_feeds|apply last_feeds| |exact E]. intros Q. now injection Q.
      + exists (fold_left f xs iv), x, (fold_left f ys iv), y.
        repeat split; [apply last_feeds|apply last_feeds| |exact E]. intros Q. now injection Q.
      + exists (fold_left f xs iv), x, (fold_left f ys iv), y.
        repeat split; [apply last_feeds|apply last_feeds| |exact E]. intros Q. now injection Q.
  Qed.
  Variables (bs k : nat) (delim : N) (enc : N -> bytes).
  Hypothesis Hb : (0 < bs)%nat.
  Hypothesis Hk : (k <= bs)%nat.
  Hypothesis Hd : delim <> 0.
  Hypothesis Henc : forall n, length (enc n) = k.
  Notation padded m := (md_pad bs delim (enc (blen m)) m).
  Lemma last_block m : exists xs x, chunks bs (padded m) = xs ++ [x] /\ length x = bs /\ skipn (bs - k) x = enc (blen m).
  Proof using All.
    destruct (md_pad_length bs delim (enc (blen m)) m Hb) as (n & L & _).
    pose proof (chunks_length bs (padded m) Hb) as CL. rewrite L, Nat.mul_comm, Nat.div_mul in CL by lia.
    destruct (chunks bs (padded m)) as [|x xs _] eqn:E using rev_ind; [discriminate|].
    exists xs, x. split; [reflexivity|].
    pose proof (chunks_block_length bs (padded m) Hb) as F. rewrite E in F. apply Forall_app in F as [_ F].
    inversion_clear F as [|? ? Lx _]. split; [exact Lx|].
    pose proof (chunks_whole bs (Datatypes.S n) (padded m) Hb L) as W. rewrite E, concat_app in W. cbn [concat] in W.
    rewrite app_nil_r in W. rewrite <- (firstn_skipn (bs - k) x) in W. unfold md_pad in W. rewrite !app_assoc in W.
    apply app_inv_tail_len in W; [now destruct W|]. rewrite skipn_length, Henc. lia.
  Qed.
  Lemma md_collision m m' : (enc (blen m) = enc (blen m') -> length m = length m') -> m <> m' ->
    md_iterate f bs iv (padded m) = md_iterate f bs iv (padded m') ->
    collision_in f iv (chunks bs (padded m)) (chunks bs (padded m')).
  Proof using S_dec Hb Hk Hd Henc.
    intros HL D E. unfold md_iterate in E.
    destruct (Nat.eq_dec (length m) (length m')) as [L|L].
    - apply same_number; [| |exact E].
      + rewrite !chunks_length by exact Hb. unfold md_pad. rewrite !app_length, !zeros_length, !Henc, L. reflexivity.
      + intros Q. apply blocks_inj in Q; [contradiction|exact Hb|exact Hd|now rewrite !Henc].
    - destruct (last_block m) as (xs & x & X & Lx & Ex). destruct (last_block m') as (ys & y & Y & Ly & Ey).
      rewrite X, Y in *. rewrite !fold_left_app in E. cbn [fold_left] in E.
      exists (fold_left f xs iv), x, (fold_left f ys iv), y.
      repeat split; [apply last_feeds|apply last_feeds| |exact E]. intros Q. injection Q as _ ->. apply L, HL. congruence.
  Qed.
  (** From equal digests. *)
  Variable inv : S -> Prop.
  Variable out : S -> bytes.
  Hypothesis Hdb : delim < 256.
  Hypothesis Hencok : forall n, bytes_ok (enc n).
  Hypothesis Hiv : inv iv.
  Hypothesis Hf : forall s b, inv s -> length b = bs -> bytes_ok b -> inv (f s b).
  Hypothesis Hout : forall s s', inv s -> inv s' -> out s = out s' -> s = s'.
  Lemma padded_ok m : bytes_ok m -> bytes_ok (padded m).
  Proof using Hdb Hencok.
    intros H. unfold md_pad. apply bytes_ok_app. split; [exact H|]. apply bytes_ok_app. split; [constructor; [exact Hdb|constructor]|].
    apply bytes_ok_app. split; [apply zeros_ok|apply Hencok].
  Qed.
  Lemma chain_inv blocks : Forall (fun b => length b = bs) blocks -> Forall bytes_ok blocks ->
    forall s, inv s -> inv (fold_left f blocks s).
  Proof using Hf.
    induction 1 as [|b blocks L _ IH]; intros B s H; cbn [fold_left]; [exact H|].
    inversion_clear B as [|? ? B1 B2]. apply IH; [exact B2|]. now apply Hf.
  Qed.
  Lemma hash_collision m m' : bytes_ok m -> bytes_ok m' ->
    (enc (blen m) = enc (blen m') -> length m = length m') -> m <> m' ->
    out (md_iterate f bs iv (padded m)) = out (md_iterate f bs iv (padded m')) ->
    collision_in f iv (chunks bs (padded m)) (chunks bs (padded m')).
  Proof using All.
    intros O O' HL D E. apply md_collision; [exact HL|exact D|]. apply Hout; [| |exact E].
    - apply chain_inv; [now apply chunks_block_length|apply chunks_ok; [exact Hb|now apply padded_ok]|exact Hiv].
    - apply chain_inv; [now apply chunks_block_length|apply chunks_ok; [exact Hb|now apply padded_ok]|exact Hiv].
  Qed.
End Chain.
