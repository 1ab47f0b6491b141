(** The reduction for each hasher whose digest is the whole final chaining value. *)
From Verif Require Import Base.Words Base.Bytes Base.Digest Base.DigestFacts Spec.MD Spec.Collision Proof.Encodings Proof.Collision.
From Verif Require Spec.MD4 Spec.MD5 Spec.SHA1 Spec.SHA2 Spec.SM3 Spec.RIPEMD Spec.Tiger Spec.Whirlpool.
From Verif Require Model.Md4 Model.Md5 Model.Sha1 Model.Sha2 Model.Sm3 Model.Ripemd Model.Tiger Model.Whirlpool.
From Verif Require Proof.Md4 Proof.Md5 Proof.Sha1 Proof.Sha2 Proof.Sha2Spec Proof.Sm3 Proof.Ripemd Proof.Tiger Proof.Whirlpool.

Lemma outputs_spec C H (within : nat -> Prop) msg d :
  (forall m cs, Forall bytes_ok cs -> within (length (concat cs)) -> h_digest C m cs = Some (H (concat cs))) ->
  within (length msg) -> outputs C msg d -> d = Some (H msg).
Proof. intros E W (m & cs & B & <- & <-). now apply E. Qed.

Lemma out_inj (e : nat -> N -> bytes) k xs : (forall x, length (e k x) = k) ->
  (forall x y, x < 256 ^ N.of_nat k -> y < 256 ^ N.of_nat k -> e k x = e k y -> x = y) ->
  forall ys, length xs = length ys -> words_ok (8 * N.of_nat k) xs -> words_ok (8 * N.of_nat k) ys ->
  concat (map (e k) xs) = concat (map (e k) ys) -> xs = ys.
Proof.
  intros L I. assert (P : 2 ^ (8 * N.of_nat k) = 256 ^ N.of_nat k) by (rewrite N.pow_mul_r; reflexivity).
  unfold words_ok. rewrite P. induction xs as [|x xs IH]; intros [|y ys] LL X Y E; try discriminate LL; [reflexivity|].
  inversion_clear X as [|? ? X1 X2]. inversion_clear Y as [|? ? Y1 Y2]. cbn [map concat] in E.
  apply app_inv_len in E as [E1 E2]; [|now rewrite !L]. apply I in E1; [|assumption..]. subst y. f_equal.
  injection LL as LL. now apply IH.
Qed.
Lemma le_out_inj k xs ys : length xs = length ys -> words_ok (8 * N.of_nat k) xs -> words_ok (8 * N.of_nat k) ys ->
  concat (map (le_bytes k) xs) = concat (map (le_bytes k) ys) -> xs = ys.
Proof. apply out_inj; [apply le_bytes_length|apply le_bytes_inj]. Qed.
Lemma be_out_inj k xs ys : length xs = length ys -> words_ok (8 * N.of_nat k) xs -> words_ok (8 * N.of_nat k) ys ->
  concat (map (be_bytes k) xs) = concat (map (be_bytes k) ys) -> xs = ys.
Proof. apply out_inj; [apply be_bytes_length|apply be_bytes_inj]. Qed.

Lemma reduce {S} C (within : nat -> Prop) (lim : bytes -> Prop) (S_dec : forall x y : S, {x = y} + {x <> y})
    (f : S -> bytes -> S) iv bs k delim (enc : N -> bytes) (inv : S -> Prop) (out : S -> bytes) :
  (forall m cs, Forall bytes_ok cs -> within (length (concat cs)) ->
    h_digest C m cs = Some (out (md_iterate f bs iv (md_pad bs delim (enc (blen (concat cs))) (concat cs))))) ->
  (forall msg, lim msg -> within (length msg)) ->
  (0 < bs)%nat -> (k <= bs)%nat -> delim <> 0 -> (forall n, length (enc n) = k) -> delim < 256 ->
  (forall n, bytes_ok (enc n)) -> inv iv ->
  (forall s b, inv s -> length b = bs -> bytes_ok b -> inv (f s b)) ->
  (forall s s', inv s -> inv s' -> out s = out s' -> s = s') ->
  (forall msg msg', lim msg -> lim msg' -> enc (blen msg) = enc (blen msg') -> length msg = length msg') ->
  collisions_reduce C lim f iv bs (fun msg => md_pad bs delim (enc (blen msg)) msg).
Proof.
  intros HC HW H1 H2 H3 H4 H5 H6 H7 H8 H9 HE msg msg' d B B' L L' D O O'.
  apply (outputs_spec C (fun x => out (md_iterate f bs iv (md_pad bs delim (enc (blen x)) x))) within) in O;
    [|exact HC|now apply HW].
  apply (outputs_spec C (fun x => out (md_iterate f bs iv (md_pad bs delim (enc (blen x)) x))) within) in O';
    [|exact HC|now apply HW].
  eapply (hash_collision S_dec f iv bs k); try eassumption.
  - now apply HE.
  - congruence.
Qed.
Lemma le_len_inj k n msg msg' : 8 * N.of_nat k = n -> bits_below n msg -> bits_below n msg' ->
  le_bytes k (8 * blen msg) = le_bytes k (8 * blen msg') -> length msg = length msg'.
Proof.
  intros <- L L' E. unfold bits_below in *. replace (2 ^ (8 * N.of_nat k)) with (256 ^ N.of_nat k) in * by (rewrite N.pow_mul_r; reflexivity).
  apply le_bytes_inj in E; [|assumption..]. unfold blen in E. lia.
Qed.
Lemma be_len_inj k n msg msg' : 8 * N.of_nat k = n -> bits_below n msg -> bits_below n msg' ->
  be_bytes k (8 * blen msg) = be_bytes k (8 * blen msg') -> length msg = length msg'.
Proof.
  intros <- L L' E. unfold bits_below in *. replace (2 ^ (8 * N.of_nat k)) with (256 ^ N.of_nat k) in * by (rewrite N.pow_mul_r; reflexivity).
  apply be_bytes_inj in E; [|assumption..]. unfold blen in E. lia.
Qed.
Ltac lens := intros; first [apply le_bytes_length | apply be_bytes_length].
Ltac oks := intros; first [apply le_bytes_ok | apply be_bytes_ok].

Definition dec2 {A B} (a : forall x y : A, {x = y} + {x <> y}) (b : forall x y : B, {x = y} + {x <> y}) :
  forall x y : A * B, {x = y} + {x <> y}.
Proof. decide equality. Defined.
Definition dec3 : forall x y : N * N * N, {x = y} + {x <> y} := dec2 (dec2 N.eq_dec N.eq_dec) N.eq_dec.
Definition dec4 : forall x y : N * N * N * N, {x = y} + {x <> y} := dec2 dec3 N.eq_dec.
Definition dec5 : forall x y : N * N * N * N * N, {x = y} + {x <> y} := dec2 dec4 N.eq_dec.
Definition dec8 : forall x y : N * N * N * N * N * N * N * N, {x = y} + {x <> y} := dec2 (dec2 (dec2 dec5 N.eq_dec) N.eq_dec) N.eq_dec.

Lemma ok_cons w x l : x < 2 ^ w -> words_ok w l -> words_ok w (x :: l).
Proof. intros A B. now constructor. Qed.
Ltac words H := let V := fresh in pose proof H as V; hnf in V;
  repeat match type of V with _ /\ _ => let a := fresh in destruct V as [a V] end;
  repeat (apply ok_cons; [assumption|]); constructor.

Lemma md4 : collisions_reduce Model.Md4.Md4 (bits_below 64) Spec.MD4.compress Spec.MD4.iv 64 Spec.MD4.pad.
Proof.
  apply (reduce Model.Md4.Md4 (fun _ => True) _ dec4 Spec.MD4.compress Spec.MD4.iv 64 8 0x80 (fun n => le_bytes 8 (8 * n)) Proof.Md4.vok
    Spec.MD4.output); try lia; try discriminate; try lens; try oks; try exact (fun _ _ => I); try reflexivity.
  - exact (fun m cs B _ => digest_spec _ _ _ _ Proof.Md4.Md4_ok m cs B I).
  - exact Proof.Md4.iv_ok.
  - intros s b V _ _. apply Proof.Md4.compress_block_spec, V.
  - intros (((a, b), c), d) (((a', b'), c'), d') V V' E. apply le_out_inj in E; [now injection E as -> -> -> ->|reflexivity|words V|words V'].
  - intros msg msg'. now apply le_len_inj.
Qed.
Lemma md5 : collisions_reduce Model.Md5.Md5 (bits_below 64) Spec.MD5.compress Spec.MD5.iv 64 Spec.MD5.pad.
Proof.
  apply (reduce Model.Md5.Md5 (fun _ => True) _ dec4 Spec.MD5.compress Spec.MD5.iv 64 8 0x80 (fun n => le_bytes 8 (8 * n)) Proof.Md5.vok
    Spec.MD5.output); try lia; try discriminate; try lens; try oks; try exact (fun _ _ => I); try reflexivity.
  - exact (fun m cs B _ => digest_spec _ _ _ _ Proof.Md5.Md5_ok m cs B I).
  - exact Proof.Md5.iv_ok.
  - intros s b V _ _. apply Proof.Md5.compress_block_spec.
  - intros (((a, b), c), d) (((a', b'), c'), d') V V' E. apply le_out_inj in E; [now injection E as -> -> -> ->|reflexivity|words V|words V'].
  - intros msg msg'. now apply le_len_inj.
Qed.
Lemma sha1 : collisions_reduce Model.Sha1.Sha1 (bits_below 64) Spec.SHA1.compress Spec.SHA1.iv 64 Spec.SHA1.pad.
Proof.
  apply (reduce Model.Sha1.Sha1 Proof.Sha1.within _ dec5 Spec.SHA1.compress Spec.SHA1.iv 64 8 0x80 (fun n => be_bytes 8 (8 * n)) Proof.Sha1.vok
    Spec.SHA1.output); try lia; try discriminate; try lens; try oks; try exact (fun _ H => H); try reflexivity.
  - exact (digest_spec _ _ _ _ Proof.Sha1.Sha1_ok).
  - exact Proof.Sha1.iv_ok.
  - intros s b V L _. now apply Proof.Sha1.compress_block_spec.
  - intros ((((a, b), c), d), e) ((((a', b'), c'), d'), e') V V' E.
    apply be_out_inj in E; [now injection E as -> -> -> -> ->|reflexivity|words V|words V'].
  - intros msg msg'. now apply be_len_inj.
Qed.
Lemma sm3 : collisions_reduce Model.Sm3.Sm3 (bits_below 64) Spec.SM3.compress Spec.SM3.iv 64 Spec.SM3.pad.
Proof.
  apply (reduce Model.Sm3.Sm3 Proof.Sm3.within _ dec8 Spec.SM3.compress Spec.SM3.iv 64 8 0x80 (fun n => be_bytes 8 (8 * n)) Proof.Sm3.vok
    Spec.SM3.output); try lia; try discriminate; try lens; try oks; try exact (fun _ H => H); try reflexivity.
  - exact (digest_spec _ _ _ _ Proof.Sm3.Sm3_ok).
  - exact Proof.Sm3.iv_ok.
  - intros s b V L B. now apply Proof.Sm3.compress_block_spec.
  - intros (((((((a, b), c), d), e), f), g), h) (((((((a', b'), c'), d'), e'), f'), g'), h') V V' E.
    apply be_out_inj in E; [now injection E as -> -> -> -> -> -> -> ->|reflexivity|words V|words V'].
  - intros msg msg'. now apply be_len_inj.
Qed.
Lemma sha256 : collisions_reduce Model.Sha2.Sha256 (bits_below 64)
  (Spec.SHA2.compress Spec.SHA2.sha256_params) Spec.SHA2.iv256 64 Spec.SHA2.pad256.
Proof.
  apply (reduce Model.Sha2.Sha256 Proof.Sha2.within256 _ dec8 (Spec.SHA2.compress Spec.SHA2.sha256_params) Spec.SHA2.iv256 64 8 0x80
    (fun n => be_bytes 8 (8 * n)) (Proof.Sha2Spec.vars_ok Spec.SHA2.sha256_params) (Spec.SHA2.output 4));
    try lia; try discriminate; try lens; try oks; try exact (fun _ H => H); try reflexivity.
  - intros m cs B W. rewrite (digest_spec _ _ _ _ Proof.Sha2.Sha256_ok m cs B W). unfold Spec.SHA2.SHA256, Spec.SHA2.hash256. f_equal.
    apply firstn_all2. unfold Spec.SHA2.output. destruct (md_iterate _ _ _ _) as (((((((a, b), c), d), e), f), g), h).
    cbn [Spec.SHA2.list_of_vars map concat]. rewrite !app_length, !be_bytes_length. cbn. lia.
  - apply Proof.Sha2Spec.vars_of_list_ok; [reflexivity|]. apply Forall_forall. intros x H. apply in_map_iff in H as (p & <- & _). apply N.mod_lt. discriminate.
  - intros s b V L B. now apply Proof.Sha2Spec.compress_ok.
  - intros (((((((a, b), c), d), e), f), g), h) (((((((a', b'), c'), d'), e'), f'), g'), h') V V' E.
    apply be_out_inj in E; [now injection E as -> -> -> -> -> -> -> ->|reflexivity|words V|words V'].
  - intros msg msg'. now apply be_len_inj.
Qed.
Lemma sha512 : collisions_reduce Model.Sha2.Sha512 (bits_below 128)
  (Spec.SHA2.compress Spec.SHA2.sha512_params) Spec.SHA2.iv512 128 Spec.SHA2.pad512.
Proof.
  apply (reduce Model.Sha2.Sha512 Proof.Sha2.within512 _ dec8 (Spec.SHA2.compress Spec.SHA2.sha512_params) Spec.SHA2.iv512 128 16 0x80
    (fun n => be_bytes 16 (8 * n)) (Proof.Sha2Spec.vars_ok Spec.SHA2.sha512_params) (Spec.SHA2.output 8));
    try lia; try discriminate; try lens; try oks; try exact (fun _ H => H); try reflexivity.
  - intros m cs B W. rewrite (digest_spec _ _ _ _ Proof.Sha2.Sha512_ok m cs B W). unfold Spec.SHA2.SHA512, Spec.SHA2.hash512. f_equal.
    apply firstn_all2. unfold Spec.SHA2.output. destruct (md_iterate _ _ _ _) as (((((((a, b), c), d), e), f), g), h).
    cbn [Spec.SHA2.list_of_vars map concat]. rewrite !app_length, !be_bytes_length. cbn. lia.
  - apply Proof.Sha2Spec.vars_of_list_ok; [reflexivity|]. apply Forall_forall. intros x H. apply in_map_iff in H as (p & <- & _). apply N.mod_lt. discriminate.
  - intros s b V L B. now apply Proof.Sha2Spec.compress_ok.
  - intros (((((((a, b), c), d), e), f), g), h) (((((((a', b'), c'), d'), e'), f'), g'), h') V V' E.
    apply be_out_inj in E; [now injection E as -> -> -> -> -> -> -> ->|reflexivity|words V|words V'].
  - intros msg msg'. now apply be_len_inj.
Qed.
Lemma ripemd {V} C (ls : V -> list N) n (dec : forall x y : V, {x = y} + {x <> y}) f iv (out : V -> bytes) :
  (forall m cs, Forall bytes_ok cs -> Proof.Ripemd.within (length (concat cs)) ->
    h_digest C m cs = Some (out (md_iterate f 64 iv (Spec.RIPEMD.pad (concat cs))))) ->
  (forall v, out v = concat (map (le_bytes 4) (ls v))) -> (forall v, length (ls v) = n) ->
  (forall v v', ls v = ls v' -> v = v') -> words_ok 32 (ls iv) -> (forall v b, words_ok 32 (ls (f v b))) ->
  collisions_reduce C (bits_below 64) f iv 64 Spec.RIPEMD.pad.
Proof.
  intros HC HO HL HI Hiv Hf.
  apply (reduce C Proof.Ripemd.within _ dec f iv 64 8 0x80 (fun n => le_bytes 8 (8 * n)) (fun v => words_ok 32 (ls v)) out);
    try lia; try discriminate; try lens; try oks; try exact (fun _ H => H); try reflexivity.
  - exact HC.
  - exact Hiv.
  - intros s b _ _ _. apply Hf.
  - intros s s' W W' E. rewrite !HO in E. apply HI. apply le_out_inj in E; [exact E|now rewrite !HL|exact W|exact W'].
  - intros msg msg'. now apply le_len_inj.
Qed.
Lemma ripemd128 : collisions_reduce Model.Ripemd.Ripemd128 (bits_below 64) Spec.RIPEMD.compress128 Spec.RIPEMD.iv128 64 Spec.RIPEMD.pad.
Proof.
  apply (ripemd _ Spec.RIPEMD.l4 4 dec4 _ _ (fun v => Spec.RIPEMD.out (Spec.RIPEMD.l4 v))); try reflexivity.
  - exact (digest_spec _ _ _ _ Proof.Ripemd.Ripemd128_ok).
  - now intros (((a, b), c), d).
  - intros (((a, b), c), d) (((a', b'), c'), d') E. now injection E as -> -> -> ->.
  - repeat constructor.
  - intros v b. apply Proof.Ripemd.compress_128_ok.
Qed.
Lemma ripemd160 : collisions_reduce Model.Ripemd.Ripemd160 (bits_below 64) Spec.RIPEMD.compress160 Spec.RIPEMD.iv160 64 Spec.RIPEMD.pad.
Proof.
  apply (ripemd _ Spec.RIPEMD.l5 5 dec5 _ _ (fun v => Spec.RIPEMD.out (Spec.RIPEMD.l5 v))); try reflexivity.
  - exact (digest_spec _ _ _ _ Proof.Ripemd.Ripemd160_ok).
  - now intros ((((a, b), c), d), e).
  - intros ((((a, b), c), d), e) ((((a', b'), c'), d'), e') E. now injection E as -> -> -> -> ->.
  - repeat constructor.
  - intros v b. apply Proof.Ripemd.compress_160_ok.
Qed.
Lemma ripemd256 : collisions_reduce Model.Ripemd.Ripemd256 (bits_below 64) Spec.RIPEMD.compress256 Spec.RIPEMD.iv256 64 Spec.RIPEMD.pad.
Proof.
  apply (ripemd _ Proof.Ripemd.l44 8 (dec2 dec4 dec4) _ _ (fun v => let '(x, y) := v in Spec.RIPEMD.out (Spec.RIPEMD.l4 x ++ Spec.RIPEMD.l4 y))).
  - intros m cs B W. exact (digest_spec _ _ _ _ Proof.Ripemd.Ripemd256_ok m cs B W).
  - now intros [x y].
  - now intros [(((a, b), c), d) (((a', b'), c'), d')].
  - intros [(((a, b), c), d) (((e, f), g), h)] [(((a', b'), c'), d') (((e', f'), g'), h')] E.
    now injection E as -> -> -> -> -> -> -> ->.
  - repeat constructor.
  - intros v b. apply Proof.Ripemd.compress_256_ok.
Qed.
Lemma ripemd320 : collisions_reduce Model.Ripemd.Ripemd320 (bits_below 64) Spec.RIPEMD.compress320 Spec.RIPEMD.iv320 64 Spec.RIPEMD.pad.
Proof.
  apply (ripemd _ Proof.Ripemd.l55 10 (dec2 dec5 dec5) _ _ (fun v => let '(x, y) := v in Spec.RIPEMD.out (Spec.RIPEMD.l5 x ++ Spec.RIPEMD.l5 y))).
  - intros m cs B W. exact (digest_spec _ _ _ _ Proof.Ripemd.Ripemd320_ok m cs B W).
  - now intros [x y].
  - now intros [((((a, b), c), d), i) ((((a', b'), c'), d'), i')].
  - intros [((((a, b), c), d), i) ((((e, f), g), h), j)] [((((a', b'), c'), d'), i') ((((e', f'), g'), h'), j')] E.
    now injection E as -> -> -> -> -> -> -> -> -> ->.
  - repeat constructor.
  - intros v b. apply Proof.Ripemd.compress_320_ok.
Qed.
Lemma tiger_any C first : first <> 0 -> first < 256 ->
  (forall m cs, Forall bytes_ok cs -> Proof.Tiger.within (length (concat cs)) -> h_digest C m cs = Some (Spec.Tiger.hash first (concat cs))) ->
  collisions_reduce C (bits_below 64) (Spec.Tiger.compress Spec.Tiger.T) Spec.Tiger.iv 64
    (fun msg => md_pad 64 first (le_bytes 8 (8 * blen msg)) msg).
Proof.
  intros F1 F2 HC.
  apply (reduce C Proof.Tiger.within _ dec3 (Spec.Tiger.compress Spec.Tiger.T) Spec.Tiger.iv 64 8 first (fun n => le_bytes 8 (8 * n)) Proof.Tiger.vok
    Spec.Tiger.output); try lia; try assumption; try lens; try oks; try exact (fun _ H => H).
  - exact Proof.Tiger.iv_ok.
  - intros s b V L _. now apply Proof.Tiger.compress_spec.
  - intros ((a, b), c) ((a', b'), c') V V' E. unfold Spec.Tiger.output in E.
    assert (Q : [a; b; c] = [a'; b'; c']).
    { apply (le_out_inj 8); [reflexivity|words V|words V'|]. cbn [map concat]. now rewrite !app_nil_r. }
    now injection Q as -> -> ->.
  - intros msg msg'. now apply le_len_inj.
Qed.
Lemma tiger : collisions_reduce Model.Tiger.Tiger (bits_below 64) (Spec.Tiger.compress Spec.Tiger.T) Spec.Tiger.iv 64
  (fun msg => md_pad 64 0x01 (le_bytes 8 (8 * blen msg)) msg).
Proof. apply tiger_any; [discriminate|reflexivity|]. exact (digest_spec _ _ _ _ Proof.Tiger.Tiger_ok). Qed.
Lemma tiger2 : collisions_reduce Model.Tiger.Tiger2 (bits_below 64) (Spec.Tiger.compress Spec.Tiger.T) Spec.Tiger.iv 64
  (fun msg => md_pad 64 0x80 (le_bytes 8 (8 * blen msg)) msg).
Proof. apply tiger_any; [discriminate|reflexivity|]. exact (digest_spec _ _ _ _ Proof.Tiger.Tiger2_ok). Qed.
Lemma slices_below (cs : list bytes) : N.of_nat (length (concat cs)) < 2 ^ 61 -> Forall (fun c : bytes => N.of_nat (length c) < 2 ^ 61) cs.
Proof.
  intros H. apply Forall_forall. intros c I. apply in_split in I as (a & b & ->).
  rewrite concat_app in H. cbn [concat] in H. rewrite !app_length in H. lia.
Qed.
Lemma rows_inj R : forall R', Proof.Whirlpool.mok R -> Proof.Whirlpool.mok R' -> concat R = concat R' -> R = R'.
Proof.
  intros R' [L F] [L' F'] E. assert (LL : length R = length R') by congruence. clear L L'. revert R' F' LL E.
  induction F as [|r R [Lr _] _ IH]; intros [|r' R'] F' LL E; try discriminate LL; [reflexivity|].
  inversion_clear F' as [|? ? [Lr' _] F2]. cbn [concat] in E. apply app_inv_len in E as [-> E]; [|congruence].
  f_equal. injection LL as LL. now apply IH.
Qed.
Lemma whirlpool : collisions_reduce Model.Whirlpool.Whirlpool (bits_below 64) Spec.Whirlpool.compress (repeat (zeros 8) 8) 64
  (fun msg => md_pad 64 0x80 (be_bytes 32 (8 * blen msg)) msg).
Proof.
  apply (reduce Model.Whirlpool.Whirlpool (fun n => 8 * N.of_nat n < 2 ^ 64) _ (list_eq_dec (list_eq_dec N.eq_dec)) Spec.Whirlpool.compress
    (repeat (zeros 8) 8) 64 32 0x80 (fun n => be_bytes 32 (8 * n)) Proof.Whirlpool.mok (@concat N));
    try lia; try discriminate; try lens; try oks; try exact (fun _ H => H); try reflexivity.
  - intros m cs B W. apply Proof.Whirlpool.Whirlpool_digest; [exact B|apply slices_below; lia|].
    eapply N.lt_le_trans; [exact W|]. apply N.pow_le_mono_r; [discriminate|lia].
  - split; [reflexivity|]. repeat constructor.
  - intros s b V L B. now apply Proof.Whirlpool.compress_spec.
  - intros R R' V V'. now apply rows_inj.
  - intros msg msg' L L'. apply (be_len_inj 32 256); [reflexivity| |]; unfold bits_below in *;
      (eapply N.lt_le_trans; [eassumption|]; apply N.pow_le_mono_r; [discriminate|lia]).
Qed.
