(** Building a sha1-checked hasher by a chain of [Builder] calls. *)
From Coq Require Import List.
From Verif Require Import Spec.Options Model.Sha1Checked.

(** sha1-checked/src/lib.rs 281-304: one call *)
Definition set_option (b : Builder) (s : opt * bool) : Builder :=
  match fst s with
  | DetectCollision => detect_collision b (snd s)
  | SafeHash => set_safe_hash b (snd s)
  | UseUbc => set_use_ubc b (snd s)
  | ReducedRoundCollision => set_reduced_round_collision b (snd s)
  end.
(** sha1-checked/src/lib.rs 69-72, 270-279: [Sha1::builder()] followed by calls.  Without calls this is what
    [Sha1::default] and [Sha1::new] (57-67) build. *)
Definition configure (settings : list (opt * bool)) : Builder := fold_left set_option settings builder.
