(** The options of the collision-detecting SHA-1 hasher as its documentation describes them: each has a
    default, and setting one replaces its value and touches no other. *)
From Coq Require Import List Bool.
Import ListNotations.

Inductive opt := DetectCollision | SafeHash | UseUbc | ReducedRoundCollision.
Definition opt_eqb (a b : opt) : bool :=
  match a, b with
  | DetectCollision, DetectCollision | SafeHash, SafeHash | UseUbc, UseUbc | ReducedRoundCollision, ReducedRoundCollision => true
  | _, _ => false
  end.
Definition default (o : opt) : bool := match o with ReducedRoundCollision => false | _ => true end.
(** The value after some settings, in the order they were made: the last one, or the default. *)
Definition in_force (settings : list (opt * bool)) (o : opt) : bool :=
  match find (fun s => opt_eqb (fst s) o) (rev settings) with Some s => snd s | None => default o end.
