(** Hashers whose output size is chosen at run time: the [VariableOutputCore] implementations of the
    crates under the digest crate's [RtVariableCoreWrapper] (new, update, finalize_variable). *)
From Verif Require Import Base.Words Base.Bytes Base.BlockBuffer Base.Digest Spec.Sizes.
From Verif Require Model.Blake2 Model.Groestl Model.Jh Model.Kupyna Model.Sha2 Model.Shabal Model.Streebog.

(** The same hasher started from a given core state. *)
Definition with_init (C : core) (ini : cst C) : core :=
  mkCore (cst C) (c_bs C) (c_kind C) ini (c_ibuf C) (c_update C) (c_final C) (fun _ => (ini, c_ibuf C)) (c_codec C).

(** The families (Spec/Sizes.v) are the [impl VariableOutputCore]: sha2/src/core_api.rs 52-75, 168-193; blake2/src/macros.rs 206-227
    (b and s); groestl/src/lib.rs 76-107, 206-237; kupyna/src/short.rs 51-97, kupyna/src/long.rs 51-99;
    streebog/src/core_api.rs 118-142; jh/src/lib.rs 74-107; shabal/src/core_api.rs 190-235. *)

(** What a constructor call gives: a hasher, [Err(InvalidOutputSize)], or a panic. *)
Inductive made := Made (C : core) | InvalidOutputSize | Panics.
Definition of_result (C : core) (r : option (cst C)) : made :=
  match r with Some ini => Made (with_init C ini) | None => InvalidOutputSize end.
(** [RtVariableCoreWrapper::new] calls the core's [new] (citations at each of them) *)
Definition rt_new (f : family) (n : nat) : made :=
  match f with
  | FSha256 => of_result (Model.Sha2.sha256_var_core [] n) (Model.Sha2.sha256_new n)
  | FSha512 => of_result (Model.Sha2.sha512_var_core [] n) (Model.Sha2.sha512_new n)
  | FBlake2b =>
      match Model.Blake2.var_new Model.Blake2.Blake2b n with
      | Some (Some ini) => Made (Model.Blake2.blake2_core Model.Blake2.Blake2b ini [] n)
      | Some None => InvalidOutputSize
      | None => Panics
      end
  | FBlake2s =>
      match Model.Blake2.var_new Model.Blake2.Blake2s n with
      | Some (Some ini) => Made (Model.Blake2.blake2_core Model.Blake2.Blake2s ini [] n)
      | Some None => InvalidOutputSize
      | None => Panics
      end
  | FGroestlShort => of_result (Model.Groestl.GroestlShort n) (Model.Groestl.var_new Model.Groestl.v512 n)
  | FGroestlLong => of_result (Model.Groestl.GroestlLong n) (Model.Groestl.var_new Model.Groestl.v1024 n)
  | FKupynaShort => of_result (Model.Kupyna.KupynaShort n) (Model.Kupyna.short_new n)
  | FKupynaLong => of_result (Model.Kupyna.KupynaLong n) (Model.Kupyna.long_new n)
  | FStreebog => of_result (Model.Streebog.streebog_core n 0) (Model.Streebog.var_new n)
  | FJh => of_result (Model.Jh.jh_core [] n) (Model.Jh.var_new n)
  | FShabal => of_result (Model.Shabal.shabal_core ([], [], []) n) (Model.Shabal.var_new n)
  end.
(** [Default] of the fixed-size types ([CtVariableCoreWrapper]) is [new(N).expect(..)] *)
Definition ct_new (f : family) (n : nat) : option core := match rt_new f n with Made C => Some C | _ => None end.
