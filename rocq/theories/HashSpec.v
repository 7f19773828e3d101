(** What the documentation and the requirements of hash tables ask of std::hash of options: C75.

    docs/reference.md 2119-2137. *)
From Coq Require Import NArith Bool List.
From Verif Require Import Convert Compare Hash.
Import ListNotations.
Open Scope N_scope.

(** Types one can write: const is not repeated and not applied to references; options hold no references to
    references. *)
Fixpoint well_formed (t : hty) : bool :=
  match t with
  | TBase _ => true
  | TConst (TConst _) | TConst (TLRef _) | TConst (TRRef _) => false
  | TConst t => well_formed t
  | TLRef (TLRef _) | TLRef (TRRef _) | TRRef (TLRef _) | TRRef (TRRef _) => false
  | TLRef t | TRRef t => well_formed t
  | TOption t => well_formed t
  end.

(** The type that is left when the options, and const inside an option, are taken away. *)
Fixpoint strip (t : hty) : hty :=
  match t with
  | TOption u => strip u
  | TConst u => strip u
  | t => t
  end.
Definition innermost (t : hty) : hty := match t with TOption u => strip u | t => t end.

(** A hash that can be used in a table. *)
Definition usable (a : answers) : Prop :=
  default_constructible a = true /\ copy_constructible a = true /\ move_constructible a = true /\
  destructible a = true /\ invocable a = true.

(** The library's hashes: one that can be made can be used ([unord.hash]). *)
Definition honest (given : hty -> answers) : Prop :=
  forall t, default_constructible (given t) = true -> usable (given t).

(** The number of options around the innermost type. *)
Fixpoint depth (t : hty) : nat :=
  match t with
  | TOption u => S (depth u)
  | TConst u => depth u
  | _ => O
  end.

(** The type as the comparison operators see it: references and const do not matter. *)
Fixpoint compared (t : hty) : cty :=
  match t with
  | TBase b => Plain b
  | TConst u | TLRef u | TRRef u => compared u
  | TOption u => Opt (compared u)
  end.
