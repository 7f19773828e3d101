(** std::hash of options of any depth.

    Models: include/opt/option.hpp 4051-4066 (when the specialisation takes part), 4070-4080 (what it computes),
    4082-4093 (references), and the rule of the library that a hash which is not provided can do nothing
    ([unord.hash]). *)
From Coq Require Import NArith Bool List.
From Verif Require Import Convert.
Import ListNotations.
Open Scope N_scope.

(** The types std::hash is asked for. *)
Inductive hty : Type :=
  | TBase (b : nat)
  | TConst (t : hty)
  | TLRef (t : hty)
  | TRRef (t : hty)
  | TOption (t : hty).

(** What the compiler answers about a class std::hash<T> (4057-4063), and whether Hash{}(x) is noexcept. *)
Record answers : Type := mkanswers {
  default_constructible : bool;
  copy_constructible : bool;
  move_constructible : bool;
  destructible : bool;
  invocable : bool;
  quiet : bool }.

(** [unord.hash]: a specialisation that is not provided. *)
Definition disabled : answers := mkanswers false false false false false false.

(** A class with implicit special members and one function (4071-4093). *)
Definition provided (q : bool) : answers := mkanswers true true true true true q.

(** 4055-4064: enable_hash_helper2. *)
Definition helper2 (a : answers) : bool :=
  default_constructible a && copy_constructible a && move_constructible a && destructible a && invocable a.

(** std::remove_const_t. *)
Definition remove_const (t : hty) : hty := match t with TConst t => t | t => t end.

Definition is_reference (t : hty) : bool := match t with TLRef _ | TRRef _ => true | _ => false end.

Section Hash.

(** The library and the user: the classes std::hash<T> for T that are not options; whether the hash of a pointer
    is noexcept. *)
Variable given : hty -> answers.
Variable pointer_quiet : bool.

(** 4070-4093: the specialisation for references is the more special one. *)
Fixpoint hash_class (t : hty) : answers :=
  match t with
  | TOption (TLRef _) | TOption (TRRef _) => provided pointer_quiet
  | TOption (TConst u) => let a := hash_class u in if helper2 a then provided (quiet a) else disabled
  | TOption u => let a := hash_class u in if helper2 a then provided (quiet a) else disabled
  | t => given t
  end.

(** Where an object or the object that a reference refers to is, and what it holds. *)
Record place (X : Type) : Type := mkplace { address : N; content : X }.

Variable X : Type.
Variable object_hash : hty -> X -> N.      (* std::hash<T>{}(x) for T that are not options *)
Variable pointer_hash : N -> N.            (* std::hash<T*>{}(p); the null pointer is 0 *)

(** 4076-4079 and 4084, 4090; [None]: not a value of the type. *)
Fixpoint hash_of (t : hty) (v : value (place X)) : option N :=
  match t, v with
  | TOption (TLRef _), No | TOption (TRRef _), No => Some (pointer_hash 0)
  | TOption (TLRef _), Yes (Leaf p) | TOption (TRRef _), Yes (Leaf p) => Some (pointer_hash (address _ p))
  | TOption (TLRef _), Yes _ | TOption (TRRef _), Yes _ => None
  | TOption _, No => Some 0
  | TOption (TConst u), Yes v => hash_of u v
  | TOption u, Yes v => hash_of u v
  | TOption _, Leaf _ => None
  | t, Leaf p => Some (object_hash t (content _ p))
  | _, _ => None
  end.

End Hash.
Arguments mkplace {X}.
Arguments address {X}.
Arguments content {X}.
Arguments hash_of {X}.
