(** What options of references should be bound to. *)
From Coq Require Import List Bool Arith.
From Verif Require Import RefBind.
Import ListNotations.

(** The type number t is n itself, or a base of it that lies at p. *)
Inductive lies (L : lang) : nat -> nat -> list nat -> Prop :=
| lies_here n : lies L n n []
| lies_base n t p : n <> t -> l_base L n t = Some p -> lies L n t p.

(** No part of n is a t. *)
Definition unrelated (L : lang) (n t : nat) : Prop := n <> t /\ l_base L n t = None.

(** const is not lost. *)
Definition keeps (from to : bool) : Prop := from = true -> to = true.

(** The argument itself may be referred to: it is of the type or derived from it, const is kept, and lvalues go with
    &, rvalues with &&. *)
Definition fits (L : lang) (T : refty) (e : expr) (p : list nat) : Prop :=
  exists n, e_type e = Plain n /\ lies L n (r_type T) p /\ keeps (e_const e) (r_const T) /\ e_lv e = negb (r_rv T).
(** A std::reference_wrapper (not a const one) of exactly the type, or of the type without const. *)
Definition wraps (T : refty) (e : expr) : Prop :=
  e_const e = false /\ exists c, e_type e = Wrapper c (r_type T) /\ keeps c (r_const T).

(** An object that exists when the call is over: not a temporary of the call. *)
Definition outlives (g : target) : Prop := g <> Temporary.
