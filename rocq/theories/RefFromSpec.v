(** What an option of references that is made from another option should be bound to. *)
From Coq Require Import List Bool Arith.
From Verif Require Import RefBind RefBindSpec RefFrom.
Import ListNotations.

(** What is contained is of the type or derived from it, and const is kept. *)
Definition holds_a (L : lang) (T : refty) (o : other) (p : list nat) : Prop :=
  exists n, o_type o = Plain n /\ lies L n (r_type T) p /\ keeps (o_const o) (r_const T).
(** option<X&> for option<T&>; option<X&&> or option<X> for option<T&&>. *)
Definition kin (T : refty) (o : other) : Prop := r_rv T = false <-> o_held o = Left.
(** It contains a std::reference_wrapper (not a const one) of the type, or of the type without const. *)
Definition holds_wrapper (T : refty) (o : other) : Prop :=
  o_const o = false /\ exists c, o_type o = Wrapper c (r_type T) /\ keeps c (r_const T).
(** The other option is of the same type. *)
Definition same_option (T : refty) (o : other) : Prop :=
  o_type o = Plain (r_type T) /\ o_const o = r_const T /\ o_held o = if r_rv T then Right else Left.
(** A new option<U> can be made of an lvalue of what is contained. *)
Definition remade (L : lang) (o : other) : Prop :=
  (o_held o = Object /\ o_copies o = true) \/
  (o_held o = Left /\ forall n, o_type o = Plain n -> l_option L n = false).
