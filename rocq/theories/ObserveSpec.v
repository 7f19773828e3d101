(** The order on optionals, and what it means for T's operators to fit together. *)
From Coq Require Import NArith ZArith Bool List.
From Verif Require Import Outcome Words Lifetime LifetimeSpec.
Import ListNotations.

(** [None] is below every [Some]; two [Some]s compare like their contents. *)
Inductive rel6 : Type := REq | RNe | RLt | RLe | RGt | RGe.

Definition of_comparison (r : rel6) (c : comparison) : bool :=
  match r, c with
  | REq, Eq => true
  | REq, _ => false
  | RNe, Eq => false
  | RNe, _ => true
  | RLt, Lt => true
  | RLt, _ => false
  | RLe, Gt => false
  | RLe, _ => true
  | RGt, Gt => true
  | RGt, _ => false
  | RGe, Lt => false
  | RGe, _ => true
  end.

(** Six arbitrary operators between A and B, lifted to optionals. *)
Definition lift6 {A B} (r : rel6) (op : A -> B -> bool) (a : option A) (b : option B) : bool :=
  match a, b with
  | Some x, Some y => op x y
  | Some _, None => of_comparison r Gt
  | None, Some _ => of_comparison r Lt
  | None, None => of_comparison r Eq
  end.

(** A family of operators is consistent if each pair of arguments has one answer to "how do they
    compare", from which all six follow. *)
Definition consistent {A B} (op : rel6 -> A -> B -> bool) : Prop :=
  forall x y, exists c, forall r, op r x y = of_comparison r c.

(** Swapping the arguments swaps the direction. *)
Definition mirror (r : rel6) : rel6 :=
  match r with
  | REq => REq
  | RNe => RNe
  | RLt => RGt
  | RLe => RGe
  | RGt => RLt
  | RGe => RLe
  end.

Definition negate (r : rel6) : rel6 :=
  match r with
  | REq => RNe
  | RNe => REq
  | RLt => RGe
  | RLe => RGt
  | RGt => RLe
  | RGe => RLt
  end.

Definition mirrored {A B} (op : rel6 -> A -> B -> bool) (op' : rel6 -> B -> A -> bool) : Prop :=
  forall r x y, op' (mirror r) y x = op r x y.

Definition strict_weak {A} (lt : A -> A -> bool) : Prop :=
  (forall x, lt x x = false) /\
  (forall x y z, lt x y = true -> lt y z = true -> lt x z = true) /\
  (forall x y z, lt x y = false -> lt y x = false -> lt y z = false -> lt z y = false -> lt x z = false /\ lt z x = false).

Definition equivalence {A} (eq : A -> A -> bool) : Prop :=
  (forall x, eq x x = true) /\ (forall x y, eq x y = true -> eq y x = true) /\
  (forall x y z, eq x y = true -> eq y z = true -> eq x z = true).

(** T's operator computes [f] on the values. *)
Definition computes {W W'} {C : cls W} {D : cls W'} (S : sem C) (T : sem D) (op : raw C -> raw D -> out bool) (f : V S -> V T -> bool) : Prop :=
  forall x y, ok S x -> ok T y -> op x y = Ret (f (val S x) (val T y)).
