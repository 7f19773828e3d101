(** What OPTION_LIFETIMEBOUND promises. *)
From Coq Require Import List Bool Arith.
From Verif Require Import Borrow.
Import ListNotations.

(** q is p or a part of p. *)
Definition within (p q : place) : Prop := fst p = fst q /\ exists l, snd q = snd p ++ l.

(** From p, through parts and references. *)
Inductive reach (m : memory) : place -> place -> Prop :=
| here p q : within p q -> reach m p q
| through p o r q : read m p = Some o -> In r (held o) -> reach m r q -> reach m p q.

(** Through at least one reference that lies in p. *)
Definition beyond (m : memory) (p q : place) : Prop :=
  exists o r, read m p = Some o /\ In r (held o) /\ reach m r q.

(** Nothing but functions that get no function, on options that are not of references where an argument
    would be bound. *)
Definition plain (f : func) : bool :=
  match f with
  | Unchecked | Inspect | OrAssign | Flatten => false
  | ValueOr true | ValueOrConstruct true | Emplace true | TryEmplace true => false
  | MapOr _ | AndThen _ | Map _ | OrElse _ | ZipWith _ => false
  | _ => true
  end.

(** q lies in an argument marked by the annotation, or was reachable through a reference that an
    argument held. *)
Definition accounted (f : func) (m : memory) (args : list arg) (q : place) : Prop :=
  (exists i p rv, nth_error args i = Some (p, rv) /\ annotated f i = true /\ within p q) \/
  (exists i p rv, nth_error args i = Some (p, rv) /\ beyond m p q).

(** The first n objects are the variables; the others are gone at the end of the full expression. *)
Definition dangling (n : nat) (q : place) : Prop := n <= fst q.

(** No object refers to a temporary. *)
Definition settled (n : nat) (m : memory) : Prop :=
  forall o, In o m -> forall q, In q (held o) -> ~ dangling n q.

(** Every expression in e: a variable, an object without references to temporaries, or a call of a plain
    function none of whose marked arguments is a temporary. *)
Fixpoint quiet (n : nat) (e : expr) : bool :=
  match e with
  | Var x => Nat.ltb x n
  | Make o => forallb (fun q => Nat.ltb (fst q) n) (held o)
  | Call f l =>
      let fix all (l : list expr) (i : nat) : bool :=
        match l with
        | [] => true
        | e :: l' => quiet n e && implb (annotated f i) (negb (prvalue e)) && all l' (S i)
        end in
      plain f && all l 0
  end.

(** Every argument that is not marked is a variable. *)
Definition is_var (e : expr) : bool := match e with Var _ => true | _ => false end.

Fixpoint traced (n : nat) (e : expr) : bool :=
  match e with
  | Var x => Nat.ltb x n
  | Make o => forallb (fun q => Nat.ltb (fst q) n) (held o)
  | Call f l =>
      let fix all (l : list expr) (i : nat) : bool :=
        match l with
        | [] => true
        | e :: l' => traced n e && (annotated f i || is_var e) && all l' (S i)
        end in
      plain f && all l 0
  end.
