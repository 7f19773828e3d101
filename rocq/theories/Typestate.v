(** The typestate annotations of opt::option.

    Models: include/opt/option.hpp 275-293 (the macros, empty unless OPTION_CONSUMED_ANNOTATION_CHECKING),
    2794 and 2832-3124 (the annotated class and its members), and how Clang's -Wconsumed uses them, as far
    as it concerns variables on one path of execution (the rules are those of Clang's Consumed.cpp; they are
    not part of the repository).  In these annotations "consumed" stands for "has a value" and "unconsumed"
    for "empty". *)
From Coq Require Import Bool Arith List.
From Verif Require Import Outcome Lifetime LifetimeSpec History.
Import ListNotations.

Inductive tstate : Type := Unknown | Consumed | Unconsumed.

Inductive fn : Type :=
| CtorNone            (* option(), option(none): 2832-2836 *)
| CtorValue           (* from a value, from arguments: 2842-2871 *)
| CtorOption          (* from option<U>: 2873-2901 *)
| AssignNone          (* 2903 *)
| AssignValue         (* 2912-2930 *)
| AssignOption        (* 2932-2977 *)
| DoReset             (* 2996 *)
| DoEmplace           (* 3000 *)
| DoTryEmplace        (* 3008 *)
| HasValue            (* 3017-3024 *)
| DoTake              (* 3035 *)
| DoTakeIf            (* 3042 *)
| Access              (* get, operator->, operator*: 3059-3124 *)
| DoSwap.             (* 3253 *)

Definition set_typestate (f : fn) : option tstate :=
  match f with
  | AssignNone | DoTake => Some Unconsumed
  | AssignValue | DoEmplace | DoTryEmplace => Some Consumed
  | _ => None
  end.
Definition return_typestate (f : fn) : option tstate :=
  match f with
  | CtorNone => Some Unconsumed
  | CtorValue => Some Consumed
  | DoTake => Some Unknown
  | _ => None
  end.
Definition callable_when (f : fn) : option tstate := match f with Access => Some Consumed | _ => None end.
Definition test_typestate (f : fn) : option tstate := match f with HasValue => Some Consumed | _ => None end.
(** 2794: the state of an object that nothing else is known about. *)
Definition consumable : tstate := Unconsumed.

(** What is known about the variables. *)
Definition knowledge : Type := nat -> tstate.
Definition know (e : knowledge) (x : nat) (s : tstate) : knowledge := fun y => if Nat.eqb x y then s else e y.

Section Analysis.
Context {W : Type} {C : cls W} {Sm : sem C}.
(** [true]: the rules of Clang.  [false]: whatever has no annotation is unknown, and a move leaves the
    knowledge about its source alone. *)
Variable clang : bool.

(** The object a member function was called on, and an object that a function returned. *)
Definition object (f : fn) (s : tstate) : tstate :=
  match set_typestate f with Some s' => s' | None => if clang then s else Unknown end.
Definition result (f : fn) : tstate :=
  match return_typestate f with Some s => s | None => if clang then consumable else Unknown end.
(** An argument for a parameter option&&, and for a parameter option&. *)
Definition moved (s : tstate) : tstate := if clang then Consumed else s.
Definition borrowed : tstate := Unknown.

Definition ctor_fn {I} (i : oinit I) : fn :=
  match i with INone => CtorNone | IVal _ => CtorValue | IConv _ => CtorOption end.

(** After a call that returned ([threw] = false) or threw.  No path of Clang's analysis goes through an
    exception; the variables are taken as unknown. *)
Definition after (o : call C Sm) (threw : bool) (e : knowledge) : knowledge :=
  match o with
  | New x i _ => if threw then e else know e x (result (ctor_fn i))
  | NewCopy x y _ => if threw then e else know e x (e y)
  | NewMove x y _ => if threw then know e y Unknown else know (know e y (moved (e y))) x (e y)
  | NewTake _ x y _ => if threw then know e y Unknown else know (know e y (object DoTake (e y))) x (result DoTake)
  | NewTakeIf _ _ _ x y _ =>
      if threw then know e y Unknown else know (know e y (object DoTakeIf (e y))) x (result DoTakeIf)
  | Destroy x => know e x Unknown
  | Assign x i =>
      if threw then know e x Unknown
      else match i with
           | INone => know e x (object AssignNone (e x))
           | IVal _ => know e x (object AssignValue (e x))
           | IConv _ => know e x Unknown          (* the state of the other option, which is no variable here *)
           end
  | CopyAssign x y => if threw then know e x Unknown else know e x (e y)
  | MoveAssign x y =>
      if threw then know (know e y Unknown) x Unknown else know (know e y (moved (e y))) x (e y)
  | Reset x => if threw then know e x Unknown else know e x (object DoReset (e x))
  | Emplace x _ | EmplaceFrom x _ => if threw then know e x Unknown else know e x (object DoEmplace (e x))
  | TryEmplace x _ => if threw then know e x Unknown else know e x (object DoTryEmplace (e x))
  | SetFrom x _ => if threw then know e x Unknown else know e x (object AssignValue (e x))
  | Swap x y =>
      if threw then know (know e y Unknown) x Unknown
      else if Nat.eqb x y then know e x borrowed else know (know e y borrowed) x (object DoSwap (e x))
  | Update x _ _ => e                              (* operator* gives a T&, which is no option *)
  end.

(** The variable whose value a call asks for, and whether no warning is given. *)
Definition accessed (o : call C Sm) : option nat :=
  match o with
  | Update x _ _ => Some x
  | EmplaceFrom _ y | SetFrom _ y => Some y
  | _ => None
  end.
Definition silent (o : call C Sm) (e : knowledge) : bool :=
  match accessed o, callable_when Access with
  | Some x, Some Consumed => match e x with Consumed => true | _ => false end
  | _, _ => true
  end.

(** A path of execution: calls, and tests whose answer decided the branch that was taken. *)
Inductive event : Type :=
| Do (o : call C Sm) (threw : bool)
| Saw (x : nat) (answer : bool).

(** The state tested for, or its opposite. *)
Definition tested (answer : bool) : tstate :=
  match test_typestate HasValue with
  | Some Consumed => if answer then Consumed else Unconsumed
  | Some Unconsumed => if answer then Unconsumed else Consumed
  | _ => Unknown
  end.

Fixpoint analysed (p : list event) (e : knowledge) : knowledge :=
  match p with
  | [] => e
  | Do o k :: p => analysed p (after o k e)
  | Saw x b :: p => analysed p (know e x (tested b))
  end.

(** No warning on the path, nor at the call [o] after it. *)
Fixpoint accepted (p : list event) (o : call C Sm) (e : knowledge) : bool :=
  match p with
  | [] => silent o e
  | Do o' k :: p => silent o' e && accepted p o (after o' k e)
  | Saw x b :: p => accepted p o (know e x (tested b))
  end.
End Analysis.
Arguments event {W} C Sm.

(** The program takes this path from variables l and world w to l' and w'. *)
Fixpoint takes {W} (C : cls W) (Sm : sem C) (p : list (event C Sm)) (l : vars C) (w : W) (l' : vars C) (w' : W) : Prop :=
  match p with
  | [] => l' = l /\ w' = w
  | Do o threw :: p => exists l1 w1,
      step C Sm o l w = (if threw then SThrow l1 w1 else SRet l1 w1) /\ takes C Sm p l1 w1 l' w'
  | Saw x b :: p => (exists c, slot l x = Some c /\ o_has C c = Ok b) /\ takes C Sm p l w l' w'
  end.
