(** The typestate analysis of programs with branches, loops, returns and exceptions.

    Models: include/opt/option.hpp 275-293, 3017-3024 (the annotations as used by a whole function).  The rules for
    branches are those of Clang's Consumed.cpp (splitVarStateForIf, ConsumedStateMap::intersect,
    intersectAtLoopHead), which are not part of the repository:
    - A test of a variable whose state is known makes one branch unreachable; unreachable code is not looked at.
    - Where branches meet, what they disagree about becomes unknown.
    - At the end of a loop's body every variable must be as it was before the loop, otherwise there is a warning.
    - No edge leads from a call to a handler, so that handlers are not looked at. *)
From Coq Require Import Bool Arith List.
From Verif Require Import Outcome Lifetime LifetimeSpec History Typestate.
Import ListNotations.

Section Statements.
Context {W : Type} (C : cls W) (Sm : sem C).
Inductive stmt : Type :=
| Skip
| Act (o : call C Sm)
| Seq (a b : stmt)
| If (x : nat) (answer : bool) (a b : stmt)      (* if (x.has_value()) a else b; with false: if (!x.has_value()) *)
| Either (a b : stmt)                            (* a condition that does not test an option *)
| While (x : nat) (answer : bool) (a : stmt)
| Repeat (a : stmt)
| Return
| Try (a h : stmt).
End Statements.
Arguments Skip {W C Sm}.
Arguments Act {W C Sm} o.
Arguments Seq {W C Sm} a b.
Arguments If {W C Sm} x answer a b.
Arguments Either {W C Sm} a b.
Arguments While {W C Sm} x answer a.
Arguments Repeat {W C Sm} a.
Arguments Return {W C Sm}.
Arguments Try {W C Sm} a h.

Definition nothing : knowledge := fun _ => Unknown.
Definition same_tstate (a b : tstate) : bool :=
  match a, b with Unknown, Unknown | Consumed, Consumed | Unconsumed, Unconsumed => true | _, _ => false end.
(** Only about the variables [vs]. *)
Definition only (vs : list nat) (e : knowledge) : knowledge := fun x => if existsb (Nat.eqb x) vs then e x else Unknown.
Definition agree (vs : list nat) (e f : knowledge) : bool := forallb (fun x => same_tstate (e x) (f x)) vs.
(** None: unreachable. *)
Definition meet (e f : option knowledge) : option knowledge :=
  match e, f with
  | Some e, Some f => Some (fun x => if same_tstate (e x) (f x) then e x else Unknown)
  | Some e, None => Some e
  | None, f => f
  end.
(** On the branch on which the test of x gave the answer b. *)
Definition learn (x : nat) (b : bool) (e : knowledge) : option knowledge :=
  match e x with
  | Unknown => Some (know e x (tested b))
  | s => if same_tstate s (tested b) then Some e else None
  end.
Definition on_branch (x : nat) (b : bool) (e : option knowledge) : option knowledge :=
  match e with Some e => learn x b e | None => None end.

Section Flow.
Context {W : Type} {C : cls W} {Sm : sem C}.
(** [true]: the rules of Clang.  [false]: those of [after false], and nothing is known in a handler. *)
Variable clang : bool.
(** All variables of the function. *)
Variable vs : list nat.

(** Whether there is no warning, and what is known afterwards. *)
Fixpoint flow (s : stmt C Sm) (e : option knowledge) : bool * option knowledge :=
  match s with
  | Skip => (true, e)
  | Act o => match e with Some e => (silent o e, Some (after clang o false e)) | None => (true, None) end
  | Seq a b => let (k, e1) := flow a e in let (k', e2) := flow b e1 in (k && k', e2)
  | If x ans a b =>
      let (k, e1) := flow a (on_branch x ans e) in
      let (k', e2) := flow b (on_branch x (negb ans) e) in (k && k', meet e1 e2)
  | Either a b => let (k, e1) := flow a e in let (k', e2) := flow b e in (k && k', meet e1 e2)
  | While x ans a =>
      match e with
      | Some e =>
          let e0 := only vs e in
          let (k, e1) := flow a (learn x ans e0) in
          (k && match e1 with Some e1 => agree vs e0 e1 | None => true end, learn x (negb ans) e0)
      | None => (true, None)
      end
  | Repeat a =>
      match e with
      | Some e =>
          let e0 := only vs e in
          let (k, e1) := flow a (Some e0) in
          (k && match e1 with Some e1 => agree vs e0 e1 | None => true end, Some e0)
      | None => (true, None)
      end
  | Return => (true, None)
  | Try a h =>
      let (k, e1) := flow a e in
      let (k', e2) := flow h (if clang then None else Some nothing) in (k && k', meet e1 e2)
  end.
(** No warning in a function in which nothing is known at first. *)
Definition unwarned (s : stmt C Sm) : bool := fst (flow s (Some nothing)).
End Flow.

(** What is known about a parameter: an option by value is as the class says (2794), a reference is unknown. *)
Definition parameter (by_value : bool) : tstate := if by_value then consumable else Unknown.
