(** The paths of a program with branches, loops, returns and exceptions. *)
From Coq Require Import Bool Arith List.
From Verif Require Import Outcome Lifetime LifetimeSpec History Typestate TypestateFlow.
Import ListNotations.

Inductive ending : Type := Through | Thrown | Returned.

Section Paths.
Context {W : Type} {C : cls W} {Sm : sem C}.

(** A run of the statement: what happens, and how it ends. *)
Inductive path : stmt C Sm -> list (event C Sm) -> ending -> Prop :=
| p_skip : path Skip [] Through
| p_act o : path (Act o) [Do o false] Through
| p_throw o : path (Act o) [Do o true] Thrown
| p_seq a b p q r : path a p Through -> path b q r -> path (Seq a b) (p ++ q) r
| p_seq_left a b p r : path a p r -> r <> Through -> path (Seq a b) p r
| p_if x ans a b p r : path a p r -> path (If x ans a b) (Saw x ans :: p) r
| p_else x ans a b p r : path b p r -> path (If x ans a b) (Saw x (negb ans) :: p) r
| p_either_left a b p r : path a p r -> path (Either a b) p r
| p_either_right a b p r : path b p r -> path (Either a b) p r
| p_while_end x ans a : path (While x ans a) [Saw x (negb ans)] Through
| p_while x ans a p q r : path a p Through -> path (While x ans a) q r -> path (While x ans a) (Saw x ans :: p ++ q) r
| p_while_left x ans a p r : path a p r -> r <> Through -> path (While x ans a) (Saw x ans :: p) r
| p_repeat_end a : path (Repeat a) [] Through
| p_repeat a p q r : path a p Through -> path (Repeat a) q r -> path (Repeat a) (p ++ q) r
| p_repeat_left a p r : path a p r -> r <> Through -> path (Repeat a) p r
| p_return : path Return [] Returned
| p_try a h p r : path a p r -> r <> Thrown -> path (Try a h) p r
| p_catch a h p q r : path a p Thrown -> path h q r -> path (Try a h) (p ++ q) r.

(** A run of the statement comes to the call [o] after [p]. *)
Inductive comes_to : stmt C Sm -> list (event C Sm) -> call C Sm -> Prop :=
| c_act o : comes_to (Act o) [] o
| c_seq_left a b p o : comes_to a p o -> comes_to (Seq a b) p o
| c_seq a b p q o : path a p Through -> comes_to b q o -> comes_to (Seq a b) (p ++ q) o
| c_if x ans a b p o : comes_to a p o -> comes_to (If x ans a b) (Saw x ans :: p) o
| c_else x ans a b p o : comes_to b p o -> comes_to (If x ans a b) (Saw x (negb ans) :: p) o
| c_either_left a b p o : comes_to a p o -> comes_to (Either a b) p o
| c_either_right a b p o : comes_to b p o -> comes_to (Either a b) p o
| c_while_first x ans a p o : comes_to a p o -> comes_to (While x ans a) (Saw x ans :: p) o
| c_while x ans a p q o : path a p Through -> comes_to (While x ans a) q o -> comes_to (While x ans a) (Saw x ans :: p ++ q) o
| c_repeat_first a p o : comes_to a p o -> comes_to (Repeat a) p o
| c_repeat a p q o : path a p Through -> comes_to (Repeat a) q o -> comes_to (Repeat a) (p ++ q) o
| c_try a h p o : comes_to a p o -> comes_to (Try a h) p o
| c_catch a h p q o : path a p Thrown -> comes_to h q o -> comes_to (Try a h) (p ++ q) o.

(** All calls of a program. *)
Fixpoint all_calls (P : call C Sm -> Prop) (s : stmt C Sm) : Prop :=
  match s with
  | Skip | Return => True
  | Act o => P o
  | Seq a b | If _ _ a b | Either a b | Try a b => all_calls P a /\ all_calls P b
  | While _ _ a | Repeat a => all_calls P a
  end.

(** Calls of functions whose annotations say what they do: no reset, swap, take_if, moves, nor construction from an
    option of another type. *)
Definition annotated (o : call C Sm) : Prop :=
  match o with
  | New _ (IConv _) _ | NewMove _ _ _ | NewTakeIf _ _ _ _ _ _ | MoveAssign _ _ | Reset _ | Swap _ _ => False
  | _ => True
  end.
Fixpoint no_handlers (s : stmt C Sm) : Prop :=
  match s with
  | Try _ _ => False
  | Seq a b | If _ _ a b | Either a b => no_handlers a /\ no_handlers b
  | While _ _ a | Repeat a => no_handlers a
  | _ => True
  end.
End Paths.
