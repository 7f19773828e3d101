(** Outcomes of C++ code that the model distinguishes.

    Models: include/opt/option.hpp 190-233 (OPTION_VERIFY: in a debug build prints a message and
    traps, in a release build becomes an assumption, i.e. undefined behaviour when false).
    [Verify] is that distinct outcome.  [UB] is undefined behaviour of the code itself (signed
    overflow, reading an invalid bool, touching a dead object, calling a member that does not
    exist). *)

Inductive res (A : Type) : Type :=
| Ok (a : A)
| Verify
| UB.
Arguments Ok {A} a.
Arguments Verify {A}.
Arguments UB {A}.

Definition rbind {A B} (x : res A) (f : A -> res B) : res B :=
  match x with
  | Ok a => f a
  | Verify => Verify
  | UB => UB
  end.

Definition rmap {A B} (f : A -> B) (x : res A) : res B :=
  match x with
  | Ok a => Ok (f a)
  | Verify => Verify
  | UB => UB
  end.

(** OPTION_VERIFY(cond) followed by the rest of the function. *)
Definition verify {A} (cond : bool) (k : res A) : res A :=
  if cond then k else Verify.

Declare Scope res_scope.
Delimit Scope res_scope with res.
Notation "'let*' x := e 'in' k" := (rbind e (fun x => k))
  (at level 200, x name, e at level 100, k at level 200, right associativity) : res_scope.
