(** What a failed OPTION_VERIFY does, and throw_bad_access.

    Models: include/opt/option.hpp 190-233 (the replacements of OPTION_VERIFY), 2510-2530 (bad_access,
    throw_bad_access), 2602-2606 (value_or_throw), 3060-3123 (get, operator* and operator->: a check
    followed by the object in the storage).

    The meaning of a replacement text is that of the compilers' documentation: __builtin_trap ends the
    program, while a breakpoint or a signal may be resumed by whoever handles it; an assumption that
    does not hold is undefined behaviour. *)

From Coq Require Import ZArith String List Bool.
From Verif Require Import Preproc Config Lifetime History.
Open Scope string_scope.

Inductive effect :=
| Reports (final : bool)      (* prints a message and breaks; [final]: cannot be resumed *)
| Assumes                     (* the compiler takes it to be true *)
| Ignores                     (* not evaluated *)
| Delegates                   (* libassert *)
| Custom.                     (* a replacement of the user's own *)

Definition unresumable (b : option body) : bool :=
  match b with
  | Some (Text t) => String.eqb t trap
  | _ => false
  end.

Definition effect_of (s : macros) : effect :=
  match s "OPTION_VERIFY" with
  | Some (Text t) =>
      if String.eqb t by_libassert then Delegates
      else if String.eqb t by_message then Reports (unresumable (s "OPTION_DEBUG_BREAK"))
      else if String.eqb t by_assume || String.eqb t by_builtin_assume ||
              String.eqb t by_attribute || String.eqb t by_unreachable then Assumes
      else if String.eqb t by_nothing then Ignores
      else Custom
  | _ => Custom
  end.

(** How a call ends. *)
Inductive conduct (A : Type) :=
| Returns (a : A)
| Throws
| Ends                        (* a message on stderr and the end of the program *)
| Undefined
| Handled.                    (* left to libassert or to the user's macro *)
Arguments Returns {A} a.
Arguments Throws {A}.
Arguments Ends {A}.
Arguments Undefined {A}.
Arguments Handled {A}.

(** A check that does not hold, followed by [rest]. *)
Definition false_check {A} (e : effect) (resumed : bool) (rest : conduct A) : conduct A :=
  match e with
  | Reports final => if final || negb resumed then Ends else rest
  | Assumes => Undefined
  | Ignores => rest
  | Delegates | Custom => Handled
  end.

Definition check_then {A} (e : effect) (resumed : bool) (b : bool) (rest : conduct A) : conduct A :=
  if b then rest else false_check e resumed rest.

(** A build: what a check does, whether exceptions are on, whether a debugger resumes. *)
Record build := { checks : effect; throws : bool; resumed : bool }.

Definition build_of (w : world) (s : macros) (resume : bool) : build :=
  {| checks := effect_of s;
     throws := match evaluate w s exceptions_on with Some z => Preproc.holds z | None => false end;
     resumed := resume |}.

(** 2523-2529.  A [[noreturn]] function that returns is undefined behaviour. *)
Definition throw_bad_access {A} (b : build) : conduct A :=
  if throws b then Throws else false_check (checks b) (resumed b) Undefined.

(** get(), operator* and operator-> on storage that holds [x] or nothing; [stale] is what the storage
    shows without an object. *)
Definition get_in {A} (b : build) (x : option A) (stale : A) : conduct A :=
  check_then (checks b) (resumed b) (match x with Some _ => true | None => false end)
    (Returns (match x with Some a => a | None => stale end)).

(** 2602-2606: if (!has_value()) { throw_bad_access(); } return *self; *)
Definition value_or_throw_in {A} (b : build) (x : option A) (stale : A) : conduct A :=
  match x with
  | Some _ => get_in b x stale
  | None => throw_bad_access b
  end.

(** A history of calls (History), in a build: after a failed check the call would use an object that
    is not there. *)
Definition history_in {W} {C : cls W} (b : build) (h : hout C) : conduct (vars C * W) :=
  match h with
  | HDone _ l w => Returns (l, w)
  | HAbort _ => false_check (checks b) (resumed b) Undefined
  | HUndef => Undefined
  | HBad => Undefined
  end.
