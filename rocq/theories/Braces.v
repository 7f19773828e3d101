(** a = {} : which assignment of option<T> the compiler chooses, and what it does.

    Models: include/opt/option.hpp 2832-2834, 2903-2930 and option_fwd.hpp 30-36, with the rules of C++ for an
    empty initialiser list as an argument ([over.ics.list], [over.ics.rank], [over.match.best]).  The templates
    at 2932 and 2955 cannot deduce their parameter from {} and take no part. *)
From Coq Require Import NArith Bool List.
From Verif Require Import Outcome Words Constraints Lifetime.
Import ListNotations.

(** What the compiler knows about empty braces. *)
Record blang : Type := mkblang {
  bl : lang;
  scalar_type : ctype -> bool;      (* std::is_scalar of an object type *)
  brace_class : ctype -> bool       (* a class of this type can be initialised from {} *)
}.

(** Implicit conversion sequences from {}.  For a class, a user-defined conversion. *)
Inductive conv : Type := Identity | UserConv | NoConv.

Section Braces.
Context (X : blang).

Definition to_object (t : ctype) : conv :=
  if scalar_type X t then Identity else if brace_class X t then UserConv else NoConv.

(** A reference binds to a temporary, unless it is an lvalue reference to something that is not const. *)
Definition to_param (p : ctype) : conv :=
  match p with
  | ct NoRef c v b => to_object (ct NoRef false false b)
  | ct RRef c v b => to_object (ct NoRef c v b)
  | ct LRef true false b => to_object (ct NoRef true false b)
  | ct LRef _ _ _ => NoConv
  end.

(** The candidates. *)
Inductive candidate : Type :=
  | FromNone       (* operator=(none_t), 2904 *)
  | Copying        (* operator=(const option&), 2909 *)
  | Moving         (* operator=(option&&), 2911 *)
  | FromValueOf.   (* operator=(U&&) with the default U = std::remove_cv_t<T>, 2913-2916 *)

(** none_t has one constructor from its tag, and it is explicit.  option has a default constructor. *)
Definition conversion (t : ctype) (c : candidate) : conv :=
  match c with
  | FromNone => NoConv
  | Copying | Moving => UserConv
  | FromValueOf => to_param (rref (remove_cv t))
  end.

Definition viable (value : bool) (t : ctype) (c : candidate) : bool :=
  match c with FromValueOf => value | _ => true end &&
  match conversion t c with NoConv => false | _ => true end.

(** One candidate is better: by the conversion of its argument; between the two references to option by
    binding an rvalue; else by not being a template. *)
Definition beats (t : ctype) (a b : candidate) : bool :=
  match conversion t a, conversion t b with
  | Identity, UserConv => true
  | UserConv, Identity => false
  | UserConv, UserConv =>
      match a, b with
      | Moving, Copying => true
      | Copying, FromValueOf | Moving, FromValueOf => true
      | _, _ => false
      end
  | _, _ => false
  end.

Definition best (value : bool) (t : ctype) (c : candidate) : bool :=
  viable value t c &&
  forallb (fun d => negb (viable value t d) || beats t c d || match c, d with
    | FromNone, FromNone | Copying, Copying | Moving, Moving | FromValueOf, FromValueOf => true
    | _, _ => false end) [FromNone; Copying; Moving; FromValueOf].

(** [value]: whether the template takes part. *)
Definition chosen_for (value : bool) (t : ctype) : option candidate :=
  find (best value t) [FromNone; Copying; Moving; FromValueOf].

Definition brace_choice (t : ctype) : option candidate :=
  chosen_for (value_assign (bl X) t (remove_cv t)) t.

End Braces.

(** What the assignment does to an option of the class [C]; [i0] is initialisation of a T from {}.  The
    temporary option<T> is made, moved from and destroyed. *)
Definition assign_braces {W} (C : cls W) (i0 : init C) (ch : option candidate) (tmp c : cell C) (w : W)
  : out (cell C * W) :=
  match ch with
  | Some FromValueOf => o_asgn C (IVal i0) c w
  | Some FromNone => o_reset C c w
  | Some Copying | Some Moving =>
      match o_default C tmp with
      | Ret t0 =>
          match (match ch with
                 | Some Moving => o_massign C c (t0, w)
                 | _ => match o_cassign C t0 c w with
                        | Ret (c', w') => Ret (c', (t0, w'))
                        | Exn (c', w') => Exn (c', (t0, w'))
                        | Abort => Abort
                        | Undef => Undef
                        end
                 end) with
          | Ret (c', (t1, w')) =>
              match o_dtor C t1 w' with
              | Ret (_, w'') => Ret (c', w'')
              | Exn _ | Abort => Abort
              | Undef => Undef
              end
          | Exn (c', (t1, w')) =>
              match o_dtor C t1 w' with
              | Ret (_, w'') => Exn (c', w'')
              | Exn _ | Abort => Abort
              | Undef => Undef
              end
          | Abort => Abort
          | Undef => Undef
          end
      | Exn _ => Abort
      | Abort => Abort
      | Undef => Undef
      end
  | None => Undef
  end.
