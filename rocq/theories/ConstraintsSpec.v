(** What the documentation says about the constructors and assignments (docs/reference.md 92-211, 304-406,
    2455-2493), and which answers of the compiler are possible. *)
From Coq Require Import Bool List Arith.
From Verif Require Import Constraints.
Import ListNotations.

Section Doc.
Context (L : lang).

(** std::is_lvalue_reference *)
Definition lvalue_reference (x : ctype) : bool := match x with ct LRef _ _ _ => true | ct _ _ _ _ => false end.

(** can_bind_reference as it is meant: the condition for lvalue references applies only when the pointers
    convert. *)
Definition can_bind (x y : ctype) : bool :=
  same (remove_reference y) (plain (WrapperOf (remove_const (remove_reference x)))) ||
  same (remove_reference y) (plain (WrapperOf (remove_reference x))) ||
  (ptr_convertible L (remove_reference y) (remove_reference x) && (if lvalue_reference x then lvalue_reference y else negb (lvalue_reference y))).

(** The same as it is printed: the conditional operator binds weaker than the conjunction. *)
Definition can_bind_printed (x y : ctype) : bool :=
  same (remove_reference y) (plain (WrapperOf (remove_const (remove_reference x)))) ||
  same (remove_reference y) (plain (WrapperOf (remove_reference x))) ||
  (if ptr_convertible L (remove_reference y) (remove_reference x) && lvalue_reference x then lvalue_reference y else negb (lvalue_reference y)).

(** A T can be made of the arguments: with parentheses, or before C++20 with braces if it is an aggregate. *)
Definition made_of (t : ctype) (args : list ctype) : bool :=
  constructible L t args || (negb (cxx20 L) && aggregate L t && braces L t args).

(** docs/reference.md 2477-2499: from an option<U> of some category and constness. *)
Definition categories (o : ctype) : list ctype := [lref o; const_lref o; rref o; const_rref o].
Definition made_from_option (t u : ctype) : bool :=
  existsb (fun q => constructible L t [q] || convertible L q t) (categories (option_of u)).
Definition assigned_from_option (t u : ctype) : bool :=
  existsb (assignable L (lref t)) (categories (option_of u)).

(** 92-109, reading "constructible" as [made_of]. *)
Definition doc_value_ctor (t u : ctype) : bool :=
  if is_reference t then
    negb (same (remove_cvref u) (option_of t)) && negb (same (remove_cvref u) in_place_t) &&
    negb (is_option (remove_cvref u)) && can_bind t u
  else
    made_of t [u] && negb (same (remove_cvref u) (option_of t)) &&
    negb (same (remove_cvref u) in_place_t) &&
    (negb (same (remove_cvref t) (plain Bool)) || negb (is_option (remove_cvref u))).
Definition doc_value_explicit (t u : ctype) : bool := negb (is_reference t) && negb (convertible L u t).

(** 116-127. *)
Definition doc_args_ctor (t first : ctype) (rest : list ctype) : bool :=
  negb (is_reference t) && (constructible L t (first :: rest) || made_of t (first :: rest)) &&
  negb (same (remove_cvref first) (option_of t)).

(** 160-184 and 187-211.  [q]: const U& or U&&. *)
Definition doc_option_ctor (t u q : ctype) : bool :=
  if is_reference t then negb (same t u) && can_bind t u
  else made_of t [q] && negb (same t u) &&
       (same (remove_cvref t) (plain Bool) || negb (made_from_option t u)).
Definition doc_option_explicit (t q : ctype) : bool := negb (is_reference t) && negb (convertible L q t).

(** 321-328. *)
Definition doc_value_assign (t u : ctype) : bool :=
  if is_reference t then negb (same (remove_cvref u) (option_of t)) && can_bind t u
  else negb (same (remove_cvref u) (option_of t)) && made_of t [u] && assignable L (lref t) u.

(** 356-365 and 396-405. *)
Definition doc_option_assign (t u q : ctype) : bool :=
  if is_reference t then negb (same t u) && can_bind t u
  else negb (same t u) && made_of t [q] && assignable L (lref t) q &&
       negb (made_from_option t u) && negb (assigned_from_option t u).
End Doc.

(** * Construction from another option *)

(** std::declval<X>() is an xvalue of X: the compiler's answers for X and X&& agree. *)
Definition declval_law (L : lang) : Prop :=
  forall t u, is_reference u = false ->
    constructible L t [rref u] = constructible L t [u] /\ assignable L t (rref u) = assignable L t u.

(** Expressions of type option<U>. *)
Inductive category : Type := Lvalue | ConstLvalue | Rvalue | ConstRvalue.

(** The template argument deduced for a parameter U&& (a forwarding reference). *)
Definition deduced (k : category) (t : ctype) : ctype :=
  match k with
  | Lvalue => lref t
  | ConstLvalue => const_lref t
  | Rvalue => t
  | ConstRvalue => add_const t
  end.

(** Overload resolution between the constructors for one argument of type option<U> that is not option<T>:
    from a value (2842, 2846), from const option<U>& (2874, 2881) and from option<U>&& (2888, 2895).  A
    forwarding reference binds better than a reference that adds const or ignores that the argument is an
    rvalue; when they bind alike the constructor from option<U> is more specialised. *)
Inductive chosen : Type := FromValue | FromCopy | FromMove | NoCtor.

Section Choice.
Context (L : lang) (t u : ctype).

Definition by_value (k : category) : bool :=
  value_ctor L true t (deduced k (option_of u)) || value_ctor L false t (deduced k (option_of u)).
Definition by_copy : bool := option_ctor L true t u (const_lref u) || option_ctor L false t u (const_lref u).
Definition by_move : bool := option_ctor L true t u (rref u) || option_ctor L false t u (rref u).

Definition choose (k : category) : chosen :=
  match k with
  | Lvalue | ConstRvalue => if by_value k then FromValue else if by_copy then FromCopy else NoCtor
  | ConstLvalue => if by_copy then FromCopy else if by_value k then FromValue else NoCtor
  | Rvalue => if by_move then FromMove else if by_value k then FromValue else if by_copy then FromCopy else NoCtor
  end.
End Choice.
